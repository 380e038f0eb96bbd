(** Proofs about curves of loaded files: frames, channels, no-format objects. *)
From Coq Require Import Permutation.
From Verif Require Import Bytes BytesProofs Stream PyBase DlisTypes DlisCore SpecTypes SpecCore DlisIo SpecIo IoProofs DlisRecords SpecRecords DlisFdata SpecFdata
  CommonPy DlisStore SpecDlisStore DlisStoreProofs DlisStoreProofs2 DlisStoreProofs3 DlisStoreProofs4 DlisStoreProofs5 DlisSchema DlisObject SpecDlisObject DlisObjectProofs DlisObjectProofs2
  DlisObjectProofs3 DlisObjectProofs4 DlisObjectProofs5 SpecDlisLoad DlisFrame SpecDlisFrame DlisFrameProofs4 FdataProofs2 Dimensional SpecDimensional DimensionalProofs3 DimensionalProofs4
  DlisCurves SpecDlisCurves DlisCurvesProofs DlisCurvesProofs2.
Local Open Scope Z_scope.

Section curves.
Variable dec : bytes -> pystr.
Variable enc : pystr -> bytes.
Variable esc : severity -> bool.
Variable set_order : list pystr -> list pystr.
Variable sets : list object_set.
Hypothesis loaded : as_loaded sets.
Hypothesis parses : parsable sets.
Hypothesis order : a_set_order set_order.
Hypothesis typed : Forall (fun s => SpecDlisStore.kept dec enc (dec (os_type s))) sets.
Local Notation sane := (sane dec esc sets).
Local Notation performs := (fold_left (perform dec enc esc set_order)).
Local Notation described := (described dec enc esc).
Local Notation gives := (gives dec enc esc set_order).

Variables (idx : fdata_index) (recs : list (bool * list segment)) (cs : list content) (tail : bytes) (hard : bool).
Hypothesis wf : SpecIo.logical_file false recs.
Hypothesis contents : Forall2 holds recs cs.
Hypothesis small : len (enc_records recs ++ tail) < 2 ^ 63.
Hypothesis reads : index_reads (data_at 0 recs cs) idx.
Hypothesis sound : index_sound idx.
Let s := mk_stream (enc_records recs ++ tail) hard.

Lemma in_file o : (exists s, In s sets /\ In o (objects_in s)) -> from_file o.
Proof. intros (x & I & Io). exact (file_objects sets loaded x o I Io). Qed.
Lemma channels_in f chs : has_channels dec enc esc sets f chs -> Forall from_file chs.
Proof.
  intros (_ & rc & ns & lg & _ & _ & F & _). induction F as [|n ch ns chs (_ & _ & T) F IH]; constructor; [|exact IH].
  destruct (found_channel dec sets n ch T) as (x & I & Io & _). apply in_file. eauto.
Qed.

Section one_frame.
Variables (maxdims : nat) (fmt : ustr -> Z -> Z -> option ustr) (after : Z -> bytes) (strict : bool).
Variables (f : object) (chs : list object) (cols : list column) (d : list field) (fs : bytes) (rows : list (list (list cell))).
Hypothesis inf : exists s, In s sets /\ In f (objects_in s).
Hypothesis has : has_channels dec enc esc sets f chs.
Hypothesis desc : Forall2 described chs cols.
Hypothesis dt : frame_dtype maxdims fmt strict (map Some cols) = Some d.
Hypothesis fm : frame_fmtstr (map Some cols) = Some fs.
Hypothesis known : recognised dec enc (text "FRAME") f (map snd (data_at 0 recs cs)).
Hypothesis data : recorded (owned (text "FRAME") f) (frame_rows cols) recs cs rows.

Lemma curves_of_frame : exists cells,
  (forall st, sane st -> gives st (curves dec enc esc set_order maxdims fmt st s after idx (promote dec f) strict) (d, cells, Z.of_nat (length rows))) /\
  Z.of_nat (length cells) = Z.of_nat (length rows) * itemsize d /\
  forall r j row fd k, nth_error rows r = Some row -> nth_error d j = Some fd -> nth_error row j = Some k -> cell_at d cells r fd = k.
Proof.
  pose proof (in_file f inf) as F.
  destruct (recognised_indices dec enc (text "FRAME") f (data_at 0 recs cs) idx (or_introl eq_refl) F (holds_owners recs cs contents 0) sound reads known) as (fp & FP & IX).
  destruct (recorded_tells _ _ _ _ _ data false [] tail wf) as (rowss & CR & T). cbn [app] in T. change (len []) with 0 in T.
  destruct (curves_ok maxdims fmt esc (enc_records recs ++ tail) hard after strict cols d fs (offsets_of (owned (text "FRAME") f) (data_at 0 recs cs)) rowss dt fm small) as (cells & E & L & C).
  { exact T. }
  rewrite CR in *. exists cells. split; [|auto]. intros st SA. unfold curves.
  eapply gives_chain with (sets := sets) (x := map (fun o => PObject (promote dec o)) chs); try eassumption; [apply channels_ok with (sets := sets); assumption|]. intros st1 SA1.
  eapply gives_chain with (sets := sets) (x := map Some cols); try eassumption; [apply columns_ok with (sets := sets); try assumption; exact (channels_in f chs has)|]. intros st2 SA2.
  change (po_attic (promote dec f)) with f. rewrite FP. cbn [bind ret]. rewrite IX. unfold s. rewrite E. apply gives_here.
Qed.
End one_frame.

(** ** No-format objects *)
Lemma noformat_ok o data : (exists s, In s sets /\ In o (objects_in s)) -> recognised dec enc (text "NO-FORMAT") o (map snd (data_at 0 recs cs)) ->
  recorded (owned (text "NO-FORMAT") o) eq recs cs data -> noformat_data dec enc esc s idx o = ([], Ok data).
Proof.
  intros I K R. pose proof (in_file o I) as F.
  destruct (recognised_indices dec enc (text "NO-FORMAT") o (data_at 0 recs cs) idx (or_intror eq_refl) F (holds_owners recs cs contents 0) sound reads K) as (fp & FP & IX).
  destruct (recorded_tells _ _ _ _ _ R false [] tail wf) as (xss & CR & T). cbn [app] in T. change (len []) with 0 in T.
  unfold noformat_data. rewrite FP. cbn [bind ret]. rewrite IX. unfold s. rewrite (noform_ok esc (enc_records recs ++ tail) hard _ xss small).
  - rewrite CR. reflexivity.
  - clear - T. induction T as [|t x ts xs (ds & en & o' & c & i & es & (g & u & RI & _) & E & N & <-) T IH]; constructor; [|exact IH].
    exists (g :: u), en, o', c, i. rewrite <- E. auto.
Qed.

(** ** Frame.index *)
Lemma index_ok st f chs rc vs lg : sane st -> (exists s, In s sets /\ In f (objects_in s)) -> has_channels dec enc esc sets f chs ->
  stored enc f (lit (text "INDEX-TYPE")) rc vs lg -> calm dec enc esc f lg -> (forall t, In (VTime t) vs -> to_pydatetime t <> None) ->
  gives st (frame_index dec enc esc set_order st (promote dec f))
    (match chs, vs with [], _ => None | _, [] => Some (lit (text "FRAMENO")) | ch :: _, _ => Some (dec (ob_id (obj_name ch))) end).
Proof.
  intros SA I H ST C2 TM. pose proof (in_file f I) as F. unfold frame_index.
  eapply gives_chain with (sets := sets) (x := map (fun o => PObject (promote dec o)) chs); try eassumption; [apply channels_ok with (sets := sets); assumption|]. intros st1 SA1.
  destruct chs as [|ch chs]; cbn [map]; [apply gives_here|].
  destruct (getitem_ok dec enc esc set_order sets loaded parses order typed st1 frame_schema f (lit (text "INDEX-TYPE")) Scalar None rc vs lg) as (xs & res & ops & T & S & R & O & E); try assumption.
  - exact frame_schema_ok.
  - left. vm_compute. tauto.
  - vm_compute. intuition discriminate.
  - left. vm_compute. tauto.
  - exact (proj1 H).
  - apply Forall_forall. intros v Iv. split; [intros t ->; apply TM, Iv|]. intros t n X. inversion X.
  - change (po_attic (promote dec f)) with f. destruct (getitem dec enc esc set_order st1 frame_schema f (lit (text "INDEX-TYPE"))) as [st' [lg' r']]. cbn [fst snd] in R, E. subst r' st'.
    exists (lg' ++ []), ops. split; [exact O|]. cbn [bind]. inversion T; subst; inversion S; subst; reflexivity.
Qed.

(** ** Channel.curves *)
Section claims.
Hypothesis kept_frame : SpecDlisStore.kept dec enc (lit (text "FRAME")).
Hypothesis kept_channel : SpecDlisStore.kept dec enc (lit (text "CHANNEL")).
Variable self : object.
Hypothesis unambiguous : forall b, dec b = dec (ob_id (obj_name self)) -> b = ob_id (obj_name self).
Lemma claiming_store fs : forall st found, sane st -> Forall (fun f => from_file f /\ frame_ok dec enc esc sets f) fs ->
  exists ops, Forall (op_ok dec enc) ops /\ fst (claiming dec enc esc set_order (obj_name self) st (map (promote dec) fs) found) = performs ops st.
Proof.
  induction fs as [|f fs IH]; intros st found SA H; cbn [map claiming]; [exists []; split; [constructor|reflexivity]|]. apply Forall_cons_iff in H as [[F FO] H].
  destruct (frame_channels_ok dec enc esc set_order sets loaded parses order typed kept_channel (obj_name self) unambiguous st f SA F FO) as (xs & ops & E & O & ST & b & C & B).
  destruct (frame_channels dec enc esc set_order st (promote dec f)) as [st' [lg r]]. cbn [fst snd] in E, ST. subst r. rewrite C.
  assert (SA' : sane st') by (rewrite ST; eapply performs_sane; eassumption).
  match goal with |- context [claiming _ _ _ _ _ st' _ ?fd] => destruct (IH st' fd SA' H) as (ops' & O' & E'); destruct (claiming dec enc esc set_order (obj_name self) st' (map (promote dec) fs) fd) as [st2 r2] end.
  cbn [fst] in E' |- *. exists (ops ++ ops'). split; [apply Forall_app; auto|]. rewrite fold_left_app, <- ST. exact E'.
Qed.
Lemma channel_frame_gives st lists f : sane st -> (forall g, lists g = true <-> In (obj_name self) (listed enc g)) ->
  selected_raises dec esc (pystr_eqb (lit (text "FRAME"))) sets = false ->
  (forall g, In g (selected dec (pystr_eqb (lit (text "FRAME"))) (fun _ => true) sets) -> frame_ok dec enc esc sets g) ->
  the_only (filter lists (selected dec (pystr_eqb (lit (text "FRAME"))) (fun _ => true) sets)) f ->
  exists g, the_only (filter lists (selected dec (pystr_eqb (lit (text "FRAME"))) (fun _ => true) sets)) g /\
    gives st (channel_frame dec enc esc set_order st self) (Some (promote dec g)).
Proof.
  intros SA LS SR FO ONE.
  destruct (channel_frame_ok dec enc esc set_order sets loaded parses order typed kept_frame kept_channel (obj_name self) unambiguous lists LS st self SA eq_refl SR FO) as (r & R & W).
  destruct r as [x|]; [|destruct (W f ONE)]. destruct W as (g & -> & OG). exists g. split; [exact OG|].
  unfold channel_frame in R |- *.
  assert (OB : exists ops, Forall (op_ok dec enc) ops /\ fst (objects_of_type dec enc esc set_order st (text "FRAME")) = performs ops st).
  { exists [Objects (text "FRAME")]. split; [constructor; [exact kept_frame|constructor]|reflexivity]. }
  destruct OB as (ops & O & E).
  pose proof (find_any dec enc esc set_order sets parses order typed st (lit (text "FRAME")) None (Some exact) pystr_eqb SA kept_frame
    ltac:(discriminate) (fun _ _ => eq_refl) (fun _ _ _ => eq_refl)) as FA. rewrite SR in FA. destruct FA as (objs & EO & P). cbn [wanted] in P.
  fold (objects_of_type dec enc esc set_order st (text "FRAME")) in EO.
  destruct (objects_of_type dec enc esc set_order st (text "FRAME")) as [st1 [lg1 r1]]. cbn [fst snd] in E, EO. subst r1.
  assert (SA1 : sane st1) by (rewrite E; eapply performs_sane; eassumption).
  apply Permutation_map_inv in P as (fs & -> & P).
  assert (FF : Forall (fun f => from_file f /\ frame_ok dec enc esc sets f) fs).
  { apply Forall_forall. intros h I. assert (IF : In h (selected dec (pystr_eqb (lit (text "FRAME"))) (fun _ => true) sets)) by (eapply Permutation_in; [exact (Permutation_sym P)|exact I] || (eapply Permutation_in; [exact P|exact I])).
    split; [|apply FO; exact IF]. unfold selected in IF. apply in_flat_map in IF as (x & Is & Io). apply filter_In in Is as [Is _]. apply filter_In in Io as [Io _].
    apply in_file. eauto. }
  destruct (claiming_store fs st1 [] SA1 FF) as (ops' & O' & E').
  destruct (claiming dec enc esc set_order (obj_name self) st1 (map (promote dec) fs) []) as [st2 [lg2 r2]]. cbn [fst] in E'.
  cbn [bind ret snd] in R. destruct r2 as [found| | |]; cbn [bind ret snd] in R; try discriminate.
  exists (lg1 ++ lg2 ++ []), (ops ++ ops'). split; [apply Forall_app; auto|]. rewrite fold_left_app, <- E, <- E'. cbn [bind ret]. injection R as ->. reflexivity.
Qed.
End claims.
End curves.
