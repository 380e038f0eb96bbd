(** Proofs about curves of loaded files: Channel.curves; files from their bytes. *)
From Coq Require Import Permutation.
From Verif Require Import Bytes BytesProofs Stream PyBase DlisTypes DlisCore SpecTypes SpecCore DlisIo SpecIo IoProofs DlisRecords SpecRecords DlisFdata SpecFdata Tapemark Lfp
  CommonPy DlisStore SpecDlisStore DlisStoreProofs DlisStoreProofs2 DlisStoreProofs3 DlisStoreProofs4 DlisStoreProofs5 DlisSchema DlisObject SpecDlisObject DlisObjectProofs
  SpecDlisLoad DlisLoadProofs DlisLoadProofs2 DlisLoadProofs3 DlisLoadProofs4 DlisFrame SpecDlisFrame DlisFrameProofs DlisFrameProofs2 DlisFrameProofs3 DlisFrameProofs4 DlisFrameProofs6 FdataProofs2
  DlisCurves SpecDlisCurves DlisCurvesProofs DlisCurvesProofs2 DlisCurvesProofs3 DlisCurvesProofs4 DlisClassesProofs.
From Verif Require DlisLoad.
Local Open Scope Z_scope.

Section channel.
Variable dec : bytes -> pystr.
Variable enc : pystr -> bytes.
Variable esc : severity -> bool.
Variable set_order : list pystr -> list pystr.
Variable sets : list object_set.
Hypothesis loaded : as_loaded sets.
Hypothesis parses : parsable sets.
Hypothesis order : a_set_order set_order.
Hypothesis typed : Forall (fun s => SpecDlisStore.kept dec enc (dec (os_type s))) sets.
Local Notation sane := (sane dec esc sets).
Local Notation described := (described dec enc esc).
Local Notation gives := (gives dec enc esc set_order).
Variables (idx : fdata_index) (recs : list (bool * list segment)) (cs : list content) (tail : bytes) (hard : bool).
Hypothesis wf : SpecIo.logical_file false recs.
Hypothesis contents : Forall2 holds recs cs.
Hypothesis small : len (enc_records recs ++ tail) < 2 ^ 63.
Hypothesis reads : index_reads (data_at 0 recs cs) idx.
Hypothesis sound : index_sound idx.
Hypothesis kept_frame : SpecDlisStore.kept dec enc (lit (text "FRAME")).
Hypothesis kept_channel : SpecDlisStore.kept dec enc (lit (text "CHANNEL")).

(** a frame that is the same lists the same channels and owns the same records *)
Lemma same_value_names c : forall ns vs, Forall2 (same_value c) (map VName ns) vs -> vs = map VName ns.
Proof.
  induction ns as [|n ns IH]; cbn [map]; intros vs H; inversion H as [|? v ? vs' V VS]; subst; [reflexivity|].
  inversion V; subst. f_equal. exact (IH vs' VS).
Qed.
Lemma same_labels al bl : Forall2 same_attribute al bl -> map at_label bl = map at_label al.
Proof. induction 1 as [|a b al bl (L & _) _ IH]; [reflexivity|]. cbn [map]. rewrite L, IH. reflexivity. Qed.
Lemma same_attr_in al bl a : Forall2 same_attribute al bl -> In a al -> exists b, In b bl /\ same_attribute a b.
Proof.
  induction 1 as [|x y al bl S _ IH]; intros I; [contradiction|]. destruct I as [->|I]; [exists y; split; [left; reflexivity|exact S]|].
  destruct (IH I) as (b & Ib & Sb). exists b. split; [right; exact Ib|exact Sb].
Qed.
Lemma same_channels f g chs : same_object f g -> frame_ok dec enc esc sets g -> has_channels dec enc esc sets f chs -> has_channels dec enc esc sets g chs.
Proof.
  intros [_ SA] [CG FG] (_ & rc & ns & lg & ST & _ & REST). split; [exact CG|].
  inversion ST as [c N E1 E2 E3|c a Ia La Va E1 E2 E3|a c vs Ia La Va E1 E2 E3]; subst.
  - exists rc, ns, []. split; [|split; [left; reflexivity|exact REST]]. rewrite <- E2. constructor. rewrite (same_labels _ _ SA). exact N.
  - destruct (same_attr_in _ _ a SA Ia) as (b & Ib & LB & _ & _ & _ & VB). rewrite Va in VB. inversion VB as [VE|]; subst.
    exists rc, ns, (at_log b). split; [|split; [|exact REST]].
    + rewrite <- E2. apply stored_none; congruence.
    + apply FG; congruence.
  - destruct (same_attr_in _ _ a SA Ia) as (b & Ib & LB & _ & _ & _ & VB). rewrite Va in VB. inversion VB as [|k xs ys VS E4 E5]; subst.
    apply same_value_names in VS. exists rc, ns, (at_log b). split; [|split; [|exact REST]].
    + apply stored_values; congruence.
    + apply FG; congruence.
Qed.
Lemma a_frame g : In g (selected dec (pystr_eqb (lit (text "FRAME"))) (fun _ => true) sets) ->
  (exists s, In s sets /\ In g (objects_in s)) /\ dec (obj_type g) = lit (text "FRAME").
Proof.
  unfold selected. intros I. apply in_flat_map in I as (s & Is & Io). apply filter_In in Is as [Is T]. apply filter_In in Io as [Io _].
  split; [eauto|]. rewrite (objects_in_type sets loaded s g Is Io). apply pystr_eqb_spec in T. congruence.
Qed.
Lemma same_recognised f g owners : obj_name f = obj_name g -> dec (obj_type f) = dec (obj_type g) ->
  recognised dec enc (text "FRAME") f owners -> recognised dec enc (text "FRAME") g owners.
Proof. intros N T (k & P & (k' & Q & E) & U). exists k. rewrite <- N. split; [exact P|]. split; [|exact U]. exists k'. rewrite <- N, <- T. split; assumption. Qed.
Lemma only_same fs f g : the_only fs f -> the_only fs g -> In g fs /\ (f = g \/ same_object f g).
Proof.
  intros (r & P & S) (r' & P' & _). assert (I : In g fs) by (eapply Permutation_in; [exact P'|left; reflexivity]). split; [exact I|].
  apply (Permutation_in _ (Permutation_sym P)) in I. destruct I as [I|I]; [left; exact I|right; exact (S g I)].
Qed.
Lemma column_unique {A} (rows : list (list A)) j : forall vs ws, Forall2 (fun row v => nth_error row j = Some v) rows vs -> Forall2 (fun row v => nth_error row j = Some v) rows ws -> vs = ws.
Proof.
  induction rows as [|r rows IH]; intros vs ws V W; inversion V; inversion W; subst; [reflexivity|]. f_equal; [congruence|]. eapply IH; eassumption.
Qed.

Lemma channel_curves_ok maxdims fmt after f chs cols d fs rows j self c lists :
  (exists s, In s sets /\ In f (objects_in s)) -> has_channels dec enc esc sets f chs -> Forall2 described chs cols ->
  frame_dtype maxdims fmt true (map Some cols) = Some d -> frame_fmtstr (map Some cols) = Some fs ->
  recognised dec enc (text "FRAME") f (map snd (data_at 0 recs cs)) -> recorded (owned (text "FRAME") f) (frame_rows cols) recs cs rows ->
  (forall b, dec b = dec (ob_id (obj_name self)) -> b = ob_id (obj_name self)) ->
  (forall g, lists g = true <-> In (obj_name self) (listed enc g)) ->
  selected_raises dec esc (pystr_eqb (lit (text "FRAME"))) sets = false ->
  (forall g, In g (selected dec (pystr_eqb (lit (text "FRAME"))) (fun _ => true) sets) -> frame_ok dec enc esc sets g) ->
  the_only (filter lists (selected dec (pystr_eqb (lit (text "FRAME"))) (fun _ => true) sets)) f ->
  nth_error chs j = Some self -> nth_error cols j = Some c ->
  exists t vals, sample_type c t /\ Forall2 (fun row v => nth_error row (S j) = Some v) rows vals /\
    forall st, sane st -> gives st (channel_curves dec enc esc set_order maxdims fmt st (mk_stream (enc_records recs ++ tail) hard) after idx self) (Some (t, vals)).
Proof.
  intros inf has desc dt fm known data U LS SR FO ONE J1 J2.
  destruct (curves_of_frame dec enc esc set_order sets loaded parses order typed idx recs cs tail hard wf contents small reads sound
    maxdims fmt after true f chs cols d fs rows inf has desc dt fm known data) as (cells & G & _ & C).
  destruct (strict_ok maxdims fmt cols d dt) as (ls & _ & DS & ND).
  destruct (field_at cols ls d j c DS ND J2) as (fd & FD & NJ & ST).
  assert (SH : shown dec enc self (Str (cl_fp c))).
  { clear - desc J1 J2. revert j J1 J2. induction desc as [|o k os ks D _ IH]; intros [|j] J1 J2; try discriminate.
    - injection J1 as ->. injection J2 as ->. exact (proj1 (proj2 D)).
    - exact (IH j J1 J2). }
  assert (SF : from_file self) by (apply (proj1 (Forall_forall _ _) (channels_in dec enc esc sets loaded f chs has)); eapply nth_error_In; exact J1).
  exists (fd_type fd), (np_column d cells (Z.of_nat (length rows)) fd). split; [exact ST|]. split.
  - apply column_items.
    + apply recorded_width in data. eapply Forall_impl; [|exact data]. intros r E. cbn beta. rewrite E. assert (j < length cols)%nat by (apply nth_error_Some; congruence). lia.
    + intros r row k Er Ek. exact (C r (S j) row fd k Er NJ Ek).
  - intros st SA. unfold channel_curves.
    destruct (channel_frame_gives dec enc esc set_order sets loaded parses order typed kept_frame kept_channel self U st lists f SA LS SR FO ONE) as (g & OG & GF).
    destruct (only_same _ f g ONE OG) as [IG SG].
    assert (If : In f (filter lists (selected dec (pystr_eqb (lit (text "FRAME"))) (fun _ => true) sets))) by (destruct ONE as (r0 & P0 & _); eapply Permutation_in; [exact P0|left; reflexivity]).
    apply filter_In in IG as [IG _]. apply filter_In in If as [If _].
    destruct (a_frame g IG) as [ing TG]. destruct (a_frame f If) as [_ TF].
    assert (NG : obj_name f = obj_name g) by (destruct SG as [->|[N _]]; [reflexivity|exact N]).
    assert (HG : has_channels dec enc esc sets g chs) by (destruct SG as [->|SG]; [exact has|exact (same_channels f g chs SG (FO g IG) has)]).
    assert (KG : recognised dec enc (text "FRAME") g (map snd (data_at 0 recs cs))) by (apply (same_recognised f g); [exact NG|congruence|exact known]).
    assert (OW : owned (text "FRAME") g = owned (text "FRAME") f) by (unfold owned; rewrite NG; reflexivity).
    assert (DG : recorded (owned (text "FRAME") g) (frame_rows cols) recs cs rows) by (rewrite OW; exact data).
    destruct (curves_of_frame dec enc esc set_order sets loaded parses order typed idx recs cs tail hard wf contents small reads sound
      maxdims fmt after true g chs cols d fs rows ing HG desc dt fm KG DG) as (cells' & G' & _ & C').
    assert (V : np_column d cells' (Z.of_nat (length rows)) fd = np_column d cells (Z.of_nat (length rows)) fd).
    { apply (column_unique rows (S j)); apply column_items.
      - apply recorded_width in data. eapply Forall_impl; [|exact data]. intros r E. cbn beta. rewrite E. assert (j < length cols)%nat by (apply nth_error_Some; congruence). lia.
      - intros r row k Er Ek. exact (C' r (S j) row fd k Er NJ Ek).
      - apply recorded_width in data. eapply Forall_impl; [|exact data]. intros r E. cbn beta. rewrite E. assert (j < length cols)%nat by (apply nth_error_Some; congruence). lia.
      - intros r row k Er Ek. exact (C r (S j) row fd k Er NJ Ek). }
    eapply gives_chain with (sets := sets) (x := Some (promote dec g)); try eassumption.
    intros st1 SA1. eapply gives_chain with (sets := sets) (x := (d, cells', Z.of_nat (length rows))); try eassumption; [exact (G' st1 SA1)|].
    intros st2 SA2. rewrite (shown_fingerprint dec enc self (Str (cl_fp c)) SF SH).
    cbn [bind ret]. rewrite FD, V. apply gives_here.
Qed.
End channel.

(** ** A loaded file, from its bytes *)
Lemma visible_len ps : (length (concat ps) <= length (concat (map enc_visible ps)))%nat.
Proof. induction ps as [|p ps IH]; [reflexivity|]. cbn [map concat]. unfold enc_visible at 1. rewrite !app_length. lia. Qed.
Lemma file_list_small sul bound fs : (length (enc_files fs) <= bound)%nat -> forall base pos xs, Forall2 file_reads (file_list fs sul base pos) xs ->
  Forall (fun x => (length (s_data (vs_stream (DlisLoad.lf_stream x))) <= bound)%nat) xs.
Proof.
  induction fs as [|f t IH]; intros B base pos xs H; cbn [file_list] in H; inversion H as [|? x ? xs' H1 H2]; subst; constructor.
  - destruct H1 as (-> & _). cbn [plain_vs vs_stream s_data]. rewrite files_visible in B. pose proof (visible_len (flat_map wf_visible (f :: t))). lia.
  - eapply IH; [|exact H2]. unfold enc_files in *. cbn [map concat] in B. rewrite app_length in B. lia.
Qed.

Definition loaded_well (sul : option bytes) (f : wfile) (x : DlisLoad.logical_file) : Prop :=
  SpecDlisLoad.loaded sul f x /\ as_loaded (DlisLoad.lf_sets x) /\ parsable (DlisLoad.lf_sets x) /\ index_sound (DlisLoad.lf_fdata x) /\ (len (s_data (vs_stream (DlisLoad.lf_stream x))) < 2 ^ 63)%Z.
Lemma reads_parsable ws sets : Forall2 set_reads ws sets -> parsable sets.
Proof. induction 1 as [|w s ws sets (_ & s' & E & _) _ IH]; constructor; [rewrite E; discriminate|exact IH]. Qed.
Lemma labelled_well esc ot tr lab fs : storage_label lab -> Forall wf_file fs -> len (lab ++ enc_files fs) < 2 ^ 63 ->
  exists st, (forall fuel, len (lab ++ enc_files fs) + 1 < Z.of_nat fuel -> DlisLoad.load esc ot tr fuel (lab ++ enc_files fs) = ([], Ok st)) /\
    Forall2 (loaded_well (Some lab)) fs (DlisLoad.di_files st).
Proof.
  intros L W B.
  destruct (load_course esc ot tr _ _ _ (start_label lab (enc_files fs) L) (labelled_course _ B lab fs L W eq_refl)) as (st & H & F); [intros s []|].
  exists st. split; [exact H|].
  pose proof (file_list_loaded _ _ W _ _ _ F) as FL.
  assert (SM : Forall (fun x => (length (s_data (vs_stream (DlisLoad.lf_stream x))) <= length (enc_files fs))%nat) (DlisLoad.di_files st)) by (eapply file_list_small; [apply le_n|exact F]).
  pose proof (load_sound esc ot tr (S (S (length (lab ++ enc_files fs)))) (lab ++ enc_files fs) st) as SO.
  rewrite H in SO by (unfold len; lia). specialize (SO eq_refl). unfold files_sound in SO.
  rewrite len_app in B. unfold len in B. clear - FL SM SO B. set (bound := length (enc_files fs)) in *. clearbody bound.
  induction FL as [|f x fs xs D FL IH]; constructor.
  - apply Forall_cons_iff in SM as [SM _]. apply Forall_cons_iff in SO as [[S1 S2] _]. split; [exact D|]. split; [exact S1|].
    split; [exact (reads_parsable _ _ (proj1 (proj2 (proj2 D))))|]. split; [exact S2|]. unfold len. lia.
  - apply Forall_cons_iff in SM as [_ SM]. apply Forall_cons_iff in SO as [_ SO]. exact (IH SM SO).
Qed.
