(** Proofs about channel.frame when some references do not resolve. *)
From Coq Require Import Permutation.
From Verif Require Import Bytes BytesProofs Stream PyBase DlisTypes DlisRecords CommonPy DlisStore SpecDlisStore DlisStoreProofs DlisStoreProofs2 DlisStoreProofs3 DlisStoreProofs5 DlisStoreProofs6 DlisSchema DlisObject SpecDlisObject DlisObjectProofs DlisObjectProofs2 DlisObjectProofs3 DlisObjectProofs4 SpecDlisParent.
Local Open Scope Z_scope.

Section parent.
Variable dec : bytes -> pystr.
Variable enc : pystr -> bytes.
Variable esc : severity -> bool.
Variable set_order : list pystr -> list pystr.
Variable sets : list object_set.
Hypothesis loaded : as_loaded sets.
Hypothesis parses : parsable sets.
Hypothesis order : a_set_order set_order.
Hypothesis typed : Forall (fun s => kept dec enc (dec (os_type s))) sets.
Hypothesis kept_frame : kept dec enc (lit (text "FRAME")).
Hypothesis kept_channel : kept dec enc (lit (text "CHANNEL")).

Local Notation sane := (sane dec esc sets).
Local Notation frame_ok := (frame_ok dec enc esc sets).
Local Notation frame_readable := (frame_readable dec enc esc sets).
Local Notation resolves := (resolves dec sets).
Local Notation entry_of := (entry_of enc).

Definition unresolved (f : object) : Prop := exists v, entry_of f v /\ ~ resolves v.

Lemma parent_frame self st f : sane st -> from_file f -> frame_readable f ->
  unresolved f /\ (exists xs, snd (snd (frame_channels dec enc esc set_order st (promote dec f))) = Ok xs /\ claims self xs = None) \/
  frame_ok f.
Proof.
  intros SA F [C1 FO]. destruct (stored_exists enc f (lit (text "CHANNELS"))) as (c & vs & lg & ST).
  destruct (FO c vs lg ST) as [C2 RD].
  destruct (getitem_ok dec enc esc set_order sets loaded parses order typed st frame_schema f (lit (text "CHANNELS")) Vector (Some (ToName (lit (text "CHANNEL")))) c vs lg) as (xs & res & ops & T & S & R & _ & _); try assumption.
  - exact frame_schema_ok.
  - left. vm_compute. tauto.
  - vm_compute. tauto.
  - left. vm_compute. tauto.
  - inversion S. subst.
    assert (D : claims self xs = None /\ (exists v, In v vs /\ ~ resolves v) \/ (forall v, In v vs -> resolves v)).
    { clear - T. induction T as [|v x vs xs T1 T IH]; [right; intros v []|].
      assert (H : (forall p, x <> PObject p) /\ ~ resolves v \/ (exists p, x = PObject p) /\ resolves v).
      { destruct T1 as [z|zs|s u w D W|s b D|t d D|v t n o RF TO|v L1 L2 L3|n L|n L|n L]; try discriminate;
          try (left; split; [discriminate|intros (m & o & E & _); discriminate E]).
        - right. split; [eexists; reflexivity|]. inversion RF; subst. exists n, o. auto.
        - left. split; [discriminate|]. intros (m & o & -> & TO). eapply L3; [constructor|exact TO]. }
      destruct H as [[NX NR]|[(p & ->) RV]].
      - left. split; [destruct x; try reflexivity; exfalso; eapply NX; reflexivity|]. exists v. split; [left; reflexivity|exact NR].
      - destruct IH as [[E (w & Iw & NW)]|A].
        + left. cbn [claims]. rewrite E. split; [reflexivity|]. exists w. split; [right; exact Iw|exact NW].
        + right. intros w [<-|Iw]; [exact RV|exact (A w Iw)]. }
    destruct D as [[E (v & Iv & NV)]|A].
    + left. split; [exists v; split; [exists c, vs, lg; auto|exact NV]|]. exists xs. split; [|exact E].
      unfold frame_channels. change (po_attic (promote dec f)) with f.
      destruct (getitem dec enc esc set_order st frame_schema f (lit (text "CHANNELS"))) as [st' [lg' r']]. cbn [fst snd] in R |- *. subst r'. reflexivity.
    + right. split; [exact C1|]. intros a Ia La. destruct (at_value a) as [|c' vs'] eqn:V.
      * split; [|discriminate]. exact (proj1 (FO 0 [] (at_log a) (stored_none enc f _ 0 a Ia La V))).
      * destruct (FO c' vs' (at_log a) (stored_values enc f _ a c' vs' Ia La V)) as [CA RA]. split; [exact CA|]. intros c2 vs2 v [= <- <-] Iv.
        assert (EV : vs' = vs).
        { assert (U : NoDup (map at_label (obj_attrs f))) by (exact (proj1 (proj2 F))).
          assert (SAME : forall b, In b (obj_attrs f) -> at_label b = enc (lit (text "CHANNELS")) -> b = a).
          { intros b Ib Lb. clear - U Ia Ib La Lb. rewrite <- La in Lb. clear La. induction (obj_attrs f) as [|y l IH]; [destruct Ia|].
            cbn [map] in U. apply NoDup_cons_iff in U as [N U]. destruct Ia as [->|Ia], Ib as [->|Ib]; try reflexivity.
            - exfalso. apply N. rewrite <- Lb. apply in_map. exact Ib.
            - exfalso. apply N. rewrite Lb. apply in_map. exact Ia.
            - exact (IH Ia U Ib). }
          destruct ST as [c0 N|c0 b Ib Lb Vb|b c0 vs0 Ib Lb Vb].
          - exfalso. apply N. rewrite <- La. apply in_map. exact Ia.
          - rewrite (SAME b Ib Lb) in Vb. congruence.
          - rewrite (SAME b Ib Lb) in Vb. congruence. }
        subst vs'. destruct (A v Iv) as (n & o & -> & TO). rewrite Forall_forall in RA. destruct (RA _ Iv) as [_ RN]. destruct (RN _ _ (by_name dec _ n)) as (_ & K & TR & SR).
        exists n, o. auto.
Qed.

Lemma claiming_raises self (U : forall b, dec b = dec (ob_id self) -> b = ob_id self) fs : forall st found, sane st -> Forall (fun f => from_file f /\ frame_readable f) fs ->
  (exists f, In f fs /\ unresolved f) /\ snd (snd (claiming dec enc esc set_order self st (map (promote dec) fs) found)) = Exn \/
  Forall frame_ok fs.
Proof.
  induction fs as [|f fs IH]; intros st found SA H; [right; constructor|]. apply Forall_cons_iff in H as [[F FR] H]. cbn [map claiming].
  destruct (parent_frame self st f SA F FR) as [[UN (xs & E & C)]|FO].
  - left. split; [exists f; split; [left; reflexivity|exact UN]|].
    destruct (frame_channels dec enc esc set_order st (promote dec f)) as [st' [lg r]]. cbn [fst snd] in E. subst r. rewrite C. reflexivity.
  - destruct (frame_channels_ok dec enc esc set_order sets loaded parses order typed kept_channel self U st f SA F FO) as (xs & ops & E & O & ST & b & C & _).
    destruct (frame_channels dec enc esc set_order st (promote dec f)) as [st' [lg r]]. cbn [fst snd] in E, ST. subst r. rewrite C.
    assert (SA' : sane st') by (rewrite ST; apply performs_sane; assumption).
    match goal with |- context [claiming _ _ _ _ _ st' _ ?fd] => destruct (IH st' fd SA' H) as [[(g & Ig & UG) EX]|A]; [|right; constructor; assumption];
      destruct (claiming dec enc esc set_order self st' (map (promote dec) fs) fd) as [st2 [lg2 r2]] end.
    left. split; [exists g; split; [right; exact Ig|exact UG]|]. cbn [snd] in EX. subst r2. reflexivity.
Qed.

Lemma channel_frame_raises st o : sane st -> (forall b, dec b = dec (ob_id (obj_name o)) -> b = ob_id (obj_name o)) ->
  selected_raises dec esc (pystr_eqb (lit (text "FRAME"))) sets = false ->
  (forall f, In f (selected dec (pystr_eqb (lit (text "FRAME"))) (fun _ => true) sets) -> frame_readable f) ->
  (exists f, In f (selected dec (pystr_eqb (lit (text "FRAME"))) (fun _ => true) sets) /\ unresolved f) /\
    snd (snd (channel_frame dec enc esc set_order st o)) = Exn \/
  (forall f, In f (selected dec (pystr_eqb (lit (text "FRAME"))) (fun _ => true) sets) -> frame_ok f).
Proof.
  intros SA U SR FO. unfold channel_frame.
  pose proof (find_any dec enc esc set_order sets parses order typed st (lit (text "FRAME")) None (Some exact) pystr_eqb SA kept_frame
    ltac:(discriminate) (fun _ _ => eq_refl) (fun _ _ _ => eq_refl)) as FA. rewrite SR in FA. destruct FA as (objs & EO & P). cbn [wanted] in P.
  pose proof (store_find_sane dec enc esc set_order sets parses order typed st (lit (text "FRAME")) None (Some exact) SA kept_frame) as SA1.
  unfold objects_of_type. destruct (store_find dec enc esc set_order st (lit (text "FRAME")) None (Some exact)) as [st1 [lg1 r1]].
  cbn [fst snd] in EO, SA1. subst r1.
  set (FS := selected dec (pystr_eqb (lit (text "FRAME"))) (fun _ => true) sets) in *.
  apply Permutation_map_inv in P as (fs & -> & P).
  assert (FF : Forall (fun f => from_file f /\ frame_readable f) fs).
  { apply Forall_forall. intros f I. assert (IF : In f FS) by (eapply Permutation_in; [exact (Permutation_sym P)|exact I] || (eapply Permutation_in; [exact P|exact I])).
    split; [|apply FO; exact IF]. unfold FS, selected in IF. apply in_flat_map in IF as (s & Is & Io). apply filter_In in Is as [Is _]. apply filter_In in Io as [Io _].
    exact (file_objects sets loaded s f Is Io). }
  destruct (claiming_raises (obj_name o) U fs st1 [] SA1 FF) as [[(f & If & UF) E]|A].
  - left. split.
    + exists f. split; [|exact UF]. eapply Permutation_in; [exact (Permutation_sym P)|exact If] || (eapply Permutation_in; [exact P|exact If]).
    + destruct (claiming dec enc esc set_order (obj_name o) st1 (map (promote dec) fs) []) as [st2 [lg2 r2]]. cbn [snd] in E. subst r2. reflexivity.
  - right. intros f If. rewrite Forall_forall in A. apply A. eapply Permutation_in; [exact P|exact If] || (eapply Permutation_in; [exact (Permutation_sym P)|exact If]).
Qed.

(** a frame of which all entries resolve has none that does not *)
Lemma ok_resolves f : frame_ok f -> ~ unresolved f.
Proof.
  intros [_ FO] (v & (c & vs & lg & ST & Iv) & NR). destruct ST as [c N|c a Ia La Va|a c vs Ia La Va]; try destruct Iv.
  destruct (proj2 (FO a Ia La) c vs v Va Iv) as (n & o & -> & _ & _ & _ & TO). apply NR. exists n, o. auto.
Qed.
(** and can be read *)
Lemma ok_readable f : frame_ok f -> frame_readable f.
Proof.
  intros [C FO]. split; [exact C|]. intros c vs lg ST. destruct ST as [c N|c a Ia La Va|a c vs Ia La Va].
  - split; [left; reflexivity|constructor].
  - split; [apply (FO a Ia La)|constructor].
  - split; [apply (FO a Ia La)|]. apply Forall_forall. intros v Iv. destruct (proj2 (FO a Ia La) c vs v Va Iv) as (n & o & -> & K & TR & SR & _).
    split; [discriminate|]. intros t m R. inversion R. subst. auto.
Qed.
End parent.
