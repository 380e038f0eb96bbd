(** C39: the frame of a channel, whether or not all references resolve. *)
From Coq Require Import Permutation.
From Verif Require Import Bytes BytesProofs Stream PyBase DlisTypes DlisRecords CommonPy DlisStore SpecDlisStore DlisStoreProofs DlisStoreProofs2 DlisStoreProofs3 DlisStoreProofs5 DlisStoreProofs6 DlisSchema DlisObject SpecDlisObject DlisObjectProofs DlisObjectProofs2 DlisObjectProofs3 DlisObjectProofs4 DlisObjectProofs5 DlisObjectProofs6 PropDlisStore PropDlisObject SpecDlisParent DlisParentProofs DlisIo DlisFrame DlisCurves.
Local Open Scope Z_scope.

(** *** channel.frame raises exactly if a frame of the file, not necessarily one of this
    channel, lists something that is not the name of a channel of the file; in all
    other cases it is as C39_frame_partial says *)
Theorem C39_exact : forall dec enc esc set_order sets ops channel lists,
  logical_file dec enc sets -> a_set_order set_order -> Forall (op_ok dec enc) ops ->
  kept dec enc (lit (text "FRAME")) -> kept dec enc (lit (text "CHANNEL")) ->
  (forall b, dec b = dec (ob_id (obj_name channel)) -> b = ob_id (obj_name channel)) ->
  (forall f, lists f = true <-> In (obj_name channel) (listed enc f)) ->
  let frames := selected dec (pystr_eqb (lit (text "FRAME"))) (fun _ => true) sets in
  let result := snd (snd (channel_frame dec enc esc set_order (after dec enc esc set_order sets ops) channel)) in
  selected_raises dec esc (pystr_eqb (lit (text "FRAME"))) sets = false ->
  (forall f, In f frames -> frame_readable dec enc esc sets f) ->
  (result = Exn <-> exists f v, In f frames /\ entry_of enc f v /\ ~ resolves dec sets v) /\
  (result = Exn \/ exists r, result = Ok r /\
     match r with
     | Some x => exists f, x = promote dec f /\ the_only (filter lists frames) f
     | None => forall f, ~ the_only (filter lists frames) f
     end).
Proof.
  intros dec enc esc set_order sets ops channel lists LF O OK KF KC U LS frames result SR FR.
  pose proof LF as (L & P & T).
  destruct (channel_frame_raises dec enc esc set_order sets L P O T KF KC (after dec enc esc set_order sets ops) channel) as [[(f & If & v & EV & NR) E]|A]; try assumption.
  - apply after_sane; assumption.
  - split; [|left; exact E]. split; [|intros _; exact E]. intros _. exists f, v. auto.
  - destruct (C39_frame_partial dec enc esc set_order sets ops channel lists LF O OK KF KC U LS SR A) as (r & E & R).
    split; [|right; exists r; split; [exact E|exact R]]. unfold result. rewrite E. split; [discriminate|].
    intros (f & v & If & EV & NR). exfalso. apply (ok_resolves dec enc esc sets f (A f If)). exists v. auto.
Qed.
Print Assumptions C39_exact.

(** *** C67: channel.curves() raises in these cases too, and is None if there is no single
    frame *)
Theorem C67_without_frame : forall dec enc esc set_order maxdims fmt after' sets ops s idx channel lists,
  logical_file dec enc sets -> a_set_order set_order -> Forall (op_ok dec enc) ops ->
  kept dec enc (lit (text "FRAME")) -> kept dec enc (lit (text "CHANNEL")) ->
  (forall b, dec b = dec (ob_id (obj_name channel)) -> b = ob_id (obj_name channel)) ->
  (forall f, lists f = true <-> In (obj_name channel) (listed enc f)) ->
  let frames := selected dec (pystr_eqb (lit (text "FRAME"))) (fun _ => true) sets in
  let result := snd (snd (channel_curves dec enc esc set_order maxdims fmt (after dec enc esc set_order sets ops) s after' idx channel)) in
  selected_raises dec esc (pystr_eqb (lit (text "FRAME"))) sets = false ->
  (forall f, In f frames -> frame_readable dec enc esc sets f) ->
  ((exists f v, In f frames /\ entry_of enc f v /\ ~ resolves dec sets v) -> result = Exn) /\
  (~ (exists f v, In f frames /\ entry_of enc f v /\ ~ resolves dec sets v) ->
   (forall f, ~ the_only (filter lists frames) f) -> result = Ok None).
Proof.
  intros dec enc esc set_order maxdims fmt after' sets ops s idx channel lists LF O OK KF KC U LS frames result SR FR.
  destruct (C39_exact dec enc esc set_order sets ops channel lists LF O OK KF KC U LS SR FR) as [X Y]. cbv zeta in X, Y.
  unfold result, channel_curves, chain. destruct (channel_frame dec enc esc set_order (after dec enc esc set_order sets ops) channel) as [st [lg r]]. cbn [snd] in X, Y. split.
  - intros H. apply X in H. subst r. reflexivity.
  - intros N NO. destruct Y as [Y|(q & -> & Q)]; [exfalso; apply N, X, Y|]. destruct q as [x|]; [|reflexivity].
    destruct Q as (f & _ & Q). destruct (NO f Q).
Qed.
Print Assumptions C67_without_frame.

(** *** The file of C39_unresolved_refuted meets the hypotheses: F lists A and B, H lists
    a channel that does not exist *)
Definition sets_bad : list object_set := sets_of [channel_set; frame_set (frame_F ++ frame_bad)].
Example C39_exact_example :
  (forall f, In f (selected dec1 (pystr_eqb (lit (text "FRAME"))) (fun _ => true) sets_bad) -> frame_readable dec1 enc1 quiet sets_bad f) /\
  (exists f, In f (selected dec1 (pystr_eqb (lit (text "FRAME"))) (fun _ => true) sets_bad) /\ entry_of enc1 f (VName (mk_obname 1 0 (text "MISSING")))) /\
  ~ resolves dec1 sets_bad (VName (mk_obname 1 0 (text "MISSING"))) /\
  selected_raises dec1 quiet (pystr_eqb (lit (text "FRAME"))) sets_bad = false.
Proof.
  assert (ALL : forallb (fun f => match obj_log f with [] => true | _ => false end && forallb (fun a => match at_log a with [] => true | _ => false end &&
     match at_value a with Vec _ vs => forallb (fun v => match v with VName n => truthy (dec1 (ob_id n)) | VTime _ => false | _ => true end) vs | Mono => true end) (obj_attrs f))
     (selected dec1 (pystr_eqb (lit (text "FRAME"))) (fun _ => true) sets_bad) = true) by (vm_compute; reflexivity).
  split; [|split; [|split; [|vm_compute; reflexivity]]].
  - rewrite forallb_forall in ALL. intros f If. specialize (ALL f If). apply andb_true_iff in ALL as [L ALL]. rewrite forallb_forall in ALL. split.
    { left. destruct (obj_log f); [reflexivity|discriminate]. }
    intros c vs lg ST. destruct ST as [c N|c a Ia La Va|a c vs Ia La Va].
    + split; [left; reflexivity|constructor].
    + specialize (ALL a Ia). apply andb_true_iff in ALL as [LA _]. split; [left; destruct (at_log a); [reflexivity|discriminate]|constructor].
    + specialize (ALL a Ia). apply andb_true_iff in ALL as [LA ALL]. split; [left; destruct (at_log a); [reflexivity|discriminate]|].
      rewrite Va, forallb_forall in ALL. apply Forall_forall. intros v Iv. specialize (ALL v Iv). split.
      * intros t ->. discriminate.
      * intros t n R. inversion R. subst. split; [apply kept1|]. split; [apply kept1|]. split; [exact ALL|]. vm_compute. reflexivity.
  - exists (nth_object sets_bad 1 1). split; [vm_compute; auto|].
    eexists _, _, _. split; [eapply stored_values; [left; reflexivity|vm_compute; reflexivity|vm_compute; reflexivity]|left; reflexivity].
  - intros (n & o & [= <-] & (rest & E & _)). vm_compute in E. discriminate.
Qed.

(** *** In the file of C39_example everything resolves; C is in no frame, B in two *)
Definition lists_of (channel f : object) : bool := existsb (obname_eqb (obj_name channel)) (listed enc1 f).
Example C67_without_frame_example :
  (forall f, In f (selected dec1 (pystr_eqb (lit (text "FRAME"))) (fun _ => true) sets2) -> frame_readable dec1 enc1 quiet sets2 f) /\
  ~ (exists f v, In f (selected dec1 (pystr_eqb (lit (text "FRAME"))) (fun _ => true) sets2) /\ entry_of enc1 f v /\ ~ resolves dec1 sets2 v) /\
  (forall f, ~ the_only (filter (lists_of (nth_object sets2 0 2)) (selected dec1 (pystr_eqb (lit (text "FRAME"))) (fun _ => true) sets2)) f) /\
  (forall f, ~ the_only (filter (lists_of (nth_object sets2 0 1)) (selected dec1 (pystr_eqb (lit (text "FRAME"))) (fun _ => true) sets2)) f).
Proof.
  destruct C39_hypotheses as (_ & _ & FO). refine (conj _ (conj _ (conj _ _))).
  { intros f If. apply ok_readable; [apply kept1|exact (FO f If)]. }
  { intros (f & v & If & EV & NR). apply (ok_resolves dec1 enc1 quiet sets2 f (FO f If)). exists v. auto. }
  - intros f (rest & P & S). replace (filter _ _) with (@nil object) in P by (vm_compute; reflexivity). apply Permutation_sym, Permutation_nil in P. discriminate.
  - intros f (rest & P & S). assert (E : exists a b c, filter (lists_of (nth_object sets2 0 1)) (selected dec1 (pystr_eqb (lit (text "FRAME"))) (fun _ => true) sets2) = [a; b; c] /\
       obj_name a <> obj_name b /\ obj_name c <> obj_name b) by (eexists _, _, _; split; [vm_compute; reflexivity|split; vm_compute; discriminate]).
    destruct E as (a & b & c & E & N1 & N2). rewrite E in P.
    assert (ALL : forall y, In y [a; b; c] -> obj_name y = obj_name f).
    { intros y Iy. apply (Permutation_in _ (Permutation_sym P)) in Iy. destruct Iy as [<-|Iy]; [reflexivity|]. symmetry. apply (S y Iy). }
    apply N1. rewrite (ALL a), (ALL b); [reflexivity|right; left; reflexivity|left; reflexivity].
Qed.
