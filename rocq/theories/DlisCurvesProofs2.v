(** Proofs about curves of loaded files: channels and their columns, after any history. *)
From Verif Require LisPyProofs.
From Verif Require Import Bytes BytesProofs Stream PyBase DlisTypes DlisCore SpecTypes SpecCore DlisIo SpecIo DlisRecords SpecRecords DlisFdata SpecFdata
  CommonPy DlisStore SpecDlisStore DlisStoreProofs DlisStoreProofs2 DlisStoreProofs3 DlisStoreProofs4 DlisStoreProofs5 DlisSchema DlisObject SpecDlisObject DlisObjectProofs DlisObjectProofs2
  DlisObjectProofs3 DlisObjectProofs4 DlisObjectProofs5 SpecDlisLoad DlisFrame SpecDlisFrame DlisFrameProofs6 FdataProofs2 Dimensional SpecDimensional DimensionalProofs3 DimensionalProofs4
  DlisCurves SpecDlisCurves DlisCurvesProofs.
Local Open Scope Z_scope.

Lemma chain_ok {A B} st l (x : A) (k : store -> A -> store * io B) st' l' r : k st x = (st', (l', r)) -> chain (st, (l, Ok x)) k = (st', (l ++ l', r)).
Proof. intros E. cbn [chain]. rewrite E. reflexivity. Qed.

Lemma channel_schema_ok : a_schema channel_schema.
Proof.
  split; cbn [channel_schema sc_attributes sc_linkage map fst].
  - repeat constructor; cbn [In]; intuition discriminate.
  - repeat constructor; cbn [In]; intuition discriminate.
Qed.

Section columns.
Variable dec : bytes -> pystr.
Variable enc : pystr -> bytes.
Variable esc : severity -> bool.
Variable set_order : list pystr -> list pystr.
Variable sets : list object_set.
Hypothesis loaded : as_loaded sets.
Hypothesis parses : parsable sets.
Hypothesis order : a_set_order set_order.
Hypothesis typed : Forall (fun s => SpecDlisStore.kept dec enc (dec (os_type s))) sets.
Local Notation sane := (sane dec esc sets).
Local Notation performs := (fold_left (perform dec enc esc set_order)).
Local Notation described := (described dec enc esc).

(** [m] gives [x] and changes the store as some queries do *)
Definition gives {A} (st : store) (m : store * io A) (x : A) : Prop :=
  exists logs ops, Forall (op_ok dec enc) ops /\ m = (performs ops st, (logs, Ok x)).
Lemma gives_here {A} st l (x : A) : gives st (st, (l, Ok x)) x.
Proof. exists l, []. split; [constructor|reflexivity]. Qed.
Lemma gives_chain {A B} st (m : store * io A) x (k : store -> A -> store * io B) y :
  sane st -> gives st m x -> (forall st', sane st' -> gives st' (k st' x) y) -> gives st (chain m k) y.
Proof.
  intros SA (l & ops & O & ->) K. destruct (K (performs ops st)) as (l' & ops' & O' & E).
  { apply performs_sane; assumption. }
  exists (l ++ l'), (ops ++ ops'). split; [apply Forall_app; auto|]. rewrite (chain_ok _ _ _ _ _ _ _ E), fold_left_app. reflexivity.
Qed.

Lemma readable_numbers l ds : Forall (readable dec enc esc sets l) (map VNum ds).
Proof. apply Forall_forall. intros v I. apply in_map_iff in I as (z & <- & _). split; [discriminate|]. intros t n R. inversion R. Qed.

Lemma reprc_ok st o c : sane st -> from_file o -> described o c -> gives st (channel_reprc dec enc esc set_order st o) (cl_reprc c).
Proof.
  intros SA F (_ & _ & _ & _ & C1 & (rc & more & lg & ST & I & C2) & _).
  destruct (getitem_ok dec enc esc set_order sets loaded parses order typed st channel_schema o (lit (text "REPRESENTATION-CODE")) Scalar None rc (map VNum (cl_reprc c :: more)) lg)
    as (xs & res & ops & T & S & R & O & E); try assumption.
  - exact channel_schema_ok.
  - left. vm_compute. tauto.
  - vm_compute. intuition discriminate.
  - left. vm_compute. tauto.
  - apply readable_numbers.
  - apply turns_numbers in T. subst xs. cbn [map] in S. inversion S; subst. unfold channel_reprc.
    destruct (getitem dec enc esc set_order st channel_schema o (lit (text "REPRESENTATION-CODE"))) as [st' [lg' r']]. cbn [fst snd] in R, E. subst r' st'.
    cbn [bind]. assert (integer_code rc = true) as ->.
    { cbn [In] in I. repeat (destruct I as [<-|I]; [reflexivity|]). destruct I. }
    exists (lg' ++ []), ops. auto.
Qed.
Lemma dimension_ok st o c : sane st -> from_file o -> described o c -> gives st (channel_dimension dec enc esc set_order st o) (cl_dim c).
Proof.
  intros SA F (_ & _ & _ & _ & C1 & _ & (rc & lg & ST & I & C2)).
  destruct (listing_ok dec enc esc set_order sets loaded parses order typed st channel_schema o (text "DIMENSION") Reverse None rc (map VNum (rev (cl_dim c))) lg) as (xs & l & ops & T & O & E); try assumption.
  - exact channel_schema_ok.
  - right. reflexivity.
  - left. vm_compute. tauto.
  - vm_compute. intuition discriminate.
  - vm_compute. tauto.
  - apply readable_numbers.
  - apply turns_numbers in T. subst xs. unfold channel_dimension. rewrite E. rewrite <- map_rev, rev_involutive. cbn [bind]. rewrite integers by exact I.
    exists (l ++ []), ops. auto.
Qed.
Lemma column_ok st o c : sane st -> from_file o -> described o c ->
  gives st (column_of dec enc esc set_order st (PObject (promote dec o))) (Some c).
Proof.
  intros SA F D. cbn [column_of]. change (po_attic (promote dec o)) with o.
  apply (gives_chain st _ (cl_reprc c)); [exact SA|apply reprc_ok; assumption|]. intros st1 SA1.
  apply (gives_chain st1 _ (cl_dim c)); [exact SA1|apply dimension_ok; assumption|]. intros st2 SA2.
  destruct D as (DN & DS & DO & DC & _). rewrite (shown_fingerprint dec enc o _ F DS). cbn [bind ret]. unfold po_name. cbn [promote po_attic]. rewrite DN, DO, DC.
  cbn [app]. destruct c as [cn cf co cc cr cd]. cbn [cl_name cl_fp cl_origin cl_copy cl_reprc cl_dim]. apply gives_here.
Qed.
Lemma columns_ok chs cols : Forall2 described chs cols -> forall st, sane st -> Forall from_file chs ->
  gives st (columns_of dec enc esc set_order st (map (fun o => PObject (promote dec o)) chs)) (map Some cols).
Proof.
  induction 1 as [|o c chs cols D F IH]; intros st SA H; cbn [map columns_of].
  - apply gives_here.
  - apply Forall_cons_iff in H as [H1 H]. apply (gives_chain st _ (Some c)); [exact SA|apply column_ok; assumption|]. intros st1 SA1.
    apply (gives_chain st1 _ (map Some cols)); [exact SA1|apply IH; assumption|]. intros st2 SA2. apply gives_here.
Qed.

(** ** The channels of a frame *)
Lemma channels_ok st f chs : sane st -> from_file f -> has_channels dec enc esc sets f chs ->
  gives st (frame_channels dec enc esc set_order st (promote dec f)) (map (fun o => PObject (promote dec o)) chs).
Proof.
  intros SA F (C1 & rc & ns & lg & ST & C2 & FA & KC & SR).
  destruct (getitem_ok dec enc esc set_order sets loaded parses order typed st frame_schema f (lit (text "CHANNELS")) Vector (Some (ToName (lit (text "CHANNEL")))) rc (map VName ns) lg) as (xs & res & ops & T & S & R & O & E); try assumption.
  - exact frame_schema_ok.
  - left. vm_compute. tauto.
  - vm_compute. tauto.
  - left. vm_compute. tauto.
  - clear - FA KC SR. induction FA as [|n ch ns chs (K & TR & _) FA IH]; cbn [map]; constructor; [|exact IH]. split; [discriminate|]. intros t n' X. inversion X. subst. auto.
  - inversion S. subst. unfold frame_channels. change (po_attic (promote dec f)) with f.
    destruct (getitem dec enc esc set_order st frame_schema f (lit (text "CHANNELS"))) as [st' [lg' r']]. cbn [fst snd] in R, E |- *. subst r' st'. cbn [bind ret].
    assert (xs = map (fun o => PObject (promote dec o)) chs) as ->; [|exists (lg' ++ []), ops; auto].
    clear - T FA. revert xs T. induction FA as [|n ch ns chs (_ & _ & TO) FA IH]; intros xs T; cbn [map] in T |- *; inversion T as [|? x ? xs' T1 T2]; subst; [reflexivity|].
    f_equal; [|exact (IH _ T2)]. inversion T1 as [| | | | |v' t n' o' RF TO' |v' L1 L2 L3| n' L| |]; subst.
    + inversion RF; subst. destruct TO as (r1 & E1 & _), TO' as (r2 & E2 & _). assert (ch :: r1 = o' :: r2) as EE by (rewrite <- E1; exact E2). injection EE as -> _. reflexivity.
    + exfalso. eapply L3; [constructor|exact TO].
    + discriminate.
Qed.

(** channels that were found are objects of the file *)
Lemma found_channel n ch : the_object dec sets (lit (text "CHANNEL")) n ch ->
  exists s, In s sets /\ In ch (objects_in s) /\ dec (os_type s) = lit (text "CHANNEL") /\
    dec (ob_id (obj_name ch)) = dec (ob_id n) /\ ob_origin (obj_name ch) = ob_origin n /\ ob_copy (obj_name ch) = ob_copy n.
Proof.
  intros (rest & CA & _). match type of CA with ?l = _ => assert (Io : In ch l) by (rewrite CA; left; reflexivity) end.
  unfold candidates in Io. apply filter_In in Io as [Io A]. apply andb_true_iff in A as [A1 A2]. cbn [agrees] in A1, A2. apply Z.eqb_eq in A1, A2.
  unfold selected in Io. apply in_flat_map in Io as (s & Is & Io). apply filter_In in Is as [Is Et]. apply filter_In in Io as [Io En].
  apply pystr_eqb_spec in En, Et. exists s. repeat split; try assumption; congruence.
Qed.
End columns.
