(** Proofs about metadata objects: the frame of a channel. *)
From Coq Require Import Permutation.
From Flocq Require Import IEEE754.Binary IEEE754.Bits.
From Verif Require Import Bytes BytesProofs Stream PyBase DlisTypes DlisCore DlisRecords CoreProofs2 RecordsProofs3 CommonPy DlisStore SpecDlisStore DlisStoreProofs DlisStoreProofs2 DlisStoreProofs3 DlisStoreProofs4 DlisStoreProofs5 DlisStoreProofs6 DlisSchema DlisObject SpecDlisObject DlisObjectProofs DlisObjectProofs2 DlisObjectProofs3.
Local Open Scope Z_scope.

(** ** Being the same is symmetric and transitive *)
Lemma compare_sym p e (f g : binary_float p e) : Bcompare p e f g = Some Eq -> Bcompare p e g f = Some Eq.
Proof. rewrite !compare_eq. intuition. Qed.
Lemma compare_trans p e (f g h : binary_float p e) : Bcompare p e f g = Some Eq -> Bcompare p e g h = Some Eq -> Bcompare p e f h = Some Eq.
Proof. rewrite !compare_eq. intros (A & B & [->|[C D]]) (_ & E & [->|[F G]]); intuition. Qed.
Lemma same_number_sym c x y : same_number c x y -> same_number c y x.
Proof. unfold same_number. destruct (existsb _ _); [apply compare_sym|]. destruct (existsb _ _); [apply compare_sym|congruence]. Qed.
Lemma same_number_trans c x y z : same_number c x y -> same_number c y z -> same_number c x z.
Proof. unfold same_number. destruct (existsb _ _); [apply compare_trans|]. destruct (existsb _ _); [apply compare_trans|congruence]. Qed.
Lemma forall2_sym {A} (R : A -> A -> Prop) l : (forall x y, R x y -> R y x) -> forall l', Forall2 R l l' -> Forall2 R l' l.
Proof. intros H. induction 1; constructor; auto. Qed.
Lemma forall2_trans {A} (R : A -> A -> Prop) l : (forall x y z, R x y -> R y z -> R x z) -> forall l' l'', Forall2 R l l' -> Forall2 R l' l'' -> Forall2 R l l''.
Proof.
  intros H l' l'' F. revert l''. induction F as [|x y l l' Hx F IH]; intros l'' F'; inversion F'; subst; constructor; eauto.
Qed.
Lemma same_value_sym c v w : same_value c v w -> same_value c w v.
Proof. intros []; constructor; [apply same_number_sym; assumption|]. eapply forall2_sym; [apply same_number_sym|assumption]. Qed.
Lemma same_value_trans c v w u : same_value c v w -> same_value c w u -> same_value c v u.
Proof.
  intros H K. destruct H; inversion K; subst; constructor; [eapply same_number_trans; eassumption|].
  eapply forall2_trans; [apply same_number_trans|eassumption..].
Qed.
Lemma same_object_sym a b : same_object a b -> same_object b a.
Proof.
  intros [E F]. split; [congruence|]. eapply forall2_sym; [|exact F]. intros x y (A & B & C & D & V). repeat split; try congruence.
  destruct V as [|c xs ys V]; constructor. eapply forall2_sym; [apply same_value_sym|exact V].
Qed.
Lemma same_object_trans a b c : same_object a b -> same_object b c -> same_object a c.
Proof.
  intros [E F] [E' F']. split; [congruence|]. eapply forall2_trans; [|exact F|exact F']. intros x y z (A & B & C & D & V) (A' & B' & C' & D' & V').
  repeat split; try congruence. destruct V as [|k xs ys V]; inversion V'; subst; constructor. eapply forall2_trans; [apply same_value_trans|eassumption..].
Qed.

(** the first one decides *)
Lemma the_only_cons f rest g : the_only (f :: rest) g -> forall y, In y rest -> same_object f y.
Proof.
  intros (r & P & H) y Iy. assert (If : In f (g :: r)) by (eapply Permutation_in; [apply Permutation_sym; exact P|left; reflexivity]).
  destruct If as [->|If].
  - apply Permutation_cons_inv in P. apply H. eapply Permutation_in; [apply Permutation_sym; exact P|exact Iy].
  - assert (Iy' : In y (g :: r)) by (eapply Permutation_in; [apply Permutation_sym; exact P|right; exact Iy]).
    destruct Iy' as [->|Iy']; [apply same_object_sym, H; exact If|]. eapply same_object_trans; [apply same_object_sym, H; exact If|apply H; exact Iy'].
Qed.
Lemma the_only_perm fs fs' f : Permutation fs fs' -> the_only fs f -> the_only fs' f.
Proof. intros P (r & Q & H). exists r. split; [rewrite Q; exact P|exact H]. Qed.

(** ** Frames without those that equal an earlier one *)
Definition add_frame (found : list pyobject) (f : pyobject) : list pyobject :=
  if existsb (fun g => object_eqb (po_attic g) (po_attic f)) found then found else found ++ [f].
Lemma add_many l : forall a b found, exists c d r, fold_left add_frame l (a :: b :: found) = c :: d :: r.
Proof.
  induction l as [|x l IH]; intros a b found; cbn [fold_left]; [eauto|]. unfold add_frame at 2. destruct (existsb _ _); apply IH.
Qed.
Lemma add_one f l : match fold_left add_frame l [f] with [g] => Some g | _ => None end =
  if forallb (fun g => object_eqb (po_attic f) (po_attic g)) l then Some f else None.
Proof.
  induction l as [|x l IH]; cbn [fold_left forallb]; [reflexivity|]. unfold add_frame at 2. cbn [existsb]. rewrite orb_false_r.
  destruct (object_eqb (po_attic f) (po_attic x)); cbn [andb]; [exact IH|]. cbn [app].
  destruct (add_many l f x []) as (c & d & r & ->). reflexivity.
Qed.
Lemma one_frame dec l : (forall o, In o l -> attrs_ok (obj_attrs o)) ->
  match match fold_left add_frame (map (promote dec) l) [] with [g] => Some g | _ => None end with
  | Some x => exists f, x = promote dec f /\ the_only l f
  | None => forall f, ~ the_only l f
  end.
Proof.
  intros W. destruct l as [|f l].
  - cbn [map fold_left]. intros g (r & P & _). apply Permutation_sym, Permutation_nil in P. discriminate P.
  - cbn [map fold_left]. change (add_frame [] (promote dec f)) with [promote dec f]. rewrite add_one.
    assert (FB : forallb (fun g => object_eqb (po_attic (promote dec f)) (po_attic g)) (map (promote dec) l) = true <-> forall y, In y l -> same_object f y).
    { rewrite forallb_map, forallb_forall. split; intros H y Iy; specialize (H y Iy); cbn [promote po_attic] in *;
        (apply object_eqb_spec in H || apply object_eqb_spec); try assumption; apply W; (left; reflexivity) || (right; exact Iy). }
    destruct (forallb _ _).
    + exists f. split; [reflexivity|]. exists l. split; [apply Permutation_refl|apply FB; reflexivity].
    + intros g H. pose proof (the_only_cons f l g H) as A. apply FB in A. discriminate A.
Qed.

Lemma perm_filter {A} (f : A -> bool) l l' : Permutation l l' -> Permutation (filter f l) (filter f l').
Proof.
  induction 1 as [|x l l' P IH|x y l|l l' l'' P IH P' IH']; cbn [filter].
  - constructor.
  - destruct (f x); [constructor|]; exact IH.
  - destruct (f x), (f y); try apply Permutation_refl. constructor.
  - rewrite IH. exact IH'.
Qed.

Section frames.
Variable dec : bytes -> pystr.
Variable enc : pystr -> bytes.
Variable esc : severity -> bool.
Variable set_order : list pystr -> list pystr.
Variable sets : list object_set.
Hypothesis loaded : as_loaded sets.
Hypothesis parses : parsable sets.
Hypothesis order : a_set_order set_order.
Hypothesis typed : Forall (fun s => kept dec enc (dec (os_type s))) sets.
Hypothesis kept_frame : kept dec enc (lit (text "FRAME")).
Hypothesis kept_channel : kept dec enc (lit (text "CHANNEL")).

Local Notation sane := (sane dec esc sets).
Local Notation performs := (fold_left (perform dec enc esc set_order)).

Local Notation frame_ok := (frame_ok dec enc esc sets).

Lemma stored_exists o key : exists c vs lg, stored enc o key c vs lg.
Proof.
  destruct (in_dec (list_eq_dec Byte.byte_eq_dec) (enc key) (map at_label (obj_attrs o))) as [I|N].
  - apply in_map_iff in I as (a & E & I). destruct (at_value a) as [|c vs] eqn:V.
    + exists 0, [], (at_log a). apply (stored_none enc o key 0 a); assumption.
    + exists c, vs, (at_log a). apply (stored_values enc o key a); assumption.
  - exists 0, [], []. constructor. exact N.
Qed.
Definition names_in (vs : list value) : list obname := flat_map (fun v => match v with VName n => [n] | _ => [] end) vs.
Definition channels_of (l : list attribute) : list obname :=
  flat_map (fun a => if bytes_eqb (at_label a) (enc (lit (text "CHANNELS")))
                     then match at_value a with Vec _ vs => names_in vs | Mono => [] end else []) l.
Lemma channels_none l : ~ In (enc (lit (text "CHANNELS"))) (map at_label l) -> channels_of l = [].
Proof.
  induction l as [|x l IH]; cbn [map channels_of flat_map]; intros N; [reflexivity|]. fold (channels_of l).
  destruct (bytes_eqb _ _) eqn:B; [apply bytes_eqb_spec in B; exfalso; apply N; left; exact B|]. apply IH. intros H. apply N. right. exact H.
Qed.
Lemma channels_one l a : NoDup (map at_label l) -> In a l -> at_label a = enc (lit (text "CHANNELS")) ->
  channels_of l = match at_value a with Vec _ vs => names_in vs | Mono => [] end.
Proof.
  induction l as [|x l IH]; intros N I E; [destruct I|]. cbn [map] in N. apply NoDup_cons_iff in N as [NX N]. cbn [channels_of flat_map]. fold (channels_of l).
  destruct I as [->|I].
  - replace (bytes_eqb _ _) with true by (symmetry; apply bytes_eqb_spec; exact E).
    rewrite channels_none by (rewrite <- E; exact NX). apply app_nil_r.
  - destruct (bytes_eqb _ _) eqn:B; [|exact (IH N I E)]. apply bytes_eqb_spec in B. exfalso. apply NX. apply in_map_iff. exists a. split; [congruence|exact I].
Qed.
Lemma listed_stored f c vs lg : from_file f -> stored enc f (lit (text "CHANNELS")) c vs lg -> listed enc f = names_in vs.
Proof.
  intros (_ & U & _) ST. change (listed enc f) with (channels_of (obj_attrs f)). destruct ST as [c N|c a Ia La Va|a c vs Ia La Va].
  - apply channels_none. exact N.
  - rewrite (channels_one _ a U Ia La), Va. reflexivity.
  - rewrite (channels_one _ a U Ia La), Va. reflexivity.
Qed.

Lemma frame_schema_ok : a_schema frame_schema.
Proof.
  assert (ND : forall l : list pystr, (if list_eq_dec pystr_dec (nodup pystr_dec l) l then true else false) = true -> NoDup l).
  { intros l H. destruct (list_eq_dec _ _ _) as [E|]; [|discriminate]. rewrite <- E. apply NoDup_nodup. }
  split; apply ND; vm_compute; reflexivity.
Qed.

Variable self : obname.
Hypothesis unambiguous : forall b, dec b = dec (ob_id self) -> b = ob_id self.

Lemma frame_channels_ok st f : sane st -> from_file f -> frame_ok f ->
  exists xs ops, snd (snd (frame_channels dec enc esc set_order st (promote dec f))) = Ok xs /\
    Forall (op_ok dec enc) ops /\ fst (frame_channels dec enc esc set_order st (promote dec f)) = performs ops st /\
    exists b, claims self xs = Some b /\ (b = true <-> In self (listed enc f)).
Proof.
  intros SA F [C1 FO]. destruct (stored_exists f (lit (text "CHANNELS"))) as (c & vs & lg & ST).
  assert (CL : calm dec enc esc f lg /\ Forall (fun v => exists n o, v = VName n /\ kept dec enc (dec (ob_id n)) /\ truthy (dec (ob_id n)) = true /\
        selected_raises dec esc (pystr_eqb (lit (text "CHANNEL"))) sets = false /\
        the_object dec sets (lit (text "CHANNEL")) n o) vs).
  { destruct ST as [c N|c a Ia La Va|a c vs Ia La Va].
    - split; [left; reflexivity|constructor].
    - split; [apply (FO a Ia La)|constructor].
    - split; [apply (FO a Ia La)|]. apply Forall_forall. intros v Iv. exact (proj2 (FO a Ia La) c vs v Va Iv). }
  destruct CL as [C2 NM].
  destruct (getitem_ok dec enc esc set_order sets loaded parses order typed st frame_schema f (lit (text "CHANNELS")) Vector (Some (ToName (lit (text "CHANNEL")))) c vs lg) as (xs & res & ops & T & S & R & O & E); try assumption.
  - exact frame_schema_ok.
  - left. vm_compute. tauto.
  - vm_compute. tauto.
  - left. vm_compute. tauto.
  - eapply Forall_impl; [|exact NM]. intros v (n & o & -> & K & TR & SR & _). split; [discriminate|]. intros t n' X. inversion X. subst. auto.
  - inversion S. subst. exists xs, ops. unfold frame_channels. change (po_attic (promote dec f)) with f.
    destruct (getitem dec enc esc set_order st frame_schema f (lit (text "CHANNELS"))) as [st' [lg' r']]. cbn [fst snd] in R, E |- *. subst r'. cbn [bind ret snd].
    split; [reflexivity|]. split; [exact O|]. split; [exact E|]. rewrite (listed_stored f c vs lg F ST).
    clear - T NM unambiguous. induction T as [|v x vs xs T1 T IH]; cbn [claims].
    + exists false. split; [reflexivity|]. split; [discriminate|intros []].
    + apply Forall_cons_iff in NM as [(n & o & -> & _ & _ & _ & TO) NM]. destruct (IH NM) as (b & -> & B).
      inversion T1 as [| | | | |v' t n' o' RF TO' |v' L1 L2 L3| n' L| |]; subst.
      2:{ exfalso. eapply L3; [constructor|exact TO]. }
      2:{ discriminate. }
      inversion RF; subst. cbn [obind]. eexists. split; [reflexivity|]. unfold names_in. cbn [flat_map app In]. rewrite orb_true_iff, B.
      change (flat_map _ vs) with (names_in vs). rewrite obname_eqb_spec. cbn [promote po_attic].
      assert (EQ : obj_name o' = self <-> n' = self); [|tauto].
      destruct TO' as (rest & CA & _).
      match type of CA with ?l = _ => assert (Io : In o' l) by (rewrite CA; left; reflexivity) end.
      unfold candidates in Io. apply filter_In in Io as [Io A]. apply andb_true_iff in A as [A1 A2]. cbn [agrees] in A1, A2. apply Z.eqb_eq in A1, A2.
      unfold selected in Io. apply in_flat_map in Io as (s & _ & Io). apply filter_In in Io as [_ En]. apply pystr_eqb_spec in En.
      destruct (obj_name o') as [oo oc oi]. destruct n' as [no nc ni]. cbn [ob_origin ob_copy ob_id] in *. subst no nc. split.
      * intros <-. cbn [ob_id] in unambiguous. f_equal. apply unambiguous. exact En.
      * intros <-. cbn [ob_id] in unambiguous. f_equal. apply unambiguous. congruence.
Qed.

Variable lists : object -> bool.
Hypothesis lists_spec : forall f, lists f = true <-> In self (listed enc f).

Lemma claiming_ok fs : forall st found, sane st -> Forall (fun f => from_file f /\ frame_ok f) fs ->
  snd (snd (claiming dec enc esc set_order self st (map (promote dec) fs) found)) =
  Ok (fold_left add_frame (map (promote dec) (filter lists fs)) found).
Proof.
  induction fs as [|f fs IH]; intros st found SA H; cbn [map claiming filter]; [reflexivity|]. apply Forall_cons_iff in H as [[F FO] H].
  destruct (frame_channels_ok st f SA F FO) as (xs & ops & E & O & ST & b & C & B).
  destruct (frame_channels dec enc esc set_order st (promote dec f)) as [st' [lg r]]. cbn [fst snd] in E, ST. subst r. rewrite C.
  assert (SA' : sane st') by (rewrite ST; apply performs_sane; assumption).
  assert (BE : b = lists f) by (apply eq_true_iff_eq; rewrite lists_spec; exact B). subst b.
  match goal with |- context [claiming _ _ _ _ _ st' _ ?fd] => specialize (IH st' fd SA' H); destruct (claiming dec enc esc set_order self st' (map (promote dec) fs) fd) as [st2 [lg2 r2]] end.
  cbn [bind snd] in IH |- *. rewrite IH. f_equal. destruct (lists f); cbn [andb map fold_left]; [|reflexivity]. unfold add_frame at 3.
  destruct (existsb _ found); reflexivity.
Qed.

Lemma channel_frame_ok st o : sane st -> obj_name o = self ->
  selected_raises dec esc (pystr_eqb (lit (text "FRAME"))) sets = false ->
  (forall f, In f (selected dec (pystr_eqb (lit (text "FRAME"))) (fun _ => true) sets) -> frame_ok f) ->
  exists r, snd (snd (channel_frame dec enc esc set_order st o)) = Ok r /\
    match r with
    | Some x => exists f, x = promote dec f /\ the_only (filter lists (selected dec (pystr_eqb (lit (text "FRAME"))) (fun _ => true) sets)) f
    | None => forall f, ~ the_only (filter lists (selected dec (pystr_eqb (lit (text "FRAME"))) (fun _ => true) sets)) f
    end.
Proof.
  intros SA EN SR FO. unfold channel_frame. rewrite EN.
  pose proof (find_any dec enc esc set_order sets parses order typed st (lit (text "FRAME")) None (Some exact) pystr_eqb SA kept_frame
    ltac:(discriminate) (fun _ _ => eq_refl) (fun _ _ _ => eq_refl)) as FA. rewrite SR in FA. destruct FA as (objs & EO & P). cbn [wanted] in P.
  pose proof (store_find_sane dec enc esc set_order sets parses order typed st (lit (text "FRAME")) None (Some exact) SA kept_frame) as SA1.
  unfold objects_of_type. destruct (store_find dec enc esc set_order st (lit (text "FRAME")) None (Some exact)) as [st1 [lg1 r1]].
  cbn [fst snd] in EO, SA1. subst r1.
  set (FS := selected dec (pystr_eqb (lit (text "FRAME"))) (fun _ => true) sets) in *.
  apply Permutation_map_inv in P as (fs & -> & P).
  assert (FF : Forall (fun f => from_file f /\ frame_ok f) fs).
  { apply Forall_forall. intros f I. assert (IF : In f FS) by (eapply Permutation_in; [exact (Permutation_sym P)|exact I] || (eapply Permutation_in; [exact P|exact I])).
    split; [|apply FO; exact IF]. unfold FS, selected in IF. apply in_flat_map in IF as (s & Is & Io). apply filter_In in Is as [Is _]. apply filter_In in Io as [Io _].
    exact (file_objects sets loaded s f Is Io). }
  pose proof (claiming_ok fs st1 [] SA1 FF) as C. destruct (claiming dec enc esc set_order self st1 (map (promote dec) fs) []) as [st2 [lg2 r2]].
  cbn [snd] in C. subst r2. cbn [bind ret snd]. eexists. split; [reflexivity|].
  assert (W : forall o, In o (filter lists fs) -> attrs_ok (obj_attrs o)).
  { intros x Ix. apply filter_In in Ix as [Ix _]. assert (IF : In x FS) by (eapply Permutation_in; [exact (Permutation_sym P)|exact Ix] || (eapply Permutation_in; [exact P|exact Ix])).
    exact (selected_ok dec _ _ sets loaded x IF). }
  assert (PF : Permutation (filter lists fs) (filter lists FS)).
  { apply perm_filter. exact (Permutation_sym P). }
  pose proof (one_frame dec (filter lists fs) W) as ONE. destruct (match fold_left add_frame _ _ with [g] => Some g | _ => None end) as [x|].
  - destruct ONE as (f & -> & H). exists f. split; [reflexivity|]. exact (the_only_perm _ _ f PF H).
  - intros f H. apply (ONE f). exact (the_only_perm _ _ f (Permutation_sym PF) H).
Qed.
End frames.
