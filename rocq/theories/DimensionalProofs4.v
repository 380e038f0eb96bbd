(** Proofs about the sampled attributes of objects in a file (Dimensional.v). *)
From Verif Require Import Bytes BytesProofs Stream PyBase DlisTypes DlisCore DlisRecords CommonPy DlisStore SpecDlisStore DlisStoreProofs DlisStoreProofs2 DlisStoreProofs3
  DlisStoreProofs4 DlisStoreProofs5 DlisSchema DlisObject SpecDlisObject DlisObjectProofs DlisObjectProofs2 DlisObjectProofs3 Dimensional SpecDimensional DimensionalProofs DimensionalProofs2 DimensionalProofs3.
From Coq Require Import ZifyBool ZifyNat.
Local Open Scope Z_scope.

Lemma reversed {A} : forall (vs ws : list A), length ws = length vs ->
  (forall i, (i < length vs)%nat -> nth_error ws i = nth_error vs (length vs - 1 - i)) -> ws = rev vs.
Proof.
  intros vs ws L H. destruct vs as [|d vs']; [destruct ws; [reflexivity | discriminate]|]. set (vs := d :: vs') in *.
  apply (nth_ext _ _ d d); [rewrite rev_length; exact L|]. intros i I. rewrite L in I. specialize (H i I).
  rewrite (nth_error_nth' ws d), (nth_error_nth' vs d) in H by lia. rewrite rev_nth by exact I. replace (length vs - 1 - i)%nat with (length vs - S i)%nat in H by lia. congruence.
Qed.
Lemma shaped_list r xs res : r = Vector \/ r = Reverse -> shaped r xs res -> res = RMany (match r with Reverse => rev xs | _ => xs end).
Proof.
  intros R S. destruct R as [-> | ->]; inversion S; subst; [reflexivity|]. f_equal. apply reversed; assumption.
Qed.
Lemma turns_numbers dec sets c ds : forall xs, Forall2 (turns dec sets None c) (map VNum ds) xs -> xs = map (PNumber c) ds.
Proof.
  induction ds as [|d ds IH]; intros xs F; inversion F as [|? x ? xs' T F']; subst; [reflexivity|]. cbn [map]. f_equal; [|apply IH, F'].
  inversion T as [| | | | |v t n o R|v N| | |]; subst; try reflexivity; [inversion R | contradiction].
Qed.
Lemma to_py_stands dec c vs data : Forall2 (stands dec c) vs data -> map_opt (to_py dec c) vs = Some data.
Proof.
  induction 1 as [|v x vs data S F IH]; [reflexivity|]. cbn [map_opt]. rewrite IH.
  destruct S as [z|zs|s|t d E|n|n|n]; cbn [to_py]; try reflexivity. rewrite E. reflexivity.
Qed.

Section objects.
Variable dec : bytes -> pystr.
Variable enc : pystr -> bytes.
Variable esc : severity -> bool.
Variable set_order : list pystr -> list pystr.
Variable sets : list object_set.
Hypothesis loaded : as_loaded sets.
Hypothesis parses : parsable sets.
Hypothesis order : a_set_order set_order.
Hypothesis typed : Forall (fun s => kept dec enc (dec (os_type s))) sets.
Local Notation sane := (sane dec esc sets).
Local Notation performs := (fold_left (perform dec enc esc set_order)).

Lemma listing_ok st sc o key r l c vs lg : sane st -> from_file o -> a_schema sc -> r = Vector \/ r = Reverse -> rule_for sc (lit key) r -> link_for sc (lit key) l ->
  In (lit key) (map fst (sc_attributes sc)) -> stored enc o (lit key) c vs lg -> calm dec enc esc o (obj_log o) -> calm dec enc esc o lg ->
  Forall (readable dec enc esc sets l) vs ->
  exists xs logs ops, Forall2 (turns dec sets l c) vs xs /\ Forall (op_ok dec enc) ops /\
    listing dec enc esc set_order st sc o key = (performs ops st, (logs, Ok (match r with Reverse => rev xs | _ => xs end))).
Proof.
  intros SA F SC R RF LF K ST C1 C2 RD.
  destruct (getitem_ok dec enc esc set_order sets loaded parses order typed st sc o (lit key) r l c vs lg SA F SC RF LF (or_introl K) ST C1 C2 RD) as (xs & res & ops & T & S & E & O & P).
  apply (shaped_list r xs res R) in S. subst res. unfold listing. destruct (getitem dec enc esc set_order st sc o (lit key)) as [st' [lg' r']]. cbn [fst snd] in E, P. subst r' st'.
  exists xs, (lg' ++ []), ops. auto.
Qed.

Variable maxdims : nat.
Lemma sampled_ok st sc s o key zoned single a cv values data c dims lgd cz zones lgz :
  sane st -> In s sets -> In o (objects_in s) -> a_schema sc ->
  In (lit (text "DIMENSION"), Reverse) (sc_attributes sc) -> ~ In (lit (text "DIMENSION")) (map fst (sc_linkage sc)) ->
  In a (obj_attrs o) -> at_label a = enc (lit key) -> at_value a = Vec cv values -> Forall2 (stands dec cv) values data -> data <> [] ->
  (forall t, In (VText t) values -> exists u, dec t = Str u) \/ (forall t, In (VText t) values -> exists u, dec t = Raw u) ->
  stored enc o (lit (text "DIMENSION")) c (map VNum dims) lgd -> In c integer_codes -> Forall (Z.le 1) dims -> small maxdims data (rev dims) ->
  calm dec enc esc o (obj_log o) -> calm dec enc esc o lgd ->
  (zoned = true ->
     In (lit (text "ZONES"), Vector) (sc_attributes sc) /\ In (lit (text "ZONES"), ToName (lit (text "ZONE"))) (sc_linkage sc) /\
     stored enc o (lit (text "ZONES")) cz zones lgz /\ calm dec enc esc o lgz /\
     Forall (readable dec enc esc sets (Some (ToName (lit (text "ZONE"))))) zones) ->
  exists out, outcome data (rev dims) (if zoned then Some (Z.of_nat (length zones)) else None) out /\
    snd (snd (sampled maxdims dec enc esc set_order st sc o key zoned single)) =
      match out with
      | Some (first :: rest) => Ok (if single then (first, match rest with [] => false | _ => true end) else (Arr (first :: rest), false))
      | _ => Exn
      end.
Proof.
  intros SA Is Io SC RD LD Ia La Va Sv N X ST Ci F S C1 C2 Z.
  pose proof (file_objects sets loaded s o Is Io) as FF.
  pose proof (DlisObjectProofs.objects_in_ok typed_value typed_cast typed_default sets loaded s o Is Io) as (FT & FU & _).
  pose proof (proj1 (Forall_forall _ _) FT a Ia) as Ta. unfold attr_ok in Ta. rewrite Va in Ta. cbn [vals_ok] in Ta.
  pose proof (kinds dec cv values data Ta Sv X) as K.
  assert (In (lit (text "DIMENSION")) (map fst (sc_attributes sc))) as Kd by exact (in_map fst _ _ RD).
  destruct (listing_ok st sc o (text "DIMENSION") Reverse None c (map VNum dims) lgd SA FF SC (or_intror eq_refl)) as (xs & l1 & ops & T & OK & E); try assumption.
  { left. exact RD. }
  { apply Forall_forall. intros v I. apply in_map_iff in I as (z & <- & _). split; [discriminate|]. intros t n R. inversion R. }
  apply turns_numbers in T. subst xs. rewrite <- map_rev in E.
  unfold sampled, attic_get. rewrite (attr_at_in _ _ a FU Ia La). unfold attribute_value. rewrite Va, (to_py_stands dec cv values data Sv). cbn [obind]. rewrite E.
  assert (Forall (Z.le 1) (rev dims)) as Fr by (apply Forall_rev, F).
  destruct zoned.
  - destruct (Z eq_refl) as (RZ & LZ & STZ & CZ & RdZ). clear Z.
    assert (In (lit (text "ZONES")) (map fst (sc_attributes sc))) as Kz by exact (in_map fst _ _ RZ).
    destruct (listing_ok (performs ops st) sc o (text "ZONES") Vector (Some (ToName (lit (text "ZONE")))) cz zones lgz) as (zs & l2 & ops2 & T2 & OK2 & E2); try assumption.
    { apply performs_sane; assumption. }
    { left. reflexivity. }
    { left. exact RZ. }
    rewrite E2. assert (length zs = length zones) as Lz by (clear - T2; induction T2; cbn; congruence). cbn [bind ret snd fst]. rewrite Lz.
    destruct (structured_ok maxdims data c (rev dims) (Some (Z.of_nat (length zones))) single K N Ci Fr S) as (out & O & G).
    exists out. split; [exact O|]. cbn [bind snd fst]. rewrite G. destruct out as [[|first rest]|]; reflexivity.
  - destruct (structured_ok maxdims data c (rev dims) None single K N Ci Fr S) as (out & O & G).
    exists out. split; [exact O|]. cbn [bind snd fst]. rewrite G. destruct out as [[|first rest]|]; reflexivity.
Qed.
Lemma sampled_absent st sc o key zoned single : ~ In (enc (lit key)) (map at_label (obj_attrs o)) ->
  sampled maxdims dec enc esc set_order st sc o key zoned single = (st, ret (Arr [], false)).
Proof. intros N. unfold sampled, attic_get. rewrite (attr_at_out _ _ N). reflexivity. Qed.
End objects.
