(** Proofs about Parameter, Computation and Measurement (Dimensional.v). *)
From Verif Require Import Bytes BytesProofs Stream PyBase DlisTypes DlisCore DlisRecords CommonPy DlisStore SpecDlisStore DlisStoreProofs DlisStoreProofs2 DlisStoreProofs3
  DlisStoreProofs4 DlisStoreProofs5 DlisSchema DlisObject SpecDlisObject DlisObjectProofs DlisObjectProofs2 DlisObjectProofs3 Dimensional SpecDimensional DimensionalProofs DimensionalProofs2.
From Coq Require Import ZifyBool ZifyNat.
Local Open Scope Z_scope.

(** ** structured *)
Lemma memory_pos data v : one_kind data -> In v data -> 1 <= memory v.
Proof. intros K. destruct K; intros I; apply in_map_iff in I as (x & <- & _); cbn [memory length]; lia. Qed.
Lemma integers c zs : In c integer_codes -> dims_of (map (PNumber c) zs) = Some zs.
Proof.
  intros I. unfold dims_of. rewrite (items_of_map _ (PNumber c) (fun z => z)); [rewrite map_id; reflexivity|].
  intros x. cbn in I. repeat (destruct I as [<-|I]; [reflexivity|]). destruct I.
Qed.
Section structured.
Variable maxdims : nat.
Lemma structured_ok data c shape count single : one_kind data -> data <> [] -> In c integer_codes -> Forall (Z.le 1) shape -> small maxdims data shape ->
  exists out, outcome data shape count out /\
    structured maxdims (Some data) (map (PNumber c) shape) count single =
      match out with
      | Some (first :: rest) => Some (if single then (first, match rest with [] => false | _ => true end) else (Arr (first :: rest), false))
      | _ => None
      end.
Proof.
  intros K N C F S. unfold structured. rewrite (integers c shape C).
  assert (forall sh, sh <> [] -> Forall (Z.le 1) sh -> (volume sh | Z.of_nat (length data)) -> (volume sh = volume shape) -> (length sh <= Nat.max 1 (length shape))%nat ->
    exists first rest, samples_of data sh (first :: rest) /\ sampling maxdims (Some data) sh single =
      Some (if single then (first, match rest with [] => false | _ => true end) else (Arr (first :: rest), false))) as G.
  { intros sh Ns Fs D E L. assert (exists r, sampling maxdims (Some data) sh single = Some r) as [r R].
    { destruct S as (M & S). rewrite <- E in S. apply sampling_exists; try assumption. pose proof (inner_length sh). lia. }
    rewrite R. destruct (sampling_array maxdims data sh single r K N Fs D R) as (samples & Sm & Nn & Er). destruct samples as [|first rest]; [contradiction|].
    exists first, rest. split; [exact Sm|]. rewrite <- Er. destruct single; [|reflexivity]. cbn [hd_error obind]. destruct rest; reflexivity. }
  destruct shape as [|s0 shape'].
  - cbn [obind]. destruct (validshape (Some data) [] count) as [s|] eqn:V.
    + apply validshape_inferred in V as [-> V]; [|exact N]. cbn [obind].
      destruct (G [1]) as (first & rest & Sm & E); [discriminate | repeat constructor; lia | apply Z.divide_1_l | reflexivity | cbn; lia|].
      exists (Some (first :: rest)). split; [apply sampled_by_count; auto | exact E].
    + exists None. split; [|reflexivity]. assert (forall s, validshape (Some data) [] count <> Some s) as V' by (intros s; congruence).
      apply refused_by_count; [reflexivity| |]; intros X; apply (V' [1]); apply validshape_inferred; auto.
  - assert (volume (s0 :: shape') < 2 ^ 63) as B.
    { destruct S as (_ & w & Fm & B). destruct data as [|v data]; [contradiction|]. inversion Fm as [|? ? M _]; subst. cbn beta in M.
      pose proof (memory_pos (v :: data) v K (or_introl eq_refl)). pose proof (volume_pos _ F). nia. }
    pose proof (fun s => validshape_given data (s0 :: shape') count s N ltac:(discriminate) F B) as V.
    destruct (validshape (Some data) (s0 :: shape') count) as [s|] eqn:E.
    + destruct (proj1 (V s) eq_refl) as [-> D]. cbn [obind].
      destruct (G (s0 :: shape')) as (first & rest & Sm & Es); [discriminate | exact F | exact D | reflexivity | lia|].
      exists (Some (first :: rest)). split; [apply sampled_by_shape; [discriminate | exact D | exact Sm] | exact Es].
    + exists None. split; [|reflexivity]. apply refused_by_shape; [discriminate|]. intros D. pose proof (proj2 (V (s0 :: shape')) (conj eq_refl D)). discriminate.
Qed.
Lemma structured_empty data dims count single : data = None \/ data = Some [] -> structured maxdims data dims count single = Some (Arr [], false).
Proof.
  intros [-> | ->]; unfold structured; destruct (dims_of dims) as [shape|]; reflexivity.
Qed.
End structured.

(** ** Values of one code are of one kind *)
Definition tag (v : value) : nat :=
  match v with
  | VNum _ => 0 | VNums [_; _] => 2 | VNums [_; _; _] => 3 | VNums _ => 9
  | VText _ => 4 | VTime _ => 5 | VName _ => 6 | VRef _ => 7 | VAttr _ => 8
  end%nat.
Definition code_tag (c : Z) : nat :=
  match c with
  | 3 | 8 | 10 | 11 => 2%nat | 4 | 9 => 3%nat | 19 | 20 | 27 => 4%nat | 21 => 5%nat | 23 => 6%nat | 24 => 7%nat | 25 => 8%nat | _ => 0%nat
  end.
Definition typed_value (c : Z) (v : value) : Prop := tag v = code_tag c.
Lemma typed_cast c xs v r : cast_value c xs = Some (v, r) -> typed_value c v.
Proof.
  unfold cast_value. intros H. destruct c as [|c|c]; [discriminate H| |discriminate H].
  do 5 (try (destruct c as [c|c|])); try discriminate H; unfold num, num2, num3, str in H;
    repeat match type of H with obind ?m _ = _ => destruct m as [[? ?]|]; cbn [obind] in H; [|discriminate H]
      | context [let '(_, _) := ?p in _] => destruct p end;
    match type of H with Some (?a, _) = Some (?b, _) => assert (EV : b = a) by congruence; rewrite EV end; reflexivity.
Qed.
Lemma typed_default c : typed_value c (default_value c).
Proof.
  destruct (Z_lt_dec c 1) as [L|L]; [destruct c; try lia; reflexivity|]. destruct (Z_lt_dec 27 c) as [G|G].
  - unfold typed_value, default_value, code_tag. destruct c as [|c|c]; try lia. do 5 (try (destruct c as [c|c|])); try reflexivity; lia.
  - assert (C : In c (map Z.of_nat (seq 1 27))) by (apply in_map_iff; exists (Z.to_nat c); rewrite in_seq; lia).
    cbn [map seq In] in C. repeat (destruct C as [<-|C]; [vm_compute; reflexivity|]). destruct C.
Qed.
Lemma stands_maps dec c (g : pyval -> Prop) vs data : Forall2 (stands dec c) vs data -> (forall v x, In v vs -> stands dec c v x -> g x) -> Forall g data.
Proof. induction 1 as [|v x vs data S F IH]; intros H; constructor; [apply (H v); [left; reflexivity | exact S] | apply IH; intros; eapply H; [right; eassumption | assumption]]. Qed.
Lemma as_map {A} (h : A -> pyval) data : Forall (fun x => exists a, x = h a) data -> exists l, data = map h l.
Proof. induction 1 as [|x data [a ->] F [l ->]]; [exists []; reflexivity | exists (a :: l); reflexivity]. Qed.
Lemma kinds dec c vs data : Forall (typed_value c) vs -> Forall2 (stands dec c) vs data ->
  ((forall s, In (VText s) vs -> exists u, dec s = Str u) \/ (forall s, In (VText s) vs -> exists u, dec s = Raw u)) -> one_kind data.
Proof.
  intros T S X. pose proof (proj1 (Forall_forall _ _) T) as T'. unfold typed_value in T'.
  assert (forall g : pyval -> Prop, (forall v x, In v vs -> tag v = code_tag c -> stands dec c v x -> g x) -> Forall g data) as G.
  { intros g H. apply (stands_maps dec c g vs data S). intros v x I. apply H; auto. }
  destruct (code_tag c) as [|[|[|[|[|[|[|[|[|n]]]]]]]]] eqn:C.
  - destruct (as_map (PNumber c) data) as [l ->]; [|constructor]. apply G. intros v x _ Tv Sv. destruct Sv as [z|[|a [|b [|d [|]]]]|s|t d E|n|n|n]; try discriminate Tv. eexists; reflexivity.
  - exfalso. unfold code_tag in C. destruct c as [|c|c]; try discriminate C. do 5 (try (destruct c as [c|c|])); discriminate C.
  - destruct (as_map (fun z : Z * Z => PNumbers c [fst z; snd z]) data) as [l ->].
    { apply G. intros v x _ Tv Sv. destruct Sv as [z|[|a [|b [|d [|]]]]|s|t d E|n|n|n]; try discriminate Tv. exists (a, b). reflexivity. }
    assert (c = 3 \/ c = 8 \/ c = 10 \/ c = 11) as Cs. { unfold code_tag in C. destruct c as [|c|c]; try discriminate C. do 5 (try (destruct c as [c|c|])); try discriminate C; tauto. }
    destruct Cs as [->|[->|Cs]]; [apply pairs; auto | apply pairs; auto | apply complexes; exact Cs].
  - destruct (as_map (fun z : Z * Z * Z => PNumbers c [fst (fst z); snd (fst z); snd z]) data) as [l ->].
    { apply G. intros v x _ Tv Sv. destruct Sv as [z|[|a [|b [|d [|]]]]|s|t d E|n|n|n]; try discriminate Tv. exists (a, b, d). reflexivity. }
    apply triples. unfold code_tag in C. destruct c as [|c|c]; try discriminate C. do 5 (try (destruct c as [c|c|])); try discriminate C; tauto.
  - destruct X as [X|X].
    + destruct (as_map (fun u => PText (Str u)) data) as [l ->]; [|constructor]. apply G. intros v x I Tv Sv. destruct Sv as [z|[|a [|b [|d [|]]]]|s|t d E|n|n|n]; try discriminate Tv.
      destruct (X s I) as [u ->]. exists u. reflexivity.
    + destruct (as_map (fun u => PText (Raw u)) data) as [l ->]; [|constructor]. apply G. intros v x I Tv Sv. destruct Sv as [z|[|a [|b [|d [|]]]]|s|t d E|n|n|n]; try discriminate Tv.
      destruct (X s I) as [u ->]. exists u. reflexivity.
  - destruct (as_map PTime data) as [l ->]; [|constructor]. apply G. intros v x I Tv Sv. destruct Sv as [z|[|a [|b [|d [|]]]]|s|t d E|n|n|n]; try discriminate Tv. eexists; reflexivity.
  - destruct (as_map PName data) as [l ->]; [|constructor]. apply G. intros v x I Tv Sv. destruct Sv as [z|[|a [|b [|d [|]]]]|s|t d E|n|n|n]; try discriminate Tv. eexists; reflexivity.
  - destruct (as_map PRef data) as [l ->]; [|constructor]. apply G. intros v x I Tv Sv. destruct Sv as [z|[|a [|b [|d [|]]]]|s|t d E|n|n|n]; try discriminate Tv. eexists; reflexivity.
  - destruct (as_map PAttr data) as [l ->]; [|constructor]. apply G. intros v x I Tv Sv. destruct Sv as [z|[|a [|b [|d [|]]]]|s|t d E|n|n|n]; try discriminate Tv. eexists; reflexivity.
  - exfalso. unfold code_tag in C. destruct c as [|c|c]; try discriminate C. do 5 (try (destruct c as [c|c|])); discriminate C.
Qed.
