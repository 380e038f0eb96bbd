(** Proofs about lis_packf (LisTypes) against SpecLisTypes. *)
From Verif Require Import Bytes BytesProofs DlisTypes DlisCore SpecTypes TypesProofs CoreProofs2 SpecFdata FdataProofs
  LisTypes LisTypesProofs SpecLisTypes.
From Coq Require Import Lia ZArith.
Local Open Scope Z_scope.

Section rd.
  Context {A : Type} (n : nat) (f : Z -> A).
  Definition rd (xs : bytes) : option (A * bytes) := do (v, r) <- read_be n xs; Some (f v, r).
  Lemma rd_app e v rest : rd e = Some (v, []) -> length e = n /\ rd (e ++ rest) = Some (v, rest).
  Proof.
    unfold rd. destruct (read_be n e) as [[u r]|] eqn:E; cbn [obind]; [|discriminate]. intros H. injection H as <- ->.
    apply read_be_Some in E as (e' & -> & L & ->). rewrite app_nil_r. split; [exact L|]. rewrite read_be_app by exact L. reflexivity.
  Qed.
  Lemma rd_full xs : match rd xs with
    | Some (v, rest) => exists e, xs = e ++ rest /\ length e = n /\ rd e = Some (v, [])
    | None => (length xs < n)%nat end.
  Proof.
    unfold rd. destruct (read_be n xs) as [[u r]|] eqn:E; cbn [obind].
    - apply read_be_Some in E as (e' & -> & L & ->). exists e'. split; [reflexivity|]. split; [exact L|].
      rewrite <- (app_nil_r e') at 1. rewrite read_be_app by exact L. reflexivity.
    - apply read_be_None. exact E.
  Qed.
End rd.

Lemma list1 {A} (l : list A) : length l = 1%nat -> exists a, l = [a].
Proof. destruct l as [|a [|]]; try discriminate. eauto. Qed.
Lemma list2 {A} (l : list A) : length l = 2%nat -> exists a b, l = [a; b].
Proof. destruct l as [|a [|b [|]]]; try discriminate. eauto. Qed.
Lemma list4 {A} (l : list A) : length l = 4%nat -> exists a b c d, l = [a; b; c; d].
Proof. destruct l as [|a [|b [|c [|d [|]]]]]; try discriminate. repeat eexists. Qed.

Lemma native_byte b : native 1 (b2z b) = [b].
Proof. symmetry. apply number_native. split; [reflexivity|]. cbn [le length]. pose proof (b2z_range b). change (256 ^ Z.of_nat 1) with 256. lia. Qed.

Lemma read_be_rd n xs : read_be n xs = rd n (fun v => v) xs.
Proof. unfold rd. destruct (read_be n xs) as [[]|]; reflexivity. Qed.

Lemma native_app c e w rest : lis_native c e w -> lis_interpret c (e ++ rest) = Some (Some (w, rest)).
Proof.
  destruct lis_ints as (I8 & I16 & I32 & IB).
  intros [b z w' T N|b0 b1 z w' T N|b0 b1 b2 b3 z w' T N|b|e' v w' R N|e' v w' R N|e' v w' R N|e' v w' R N];
    try (apply number_native in N as ->); unfold lis_interpret.
  - cbn [app]. rewrite (I8 _ _ _ T). reflexivity.
  - cbn [app]. rewrite (I16 _ _ _ _ T). reflexivity.
  - cbn [app]. rewrite (I32 _ _ _ _ _ _ T). reflexivity.
  - cbn [app]. rewrite IB. cbn [obind]. rewrite native_byte. reflexivity.
  - apply (rd_app 2 (fun v => Flocq.IEEE754.Bits.bits_of_b32 (f16_word v)) _ _ rest) in R as [_ R].
    unfold rd in R. unfold lis_f16. rewrite R. reflexivity.
  - apply (rd_app 4 (fun v => Flocq.IEEE754.Bits.bits_of_b32 (f32_word v)) _ _ rest) in R as [_ R].
    unfold rd in R. unfold lis_f32. rewrite R. reflexivity.
  - apply (rd_app 4 (fun v => Flocq.IEEE754.Bits.bits_of_b32 (f32low_word v)) _ _ rest) in R as [_ R].
    unfold rd in R. unfold lis_f32low. rewrite R. reflexivity.
  - apply (rd_app 4 (fun v => Flocq.IEEE754.Bits.bits_of_b32 (f32fix_word v)) _ _ rest) in R as [_ R].
    unfold rd in R. unfold lis_f32fix. rewrite R. reflexivity.
Qed.

Lemma native_size c e w : lis_native c e w -> lis_format c (length e) (length w).
Proof.
  intros [b z w' T N|b0 b1 z w' T N|b0 b1 b2 b3 z w' T N|b|e' v w' R N|e' v w' R N|e' v w' R N|e' v w' R N];
    try (destruct N as [L _]; rewrite L);
    [ | | | | apply (rd_app 2 (fun v => Flocq.IEEE754.Bits.bits_of_b32 (f16_word v)) _ _ []) in R as [R _]
    | apply (rd_app 4 (fun v => Flocq.IEEE754.Bits.bits_of_b32 (f32_word v)) _ _ []) in R as [R _]
    | apply (rd_app 4 (fun v => Flocq.IEEE754.Bits.bits_of_b32 (f32low_word v)) _ _ []) in R as [R _]
    | apply (rd_app 4 (fun v => Flocq.IEEE754.Bits.bits_of_b32 (f32fix_word v)) _ _ []) in R as [R _] ];
    try rewrite R; eexists; cbn [length In lis_formats]; eauto 12.
Qed.

Lemma known_char c : (exists n m, lis_format c n m) <-> In c (map (fun x => snd (fst (fst x))) lis_formats).
Proof.
  split.
  - intros (n & m & rc & H). apply in_map_iff. exists (rc, c, n, m). split; [reflexivity | exact H].
  - intros H. apply in_map_iff in H as ([[[rc c'] n] m] & E & H). cbn in E. subst c'. exists n, m, rc. exact H.
Qed.
Lemma format_unique c n m n' m' : lis_format c n m -> lis_format c n' m' -> n = n' /\ m = m'.
Proof.
  intros [rc H] [rc' H'].
  cbn [lis_formats In] in H.
  repeat (destruct H as [H|H]; [injection H as <- <- <- <-; cbn [lis_formats In] in H';
    repeat (destruct H' as [H'|H']; [try discriminate H'; injection H' as <- <- <-; split; reflexivity|]); destruct H'|]).
  destruct H.
Qed.

(** every call of the interpreter: a whole sample, a cut sample or an unknown character *)
Lemma interpret_cases c src :
  match lis_interpret c src with
  | Some (Some (w, rest)) => exists e, src = e ++ rest /\ lis_native c e w
  | Some None => exists n m, lis_format c n m /\ (length src < n)%nat
  | None => forall n m, ~ lis_format c n m
  end.
Proof.
  destruct (in_dec Byte.byte_eq_dec c (map (fun x => snd (fst (fst x))) lis_formats)) as [K|K].
  - cbn [map lis_formats fst snd In] in K.
    repeat (destruct K as [<-|K]); [..|destruct K]; unfold lis_interpret.
    + pose proof (rd_full 1 (signed 8) src) as R. unfold rd in R. unfold lis_i8.
      destruct (do (u, r) <- read_be 1 src; Some (signed 8 u, r)) as [[v rest]|]; cbn [obind].
      * destruct R as (e & -> & L & R). exists e. split; [reflexivity|]. destruct (list1 e L) as [b ->].
        rewrite (read1 (signed 8)) in R. injection R as <-.
        eapply ln_i8; [apply signed_twos; [lia | pose proof (b2z_range b); plia] | apply number_native; reflexivity].
      * exists 1%nat, 1%nat. split; [exists 56; cbn; tauto | exact R].
    + pose proof (rd_full 2 (signed 16) src) as R. unfold rd in R. unfold lis_i16.
      destruct (do (u, r) <- read_be 2 src; Some (signed 16 u, r)) as [[v rest]|]; cbn [obind].
      * destruct R as (e & -> & L & R). exists e. split; [reflexivity|]. destruct (list2 e L) as (b & b' & ->).
        rewrite (read2 (signed 16)) in R. injection R as <-.
        eapply ln_i16; [apply signed_twos; [lia | pose proof (u16_range b b'); plia] | apply number_native; reflexivity].
      * exists 2%nat, 2%nat. split; [exists 79; cbn; tauto | exact R].
    + pose proof (rd_full 4 (signed 32) src) as R. unfold rd in R. unfold lis_i32.
      destruct (do (u, r) <- read_be 4 src; Some (signed 32 u, r)) as [[v rest]|]; cbn [obind].
      * destruct R as (e & -> & L & R). exists e. split; [reflexivity|]. destruct (list4 e L) as (b0 & b1 & b2 & b3 & ->).
        rewrite (read4 (signed 32)) in R. injection R as <-.
        eapply ln_i32; [apply signed_twos; [lia | apply u32be_range] | apply number_native; reflexivity].
      * exists 4%nat, 4%nat. split; [exists 73; cbn; tauto | exact R].
    + pose proof (rd_full 2 (fun v => Flocq.IEEE754.Bits.bits_of_b32 (f16_word v)) src) as R. unfold rd in R. fold (lis_f16 src) in R.
      destruct (lis_f16 src) as [[v rest]|]; cbn [obind].
      * destruct R as (e & -> & L & R). exists e. split; [reflexivity|]. eapply ln_f16; [exact R | apply number_native; reflexivity].
      * exists 2%nat, 4%nat. split; [exists 49; cbn; tauto | exact R].
    + pose proof (rd_full 4 (fun v => Flocq.IEEE754.Bits.bits_of_b32 (f32_word v)) src) as R. unfold rd in R. fold (lis_f32 src) in R.
      destruct (lis_f32 src) as [[v rest]|]; cbn [obind].
      * destruct R as (e & -> & L & R). exists e. split; [reflexivity|]. eapply ln_f32; [exact R | apply number_native; reflexivity].
      * exists 4%nat, 4%nat. split; [exists 68; cbn; tauto | exact R].
    + pose proof (rd_full 4 (fun v => Flocq.IEEE754.Bits.bits_of_b32 (f32low_word v)) src) as R. unfold rd in R. fold (lis_f32low src) in R.
      destruct (lis_f32low src) as [[v rest]|]; cbn [obind].
      * destruct R as (e & -> & L & R). exists e. split; [reflexivity|]. eapply ln_f32low; [exact R | apply number_native; reflexivity].
      * exists 4%nat, 4%nat. split; [exists 50; cbn; tauto | exact R].
    + pose proof (rd_full 4 (fun v => Flocq.IEEE754.Bits.bits_of_b32 (f32fix_word v)) src) as R. unfold rd in R. fold (lis_f32fix src) in R.
      destruct (lis_f32fix src) as [[v rest]|]; cbn [obind].
      * destruct R as (e & -> & L & R). exists e. split; [reflexivity|]. eapply ln_f32fix; [exact R | apply number_native; reflexivity].
      * exists 4%nat, 4%nat. split; [exists 70; cbn; tauto | exact R].
    + unfold lis_byte. rewrite read_be_rd. pose proof (rd_full 1 (fun v => v) src) as R.
      destruct (rd 1 (fun v => v) src) as [[v rest]|]; cbn [obind].
      * destruct R as (e & -> & L & R). exists e. split; [reflexivity|]. destruct (list1 e L) as [b ->].
        unfold rd in R. rewrite (read1 (fun v => v)) in R. injection R as <-. rewrite native_byte. apply ln_byte.
      * exists 1%nat, 1%nat. split; [exists 66; cbn; tauto | exact R].
  - assert (lis_interpret c src = None) as ->.
    { revert K. unfold lis_interpret. destruct c; try reflexivity; intros K; exfalso; apply K; cbn; tauto. }
    intros n m F. apply K. apply known_char. exists n, m. exact F.
Qed.

(** [lis_run_fmt], completely described *)
Lemma run_values f e w rest : lis_natives f e w -> lis_run_fmt f (e ++ rest) = LOk w rest.
Proof.
  intros V. revert rest. induction V as [|c e w f e' w' H V IH]; intros rest; [reflexivity|].
  cbn [lis_run_fmt]. rewrite <- app_assoc, (native_app _ _ _ _ H), IH. reflexivity.
Qed.
Lemma run_cases f src :
  match lis_run_fmt f src with
  | LOk w rest => exists e, src = e ++ rest /\ lis_natives f e w
  | LOob => exists f1 c f2 e w t n m, f = f1 ++ c :: f2 /\ src = e ++ t /\ lis_natives f1 e w /\
              lis_format c n m /\ (length t < n)%nat
  | LErr => exists f1 c f2 e w t, f = f1 ++ c :: f2 /\ src = e ++ t /\ lis_natives f1 e w /\
              forall n m, ~ lis_format c n m
  end.
Proof.
  revert src. induction f as [|c f IH]; intros src; cbn [lis_run_fmt].
  { exists []. split; [reflexivity | constructor]. }
  pose proof (interpret_cases c src) as I. destruct (lis_interpret c src) as [[[w rest]|]|].
  - destruct I as (e & -> & V). specialize (IH rest). destruct (lis_run_fmt f rest) as [| |w' rest'].
    + destruct IH as (f1 & c' & f2 & e' & w' & t & n & m & -> & -> & V' & F & L).
      exists (c :: f1), c', f2, (e ++ e'), (w ++ w'), t, n, m. rewrite app_assoc. repeat split; try assumption. constructor; assumption.
    + destruct IH as (f1 & c' & f2 & e' & w' & t & -> & -> & V' & F).
      exists (c :: f1), c', f2, (e ++ e'), (w ++ w'), t. rewrite app_assoc. repeat split; try assumption. constructor; assumption.
    + destruct IH as (e' & -> & V'). exists (e ++ e'). rewrite app_assoc. split; [reflexivity | constructor; assumption].
  - destruct I as (n & m & F & L). exists [], c, f, [], [], src, n, m. repeat split; try assumption. constructor.
  - exists [], c, f, [], [], src. repeat split; try assumption. constructor.
Qed.

Lemma pack_values f e w rest : lis_natives f e w ->
  lis_packf f (e ++ rest) = PackOk w /\
  lis_packflen f (e ++ rest) = LenOk (Z.of_nat (length e)) (Z.of_nat (length w)).
Proof.
  intros V. unfold lis_packf, lis_packflen. rewrite (run_values _ _ _ _ V). split; [reflexivity|]. f_equal. rewrite app_length. lia.
Qed.
Lemma pack_exact f src :
  match lis_packf f src with
  | PackOk w => exists e rest, src = e ++ rest /\ lis_natives f e w
  | PackOob => exists f1 c f2 e w t n m, f = f1 ++ c :: f2 /\ src = e ++ t /\ lis_natives f1 e w /\
              lis_format c n m /\ (length t < n)%nat
  | PackErr => exists f1 c f2 e w t, f = f1 ++ c :: f2 /\ src = e ++ t /\ lis_natives f1 e w /\
              forall n m, ~ lis_format c n m
  end.
Proof.
  unfold lis_packf. pose proof (run_cases f src) as R. destruct (lis_run_fmt f src) as [| |w rest]; try exact R.
  destruct R as (e & R). exists e, rest. exact R.
Qed.
Lemma pack_sizes f n m : Forall2 (fun c p => lis_format c (fst p) (snd p)) f (combine n m) -> length n = length m ->
  forall src, (list_sum n <= length src)%nat ->
  lis_packflen f src = LenOk (Z.of_nat (list_sum n)) (Z.of_nat (list_sum m)).
Proof.
  intros F L src Ls. unfold lis_packflen.
  cut (exists w rest, lis_run_fmt f src = LOk w rest /\ length src = (list_sum n + length rest)%nat /\ length w = list_sum m).
  { intros (w & rest & -> & L1 & L2). f_equal; lia. }
  revert n m F L src Ls. induction f as [|c f IH]; intros n m F L src Ls.
  - inversion F as [E|]. destruct n as [|n0 n], m as [|m0 m]; try discriminate.
    exists [], src. repeat split; reflexivity.
  - destruct n as [|n0 n], m as [|m0 m]; try discriminate; [inversion F|]. cbn [combine] in F.
    inversion F as [|? ? ? ? F1 F2]; subst. cbn [fst snd] in F1. cbn [list_sum fold_right] in *. fold (list_sum n) in *. fold (list_sum m) in *.
    cbn [lis_run_fmt]. pose proof (interpret_cases c src) as I. destruct (lis_interpret c src) as [[[w rest]|]|].
    + destruct I as (e & -> & V). destruct (format_unique _ _ _ _ _ F1 (native_size _ _ _ V)) as [-> ->].
      rewrite app_length in Ls. destruct (IH n m F2 ltac:(injection L; auto) rest ltac:(lia)) as (w' & rest' & -> & L1 & L2).
      exists (w ++ w'), rest'. rewrite !app_length. repeat split; lia.
    + destruct I as (n' & m' & F' & L'). destruct (format_unique _ _ _ _ _ F1 F') as [-> ->]. lia.
    + destruct (I _ _ F1).
Qed.

Lemma sizeof_table :
  (forall rc c n m, In (rc, c, n, m) lis_formats -> lis_sizeof_type rc = Z.of_nat n) /\
  lis_sizeof_type 65 = 0 /\ lis_sizeof_type 77 = 0 /\
  (forall rc, (forall c n m, ~ In (rc, c, n, m) lis_formats) -> rc <> 65 -> rc <> 77 -> lis_sizeof_type rc = -1).
Proof.
  split; [|split; [reflexivity | split; [reflexivity|]]].
  - intros rc c n m H. cbn [lis_formats In] in H. repeat (destruct H as [H|H]; [injection H as <- <- <- <-; reflexivity|]). destruct H.
  - intros rc H N1 N2. unfold lis_sizeof_type, LIS_I8, LIS_I16, LIS_I32, LIS_F16, LIS_F32, LIS_F32LOW, LIS_F32FIX, LIS_STRING, LIS_BYTE, LIS_MASK.
    repeat match goal with |- context [rc =? ?k] => destruct (Z.eqb_spec rc k) as [->|] end; try congruence;
      exfalso; eapply H; cbn [lis_formats In]; eauto 12.
Qed.
