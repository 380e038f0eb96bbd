(** Proofs about LisProtocol against SpecLisProtocol. *)
From Verif Require Import Bytes BytesProofs DlisTypes DlisCore Stream DlisRecords SpecTypes TypesProofs SpecIo IoProofs SpecFdata FdataProofs
  LisTypes LisTypesProofs SpecLisTypes LisTypesProofs2 LisProtocol SpecLisProtocol.
Local Open Scope Z_scope.
Ltac Zify.zify_post_hook ::= Z.div_mod_to_equations.

Lemma byte_read b x : lis_byte (b :: x) = Some (b2z b, x).
Proof. unfold lis_byte. change (b :: x) with ([b] ++ x). rewrite (read_be_app 1 [b] x) by reflexivity. rewrite be1. reflexivity. Qed.
Lemma byte_None : lis_byte [] = None. Proof. reflexivity. Qed.
Lemma i16_read b0 b1 x : lis_i16 (b0 :: b1 :: x) = Some (signed 16 (u16 b0 b1), x).
Proof. unfold lis_i16. change (b0 :: b1 :: x) with ([b0; b1] ++ x). rewrite (read_be_app 2 [b0; b1] x) by reflexivity. cbn [obind]. rewrite be2. reflexivity. Qed.
Lemma i32_read b0 b1 b2 b3 x : lis_i32 (b0 :: b1 :: b2 :: b3 :: x) = Some (signed 32 (u32be b0 b1 b2 b3), x).
Proof. unfold lis_i32. change (b0 :: b1 :: b2 :: b3 :: x) with ([b0; b1; b2; b3] ++ x). rewrite (read_be_app 4 [b0; b1; b2; b3] x) by reflexivity. cbn [obind]. rewrite be4. reflexivity. Qed.
Lemma signed16_twos b0 b1 : twos_complement 16 (u16 b0 b1) (signed 16 (u16 b0 b1)).
Proof. apply signed_twos; [lia | apply u16_range]. Qed.
Lemma signed32_twos b0 b1 b2 b3 : twos_complement 32 (u32be b0 b1 b2 b3) (signed 32 (u32be b0 b1 b2 b3)).
Proof. apply signed_twos; [lia | apply u32be_range]. Qed.
Lemma signed8_twos b : twos_complement 8 (b2z b) (signed 8 (b2z b)).
Proof. apply signed_twos; [lia | apply b2z_range]. Qed.

(** ** Values *)
Lemma size_codes rc : lis_sizeof_type rc = match find (fun p => fst p =? rc) lis_code_sizes with Some p => snd p | None => -1 end.
Proof.
  unfold lis_sizeof_type, lis_code_sizes, LIS_I8, LIS_I16, LIS_I32, LIS_F16, LIS_F32, LIS_F32LOW, LIS_F32FIX, LIS_STRING, LIS_BYTE, LIS_MASK.
  cbn [find fst]. rewrite !(Z.eqb_sym _ rc). repeat (destruct (rc =? _); [reflexivity|]). reflexivity.
Qed.
Lemma valid_size_spec size rc : 0 <= size ->
  valid_size size rc = true <-> exists n, In (rc, n) lis_code_sizes /\ (size = 0 \/ n = 0 \/ size = n).
Proof.
  intros Hs. unfold valid_size. rewrite size_codes. split.
  - destruct (find _ lis_code_sizes) as [[c n]|] eqn:F; [|discriminate]. apply find_some in F as [F E]. cbn [fst snd] in *.
    apply Z.eqb_eq in E. subst c. intros V. exists n. split; [exact F|]. destruct (n <? 0) eqn:N; [discriminate|]. lia.
  - intros (n & I & C). cbn [lis_code_sizes In] in I.
    destruct I as [I|[I|[I|[I|[I|[I|[I|[I|[I|[I|[]]]]]]]]]]]; injection I as <- <-;
      cbn [find fst snd lis_code_sizes Z.eqb Pos.eqb Z.ltb Z.compare]; lia.
Qed.

Lemma list_n1 (e : bytes) : len e = 1 -> exists a, e = [a].
Proof. intros L. apply list1. unfold len in L. lia. Qed.

Definition element_of (xs : bytes) (size rc : Z) : res lvalue := lis_element xs size rc.
Lemma element_spec xs size rc n : In (rc, n) lis_code_sizes -> 0 < size -> n = 0 \/ size = n -> size <= len xs ->
  exists v, lis_element xs size rc = Ok v /\ value_bytes rc (firstn (Z.to_nat size) xs) v.
Proof.
  intros I Hs Hn L.
  assert (R : forall k, size = Z.of_nat k -> exists e r, xs = e ++ r /\ length e = k /\ firstn (Z.to_nat size) xs = e).
  { intros k ->. exists (firstn k xs), (skipn k xs). rewrite firstn_skipn, Nat2Z.id. split; [reflexivity|]. split; [|reflexivity].
    rewrite firstn_length. unfold len in L. lia. }
  assert (RD : forall k (f : Z -> Z), size = Z.of_nat k -> exists v r, rd k f xs = Some (v, r) /\ rd k f (firstn (Z.to_nat size) xs) = Some (v, [])).
  { intros k f E. destruct (R k E) as (e & r & -> & Le & ->). exists (f (be e)), r. unfold rd. split.
    - rewrite read_be_app by exact Le. reflexivity.
    - pose proof (read_be_app k e [] Le) as E'. rewrite app_nil_r in E'. rewrite E'. reflexivity. }
  cbn [lis_code_sizes In] in I.
  destruct I as [I|[I|[I|[I|[I|[I|[I|[I|[I|[I|[]]]]]]]]]]]; injection I as <- <-; unfold lis_element; cbn [Z.eqb Pos.eqb LIS_I8 LIS_I16 LIS_I32 LIS_F16 LIS_F32 LIS_F32LOW LIS_F32FIX LIS_STRING LIS_BYTE LIS_MASK].
  - destruct Hn as [?|Hn]; [lia|]. destruct (R 1%nat ltac:(lia)) as (e & r & -> & Le & ->). apply list1 in Le as (a & ->).
    unfold lis_i8. rewrite read_be_app by reflexivity. cbn [obind unchecked rbind]. eexists. split; [reflexivity|].
    rewrite be1. constructor. apply signed8_twos.
  - destruct Hn as [?|Hn]; [lia|]. destruct (R 2%nat ltac:(lia)) as (e & r & -> & Le & ->). apply list2 in Le as (a & b & ->).
    cbn [app]. rewrite i16_read. cbn [unchecked rbind]. eexists. split; [reflexivity|]. constructor. apply signed16_twos.
  - destruct Hn as [?|Hn]; [lia|]. destruct (R 4%nat ltac:(lia)) as (e & r & -> & Le & ->). apply list4 in Le as (a & b & c & d & ->).
    cbn [app]. rewrite i32_read. cbn [unchecked rbind]. eexists. split; [reflexivity|]. constructor. apply signed32_twos.
  - destruct Hn as [?|Hn]; [lia|]. destruct (RD 2%nat (fun v => Flocq.IEEE754.Bits.bits_of_b32 (f16_word v)) ltac:(lia)) as (v & r & E1 & E2).
    unfold lis_f16. unfold rd in E1. rewrite E1. cbn [unchecked rbind]. eexists. split; [reflexivity|]. constructor. exact E2.
  - destruct Hn as [?|Hn]; [lia|]. destruct (RD 4%nat (fun v => Flocq.IEEE754.Bits.bits_of_b32 (f32_word v)) ltac:(lia)) as (v & r & E1 & E2).
    unfold lis_f32. unfold rd in E1. rewrite E1. cbn [unchecked rbind]. eexists. split; [reflexivity|]. constructor. exact E2.
  - destruct Hn as [?|Hn]; [lia|]. destruct (RD 4%nat (fun v => Flocq.IEEE754.Bits.bits_of_b32 (f32low_word v)) ltac:(lia)) as (v & r & E1 & E2).
    unfold lis_f32low. unfold rd in E1. rewrite E1. cbn [unchecked rbind]. eexists. split; [reflexivity|]. constructor. exact E2.
  - destruct Hn as [?|Hn]; [lia|]. destruct (RD 4%nat (fun v => Flocq.IEEE754.Bits.bits_of_b32 (f32fix_word v)) ltac:(lia)) as (v & r & E1 & E2).
    unfold lis_f32fix. unfold rd in E1. rewrite E1. cbn [unchecked rbind]. eexists. split; [reflexivity|]. constructor. exact E2.
  - unfold lis_string. rewrite take_firstn by (unfold len in L; lia). cbn [unchecked rbind]. eexists. split; [reflexivity|].
    constructor. intros E. apply (f_equal (@length byte)) in E. rewrite firstn_length in E. unfold len in L. cbn in E. lia.
  - destruct Hn as [?|Hn]; [lia|]. destruct (R 1%nat ltac:(lia)) as (e & r & -> & Le & ->). apply list1 in Le as (a & ->).
    cbn [app]. rewrite byte_read. cbn [unchecked rbind]. eexists. split; [reflexivity|]. constructor.
  - unfold lis_mask. rewrite take_firstn by (unfold len in L; lia). cbn [unchecked rbind]. eexists. split; [reflexivity|].
    constructor. intros E. apply (f_equal (@length byte)) in E. rewrite firstn_length in E. unfold len in L. cbn in E. lia.
Qed.

Lemma rd_len (k : nat) (f : Z -> Z) e v : rd k f e = Some (v, []) -> length e = k.
Proof. intros E. apply (rd_app k f e v []) in E as [L _]. exact L. Qed.
Lemma value_size rc e v : value_bytes rc e v -> 0 < len e /\ exists n, In (rc, n) lis_code_sizes /\ (n = 0 \/ len e = n).
Proof.
  intros [b z T|b0 b1 z T|b0 b1 b2 b3 z T|e' w R|e' w R|e' w R|e' w R|b|e' N|e' N];
    try (apply (rd_len 2 (fun v => Flocq.IEEE754.Bits.bits_of_b32 (f16_word v))) in R as L);
    try (apply (rd_len 4 (fun v => Flocq.IEEE754.Bits.bits_of_b32 (f32_word v))) in R as L);
    try (apply (rd_len 4 (fun v => Flocq.IEEE754.Bits.bits_of_b32 (f32low_word v))) in R as L);
    try (apply (rd_len 4 (fun v => Flocq.IEEE754.Bits.bits_of_b32 (f32fix_word v))) in R as L);
    (split; [unfold len; try (destruct e'; [congruence|]); cbn [length]; lia | eexists; split; [cbn [lis_code_sizes In]; tauto | unfold len; cbn [length]; lia]]).
Qed.
Lemma value_unique rc e v w : value_bytes rc e v -> value_bytes rc e w -> v = w.
Proof.
  intros V W. destruct V; inversion W; subst; try reflexivity; f_equal; try congruence.
  - eapply (twos_unique 8); eauto; lia.
  - eapply (twos_unique 16); eauto; lia.
  - eapply (twos_unique 32); eauto; lia.
Qed.

(** the check and the element together *)
Definition sized (xs : bytes) (size rc : Z) : res lvalue :=
  if negb (valid_size size rc) then Exn else if left_of xs <? size then Exn
  else if negb (size =? 0) then lis_element xs size rc else Ok LNone.
Lemma sized_ok xs size rc v : 0 <= size -> sized xs size rc = Ok v <->
  exists e rest, xs = e ++ rest /\ sized_value rc size e v /\ len e = size.
Proof.
  intros Hs. unfold sized, left_of. fold (len xs). split.
  - destruct (valid_size size rc) eqn:V; cbn [negb]; [|discriminate]. apply valid_size_spec in V as (n & I & C); [|exact Hs].
    destruct (Z.ltb_spec (len xs) size) as [L|L]; [discriminate|]. destruct (Z.eqb_spec size 0) as [->|N]; cbn [negb].
    + intros E. injection E as <-. exists [], xs. split; [reflexivity|]. split; [econstructor; exact I | reflexivity].
    + intros E. destruct (element_spec xs size rc n I ltac:(lia) ltac:(lia) L) as (w & E' & W). rewrite E in E'. injection E' as <-.
      exists (firstn (Z.to_nat size) xs), (skipn (Z.to_nat size) xs). rewrite firstn_skipn. split; [reflexivity|].
      assert (Lf : len (firstn (Z.to_nat size) xs) = size) by (unfold len in *; rewrite firstn_length; lia).
      split; [|exact Lf]. rewrite <- Lf at 1. constructor. exact W.
  - intros (e & rest & -> & S & L). rewrite len_app. pose proof (len_nonneg rest).
    destruct S as [rc n I|rc e v V].
    + rewrite (proj2 (valid_size_spec 0 rc ltac:(lia))) by (exists n; auto). cbn [negb].
      destruct (Z.ltb_spec (len [] + len rest) 0); [change (len []) with 0 in *; lia|]. reflexivity.
    + destruct (value_size _ _ _ V) as (P & n & I & C).
      rewrite (proj2 (valid_size_spec (len e) rc ltac:(lia))) by (exists n; split; [exact I | lia]). cbn [negb].
      destruct (Z.ltb_spec (len e + len rest) (len e)); [lia|]. replace (len e =? 0) with false by lia. cbn [negb].
      destruct (element_spec (e ++ rest) (len e) rc n I ltac:(lia) ltac:(lia) ltac:(rewrite len_app; lia)) as (w & E & W).
      rewrite E. f_equal. unfold len in W. rewrite Nat2Z.id, firstn_app, Nat.sub_diag, firstn_all in W. cbn [firstn] in W.
      rewrite app_nil_r in W. eapply value_unique; eassumption.
Qed.
Lemma sized_total xs size rc : 0 <= size -> sized xs size rc = Exn \/ exists v, sized xs size rc = Ok v.
Proof.
  intros Hs. unfold sized, left_of. fold (len xs).
  destruct (valid_size size rc) eqn:V; cbn [negb]; [|auto]. apply valid_size_spec in V as (n & I & C); [|exact Hs].
  destruct (Z.ltb_spec (len xs) size) as [L|L]; [auto|]. destruct (Z.eqb_spec size 0) as [->|N]; cbn [negb]; [eauto|].
  destruct (element_spec xs size rc n I ltac:(lia) ltac:(lia) L) as (w & E' & W). eauto.
Qed.

(** ** Entries *)
Lemma entry_eq t s r x : read_entry_block (t :: s :: r :: x) =
  if b2z t >? 16 then Exn else let! v := sized x (b2z s) (b2z r) in Ok (mk_entry (b2z t) (b2z s) (b2z r) v).
Proof.
  unfold read_entry_block. replace (left_of _ <? 3) with false by (unfold left_of; cbn [length]; lia).
  do 3 (rewrite byte_read; cbn [unchecked rbind]). destruct (_ >? 16); [reflexivity|]. unfold sized.
  destruct (negb (valid_size _ _)); [reflexivity|]. destruct (_ <? _); [reflexivity|]. destruct (negb _); reflexivity.
Qed.
Lemma entry_short xs : (length xs < 3)%nat -> read_entry_block xs = Exn.
Proof. intros L. unfold read_entry_block. replace (left_of _ <? 3) with true by (unfold left_of; lia). reflexivity. Qed.

Lemma entry_ok xs en : read_entry_block xs = Ok en <-> exists b rest, xs = b ++ rest /\ entry_bytes b en.
Proof.
  split.
  - destruct xs as [|t [|s [|r x]]]; try (rewrite entry_short by (cbn; lia); discriminate). rewrite entry_eq.
    destruct (b2z t >? 16) eqn:T; [discriminate|]. destruct (sized x (b2z s) (b2z r)) as [v| | |] eqn:S; try discriminate.
    cbn [rbind]. intros E. injection E as <-. pose proof (b2z_range s). apply sized_ok in S as (e & rest & -> & S & L); [|lia].
    exists (t :: s :: r :: e), rest. split; [reflexivity|]. constructor; [lia | exact S].
  - intros (b & rest & -> & [t s r e v T S]). cbn [app]. rewrite entry_eq. replace (b2z t >? 16) with false by lia.
    pose proof (b2z_range s). rewrite (proj2 (sized_ok (e ++ rest) (b2z s) (b2z r) v ltac:(lia))); [reflexivity|].
    exists e, rest. split; [reflexivity|]. split; [exact S|]. inversion S; subst; [reflexivity | congruence].
Qed.
Lemma entry_total xs : read_entry_block xs = Exn \/ exists e, read_entry_block xs = Ok e.
Proof.
  destruct xs as [|t [|s [|r x]]]; try (left; apply entry_short; cbn; lia). rewrite entry_eq.
  destruct (b2z t >? 16); [auto|]. pose proof (b2z_range s). destruct (sized_total x (b2z s) (b2z r) ltac:(lia)) as [-> |(v & ->)]; cbn; eauto.
Qed.
Lemma entry_len b e : entry_bytes b e -> len b = 3 + eb_size e /\ 0 <= eb_size e /\ eb_type e <= 16.
Proof.
  intros [t s r x v T S]. cbn [eb_size eb_type]. rewrite !len_cons. pose proof (b2z_range s).
  assert (len x = b2z s) by (inversion S; subst; [change (len []) with 0|]; congruence). lia.
Qed.

Lemma one_spec v : contains_one v = true <-> is_one v.
Proof.
  unfold is_one. cbn [In]. split.
  - destruct v; cbn [contains_one]; try discriminate; intros E; apply Z.eqb_eq in E; subst; tauto.
  - intros H. repeat (destruct H as [<-|H]; [reflexivity|]). destruct H.
Qed.

(** ** Blocks *)
Ltac explode :=
  repeat match goal with
  | H : length ?l = S _ |- _ => destruct l; [discriminate H | cbn [length] in H; apply eq_add_S in H]
  | H : length ?l = O |- _ => destruct l; [clear H | discriminate H]
  end.
Lemma read_spec_eq m0 m1 m2 m3 v0 v1 v2 v3 v4 v5 o0 o1 o2 o3 o4 o5 o6 o7 u0 u1 u2 u3 a0 a1 a2 a3 f0 f1 s0 s1 p0 p1 lv sa rc t0 t1 t2 t3 t4 rest :
  let xs := m0::m1::m2::m3::v0::v1::v2::v3::v4::v5::o0::o1::o2::o3::o4::o5::o6::o7::u0::u1::u2::u3::a0::a1::a2::a3::f0::f1::s0::s1::p0::p1::lv::sa::rc::t0::t1::t2::t3::t4::rest in
  let sp := mk_spec [m0;m1;m2;m3] [v0;v1;v2;v3;v4;v5] [o0;o1;o2;o3;o4;o5;o6;o7] [u0;u1;u2;u3] (signed 16 (u16 f0 f1)) (signed 16 (u16 s0 s1)) (b2z sa) (b2z rc) in
  read_spec_block0 xs = Ok (sp (Sub0 (b2z a0) (b2z a1) (b2z a2) (b2z a3) (b2z lv))) /\
  read_spec_block1 xs = Ok (sp (Sub1 (signed 32 (u32be a0 a1 a2 a3)) [t0;t1;t2;t3;t4])) /\
  skipn 40 xs = rest.
Proof.
  intros xs sp.
  assert (B : read_spec_block xs = Ok sp).
  { unfold read_spec_block. replace (left_of xs <? 40) with false by (unfold left_of, xs; cbn [length]; lia).
    unfold xs, lis_string. change (Z.to_nat 4) with 4%nat. change (Z.to_nat 6) with 6%nat. change (Z.to_nat 8) with 8%nat.
    cbn [take obind unchecked rbind skipn]. rewrite i16_read. cbn [unchecked rbind]. rewrite i16_read. cbn [unchecked rbind skipn].
    rewrite byte_read. cbn [unchecked rbind]. rewrite byte_read. reflexivity. }
  split; [|split; [|reflexivity]].
  - unfold read_spec_block0. rewrite B. cbn [rbind]. unfold xs. cbn [skipn].
    do 4 (rewrite byte_read; cbn [unchecked rbind skipn]). rewrite byte_read. reflexivity.
  - unfold read_spec_block1. rewrite B. cbn [rbind]. unfold xs. cbn [skipn]. rewrite i32_read. reflexivity.
Qed.
Definition read_block (sub : bool) (xs : bytes) : res spec_block := if sub then read_spec_block1 xs else read_spec_block0 xs.
Lemma block_len sub b sp : block_bytes sub b sp -> length b = 40%nat.
Proof. intros [ ]; rewrite !app_length; cbn [length]; lia. Qed.
Lemma block_read sub b sp rest : block_bytes sub b sp -> read_block sub (b ++ rest) = Ok sp /\ skipn 40 (b ++ rest) = rest.
Proof.
  intros [mn sv od un lt ct cc am f0 f1 s0 s1 p0 p1 lv sa rc tl fn sz H1 H2 H3 H4 H5 T1 T2|
          mn sv od un a0 a1 a2 a3 f0 f1 s0 s1 p0 p1 p2 sa rc ind fn sz co H1 H2 H3 H4 H5 T1 T2 T3]; explode; cbn [app].
  - rewrite (twos_unique 16 _ _ _ ltac:(lia) T1 (signed16_twos f0 f1)), (twos_unique 16 _ _ _ ltac:(lia) T2 (signed16_twos s0 s1)).
    edestruct read_spec_eq as (E & _ & E'). split; [exact E | exact E'].
  - rewrite (twos_unique 16 _ _ _ ltac:(lia) T1 (signed16_twos f0 f1)), (twos_unique 16 _ _ _ ltac:(lia) T2 (signed16_twos s0 s1)),
      (twos_unique 32 _ _ _ ltac:(lia) T3 (signed32_twos a0 a1 a2 a3)).
    edestruct read_spec_eq as (_ & E & E'). split; [exact E | exact E'].
Qed.
Lemma read_spec_short xs : (length xs < 40)%nat -> read_spec_block xs = Exn.
Proof. intros L. unfold read_spec_block. replace (left_of _ <? 40) with true by (unfold left_of; lia). reflexivity. Qed.
Lemma block_cases sub xs : 
  ((length xs < 40)%nat /\ read_block sub xs = Exn) \/
  (exists b rest sp, xs = b ++ rest /\ block_bytes sub b sp).
Proof.
  destruct (Nat.ltb_spec (length xs) 40) as [L|L].
  - left. split; [exact L|]. unfold read_block, read_spec_block0, read_spec_block1. rewrite (read_spec_short xs L). destruct sub; reflexivity.
  - right. exists (firstn 40 xs), (skipn 40 xs).
    assert (L' : length (firstn 40 xs) = 40%nat) by (rewrite firstn_length; lia).
    enough (X : exists sp, block_bytes sub (firstn 40 xs) sp) by
      (destruct X as (sp & X); exists sp; split; [symmetry; apply firstn_skipn | exact X]).
    generalize dependent (firstn 40 xs). intros b Lb. clear xs L. explode. destruct sub.
    + eexists.
      match goal with |- block_bytes true [?m0;?m1;?m2;?m3;?v0;?v1;?v2;?v3;?v4;?v5;?o0;?o1;?o2;?o3;?o4;?o5;?o6;?o7;?u0;?u1;?u2;?u3;?a0;?a1;?a2;?a3;?f0;?f1;?s0;?s1;?p0;?p1;?lv;?sa;?rc;?t0;?t1;?t2;?t3;?t4] _ =>
        exact (bb1 [m0;m1;m2;m3] [v0;v1;v2;v3;v4;v5] [o0;o1;o2;o3;o4;o5;o6;o7] [u0;u1;u2;u3] a0 a1 a2 a3 f0 f1 s0 s1 p0 p1 lv sa rc [t0;t1;t2;t3;t4] _ _ _
          eq_refl eq_refl eq_refl eq_refl eq_refl (signed16_twos f0 f1) (signed16_twos s0 s1) (signed32_twos a0 a1 a2 a3)) end.
    + eexists.
      match goal with |- block_bytes false [?m0;?m1;?m2;?m3;?v0;?v1;?v2;?v3;?v4;?v5;?o0;?o1;?o2;?o3;?o4;?o5;?o6;?o7;?u0;?u1;?u2;?u3;?a0;?a1;?a2;?a3;?f0;?f1;?s0;?s1;?p0;?p1;?lv;?sa;?rc;?t0;?t1;?t2;?t3;?t4] _ =>
        exact (bb0 [m0;m1;m2;m3] [v0;v1;v2;v3;v4;v5] [o0;o1;o2;o3;o4;o5;o6;o7] [u0;u1;u2;u3] a0 a1 a2 a3 f0 f1 s0 s1 p0 p1 lv sa rc [t0;t1;t2;t3;t4] _ _
          eq_refl eq_refl eq_refl eq_refl eq_refl (signed16_twos f0 f1) (signed16_twos s0 s1)) end.
Qed.
