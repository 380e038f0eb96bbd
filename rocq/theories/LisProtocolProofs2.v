(** Proofs about whole LIS79 records (LisProtocol) against SpecLisProtocol. *)
From Verif Require Import Bytes BytesProofs DlisTypes DlisCore Stream DlisRecords SpecTypes TypesProofs SpecIo IoProofs
  LisTypes LisProtocol LisIoProofs SpecLisProtocol LisProtocolProofs.
Local Open Scope Z_scope.
Ltac Zify.zify_post_hook ::= Z.div_mod_to_equations.

(** fails with an exception or succeeds; nothing else *)
Definition safe {A} (r : res A) : Prop := r = Exn \/ exists a, r = Ok a.

(** ** Format specifications *)
Lemma skip_entry b e x : entry_bytes b e -> skipn (Z.to_nat (3 + eb_size e)) (b ++ x) = x.
Proof.
  intros E. apply entry_len in E as (L & _). rewrite <- L. unfold len. rewrite Nat2Z.id. apply skipn_app_len.
Qed.
Lemma entries_inv b es : entries_bytes b es -> exists b1 e1 b', b = b1 ++ b' /\ entry_bytes b1 e1 /\ hd_error es = Some e1.
Proof. intros [b1 e1 H T|b1 e1 b' es' H T R]; [exists b1, e1, [] | exists b1, e1, b']; rewrite ?app_nil_r; auto. Qed.

Definition sub_of (sub0 : Z) (es : list entry_block) : Z :=
  if existsb (fun e => (eb_type e =? 16) && contains_one (eb_value e)) es then 1 else sub0.
Lemma entries_parse b es : entries_bytes b es -> forall fuel sub rest, (length b < fuel)%nat ->
  parse_entries fuel sub (b ++ rest) = Ok (es, sub_of sub es, rest).
Proof.
  induction 1 as [b e H T|b e b' es H T R IH]; intros fuel sub rest F; (destruct fuel as [|fuel]; [lia|]); cbn [parse_entries].
  - rewrite (proj2 (entry_ok (b ++ rest) e)) by eauto. cbn [rbind]. rewrite T. cbn [Z.eqb]. unfold sub_of. cbn [existsb]. rewrite T.
    cbn [Z.eqb andb orb]. rewrite skip_entry by exact H. reflexivity.
  - rewrite <- app_assoc. rewrite (proj2 (entry_ok (b ++ b' ++ rest) e)) by eauto. cbn [rbind].
    replace (eb_type e =? 0) with false by lia. rewrite skip_entry by exact H.
    pose proof (entry_len _ _ H) as (L & L0 & _). rewrite IH by (rewrite app_length in F; unfold len in L; lia). cbn [rbind].
    unfold sub_of. cbn [existsb]. destruct ((eb_type e =? 16) && _); cbn [orb]; [|reflexivity]. destruct (existsb _ es); reflexivity.
Qed.
Lemma entries_cases : forall fuel sub xs, (length xs < fuel)%nat ->
  parse_entries fuel sub xs = Exn \/ exists b rest es, xs = b ++ rest /\ entries_bytes b es.
Proof.
  induction fuel as [|fuel IH]; intros sub xs F; [lia|]. cbn [parse_entries].
  destruct (entry_total xs) as [-> |(e & E)]; [auto|]. rewrite E. cbn [rbind]. apply entry_ok in E as (b & rest & -> & E).
  rewrite skip_entry by exact E. destruct (Z.eqb_spec (eb_type e) 0) as [T|T].
  - right. exists b, rest, [e]. split; [reflexivity|]. constructor; assumption.
  - pose proof (entry_len _ _ E) as (L & L0 & _).
    destruct (IH (if (eb_type e =? 16) && contains_one (eb_value e) then 1 else sub) rest ltac:(rewrite app_length in F; unfold len in L; lia))
      as [-> |(b' & rest' & es & -> & R)]; [auto|].
    right. exists (b ++ b'), rest', (e :: es). rewrite app_assoc. split; [reflexivity|]. constructor; assumption.
Qed.

Lemma sub_of_spec es : sub_of 0 es = 1 <-> subtype1 es.
Proof.
  unfold sub_of, subtype1. destruct (existsb _ es) eqn:E.
  - apply existsb_exists in E as (e & I & E). apply andb_true_iff in E as [E1 E2]. split; [|reflexivity]. intros _.
    exists e. split; [exact I|]. split; [lia | apply one_spec; exact E2].
  - split; [discriminate|]. intros (e & I & T & O). exfalso. apply not_true_iff_false in E. apply E. apply existsb_exists.
    exists e. split; [exact I|]. apply one_spec in O. rewrite T, O. reflexivity.
Qed.
Lemma sub_of_cases es : sub_of 0 es = 0 \/ sub_of 0 es = 1.
Proof. unfold sub_of. destruct (existsb _ _); auto. Qed.

Lemma specs_parse (sub : bool) bs sps : Forall2 (block_bytes sub) bs sps -> forall fuel, (length (concat bs) <= fuel)%nat ->
  parse_specs fuel (if sub then 1 else 0) (concat bs) = Ok sps.
Proof.
  induction 1 as [|b sp bs sps H R IH]; intros fuel F.
  { destruct fuel; reflexivity. }
  pose proof (block_len _ _ _ H) as L. cbn [concat] in *. rewrite app_length in F. destruct fuel as [|fuel]; [lia|].
  destruct (block_read sub b sp (concat bs) H) as [E1 E2].
  assert (X : parse_specs (S fuel) (if sub then 1 else 0) (b ++ concat bs) =
    (let! sp := read_block sub (b ++ concat bs) in
     let! sps := parse_specs fuel (if sub then 1 else 0) (skipn 40 (b ++ concat bs)) in Ok (sp :: sps))).
  { cbn [parse_specs]. destruct b as [|b0 b]; [discriminate L|]. cbn [app]. unfold read_block. destruct sub; reflexivity. }
  rewrite X, E1, E2. cbn [rbind]. rewrite IH by lia. reflexivity.
Qed.
Lemma specs_cases (sub : bool) : forall fuel xs, (length xs <= fuel)%nat ->
  parse_specs fuel (if sub then 1 else 0) xs = Exn \/ exists bs sps, xs = concat bs /\ Forall2 (block_bytes sub) bs sps.
Proof.
  induction fuel as [|fuel IH]; intros xs F.
  { destruct xs; [|cbn in F; lia]. right. exists [], []. split; [reflexivity | constructor]. }
  destruct xs as [|x0 xs]. { right. exists [], []. split; [reflexivity | constructor]. }
  set (ys := x0 :: xs) in *.
  assert (X : parse_specs (S fuel) (if sub then 1 else 0) ys =
    (let! sp := read_block sub ys in let! sps := parse_specs fuel (if sub then 1 else 0) (skipn 40 ys) in Ok (sp :: sps))).
  { unfold ys. cbn [parse_specs]. unfold read_block. destruct sub; reflexivity. }
  rewrite X. destruct (block_cases sub ys) as [[_ ->]|(b & rest & sp & E & B)]; [auto|].
  rewrite E in *. destruct (block_read sub b sp rest B) as [E1 E2]. rewrite E1, E2. cbn [rbind].
  pose proof (block_len _ _ _ B) as L.
  destruct (IH rest ltac:(rewrite app_length in F; lia)) as [-> |(bs & sps & -> & R)]; [auto|].
  right. exists (b :: bs), (sp :: sps). split; [reflexivity | constructor; assumption].
Qed.

Lemma dfsr_exact data es sps : parse_dfsr data = Ok (es, sps) <-> dfsr_bytes data es sps.
Proof.
  split.
  - unfold parse_dfsr. intros P. destruct (entries_cases (S (length data)) 0 data ltac:(lia)) as [E|(b & rest & es' & -> & R)].
    { rewrite E in P. discriminate. }
    rewrite (entries_parse b es' R) in P by (rewrite app_length; lia). cbn [rbind] in P.
    assert (S : exists sub : bool, sub_of 0 es' = (if sub then 1 else 0) /\ (sub = true <-> subtype1 es')).
    { destruct (sub_of_cases es') as [E|E]; [exists false | exists true]; (split; [exact E|]); rewrite <- sub_of_spec, E; split; congruence. }
    destruct S as (sub & S1 & S2). rewrite S1 in P.
    destruct (specs_cases sub (length rest) rest ltac:(lia)) as [E|(bs & sps' & -> & B)].
    { rewrite E in P. discriminate. }
    rewrite (specs_parse sub bs sps' B) in P by lia. cbn [rbind] in P. injection P as <- <-.
    exists b, bs, sub. auto.
  - intros (eb & bs & sub & -> & E & S & B). unfold parse_dfsr. rewrite (entries_parse eb es E) by (rewrite app_length; lia). cbn [rbind].
    replace (sub_of 0 es) with (if sub then 1 else 0).
    2: { destruct sub; [symmetry; apply sub_of_spec, S; reflexivity|]. destruct (sub_of_cases es) as [X|X]; [auto|].
         apply sub_of_spec, S in X. discriminate. }
    rewrite (specs_parse sub bs sps B) by lia. reflexivity.
Qed.
Lemma dfsr_safe data : safe (parse_dfsr data).
Proof.
  unfold safe, parse_dfsr. destruct (entries_cases (S (length data)) 0 data ltac:(lia)) as [-> |(b & rest & es' & -> & R)]; [auto|].
  rewrite (entries_parse b es' R) by (rewrite app_length; lia). cbn [rbind].
  assert (S : exists sub : bool, sub_of 0 es' = (if sub then 1 else 0)).
  { destruct (sub_of_cases es') as [E|E]; [exists false | exists true]; exact E. }
  destruct S as (sub & ->). destruct (specs_cases sub (length rest) rest ltac:(lia)) as [-> |(bs & sps' & -> & B)]; [auto|].
  rewrite (specs_parse sub bs sps' B) by lia. cbn. eauto.
Qed.

(** ** Information records *)
Lemma component_eq t r s c m0 m1 m2 m3 u0 u1 u2 u3 x :
  read_component_block (t :: r :: s :: c :: m0 :: m1 :: m2 :: m3 :: u0 :: u1 :: u2 :: u3 :: x) =
  if negb ((b2z t =? 0) || (b2z t =? 69) || (b2z t =? 73)) then Exn
  else let! v := sized x (b2z s) (b2z r) in Ok (mk_component (b2z t) (b2z r) (b2z s) (b2z c) [m0;m1;m2;m3] [u0;u1;u2;u3] v).
Proof.
  unfold read_component_block. replace (left_of _ <? 12) with false by (unfold left_of; cbn [length]; lia).
  do 4 (rewrite byte_read; cbn [unchecked rbind]). unfold lis_string. change (Z.to_nat 4) with 4%nat. cbn [take obind unchecked rbind].
  destruct (negb (_ || _)); [reflexivity|]. unfold sized.
  destruct (negb (valid_size _ _)); [reflexivity|]. destruct (_ <? _); [reflexivity|]. destruct (negb _); reflexivity.
Qed.
Lemma component_short (xs : bytes) : (length xs < 12)%nat -> read_component_block xs = Exn.
Proof. intros L. unfold read_component_block. replace (left_of _ <? 12) with true by (unfold left_of; lia). reflexivity. Qed.
Lemma component_long (xs : bytes) : (12 <= length xs)%nat -> exists t r s c m0 m1 m2 m3 u0 u1 u2 u3 x,
  xs = t :: r :: s :: c :: m0 :: m1 :: m2 :: m3 :: u0 :: u1 :: u2 :: u3 :: x.
Proof. intros L. do 12 (destruct xs as [|? xs]; [cbn in L; lia|]). repeat eexists. Qed.
Lemma component_len b c : component_bytes b c -> len b = 12 + cb_size c /\ 0 <= cb_size c.
Proof.
  intros [t r s c' m u e v T Lm Lu S]. cbn [cb_size]. rewrite !len_app. pose proof (b2z_range s).
  assert (len e = b2z s) by (inversion S; subst; [change (len []) with 0|]; congruence). unfold len in *. rewrite Lm, Lu. cbn [length]. lia.
Qed.
Lemma component_read b c rest : component_bytes b c -> read_component_block (b ++ rest) = Ok c.
Proof.
  intros [t r s c' m u e v T Lm Lu S]. explode. cbn [app]. rewrite component_eq.
  replace (negb _) with false by (cbn [In] in T; lia). pose proof (b2z_range s).
  rewrite (proj2 (sized_ok (e ++ rest) (b2z s) (b2z r) v ltac:(lia))); [reflexivity|].
  exists e, rest. split; [reflexivity|]. split; [exact S|]. inversion S; subst; [reflexivity | congruence].
Qed.
Lemma component_cases xs : read_component_block xs = Exn \/ exists b rest c, xs = b ++ rest /\ component_bytes b c.
Proof.
  destruct (Nat.ltb_spec (length xs) 12) as [L|L]; [left; apply component_short; exact L|].
  apply component_long in L as (t & r & s & c & m0 & m1 & m2 & m3 & u0 & u1 & u2 & u3 & x & ->). rewrite component_eq.
  destruct (negb _) eqn:T; [auto|]. pose proof (b2z_range s).
  destruct (sized_total x (b2z s) (b2z r) ltac:(lia)) as [-> |(v & E)]; [auto|]. right.
  apply sized_ok in E as (e & rest & -> & S & L); [|lia].
  exists ([t; r; s; c] ++ [m0; m1; m2; m3] ++ [u0; u1; u2; u3] ++ e), rest. eexists. split; [reflexivity|].
  constructor; [cbn [In]; lia | reflexivity | reflexivity | exact S].
Qed.
Lemma skip_component b c x : component_bytes b c -> skipn (Z.to_nat (12 + cb_size c)) (b ++ x) = x.
Proof.
  intros E. apply component_len in E as (L & _). rewrite <- L. unfold len. rewrite Nat2Z.id. apply skipn_app_len.
Qed.
Lemma components_step fuel xs : xs <> [] -> parse_components (S fuel) xs =
  (let! c := read_component_block xs in
   let! cs := parse_components fuel (skipn (Z.to_nat (12 + cb_size c)) xs) in Ok (c :: cs)).
Proof. destruct xs; [congruence | reflexivity]. Qed.
Lemma components_parse bs cs : Forall2 component_bytes bs cs -> forall fuel, (length (concat bs) <= fuel)%nat ->
  parse_components fuel (concat bs) = Ok cs.
Proof.
  induction 1 as [|b c bs cs H R IH]; intros fuel F.
  { destruct fuel; reflexivity. }
  pose proof (component_len _ _ H) as [L L0]. cbn [concat] in *. rewrite app_length in F. unfold len in L. destruct fuel as [|fuel]; [lia|].
  rewrite components_step by (intros E; apply app_eq_nil in E as [-> _]; change (length (@nil byte)) with 0%nat in L; lia).
  rewrite (component_read b c _ H). cbn [rbind]. rewrite skip_component by exact H. rewrite IH by lia. reflexivity.
Qed.
Lemma components_cases : forall fuel xs, (length xs <= fuel)%nat ->
  parse_components fuel xs = Exn \/ exists bs cs, xs = concat bs /\ Forall2 component_bytes bs cs.
Proof.
  induction fuel as [|fuel IH]; intros xs F.
  { destruct xs; [|cbn in F; lia]. right. exists [], []. split; [reflexivity | constructor]. }
  destruct (list_eq_dec Byte.byte_eq_dec xs []) as [->|N]. { right. exists [], []. split; [reflexivity | constructor]. }
  rewrite components_step by exact N. destruct (component_cases xs) as [-> |(b & rest & c & -> & B)]; [auto|].
  rewrite (component_read b c _ B). cbn [rbind]. rewrite skip_component by exact B. pose proof (component_len _ _ B) as [L L0].
  unfold len in L. destruct (IH rest ltac:(rewrite app_length in F; lia)) as [-> |(bs & cs & -> & R)]; [auto|].
  right. exists (b :: bs), (c :: cs). split; [reflexivity | constructor; assumption].
Qed.
Lemma info_exact data cs : parse_info_record data = Ok cs <-> exists bs, data = concat bs /\ Forall2 component_bytes bs cs.
Proof.
  unfold parse_info_record. split.
  - intros P. destruct (components_cases (length data) data ltac:(lia)) as [E|(bs & cs' & -> & R)]; [congruence|].
    rewrite (components_parse bs cs' R) in P by lia. injection P as <-. eauto.
  - intros (bs & -> & R). apply components_parse; [exact R | lia].
Qed.
Lemma info_safe data : safe (parse_info_record data).
Proof.
  unfold parse_info_record, safe. destruct (components_cases (length data) data ltac:(lia)) as [->|(bs & cs' & -> & R)]; [auto|].
  rewrite (components_parse bs cs' R) by lia. eauto.
Qed.

(** ** File, reel and tape records *)
Lemma string_app n (a x : bytes) k : length a = k -> n = Z.of_nat k -> lis_string (a ++ x) n = Some (a, x).
Proof. intros L ->. unfold lis_string. rewrite Nat2Z.id. apply take_app. exact L. Qed.
Lemma skip_app (a x : bytes) k : length a = k -> skipn k (a ++ x) = x.
Proof. intros <-. apply skipn_app_len. Qed.
Lemma app_long_inv (a b x y : bytes) : a ++ x = b ++ y -> length a = length b -> a = b /\ x = y.
Proof.
  revert b. induction a as [|p a IH]; intros [|q b] E L; try discriminate; [auto|]. cbn in E, L. injection E as -> E.
  destruct (IH b E ltac:(lia)) as [-> ->]. auto.
Qed.
Lemma split_at k (xs : bytes) : (k <= length xs)%nat -> exists a x, xs = a ++ x /\ length a = k.
Proof. intros L. exists (firstn k xs), (skipn k xs). rewrite firstn_skipn, firstn_length. split; [reflexivity | lia]. Qed.

Lemma file_eq f1 g1 f2 f3 f4 g2 f5 g3 f6 g4 f7 rest :
  map (@length byte) [f1; g1; f2; f3; f4; g2; f5; g3; f6; g4; f7] = [10; 2; 6; 8; 8; 1; 5; 2; 2; 2; 10]%nat ->
  forall type, parse_file_record type (f1 ++ g1 ++ f2 ++ f3 ++ f4 ++ g2 ++ f5 ++ g3 ++ f6 ++ g4 ++ f7 ++ rest) =
  if negb ((type =? 128) || (type =? 129)) then Exn else Ok (mk_file_record f1 f2 f3 f4 f5 f6 f7).
Proof.
  intros M type. cbn [map] in M. injection M as L1 L2 L3 L4 L5 L6 L7 L8 L9 L10 L11.
  unfold parse_file_record. destruct (negb _); [reflexivity|].
  replace (left_of _ <? 56) with false by (unfold left_of; rewrite !app_length; lia).
  rewrite (string_app 10 f1 _ 10 L1 eq_refl). cbn [unchecked rbind]. rewrite (skip_app g1 _ 2 L2).
  rewrite (string_app 6 f2 _ 6 L3 eq_refl). cbn [unchecked rbind].
  rewrite (string_app 8 f3 _ 8 L4 eq_refl). cbn [unchecked rbind].
  rewrite (string_app 8 f4 _ 8 L5 eq_refl). cbn [unchecked rbind]. rewrite (skip_app g2 _ 1 L6).
  rewrite (string_app 5 f5 _ 5 L7 eq_refl). cbn [unchecked rbind]. rewrite (skip_app g3 _ 2 L8).
  rewrite (string_app 2 f6 _ 2 L9 eq_refl). cbn [unchecked rbind]. rewrite (skip_app g4 _ 2 L10).
  rewrite (string_app 10 f7 _ 10 L11 eq_refl). reflexivity.
Qed.
Lemma file_split data : (56 <= length data)%nat -> exists r, file_layout data r.
Proof.
  intros L.
  destruct (split_at 10 data ltac:(lia)) as (f1 & d1 & -> & L1). rewrite app_length in L.
  destruct (split_at 2 d1 ltac:(lia)) as (g1 & d2 & -> & L2). rewrite app_length in L.
  destruct (split_at 6 d2 ltac:(lia)) as (f2 & d3 & -> & L3). rewrite app_length in L.
  destruct (split_at 8 d3 ltac:(lia)) as (f3 & d4 & -> & L4). rewrite app_length in L.
  destruct (split_at 8 d4 ltac:(lia)) as (f4 & d5 & -> & L5). rewrite app_length in L.
  destruct (split_at 1 d5 ltac:(lia)) as (g2 & d6 & -> & L6). rewrite app_length in L.
  destruct (split_at 5 d6 ltac:(lia)) as (f5 & d7 & -> & L7). rewrite app_length in L.
  destruct (split_at 2 d7 ltac:(lia)) as (g3 & d8 & -> & L8). rewrite app_length in L.
  destruct (split_at 2 d8 ltac:(lia)) as (f6 & d9 & -> & L9). rewrite app_length in L.
  destruct (split_at 2 d9 ltac:(lia)) as (g4 & d10 & -> & L10). rewrite app_length in L.
  destruct (split_at 10 d10 ltac:(lia)) as (f7 & d11 & -> & L11).
  exists (mk_file_record f1 f2 f3 f4 f5 f6 f7), g1, g2, g3, g4, d11. split; [reflexivity|].
  cbn [map fr_file_name fr_service_sublvl_name fr_version_number fr_date_of_generation fr_max_pr_length fr_file_type fr_name].
  rewrite L1, L2, L3, L4, L5, L6, L7, L8, L9, L10, L11. reflexivity.
Qed.
Lemma file_exact type data :
  (forall r, parse_file_record type data = Ok r <-> (type = 128 \/ type = 129) /\ file_layout data r) /\ safe (parse_file_record type data) /\
  ((type = 128 \/ type = 129) -> (56 <= length data)%nat -> exists r, parse_file_record type data = Ok r).
Proof.
  assert (S : (length data < 56)%nat -> parse_file_record type data = Exn).
  { intros L. unfold parse_file_record. destruct (negb _); [reflexivity|]. replace (left_of _ <? 56) with true by (unfold left_of; lia). reflexivity. }
  assert (F : forall r, file_layout data r -> parse_file_record type data = if negb ((type =? 128) || (type =? 129)) then Exn else Ok r).
  { intros r (g1 & g2 & g3 & g4 & rest & -> & M). rewrite (file_eq _ _ _ _ _ _ _ _ _ _ _ rest M). destruct r; reflexivity. }
  destruct (Nat.ltb_spec (length data) 56) as [L|L].
  - rewrite (S L). split; [|split; [left; reflexivity | intros _ X; lia]]. intros r. split; [discriminate|].
    intros [_ (g1 & g2 & g3 & g4 & rest & E & M)]. exfalso. cbn [map] in M. injection M as ? ? ? ? ? ? ? ? ? ? ?.
    apply (f_equal (@length byte)) in E. rewrite !app_length in E. lia.
  - destruct (file_split data L) as (r & R). rewrite (F r R).
    destruct (negb ((type =? 128) || (type =? 129))) eqn:T; (split; [|split; [unfold safe; eauto|]]).
    + intros r'. split; [discriminate | intros [X _]; lia].
    + intros X; lia.
    + intros r'. split.
      * intros E. injection E as <-. split; [lia | exact R].
      * intros [_ R']. pose proof (F r R) as F1. pose proof (F r' R') as F2. rewrite ?T in F1, F2. congruence.
    + eauto.
Qed.

Lemma reel_eq f1 g1 f2 g2 f3 g3 f4 g4 f5 g5 f6 g6 f7 rest :
  map (@length byte) [f1; g1; f2; g2; f3; g3; f4; g4; f5; g5; f6; g6; f7] = [6; 6; 8; 2; 4; 2; 8; 2; 2; 2; 8; 2; 74]%nat ->
  forall type, parse_reel_tape_record type (f1 ++ g1 ++ f2 ++ g2 ++ f3 ++ g3 ++ f4 ++ g4 ++ f5 ++ g5 ++ f6 ++ g6 ++ f7 ++ rest) =
  if negb ((type =? 132) || (type =? 133) || (type =? 130) || (type =? 131)) then Exn else Ok (mk_reel_tape f1 f2 f3 f4 f5 f6 f7).
Proof.
  intros M type. cbn [map] in M. injection M as L1 L2 L3 L4 L5 L6 L7 L8 L9 L10 L11 L12 L13.
  unfold parse_reel_tape_record. destruct (negb _); [reflexivity|].
  replace (left_of _ <? 126) with false by (unfold left_of; rewrite !app_length; lia).
  rewrite (string_app 6 f1 _ 6 L1 eq_refl). cbn [unchecked rbind]. rewrite (skip_app g1 _ 6 L2).
  rewrite (string_app 8 f2 _ 8 L3 eq_refl). cbn [unchecked rbind]. rewrite (skip_app g2 _ 2 L4).
  rewrite (string_app 4 f3 _ 4 L5 eq_refl). cbn [unchecked rbind]. rewrite (skip_app g3 _ 2 L6).
  rewrite (string_app 8 f4 _ 8 L7 eq_refl). cbn [unchecked rbind]. rewrite (skip_app g4 _ 2 L8).
  rewrite (string_app 2 f5 _ 2 L9 eq_refl). cbn [unchecked rbind]. rewrite (skip_app g5 _ 2 L10).
  rewrite (string_app 8 f6 _ 8 L11 eq_refl). cbn [unchecked rbind]. rewrite (skip_app g6 _ 2 L12).
  rewrite (string_app 74 f7 _ 74 L13 eq_refl). reflexivity.
Qed.
Lemma reel_split data : (126 <= length data)%nat -> exists r, reel_tape_layout data r.
Proof.
  intros L.
  destruct (split_at 6 data ltac:(lia)) as (f1 & d1 & -> & L1). rewrite app_length in L.
  destruct (split_at 6 d1 ltac:(lia)) as (g1 & d2 & -> & L2). rewrite app_length in L.
  destruct (split_at 8 d2 ltac:(lia)) as (f2 & d3 & -> & L3). rewrite app_length in L.
  destruct (split_at 2 d3 ltac:(lia)) as (g2 & d4 & -> & L4). rewrite app_length in L.
  destruct (split_at 4 d4 ltac:(lia)) as (f3 & d5 & -> & L5). rewrite app_length in L.
  destruct (split_at 2 d5 ltac:(lia)) as (g3 & d6 & -> & L6). rewrite app_length in L.
  destruct (split_at 8 d6 ltac:(lia)) as (f4 & d7 & -> & L7). rewrite app_length in L.
  destruct (split_at 2 d7 ltac:(lia)) as (g4 & d8 & -> & L8). rewrite app_length in L.
  destruct (split_at 2 d8 ltac:(lia)) as (f5 & d9 & -> & L9). rewrite app_length in L.
  destruct (split_at 2 d9 ltac:(lia)) as (g5 & d10 & -> & L10). rewrite app_length in L.
  destruct (split_at 8 d10 ltac:(lia)) as (f6 & d11 & -> & L11). rewrite app_length in L.
  destruct (split_at 2 d11 ltac:(lia)) as (g6 & d12 & -> & L12). rewrite app_length in L.
  destruct (split_at 74 d12 ltac:(lia)) as (f7 & d13 & -> & L13).
  exists (mk_reel_tape f1 f2 f3 f4 f5 f6 f7), g1, g2, g3, g4, g5, g6, d13. split; [reflexivity|].
  cbn [map rt_service_name rt_date rt_origin_of_data rt_name rt_continuation_number rt_other rt_comment].
  rewrite L1, L2, L3, L4, L5, L6, L7, L8, L9, L10, L11, L12, L13. reflexivity.
Qed.
Lemma reel_exact type data :
  (forall r, parse_reel_tape_record type data = Ok r <-> In type [130; 131; 132; 133] /\ reel_tape_layout data r) /\
  safe (parse_reel_tape_record type data) /\
  (In type [130; 131; 132; 133] -> (126 <= length data)%nat -> exists r, parse_reel_tape_record type data = Ok r).
Proof.
  assert (S : (length data < 126)%nat -> parse_reel_tape_record type data = Exn).
  { intros L. unfold parse_reel_tape_record. destruct (negb _); [reflexivity|]. replace (left_of _ <? 126) with true by (unfold left_of; lia). reflexivity. }
  assert (F : forall r, reel_tape_layout data r -> parse_reel_tape_record type data =
    if negb ((type =? 132) || (type =? 133) || (type =? 130) || (type =? 131)) then Exn else Ok r).
  { intros r (g1 & g2 & g3 & g4 & g5 & g6 & rest & -> & M). rewrite (reel_eq _ _ _ _ _ _ _ _ _ _ _ _ _ rest M). destruct r; reflexivity. }
  destruct (Nat.ltb_spec (length data) 126) as [L|L].
  - rewrite (S L). split; [|split; [left; reflexivity | intros _ X; lia]]. intros r. split; [discriminate|].
    intros [_ (g1 & g2 & g3 & g4 & g5 & g6 & rest & E & M)]. exfalso. cbn [map] in M. injection M as ? ? ? ? ? ? ? ? ? ? ? ? ?.
    apply (f_equal (@length byte)) in E. rewrite !app_length in E. lia.
  - destruct (reel_split data L) as (r & R). rewrite (F r R). cbn [In].
    destruct (negb _) eqn:T; (split; [|split; [unfold safe; eauto|]]).
    + intros r'. split; [discriminate | intros [X _]; lia].
    + intros X; lia.
    + intros r'. split.
      * intros E. injection E as <-. split; [lia | exact R].
      * intros [_ R']. pose proof (F r R) as F1. pose proof (F r' R') as F2. rewrite ?T in F1, F2. congruence.
    + eauto.
Qed.

Lemma text_exact type data : parse_text_record type data = if existsb (Z.eqb type) [224; 225; 227; 232] then Ok data else Exn.
Proof.
  unfold parse_text_record. cbn [existsb]. rewrite orb_false_r, !orb_assoc. destruct (_ || _); cbn [negb]; [|reflexivity].
  rewrite <- (app_nil_r data) at 1. rewrite (string_app _ data [] (length data)) by reflexivity. reflexivity.
Qed.

(** ** Process indicators *)
Lemma bit_test b n : 0 <= n -> negb (Z.land (b2z b) (Z.shiftl 1 n) =? 0) = Z.testbit (b2z b) n.
Proof. intros Hn. rewrite Z.shiftl_1_l. apply (has_pow2 (b2z b) n Hn). Qed.
Lemma direction_bits b : Z.shiftr (Z.land (b2z b) 0xC0) 6 = b2z b / 64.
Proof. apply Z.eqb_eq. revert b. apply byte_sweep. vm_compute. reflexivity. Qed.
Lemma indicators_exact b0 b1 b2 b3 b4 : process_indicators [b0; b1; b2; b3; b4] =
  Ok (b2z b0 / 64, map (Z.testbit (b2z b0)) [5; 4; 3; 2; 1; 0] ++ map (Z.testbit (b2z b1)) [7; 6; 5; 4; 3; 2; 1; 0] ++
      map (Z.testbit (b2z b2)) [1; 0]).
Proof. unfold process_indicators. cbn [map]. rewrite !bit_test by lia. rewrite direction_bits. reflexivity. Qed.
Lemma indicators_wrong mask : length mask <> 5%nat -> process_indicators mask = Exn.
Proof. intros L. do 6 (destruct mask as [|? mask]; [first [reflexivity | cbn in L; congruence]|]). reflexivity. Qed.
