(** Proofs about the LIS curve reader: samples, format strings and columns. *)
From Verif Require Import Bytes BytesProofs DlisTypes DlisCore Stream DlisRecords SpecTypes TypesProofs CoreProofs2 SpecIo IoProofs PyBase
  DlisFdata SpecFdata FdataProofs LisTypes LisTypesProofs SpecLisTypes LisTypesProofs2 LisProtocol LisIo LisPy LisCurves SpecLisCurves.
From Coq Require Import Lia ZArith.
Local Open Scope Z_scope.
Ltac Zify.zify_post_hook ::= Z.div_mod_to_equations.

(** ** Numbers *)
Lemma app_split {A} (a b x y : list A) : a ++ x = b ++ y -> length a = length b -> a = b /\ x = y.
Proof.
  revert b. induction a as [|c a IH]; intros [|d b] H L; try discriminate; [auto|]. cbn in H, L. injection H as -> H.
  destruct (IH b H) as [-> ->]; [lia | auto].
Qed.
Definition good (c : byte) (n m : nat) : Prop := exists rc, In (rc, c, n, m) lis_formats.
Lemma good_pos c n m : good c n m -> (1 <= n)%nat /\ (1 <= m)%nat.
Proof. intros [rc H]. cbn [lis_formats In] in H. repeat (destruct H as [H|H]; [injection H as <- <- <- <-; lia|]). destruct H. Qed.
Lemma natives_one c e w : lis_native c e w -> lis_natives [c] e w.
Proof. intros H. rewrite <- (app_nil_r e), <- (app_nil_r w). constructor; [exact H | constructor]. Qed.
Lemma natives_length c n m k : good c n m -> forall e w, lis_natives (repeat c k) e w -> (length e = k * n /\ length w = k * m)%nat.
Proof.
  intros G. induction k as [|k IH]; intros e w H; cbn [repeat] in H; inversion H as [|? e1 w1 ? e2 w2 H1 H2]; subst.
  - auto.
  - apply IH in H2 as [L1 L2]. destruct (format_unique _ _ _ _ _ G (native_size _ _ _ H1)) as [-> ->].
    rewrite !app_length. lia.
Qed.
Lemma advance_app e rest left n : n = Z.of_nat (length e) -> advance (mk_ptr (e ++ rest) left) n = Ok (mk_ptr rest (left - n)).
Proof. intros ->. unfold advance. cbn [p_mem p_left]. rewrite Nat2Z.id, take_app by reflexivity. reflexivity. Qed.
Lemma advance_inv p n p' : 0 <= n -> advance p n = Ok p' ->
  exists e, p_mem p = e ++ p_mem p' /\ Z.of_nat (length e) = n /\ p_left p' = p_left p - n.
Proof.
  intros Hn. unfold advance. destruct (take _ _) as [[e rest]|] eqn:E; cbn [unchecked rbind]; [|discriminate].
  intros H. injection H as <-. apply take_Some in E as [-> L]. exists e. cbn [p_mem p_left]. split; [reflexivity|]. lia.
Qed.

Lemma numbers_read c k : forall e w rest left, lis_natives (repeat c k) e w -> Z.of_nat (length e) <= left ->
  read_numbers k c (mk_ptr (e ++ rest) left) = Ok (map Raw w, mk_ptr rest (left - Z.of_nat (length e))).
Proof.
  induction k as [|k IH]; intros e w rest left H L; cbn [repeat] in H; inversion H as [|? e1 w1 ? e2 w2 H1 H2]; subst.
  - cbn. do 2 f_equal. f_equal. lia.
  - cbn [read_numbers p_mem]. rewrite <- app_assoc. destruct (pack_values _ _ _ (e2 ++ rest) (natives_one _ _ _ H1)) as [E1 E2].
    rewrite E1, E2. rewrite app_length in L. unfold overflows. cbn [p_left]. replace (_ >? _) with false by lia.
    rewrite advance_app by reflexivity. cbn [rbind]. rewrite (IH e2 w2) by (assumption || lia). cbn [rbind].
    rewrite map_app, app_length. do 3 f_equal. lia.
Qed.
Lemma packs c src : match lis_packf [c] src with
  | PackOk w => exists e rest, src = e ++ rest /\ lis_native c e w /\ lis_packflen [c] src = LenOk (Z.of_nat (length e)) (Z.of_nat (length w))
  | PackErr => lis_packflen [c] src = LenErr
  | PackOob => lis_packflen [c] src = LenOob
  end.
Proof.
  unfold lis_packf, lis_packflen. cbn [lis_run_fmt]. pose proof (interpret_cases c src) as I. destruct (lis_interpret c src) as [[[w rest]|]|]; try reflexivity.
  destruct I as (e & -> & V). rewrite app_nil_r. exists e, rest. split; [reflexivity|]. split; [exact V|]. f_equal. rewrite app_length. lia.
Qed.
Lemma numbers_inv c n m k : good c n m -> forall p cells p', read_numbers k c p = Ok (cells, p') ->
  exists e w, p_mem p = e ++ p_mem p' /\ p_left p' = p_left p - Z.of_nat (length e) /\ (k = 0%nat \/ 0 <= p_left p') /\
    lis_natives (repeat c k) e w /\ cells = map Raw w.
Proof.
  intros G. induction k as [|k IH]; intros p cells p' H; cbn [read_numbers] in H.
  { injection H as <- <-. exists [], []. cbn. split; [reflexivity|]. split; [lia|]. split; [auto|]. split; [constructor | reflexivity]. }
  pose proof (packs c (p_mem p)) as P. destruct (lis_packf [c] (p_mem p)) as [| |w].
  - rewrite P in H. discriminate.
  - rewrite P in H. discriminate.
  - destruct P as (e & rest & E & V & P). rewrite P in H. destruct (overflows _ _) eqn:O; [discriminate|].
    unfold overflows in O. destruct (advance p _) as [p1| | |] eqn:A; try discriminate. cbn [rbind] in H.
    apply advance_inv in A as (e' & E' & L' & A); [|lia].
    destruct (read_numbers k c p1) as [[more p2]| | |] eqn:R; try discriminate. cbn [rbind] in H. injection H as <- <-.
    assert (e' = e /\ p_mem p1 = rest) as [-> <-].
    { rewrite E in E'. apply app_split in E' as [-> ->]; [auto | lia]. }
    destruct (IH p1 more p2 R) as (e2 & w2 & E2 & L2 & B & V2 & ->).
    exists (e ++ e2), (w ++ w2). rewrite E', E2, app_assoc, app_length, map_app. split; [reflexivity|]. split; [lia|].
    split; [right; destruct B as [-> |B]; [inversion V2; subst; cbn [length] in *; lia | exact B]|].
    split; [constructor; assumption | reflexivity].
Qed.
(** without memory behind the record there is no result *)
Lemma numbers_outcome c n m k : good c n m -> forall p, 0 <= p_left p -> (Z.to_nat (p_left p) + n <= length (p_mem p))%nat ->
  read_numbers k c p = Exn \/ exists cells p', read_numbers k c p = Ok (cells, p').
Proof.
  intros G. induction k as [|k IH]; intros p L M; cbn [read_numbers]; [right; eauto|].
  pose proof (packs c (p_mem p)) as P. pose proof (interpret_cases c (p_mem p)) as I.
  unfold lis_packf in P. cbn [lis_run_fmt] in P. unfold lis_packf. cbn [lis_run_fmt].
  destruct (lis_interpret c (p_mem p)) as [[[w rest]|]|].
  - destruct P as (e & rest' & E & V & P). rewrite P. destruct (overflows _ _) eqn:O; [auto|]. unfold overflows in O.
    unfold advance. rewrite E, Nat2Z.id, take_app by reflexivity. cbn [unchecked rbind].
    rewrite E, app_length in M.
    destruct (IH (mk_ptr rest' (p_left p - Z.of_nat (length e))) ltac:(cbn [p_left]; lia) ltac:(cbn [p_mem p_left]; lia)) as [-> |(cells & p' & ->)]; cbn [rbind]; eauto.
  - destruct I as (n' & m' & F & L'). destruct (format_unique _ _ _ _ _ G F) as [<- _]. lia.
  - exfalso. apply (I n m). exact G.
Qed.

(** ** Format strings *)
Definition no_digit (f : bytes) : Prop := match f with [] => True | c :: _ => ~ (48 <= b2z c <= 57) end.
Lemma strtol_from_digit acc d f : 0 <= d < 10 -> strtol_from acc (z2b (48 + d) :: f) = strtol_from (acc * 10 + d) f.
Proof.
  intros D. cbn [strtol_from]. rewrite b2z_z2b, Z.mod_small by lia. replace ((48 <=? 48 + d) && (48 + d <=? 57)) with true by lia.
  replace (48 + d - 48) with d by lia. reflexivity.
Qed.
Lemma strtol_from_end acc f : no_digit f -> strtol_from acc f = (acc, f).
Proof. destruct f as [|c f]; [reflexivity|]. cbn. intros H. replace (_ && _) with false by lia. reflexivity. Qed.
Lemma digits_strtol fuel : forall n f acc, 0 <= n < 2 ^ Z.of_nat fuel -> exists k, 0 <= k /\ n < 10 ^ k /\
  strtol_from acc (digits fuel n ++ f) = strtol_from (acc * 10 ^ k + n) f.
Proof.
  induction fuel as [|fuel IH]; intros n f acc H.
  { exists 0. change (Z.of_nat 0) with 0 in H. cbn [digits app]. split; [lia|]. split; [lia|]. f_equal. lia. }
  rewrite Nat2Z.inj_succ, Z.pow_succ_r in H by lia.
  cbn [digits]. destruct (Z.ltb_spec n 10) as [L|L].
  - exists 1. split; [lia|]. split; [lia|]. cbn [app]. rewrite (Z.mod_small n 10) by lia. rewrite strtol_from_digit by lia. f_equal; lia.
  - destruct (IH (n / 10) ((z2b (48 + n mod 10) :: f)) acc ltac:(lia)) as (k & K & B & E).
    exists (k + 1). rewrite Z.pow_add_r, Z.pow_1_r by lia. split; [lia|]. split; [lia|].
    rewrite <- app_assoc. cbn [app]. rewrite E. rewrite strtol_from_digit by lia. f_equal. lia.
Qed.
Lemma strtol_int n f : 0 <= n -> no_digit f -> strtol (str_int n ++ f) = (n, f).
Proof.
  intros Hn Hf. unfold strtol, str_int.
  assert (B : 0 <= n < 2 ^ Z.of_nat (S (Z.to_nat (Z.log2 n)))).
  { rewrite Nat2Z.inj_succ, Z2Nat.id by apply Z.log2_nonneg. destruct (Z.eq_dec n 0) as [-> |N]; [cbn; lia|]. pose proof (Z.log2_spec n). lia. }
  destruct (digits_strtol _ n f 0 B) as (k & _ & _ & ->). rewrite strtol_from_end by exact Hf. reflexivity.
Qed.

(** the elements of a format string *)
Inductive item := Skip (n : Z) | Num (c : byte) (k : Z) | Txt (n : Z).
Definition item_fmt (it : item) : bytes :=
  match it with
  | Skip n => "S"%byte :: str_int n
  | Num c k => c :: str_int k
  | Txt n => "a"%byte :: str_int n
  end.
Definition valid_item (it : item) : Prop :=
  match it with
  | Skip n => 0 <= n
  | Num c k => 0 <= k /\ exists n m, good c n m
  | Txt n => 0 <= n
  end.
Definition fmt_of (its : list item) : bytes := concat (map item_fmt its).
Lemma good_char c n m : good c n m -> existsb (Byte.eqb c) (text "silefrpb") = true /\ Byte.eqb c "S" = false /\ ~ (48 <= b2z c <= 57).
Proof.
  intros [rc H]. cbn [lis_formats In] in H. repeat (destruct H as [H|H]; [injection H as <- <- <- <-; cbn; repeat split; lia|]). destruct H.
Qed.
Lemma fmt_no_digit its : Forall valid_item its -> no_digit (fmt_of its).
Proof.
  intros [|it its' V _]; [exact I|]. destruct it as [n|c k|n]; cbn; [lia| |lia]. destruct V as [_ (n & m & G)].
  apply (good_char _ _ _ G).
Qed.

(** the cells of one sample *)
Definition read_item (it : item) (p : ptr) : res (list cell * ptr) :=
  match it with
  | Skip _ => Exn
  | Num c k => read_numbers (Z.to_nat k) c p
  | Txt n =>
      let! (s, _) := unchecked (take (Z.to_nat n) (p_mem p)) in
      match utf8 s with None => Exn | Some u => let! p := advance p n in Ok (ref_cells (DlisFdata.PyStr u), p) end
  end.
Lemma sample_item it f p : valid_item it -> (forall n, it <> Skip n) -> no_digit f ->
  read_sample (item_fmt it ++ f) p = let! (k, p) := read_item it p in Ok (k, f, p).
Proof.
  intros V N D. destruct it as [n|c k|n]; [destruct (N n); reflexivity| |]; cbn [item_fmt app read_sample read_item].
  - destruct V as [K (n & m & G)]. destruct (good_char _ _ _ G) as (-> & _ & _). rewrite strtol_int by assumption. reflexivity.
  - replace (existsb _ _) with false by reflexivity. replace (Byte.eqb "a" "a") with true by reflexivity.
    rewrite strtol_int by assumption. destruct (take _ _) as [[s r]|]; cbn [unchecked rbind]; [|reflexivity].
    destruct (utf8 s); [|reflexivity]. destruct (advance p n); reflexivity.
Qed.

(** the numbers of cells of one sample *)
Definition char_width (c : byte) : nat :=
  match find (fun '(_, c', _, _) => Byte.eqb c c') lis_formats with Some (_, _, _, m) => m | None => 0 end%nat.
Definition item_width (it : item) : nat :=
  match it with Skip _ => 0 | Num c k => Z.to_nat k * char_width c | Txt _ => 8 end%nat.
Lemma char_width_good c n m : good c n m -> char_width c = m.
Proof. intros [rc H]. cbn [lis_formats In] in H. repeat (destruct H as [H|H]; [injection H as <- <- <- <-; reflexivity|]). destruct H. Qed.
Lemma item_length it p k p' : valid_item it -> read_item it p = Ok (k, p') -> length k = item_width it.
Proof.
  intros V H. destruct it as [n|c j|n]; cbn [read_item] in H; [discriminate| |].
  - destruct V as [_ (n & m & G)]. destruct (numbers_inv _ _ _ _ G _ _ _ H) as (e & w & _ & _ & _ & W & ->). cbn [item_width].
    rewrite map_length, (char_width_good _ _ _ G). apply (natives_length _ _ _ _ G) in W as [_ W]. exact W.
  - destruct (take _ _) as [[s r]|]; cbn [unchecked rbind] in H; [|discriminate]. destruct (utf8 s); [|discriminate].
    destruct (advance p n); try discriminate. injection H as <- <-. reflexivity.
Qed.

(** ** Columns *)
Fixpoint read_col (n : nat) (it : item) (p : ptr) : res (list (list cell) * ptr) :=
  match n with
  | O => Ok ([], p)
  | S n => let! (k, p) := read_item it p in let! (ks, p) := read_col n it p in Ok (k :: ks, p)
  end.
Fixpoint read_cols (rate : nat) (its : list item) (p : ptr) : res (list (list cell) * ptr) :=
  match its with
  | [] => Ok (repeat [] rate, p)
  | Skip n :: its => let! p := advance p n in read_cols rate its p
  | it :: its => let! (ks, p) := read_col rate it p in let! (rows, p) := read_cols rate its p in Ok (beside ks rows, p)
  end.
Definition items_width (its : list item) : nat := list_sum (map item_width its).

Lemma col_shape it n : valid_item it -> forall p ks p', read_col n it p = Ok (ks, p') -> length ks = n /\ Forall (fun k => length k = item_width it) ks.
Proof.
  intros V. induction n as [|n IH]; intros p ks p' H; cbn [read_col] in H.
  { injection H as <- <-. split; constructor. }
  destruct (read_item it p) as [[k p1]| | |] eqn:E; try discriminate. cbn [rbind] in H.
  destruct (read_col n it p1) as [[ks' p2]| | |] eqn:R; try discriminate. cbn [rbind] in H. injection H as <- <-.
  destruct (IH _ _ _ R) as [L F]. cbn [length]. split; [lia|]. constructor; [eapply item_length; eassumption | exact F].
Qed.
Lemma beside_length a b : length a = length b -> length (beside a b) = length a.
Proof. revert b. induction a as [|x a IH]; intros [|y b] H; try discriminate; [reflexivity|]. cbn. f_equal. apply IH. cbn in H. lia. Qed.
Lemma beside_widths a b n m : Forall (fun k => length k = n) a -> Forall (fun k => length k = m) b ->
  Forall (fun k => length k = n + m)%nat (beside a b).
Proof.
  intros A. revert b. induction A as [|x a E A IH]; intros b B; [constructor|]. destruct B as [|y b E' B]; cbn; constructor.
  - rewrite app_length. lia.
  - apply IH. exact B.
Qed.
Lemma beside_assoc a b c : beside (beside a b) c = beside a (beside b c).
Proof. revert b c. induction a as [|x a IH]; intros [|y b] [|z c]; try reflexivity. cbn. rewrite app_assoc, IH. reflexivity. Qed.
Lemma beside_nil_l n b : length b = n -> beside (repeat [] n) b = b.
Proof. revert b. induction n as [|n IH]; intros [|y b] H; try discriminate; [reflexivity|]. cbn. f_equal. apply IH. cbn in H. lia. Qed.
Lemma beside_nil_r n a : length a = n -> beside a (repeat [] n) = a.
Proof. revert a. induction n as [|n IH]; intros [|y b] H; try discriminate; [reflexivity|]. cbn. rewrite app_nil_r. f_equal. apply IH. cbn in H. lia. Qed.
Lemma cols_shape rate its : Forall valid_item its -> forall p rows p', read_cols rate its p = Ok (rows, p') ->
  length rows = rate /\ Forall (fun k => length k = items_width its) rows.
Proof.
  induction 1 as [|it its V Vs IH]; intros p rows p' H.
  { cbn in H. injection H as <- <-. rewrite repeat_length. split; [reflexivity|]. apply Forall_forall. intros k K. apply repeat_spec in K as ->. reflexivity. }
  assert (X : it = it) by reflexivity. destruct it as [n|c k|n]; cbn [read_cols] in H.
  { destruct (advance p n) as [p1| | |]; try discriminate. cbn [rbind] in H. exact (IH _ _ _ H). }
  all: destruct (read_col rate _ p) as [[ks p1]| | |] eqn:E; try discriminate; cbn [rbind] in H;
    destruct (read_cols rate its p1) as [[rows' p2]| | |] eqn:R; try discriminate; cbn [rbind] in H; injection H as <- <-;
    destruct (col_shape _ _ V _ _ _ E) as [L1 F1]; destruct (IH _ _ _ R) as [L2 F2];
    (split; [rewrite beside_length; lia|]); exact (beside_widths _ _ _ _ F1 F2).
Qed.
