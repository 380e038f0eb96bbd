(** The rows read from a LIS data record are those of the specification. *)
From Verif Require Import Bytes BytesProofs DlisTypes DlisCore Stream DlisRecords SpecTypes TypesProofs CoreProofs2 SpecIo IoProofs PyBase
  DlisFdata SpecFdata FdataProofs LisTypes LisTypesProofs SpecLisTypes LisTypesProofs2 LisProtocol LisIo LisPy LisCurves SpecLisCurves
  LisCurvesProofs LisCurvesProofs2.
From Flocq Require Import Core IEEE754.Binary IEEE754.Bits.
From Coq Require Import Lia Lra ZArith Reals.
Local Open Scope Z_scope.
Ltac Zify.zify_post_hook ::= Z.div_mod_to_equations.

(** ** Integral doubles *)
Lemma integral_spec x z : integral x = Some z <-> is_finite 53 1024 x = true /\ B2R 53 1024 x = IZR z.
Proof.
  destruct x as [s|s|s pl n|s m e b]; cbn [integral is_finite B2R].
  - split.
    + intros H. injection H as <-. auto.
    + intros [_ H]. f_equal. apply eq_IZR. exact H.
  - split; [discriminate | intros [H _]; discriminate].
  - split; [discriminate | intros [H _]; discriminate].
  - set (v := if s then Z.neg m else Z.pos m). replace (cond_Zopp s (Z.pos m)) with v by (destruct s; reflexivity).
    unfold F2R. cbn [Fnum Fexp]. destruct (Z.leb_spec 0 e) as [L|L].
    + assert (E : (IZR v * bpow radix2 e)%R = IZR (v * 2 ^ e)) by (rewrite mult_IZR, (IZR_Zpower radix2) by exact L; reflexivity).
      rewrite E. split.
      * intros H. injection H as <-. auto.
      * intros [_ H]. apply eq_IZR in H. rewrite H. reflexivity.
    + assert (P : 0 < 2 ^ (- e)) by (apply Z.pow_pos_nonneg; lia).
      assert (E : forall k, (IZR v * bpow radix2 e)%R = IZR k <-> v = k * 2 ^ (- e)).
      { intros k. assert (B : (bpow radix2 e * bpow radix2 (- e) = 1)%R) by (rewrite <- bpow_plus, Z.add_opp_diag_r; reflexivity).
        assert (I : bpow radix2 (- e) = IZR (2 ^ (- e))) by (rewrite (IZR_Zpower radix2) by lia; reflexivity).
        split.
        - intros H. apply eq_IZR. rewrite mult_IZR, <- I, <- H, Rmult_assoc, B. ring.
        - intros ->. rewrite mult_IZR, <- I, Rmult_assoc, (Rmult_comm _ (bpow radix2 e)), B. ring. }
      rewrite E. destruct (Z.eqb_spec (v mod 2 ^ (- e)) 0) as [D|D].
      * split; [intros H; injection H as <-; split; [reflexivity | nia] | intros [_ H]; f_equal; nia].
      * split; [discriminate|]. intros [_ H]. exfalso. apply D. rewrite H. apply Z.mod_mul. lia.
Qed.

(** ** Samples *)
Inductive item_of (rate : Z) (s : spec_block) : item -> Prop :=
| io_skip : ~ selected rate s -> item_of rate s (Skip (Z.abs (sp_reserved_size s)))
| io_text q : selected rate s -> sp_reprc s = 65 -> sp_reserved_size s = q * rate -> item_of rate s (Txt q)
| io_num c n m q k : selected rate s -> In (sp_reprc s, c, n, m) lis_formats -> sp_reserved_size s = q * rate -> q = k * Z.of_nat n ->
    item_of rate s (Num c k).
Lemma item_valid rate s it : 1 <= rate -> item_of rate s it -> valid_item it.
Proof.
  intros R [N|q [P _] T Q|c n m q k [P _] I Q K]; cbn; [lia|nia|].
  split; [|exists n, m; exists (sp_reprc s); exact I]. assert (good c n m) as G by (exists (sp_reprc s); exact I). apply good_pos in G. nia.
Qed.
Lemma code_unique rc c n m c' n' m' : In (rc, c, n, m) lis_formats -> In (rc, c', n', m') lis_formats -> c = c' /\ n = n' /\ m = m'.
Proof.
  intros H H'. cbn [lis_formats In] in H, H'.
  repeat (destruct H as [H|H]; [injection H as <- <- <- <-;
    repeat (destruct H' as [H'|H']; [try discriminate H'; injection H' as <- <- <-; repeat split; reflexivity|]); destruct H'|]).
  destruct H.
Qed.
Lemma no_code_65 c n m : ~ In (65, c, n, m) lis_formats.
Proof. intros H. cbn [lis_formats In] in H. repeat (destruct H as [H|H]; [discriminate|]). exact H. Qed.
Lemma len_of (e : bytes) : len e = Z.of_nat (length e).
Proof. reflexivity. Qed.

Lemma item_read rate s it e k rest left : 1 <= rate -> item_of rate s it -> selected rate s -> sample_of (sp_reprc s) e k -> len e * rate = sp_reserved_size s ->
  len e <= left -> read_item it (mk_ptr (e ++ rest) left) = Ok (k, mk_ptr rest (left - len e)).
Proof.
  intros R I S V L B. destruct I as [N|q _ T Q|c n m q j _ F Q K]; [contradiction| |].
  - rewrite T in V. inversion V as [? c n m j e' w F _|e' u U]; subst; [apply no_code_65 in F; contradiction|].
    assert (q = len e) by nia. subst q. cbn [read_item p_mem]. unfold SpecIo.len. rewrite Nat2Z.id, take_app by reflexivity. cbn [unchecked rbind].
    rewrite U. rewrite advance_app by reflexivity. reflexivity.
  - inversion V as [? c' n' m' j' e' w F' W|e' u U]; subst; [|rewrite <- H in F; apply no_code_65 in F; contradiction].
    destruct (code_unique _ _ _ _ _ _ _ F F') as (<- & <- & <-).
    assert (G : good c n m) by (exists (sp_reprc s); exact F). pose proof (good_pos _ _ _ G).
    destruct (natives_length _ _ _ _ G _ _ W) as [Le _].
    cbn [read_item]. unfold SpecIo.len in *. assert (j = Z.of_nat j').
    { apply (Z.mul_reg_r _ _ (Z.of_nat n)); [lia|]. apply (Z.mul_reg_r _ _ rate); lia. }
    subst j. rewrite Nat2Z.id. apply numbers_read; assumption.
Qed.
Lemma item_inv rate s it p k p' : 1 <= rate -> item_of rate s it -> selected rate s -> read_item it p = Ok (k, p') ->
  exists e, p_mem p = e ++ p_mem p' /\ p_left p' = p_left p - len e /\ sample_of (sp_reprc s) e k /\ len e * rate = sp_reserved_size s /\
    (sp_reprc s <> 65 -> 0 <= p_left p').
Proof.
  intros R I S H. pose proof (item_valid _ _ _ R I) as V. destruct I as [N|q _ T Q|c n m q j SS F Q K]; [contradiction| |].
  - cbn [read_item] in H. destruct (take _ _) as [[e r]|] eqn:E; cbn [unchecked rbind] in H; [|discriminate]. destruct (utf8 e) as [u|] eqn:U; [|discriminate].
    destruct (advance p q) as [p1| | |] eqn:A; try discriminate. cbn [rbind] in H. injection H as <- <-. cbn in V.
    apply advance_inv in A as (e' & M & L & B); [|exact V]. apply take_Some in E as [E L'].
    assert (e' = e). { rewrite E in M. apply app_split in M as [M _]; [auto | lia]. } subst e'. unfold SpecIo.len.
    exists e. split; [exact M|]. split; [lia|]. split; [rewrite T; constructor; exact U|]. split; [rewrite L; lia | intros []; exact T].
  - cbn [read_item] in H. assert (G : good c n m) by (exists (sp_reprc s); exact F). destruct V as [J _].
    destruct (numbers_inv _ _ _ _ G _ _ _ H) as (e & w & M & L & B & W & ->). exists e. unfold SpecIo.len. split; [exact M|]. split; [exact L|].
    split; [econstructor; eassumption|]. destruct (natives_length _ _ _ _ G _ _ W) as [Le _]. split; [rewrite Le; nia|].
    intros _. destruct B as [B|B]; [|exact B]. pose proof (good_pos _ _ _ G). destruct S as [S _]. nia.
Qed.

(** ** Channels *)
Lemma col_read rate s it : 1 <= rate -> item_of rate s it -> selected rate s -> forall es ks,
  Forall2 (fun e k => sample_of (sp_reprc s) e k /\ len e * rate = sp_reserved_size s) es ks -> forall rest left, len (concat es) <= left ->
  read_col (length es) it (mk_ptr (concat es ++ rest) left) = Ok (ks, mk_ptr rest (left - len (concat es))).
Proof.
  intros R I S. induction 1 as [|e k es ks [V L] H IH]; intros rest left B; cbn [concat length read_col].
  { rewrite Z.sub_0_r. reflexivity. }
  cbn [concat] in B. rewrite len_app in *. pose proof (len_nonneg e). pose proof (len_nonneg (concat es)).
  rewrite <- app_assoc, (item_read rate s it e k) by (assumption || lia). cbn [rbind]. rewrite IH by lia. cbn [rbind]. do 3 f_equal. lia.
Qed.
Lemma col_inv rate s it : 1 <= rate -> item_of rate s it -> selected rate s -> forall n p ks p', read_col n it p = Ok (ks, p') ->
  exists es, p_mem p = concat es ++ p_mem p' /\ p_left p' = p_left p - len (concat es) /\ length es = n /\
    Forall2 (fun e k => sample_of (sp_reprc s) e k /\ len e * rate = sp_reserved_size s) es ks /\
    (sp_reprc s <> 65 -> (1 <= n)%nat -> 0 <= p_left p').
Proof.
  intros R I S. induction n as [|n IH]; intros p ks p' H; cbn [read_col] in H.
  { injection H as <- <-. exists []. cbn. repeat split; try constructor; try lia. }
  destruct (read_item it p) as [[k p1]| | |] eqn:E; try discriminate. cbn [rbind] in H.
  destruct (read_col n it p1) as [[ks' p2]| | |] eqn:C; try discriminate. cbn [rbind] in H. injection H as <- <-.
  destruct (item_inv _ _ _ _ _ _ R I S E) as (e & M & L & V & Q & B). destruct (IH _ _ _ C) as (es & M' & L' & N & F & B').
  exists (e :: es). cbn [concat length]. rewrite len_app. split; [rewrite M, M', app_assoc; reflexivity|]. split; [lia|]. split; [lia|].
  split; [constructor; auto|]. intros T _. destruct n as [|n]; [|apply B'; [exact T | lia]]. destruct es; [|discriminate]. cbn [concat] in L'.
  rewrite len_nil in L'. specialize (B T). lia.
Qed.
Lemma channel_read rate s it b ks rest left : 1 <= rate -> item_of rate s it -> channel_of rate s b ks -> len b <= left ->
  (if match it with Skip _ => true | _ => false end then let! p := advance (mk_ptr (b ++ rest) left) (Z.abs (sp_reserved_size s)) in Ok (repeat [] (Z.to_nat rate), p)
   else read_col (Z.to_nat rate) it (mk_ptr (b ++ rest) left)) = Ok (ks, mk_ptr rest (left - len b)).
Proof.
  intros R I C L. destruct C as [es ks S N F|b N E].
  - replace (Z.to_nat rate) with (length es) by lia. destruct it; [inversion I; contradiction| |]; apply (col_read rate s); assumption.
  - inversion I; try contradiction. rewrite advance_app by (symmetry; exact E). rewrite E. reflexivity.
Qed.
Lemma cols_read rate ss its : 1 <= rate -> Forall2 (item_of rate) ss its -> forall e rows, channels_of rate ss e rows -> forall rest left, len e <= left ->
  read_cols (Z.to_nat rate) its (mk_ptr (e ++ rest) left) = Ok (rows, mk_ptr rest (left - len e)).
Proof.
  intros R. induction 1 as [|s it ss its I IS IH]; intros e rows C rest left L.
  { inversion C; subst. cbn [read_cols app]. rewrite len_nil, Z.sub_0_r. reflexivity. }
  inversion C as [|? b ks ? e' rows' C1 C2]; subst. rewrite len_app in L. pose proof (len_nonneg b). pose proof (len_nonneg e').
  pose proof (channel_read rate s it b ks (e' ++ rest) left R I C1 ltac:(lia)) as E. rewrite <- app_assoc.
  assert (LR : length rows' = Z.to_nat rate).
  { specialize (IH _ _ C2 rest (len e') ltac:(lia)). apply cols_shape in IH; [tauto|]. clear -R IS. induction IS; constructor; eauto using item_valid. }
  destruct it as [n|c k|n].
  - cbn [read_cols]. inversion I as [N HN| |]; subst. destruct (advance _ _) as [p1| | |] eqn:A; try discriminate. cbn [rbind] in E |- *. injection E as <- ->.
    rewrite (IH _ _ C2) by lia. rewrite beside_nil_l by exact LR. do 3 f_equal. rewrite len_app. lia.
  - rewrite cols_cons by discriminate. rewrite E. cbn [rbind]. rewrite (IH _ _ C2) by lia. cbn [rbind]. do 3 f_equal. rewrite len_app. lia.
  - rewrite cols_cons by discriminate. rewrite E. cbn [rbind]. rewrite (IH _ _ C2) by lia. cbn [rbind]. do 3 f_equal. rewrite len_app. lia.
Qed.
(** the last channel is read and is not a text *)
Definition checked (rate : Z) (ss : list spec_block) : Prop :=
  exists ss' s, ss = ss' ++ [s] /\ selected rate s /\ sp_reprc s <> 65.
Lemma checked_cons rate s ss : checked rate (s :: ss) -> checked rate ss \/ (ss = [] /\ selected rate s /\ sp_reprc s <> 65).
Proof.
  intros (ss' & x & E & S & T). destruct ss' as [|y ss']; cbn in E; injection E as -> ->; [auto|]. left. exists ss', x. auto.
Qed.
Lemma cols_inv rate ss its : 1 <= rate -> Forall2 (item_of rate) ss its -> forall p rows p', read_cols (Z.to_nat rate) its p = Ok (rows, p') ->
  exists e, p_mem p = e ++ p_mem p' /\ p_left p' = p_left p - len e /\ channels_of rate ss e rows /\ (checked rate ss -> 0 <= p_left p').
Proof.
  intros R. induction 1 as [|s it ss its I IS IH]; intros p rows p' H.
  { cbn in H. injection H as <- <-. exists []. rewrite len_nil. repeat split; [lia|constructor|]. intros ([|] & x & E & _); discriminate. }
  assert (X : exists ks p1, (exists b, p_mem p = b ++ p_mem p1 /\ p_left p1 = p_left p - len b /\ channel_of rate s b ks /\
                      (selected rate s -> sp_reprc s <> 65 -> 0 <= p_left p1)) /\
                   exists rows', read_cols (Z.to_nat rate) its p1 = Ok (rows', p') /\ rows = beside ks rows').
  { assert (Y : match it with Skip _ => False | _ => True end -> selected rate s -> read_cols (Z.to_nat rate) (it :: its) p =
        (let! (ks, p) := read_col (Z.to_nat rate) it p in let! (rows, p) := read_cols (Z.to_nat rate) its p in Ok (beside ks rows, p)) ->
        exists ks p1, (exists b, p_mem p = b ++ p_mem p1 /\ p_left p1 = p_left p - len b /\ channel_of rate s b ks /\
                      (selected rate s -> sp_reprc s <> 65 -> 0 <= p_left p1)) /\
                   exists rows', read_cols (Z.to_nat rate) its p1 = Ok (rows', p') /\ rows = beside ks rows').
    { intros _ S E. rewrite E in H. destruct (read_col _ it p) as [[ks p1]| | |] eqn:C; try discriminate. cbn [rbind] in H.
      destruct (read_cols _ its p1) as [[rows' p2]| | |] eqn:CS; try discriminate. cbn [rbind] in H. injection H as <- <-.
      destruct (col_inv rate s it R I S _ _ _ _ C) as (es & M & L & N & F & B). exists ks, p1. split; [|exists rows'; auto].
      exists (concat es). split; [exact M|]. split; [exact L|]. split; [constructor; [exact S|lia|exact F]|]. intros _ T. apply B; [exact T | lia]. }
    inversion I as [N HN|q S T Q|c n m q k S F Q K]; subst it.
    - cbn [read_cols] in H. destruct (advance p _) as [p1| | |] eqn:A; try discriminate. cbn [rbind] in H.
      apply advance_inv in A as (b & M & L & B); [|lia]. exists (repeat [] (Z.to_nat rate)), p1. split.
      + exists b. split; [exact M|]. split; [unfold SpecIo.len; lia|]. split; [constructor 2; [exact N | exact L] | contradiction].
      + exists rows. split; [exact H|]. symmetry. apply beside_nil_l. apply cols_shape in H; [tauto|]. clear -R IS. induction IS; constructor; eauto using item_valid.
    - apply Y; [exact Logic.I|exact S|]. apply cols_cons. discriminate.
    - apply Y; [exact Logic.I|exact S|]. apply cols_cons. discriminate. }
  destruct X as (ks & p1 & (b & M & L & C & B) & rows' & RC & ->). destruct (IH _ _ _ RC) as (e & M' & L' & C' & B').
  exists (b ++ e). split; [rewrite M, M', app_assoc; reflexivity|]. rewrite len_app. split; [lia|]. split; [constructor; assumption|].
  intros CK. apply checked_cons in CK as [CK|(-> & S & T)]; [exact (B' CK)|]. inversion C'; subst. rewrite len_nil in L'. specialize (B S T). lia.
Qed.

(** ** The index *)
Lemma b32_range (x : binary32) : 0 <= bits_of_b32 x < 256 ^ Z.of_nat 4.
Proof. exact (bits_of_binary_float_range 23 8 eq_refl eq_refl x). Qed.
Lemma float_range n (f : Z -> binary32) e v : (do (u, r) <- read_be n e; Some (bits_of_b32 (f u), r)) = Some (v, []) -> v mod 256 ^ Z.of_nat 4 = v.
Proof.
  destruct (read_be n e) as [[u r]|]; cbn [obind]; [|discriminate]. pose proof (b32_range (f u)) as B. revert B. generalize (bits_of_b32 (f u)). intros b B H.
  injection H as <- _. apply Z.mod_small. exact B.
Qed.
Definition index_code (rc : Z) (c : byte) : Prop := exists n m, In (rc, c, n, m) lis_formats.
Lemma code_char rc c : index_code rc c -> In (rc, c) [(56, "s"%byte); (79, "i"%byte); (73, "l"%byte); (49, "e"%byte); (68, "f"%byte); (50, "r"%byte); (70, "p"%byte); (66, "b"%byte)].
Proof.
  intros (n & m & H). cbn [lis_formats In] in H.
  repeat (destruct H as [H|H]; [injection H as <- <- <- <-; cbn; tauto|]). destruct H.
Qed.
(** the double a number in the array becomes *)
Definition index_double (c : byte) (w : bytes) : binary64 :=
  match c with
  | "s"%byte => int_to_double 8 (le w)
  | "i"%byte => int_to_double 16 (le w)
  | "l"%byte => int_to_double 32 (le w)
  | "b"%byte => f64_of (le w) 0
  | _ => float_to_double (le w)
  end.
Lemma twos_back n m z u : 0 < n -> 256 ^ m = 2 ^ n -> twos_complement n u z -> signed n (z mod 256 ^ m) = z.
Proof.
  intros Hn E T. rewrite E. assert (P : 0 < 2 ^ n) by (apply Z.pow_pos_nonneg; lia).
  apply (twos_unique n (z mod 2 ^ n)); [exact Hn| |].
  - apply signed_twos; [exact Hn|]. apply Z.mod_pos_bound. exact P.
  - destruct T as [T _]. split; [exact T|]. rewrite Zminus_mod_idemp_l, Z.sub_diag. apply Z.mod_0_l. lia.
Qed.
Lemma native_index rc c e w : index_code rc c -> lis_native c e w -> index_number rc e (index_double c w).
Proof.
  intros C H. apply code_char in C. destruct H as [b z w T N|b0 b1 z w T N|b0 b1 b2 b3 z w T N|b|e v w R N|e v w R N|e v w R N|e v w R N];
    cbn [In] in C; repeat (destruct C as [C|C]; [try discriminate C; injection C as <-|]); try contradiction C; cbn [index_double].
  - destruct N as [_ ->]. unfold int_to_double. rewrite (twos_back 8 (Z.of_nat 1) z _ ltac:(lia) ltac:(reflexivity) T). constructor. exact T.
  - destruct N as [_ ->]. unfold int_to_double. rewrite (twos_back 16 (Z.of_nat 2) z _ ltac:(lia) ltac:(reflexivity) T). constructor. exact T.
  - destruct N as [_ ->]. unfold int_to_double. rewrite (twos_back 32 (Z.of_nat 4) z _ ltac:(lia) ltac:(reflexivity) T). constructor. exact T.
  - cbn [le]. replace (b2z b + 256 * 0) with (b2z b) by lia. constructor.
  - destruct N as [_ ->]. unfold float_to_double. rewrite (float_range 2 f16_word e v R). constructor. exact R.
  - destruct N as [_ ->]. unfold float_to_double. rewrite (float_range 4 f32_word e v R). constructor. exact R.
  - destruct N as [_ ->]. unfold float_to_double. rewrite (float_range 4 f32low_word e v R). constructor. exact R.
  - destruct N as [_ ->]. unfold float_to_double. rewrite (float_range 4 f32fix_word e v R). constructor. exact R.
Qed.
Lemma index_native rc c e x : index_code rc c -> index_number rc e x -> exists w, lis_native c e w /\ index_double c w = x.
Proof.
  intros C H. pose proof (code_char _ _ C) as C'.
  assert (X : exists w, lis_native c e w).
  { destruct H as [b z T|b0 b1 z T|b0 b1 b2 b3 z T|b|e v R|e v R|e v R|e v R]; cbn [In] in C';
      repeat (destruct C' as [C'|C']; [try discriminate C'; injection C' as <-|]); try contradiction C';
      first [ exists (native 1 z); econstructor; [eassumption | apply number_native; reflexivity]
            | exists (native 2 z); econstructor; [eassumption | apply number_native; reflexivity]
            | exists (native 4 z); econstructor; [eassumption | apply number_native; reflexivity]
            | exists (native 4 v); econstructor; [eassumption | apply number_native; reflexivity]
            | exists [b]; constructor ]. }
  destruct X as [w W]. exists w. split; [exact W|]. pose proof (native_index _ _ _ _ C W) as H'.
  clear C C'. destruct H; inversion H'; subst;
    try match goal with H1 : twos_complement ?n ?u ?a, H2 : twos_complement ?n ?u ?b |- _ => rewrite (twos_unique n u a b ltac:(lia) H1 H2) in * end; congruence.
Qed.
Lemma index_size rc e x c n m : index_number rc e x -> In (rc, c, n, m) lis_formats -> length e = n.
Proof.
  intros H F. destruct (index_native rc c e x) as (w & W & _); [exists n, m; exact F | exact H|].
  apply native_size in W. apply (format_unique _ _ _ n m) in W; [tauto | exists rc; exact F].
Qed.
Lemma raw_map w : raw_bytes (map Raw w) = Some w.
Proof. induction w as [|b w IH]; [reflexivity|]. cbn [map raw_bytes]. rewrite IH. reflexivity. Qed.
(** one number, as a double *)
Lemma read_index_double rc c p ix : index_code rc c ->
  read_index (c :: text "1") p ix =
  let! (cells, p') := read_numbers 1 c p in
  match raw_bytes cells with Some w => Ok (p', index_update (index_double c w) ix) | None => UB end.
Proof.
  intros C. pose proof C as C'. destruct C' as (n & m & F).
  assert (G : good c n m) by (exists rc; exact F).
  assert (E : forall k conv, k = m -> from_src (c :: text "1") k conv p = let! (cells, p') := read_numbers 1 c p in match raw_bytes cells with Some w => Ok (conv (le w), p') | None => UB end).
  { intros k conv ->. unfold from_src. rewrite index_item by eauto. destruct (read_numbers 1 c p) as [[cells p']| | |] eqn:R; try reflexivity. cbn [rbind].
    destruct (numbers_inv _ _ _ _ G _ _ _ R) as (e & w & _ & _ & _ & W & ->). rewrite raw_map. apply (natives_length _ _ _ _ G) in W as [_ L].
    rewrite L, Nat.mul_1_l, Nat.eqb_refl. reflexivity. }
  assert (Em : m = char_width c) by (symmetry; eapply char_width_good; exact G).
  apply code_char in C. cbn [In] in C. unfold read_index.
  repeat (destruct C as [C|C]; [injection C as <- <-; rewrite E by (rewrite Em; reflexivity);
    destruct (read_numbers 1 _ p) as [[cells p']| | |]; try reflexivity; cbn [rbind]; destruct (raw_bytes cells); reflexivity|]). destruct C.
Qed.
Lemma index_read rc c e x rest left ix : index_code rc c -> index_number rc e x -> len e <= left ->
  read_index (c :: text "1") (mk_ptr (e ++ rest) left) ix = Ok (mk_ptr rest (left - len e), index_update x ix).
Proof.
  intros C H L. rewrite (read_index_double rc) by exact C. destruct (index_native _ _ _ _ C H) as (w & W & D).
  rewrite (numbers_read c 1 e w) by (cbn [repeat]; auto using natives_one). cbn [rbind]. rewrite raw_map, D. reflexivity.
Qed.
Lemma index_inv rc c p ix p' ix' : index_code rc c -> read_index (c :: text "1") p ix = Ok (p', ix') ->
  exists e x, p_mem p = e ++ p_mem p' /\ p_left p' = p_left p - len e /\ index_number rc e x /\ ix' = index_update x ix /\ 0 <= p_left p'.
Proof.
  intros C H. rewrite (read_index_double rc) in H by exact C. destruct (read_numbers 1 c p) as [[cells p1]| | |] eqn:R; try discriminate. cbn [rbind] in H.
  pose proof C as (n & m & F). assert (G : good c n m) by (exists rc; exact F).
  destruct (numbers_inv _ _ _ _ G _ _ _ R) as (e & w & M & L & B & W & ->). rewrite raw_map in H. injection H as <- <-.
  cbn [repeat] in W. inversion W as [|? e1 w1 ? e2 w2 W1 W2]; subst. inversion W2; subst. rewrite !app_nil_r in *.
  exists e1, (index_double c w1). split; [exact M|]. split; [exact L|]. split; [apply native_index; assumption|]. split; [reflexivity|]. destruct B; [discriminate | assumption].
Qed.

(** *** Values in the array *)
Lemma int_cells n lo hi x k : to_int n lo hi x = Ok k <-> exists z w, is_finite 53 1024 x = true /\ B2R 53 1024 x = IZR z /\ lo <= z <= hi - 1 /\ number n z w /\ k = map Raw w.
Proof.
  unfold to_int. destruct (integral x) as [z|] eqn:E.
  - apply integral_spec in E as [F E]. split.
    + destruct ((lo <=? z) && (z <? hi)) eqn:B; [|discriminate]. intros H. injection H as <-. exists z, (native n z). repeat split; try assumption; try lia; [apply native_length | apply native_le].
    + intros (z' & w & _ & E' & B & N & ->). assert (z = z') as <- by (apply eq_IZR; congruence). replace ((lo <=? z) && (z <? hi)) with true by lia.
      apply number_native in N as ->. reflexivity.
  - split; [discriminate|]. intros (z & w & F & E' & _). assert (X : integral x = Some z) by (apply integral_spec; auto). congruence.
Qed.
Lemma write_index_iff rc c f x k : index_code rc c -> write_index (c :: f) x = Ok k <-> index_cells rc x k.
Proof.
  intros C. apply code_char in C. cbn [In] in C.
  assert (I : forall n lo hi, In (rc, (n, (lo, hi - 1))) int_types -> to_int n lo hi x = Ok k <-> index_cells rc x k).
  { intros n lo hi T. rewrite int_cells. split.
    - intros (z & w & F & E & B & N & ->). econstructor; eassumption.
    - intros H. inversion H as [? n' lo' hi' ? z w T' F E B N|? ? w T' N]; subst.
      + exists z, w. assert (n' = n /\ lo' = lo /\ hi' = hi - 1) as (-> & -> & ->); [|auto].
        cbn [int_types In] in T, T'. clear -T T'.
        repeat (destruct T as [T|T]; [injection T as <- <- <- T;
          repeat (destruct T' as [T'|T']; [try discriminate T'; injection T' as <- <- <-; repeat split; lia|]); destruct T'|]). destruct T.
      + exfalso. cbn [int_types In] in T, T'. clear -T T'.
        repeat (destruct T as [T|T]; [injection T as <- <- <- T; repeat (destruct T' as [T'|T']; [discriminate T'|]); destruct T'|]). destruct T. }
  assert (F : In rc [49; 68; 50; 70] -> to_float x = Ok k <-> index_cells rc x k).
  { intros T. unfold to_float. split.
    - intros H. assert (k = map Raw (native 4 (bits_of_b32 (f64_to_f32 x)))) as -> by congruence. constructor; [exact T|]. apply number_native. reflexivity.
    - intros H. inversion H as [? n' lo' hi' ? z w T' F E B N|? ? w T' N]; subst.
      + exfalso. cbn [int_types In] in T, T'. clear -T T'.
        repeat (destruct T' as [T'|T']; [injection T' as <- <- <- <-; repeat (destruct T as [T|T]; [discriminate T|]); destruct T|]). destruct T'.
      + apply number_native in N as ->. reflexivity. }
  repeat (destruct C as [C|C]; [injection C as <- <-; cbn [write_index];
    first [apply F; cbn; tauto | apply I; cbn; tauto] |]). destruct C.
Qed.
