(** The LIS curve reader writes row by row: the array after reading is the rows that
    were in it and the rows of the records read. *)
From Verif Require Import Bytes BytesProofs DlisTypes DlisCore Stream DlisRecords SpecTypes TypesProofs CoreProofs2 SpecIo IoProofs PyBase
  DlisFdata SpecFdata FdataProofs LisTypes LisTypesProofs SpecLisTypes LisTypesProofs2 LisProtocol LisIo LisPy LisCurves SpecLisCurves LisCurvesProofs.
From Flocq Require Import Core IEEE754.Binary IEEE754.Bits.
From Coq Require Import Lia ZArith.
Local Open Scope Z_scope.
Ltac Zify.zify_post_hook ::= Z.div_mod_to_equations.

(** ** Writing *)
Lemma write_mid a pre old post new : a_cells a = pre ++ old ++ post -> a_dst a = Z.of_nat (length pre) -> length old = length new ->
  write_dst a new = Ok (mk_array (pre ++ new ++ post) (a_rows a) (a_frames a) (a_dst a + Z.of_nat (length new))).
Proof.
  intros C D L. unfold write_dst, write. rewrite C, D, Nat2Z.id, !app_length, L. replace (_ || _) with false by lia. cbn [unchecked].
  rewrite firstn_app, firstn_all, Nat.sub_diag. cbn [firstn]. rewrite app_nil_r.
  rewrite skipn_app, skipn_all2 by lia. cbn [app]. replace (length pre + length new - length pre)%nat with (length old) by lia.
  rewrite skipn_app, skipn_all, Nat.sub_diag. reflexivity.
Qed.
Definition with_cells (a : array) (cells : list cell) (dst : Z) : array := mk_array cells (a_rows a) (a_frames a) dst.

Definition widths (n : nat) (l : list (list cell)) : Prop := Forall (fun k => length k = n) l.
Lemma concat_widths n l : widths n l -> length (concat l) = (length l * n)%nat.
Proof. induction 1 as [|k l E F IH]; [reflexivity|]. cbn. rewrite app_length, IH. lia. Qed.
Lemma chop n k : forall (l : list cell), length l = (k * n)%nat -> exists rows, l = concat rows /\ length rows = k /\ widths n rows.
Proof.
  induction k as [|k IH]; intros l L.
  { destruct l; [|discriminate]. exists []. split; [reflexivity|]. split; [reflexivity | constructor]. }
  destruct (IH (skipn n l)) as (rows & E & R & W). { rewrite skipn_length. lia. }
  exists (firstn n l :: rows). cbn. rewrite <- E, firstn_skipn, R. split; [reflexivity|]. split; [reflexivity|].
  constructor; [rewrite firstn_length; lia | exact W].
Qed.
(** the columns of a block *)
Lemma chop_beside u v : forall l, widths (u + v) l -> exists a b, l = beside a b /\ length a = length l /\ length b = length l /\ widths u a /\ widths v b.
Proof.
  induction 1 as [|k l E F IH].
  { exists [], []. repeat split; constructor. }
  destruct IH as (a & b & -> & L1 & L2 & W1 & W2). exists (firstn u k :: a), (skipn u k :: b).
  cbn. rewrite firstn_skipn, L1, L2. split; [reflexivity|]. split; [reflexivity|]. split; [reflexivity|].
  split; constructor; try assumption; [rewrite firstn_length | rewrite skipn_length]; lia.
Qed.

(** ** A column *)
Lemma samples_pure it f fc w : valid_item it -> (forall n, it <> Skip n) -> no_digit f -> w = item_width it -> forall n start sample fmt0 p a pre A K B post u v,
  a_cells a = pre ++ concat (beside A (beside K B)) ++ post ->
  length A = n -> length K = n -> length B = n -> widths u A -> widths w K -> widths v B ->
  fc_framesize fc = Z.of_nat (u + w + v) -> start + fc_framesize fc * sample = Z.of_nat (length pre + u) ->
  read_samples n fc (item_fmt it ++ f) start sample fmt0 p a =
  let! (ks, p') := read_col n it p in
  Ok (match n with O => fmt0 | _ => f end, p',
      with_cells a (pre ++ concat (beside A (beside ks B)) ++ post)
        (match n with O => a_dst a | _ => start + fc_framesize fc * (sample + Z.of_nat n - 1) + Z.of_nat w end)).
Proof.
  intros V N D ->. induction n as [|n IH]; intros start sample fmt0 p a pre A K B post u v C LA LK LB WA WK WB F S.
  { destruct A; [|discriminate]. destruct K; [|discriminate]. destruct B; [|discriminate].
    cbn [read_samples read_col rbind]. cbn [beside] in *. rewrite <- C. destruct a; reflexivity. }
  destruct A as [|A1 A]; [discriminate|]. destruct K as [|K1 K]; [discriminate|]. destruct B as [|B1 B]; [discriminate|].
  cbn [length] in LA, LK, LB. injection LA as LA. injection LK as LK. injection LB as LB. inversion WA as [|? ? EA WA']; inversion WK as [|? ? EK WK']; inversion WB as [|? ? EB WB']; subst.
  cbn [read_samples read_col]. rewrite sample_item by assumption.
  destruct (read_item it p) as [[k p1]| | |] eqn:R; cbn [rbind]; try reflexivity.
  pose proof (item_length _ _ _ _ V R) as Lk.
  cbn [beside concat] in C. rewrite <- !app_assoc in C.
  rewrite (write_mid _ (pre ++ A1) K1 (B1 ++ concat (beside A (beside K B)) ++ post) k).
  2: { cbn [set_dst a_cells]. rewrite C, <- !app_assoc. reflexivity. }
  2: { cbn [set_dst a_dst]. rewrite app_length. exact S. }
  2: lia.
  cbn [rbind set_dst a_dst a_rows a_frames].
  rewrite (IH start (sample + 1) f p1 _ (pre ++ A1 ++ k ++ B1) A K B post (length A1) (length B1)).
  2: { cbn [a_cells]. rewrite <- !app_assoc. reflexivity. }
  2: reflexivity. 2: exact LK. 2: exact LB. 2: exact WA'. 2: exact WK'. 2: exact WB'. 2: exact F.
  2: { rewrite !app_length, Lk. rewrite Z.mul_add_distr_l, Z.mul_1_r, Z.add_assoc, S, F. lia. }
  destruct (read_col (length A) it p1) as [[ks p2]| | |] eqn:RC; cbn [rbind]; try reflexivity.
  unfold with_cells. cbn [a_rows a_frames a_dst beside concat]. rewrite <- !app_assoc, Lk.
  destruct (col_shape _ _ V _ _ _ RC) as [LC _]. destruct (length A) as [|n'] eqn:LA'.
  - destruct ks; [|discriminate]. destruct A; [|discriminate]. cbn [beside concat app]. do 2 f_equal. f_equal. nia.
  - do 2 f_equal. f_equal. lia.
Qed.

(** ** The channels *)
Lemma fmt_length it : valid_item it -> (1 <= length (item_fmt it))%nat.
Proof. destruct it; cbn; lia. Qed.
Lemma cols_cons rate it its p : (forall n, it <> Skip n) ->
  read_cols rate (it :: its) p = let! (ks, p) := read_col rate it p in let! (rows, p) := read_cols rate its p in Ok (beside ks rows, p).
Proof. intros N. destruct it; [destruct (N n); reflexivity| |]; reflexivity. Qed.
Lemma channels_pure fc rate : (1 <= rate)%nat -> fc_samples fc = Z.of_nat rate -> forall its, Forall valid_item its -> forall fuel p a pre A R post u,
  (length (fmt_of its) <= fuel)%nat -> a_cells a = pre ++ concat (beside A R) ++ post -> length A = rate -> length R = rate -> widths u A ->
  widths (items_width its) R -> fc_framesize fc = Z.of_nat (u + items_width its) -> a_dst a = Z.of_nat (length pre + u) ->
  read_channels fuel fc (fmt_of its) p a =
  let! (rows, p') := read_cols rate its p in
  Ok (p', with_cells a (pre ++ concat (beside A rows) ++ post) (Z.of_nat (length pre + u + items_width its))).
Proof.
  intros Hr Hs. induction 1 as [|it its V Vs IH]; intros fuel p a pre A R post u L C LA LR WA WR F D.
  { destruct fuel; cbn [read_channels fmt_of map concat read_cols rbind]; unfold with_cells, items_width; cbn [map list_sum fold_right];
      rewrite Nat.add_0_r, <- D; destruct a as [ac ar af ad]; cbn [a_cells a_dst a_rows a_frames] in *; subst;
      (assert (R = repeat [] (length A)) as ->;
       [ revert LR WR; generalize (length A); induction R as [|x R IHR]; intros [|n] LR WR; try discriminate; [reflexivity|];
         inversion WR as [|? ? E W]; subst; destruct x; [|discriminate]; cbn; f_equal; apply IHR; [cbn in LR; lia | exact W] | reflexivity]). }
  assert (LF : (length (fmt_of (it :: its)) = length (item_fmt it) + length (fmt_of its))%nat).
  { unfold fmt_of. cbn [map concat]. apply app_length. }
  rewrite LF in L. destruct fuel as [|fuel]; [pose proof (fmt_length it V); lia|].
  change (fmt_of (it :: its)) with (item_fmt it ++ fmt_of its).
  pose proof (fmt_no_digit its Vs) as ND.
  assert (Wd : items_width (it :: its) = (item_width it + items_width its)%nat) by reflexivity.
  destruct it as [n|c k|n].
  { cbn [item_fmt app read_channels read_cols]. replace (Byte.eqb "S" "S") with true by reflexivity.
    rewrite strtol_int by assumption. destruct (advance p n) as [p1| | |]; cbn [rbind]; try reflexivity.
    cbn [item_fmt length] in L. rewrite (IH fuel p1 a pre A R post u); try assumption; try lia. reflexivity. }
  all: match goal with |- read_channels _ _ (item_fmt ?x ++ _) _ _ = _ => set (it := x) in * end;
    rewrite Wd in *; apply chop_beside in WR as (K & B & -> & LK & LB & WK & WB);
    assert (LKB : length (beside K B) = length K) by (apply beside_length; rewrite LK, LB; reflexivity);
    assert (X : match item_fmt it ++ fmt_of its with c :: _ => Byte.eqb c "S" | [] => true end = false)
      by (try (destruct V as [_ (n' & m' & G)]; apply (good_char _ _ _ G)); reflexivity).
  all: cbn [read_channels]; destruct (item_fmt it ++ fmt_of its) as [|c0 f0] eqn:EF; [discriminate|]; rewrite X, <- EF;
    rewrite Hs, Nat2Z.id;
    rewrite (samples_pure it (fmt_of its) fc (item_width it) V ltac:(discriminate) ND eq_refl rate (a_dst a) 0 _ p a pre A K B post u (items_width its)); try assumption; try lia;
    rewrite cols_cons by discriminate;
    destruct (read_col rate it p) as [[ks p1]| | |] eqn:RC; cbn [rbind]; try reflexivity;
    destruct rate as [|rate']; try lia;
    destruct (col_shape _ _ V _ _ _ RC) as [Lks Wks];
    rewrite (IH fuel p1 _ pre (beside A ks) B post (u + item_width it)%nat);
    [ destruct (read_cols (S rate') its p1) as [[rows p2]| | |]; cbn [rbind]; try reflexivity;
      rewrite beside_assoc; unfold with_cells, set_dst; cbn [a_rows a_frames]; do 3 f_equal; lia
    | pose proof (fmt_length it V); lia
    | cbn [set_dst with_cells a_cells]; rewrite beside_assoc; reflexivity
    | rewrite beside_length; lia
    | lia
    | apply beside_widths; assumption
    | assumption
    | lia
    | cbn [set_dst with_cells a_dst]; rewrite F, D; nia ].
Qed.

(** ** The index *)
Definition index_width (c : byte) : nat := char_width c.
Fixpoint sub_rows (n : nat) (fc : frameconfig) (ix : indexchannel) (subframe : Z) : res (list (list cell)) :=
  match n with
  | O => Ok []
  | S n =>
      let! value := index_value ix subframe (fc_samples fc) in
      let! cells := write_index (fc_indexfmt fc) value in
      let! more := sub_rows n fc ix (subframe + 1) in Ok (cells :: more)
  end.
Lemma native_len n z : length (native n z) = n.
Proof. apply native_length. Qed.
Lemma to_int_length n lo hi x k : to_int n lo hi x = Ok k -> length k = n.
Proof.
  unfold to_int. destruct (integral x); [|discriminate]. destruct (_ && _); [|discriminate]. intros H. injection H as <-.
  rewrite map_length. apply native_len.
Qed.
Lemma to_float_length x k : to_float x = Ok k -> length k = 4%nat.
Proof. unfold to_float. generalize (bits_of_b32 (f64_to_f32 x)). intros z H. assert (k = map Raw (native 4 z)) as -> by congruence. rewrite map_length. apply native_len. Qed.
Lemma write_index_width c n m f x k : good c n m -> write_index (c :: f) x = Ok k -> length k = char_width c.
Proof.
  intros G H. rewrite (char_width_good _ _ _ G). destruct G as [rc G]. cbn [lis_formats In] in G.
  repeat (destruct G as [G|G]; [injection G as <- <- <- <-; cbn [write_index] in H;
    first [apply to_int_length in H | apply to_float_length in H]; exact H|]).
  destruct G.
Qed.
Lemma subframes_pure fc c f n0 m0 : fc_indexfmt fc = c :: f -> good c n0 m0 -> forall n ix subframe a cur pre A B post v,
  a_cells a = pre ++ concat (beside A B) ++ post -> length A = n -> length B = n -> widths (char_width c) A -> widths v B ->
  fc_framesize fc = Z.of_nat (char_width c + v) -> a_dst a = Z.of_nat (length pre) ->
  write_subframes n fc ix subframe a cur =
  let! ks := sub_rows n fc ix subframe in
  Ok (with_cells a (pre ++ concat (beside ks B) ++ post) (a_dst a + fc_framesize fc * Z.of_nat n),
      match n with O => cur | _ => a_dst a + fc_framesize fc * (Z.of_nat n - 1) + Z.of_nat (char_width c) end).
Proof.
  intros FI G. induction n as [|n IH]; intros ix subframe a cur pre A B post v C LA LB WA WB F D.
  { destruct A; [|discriminate]. destruct B; [|discriminate].
    cbn [write_subframes sub_rows rbind]. cbn [beside] in *. rewrite <- C. unfold with_cells. rewrite Z.mul_0_r, Z.add_0_r. destruct a; reflexivity. }
  destruct A as [|A1 A]; [discriminate|]. destruct B as [|B1 B]; [discriminate|]. cbn [length] in LA, LB. injection LA as LA. injection LB as LB.
  inversion WA as [|? ? EA WA']; inversion WB as [|? ? EB WB']; subst.
  cbn [write_subframes sub_rows]. destruct (index_value ix subframe (fc_samples fc)) as [x| | |]; cbn [rbind]; try reflexivity.
  destruct (write_index (fc_indexfmt fc) x) as [k| | |] eqn:W; cbn [rbind]; try reflexivity.
  rewrite FI in W. apply (write_index_width _ _ _ _ _ _ G) in W.
  cbn [beside concat] in C. rewrite <- !app_assoc in C.
  rewrite (write_mid a pre A1 _ k C D) by lia. cbn [rbind set_dst a_dst a_rows a_frames a_cells].
  rewrite (IH ix (subframe + 1) _ _ (pre ++ k ++ B1) A B post (length B1)).
  2: { cbn [a_cells set_dst]. rewrite <- !app_assoc. reflexivity. }
  2: reflexivity. 2: exact LB. 2: exact WA'. 2: exact WB'. 2: exact F.
  2: { cbn [a_dst set_dst]. rewrite !app_length. lia. }
  destruct (sub_rows (length A) fc ix (subframe + 1)) as [ks| | |]; cbn [rbind]; try reflexivity.
  cbn [beside concat]. unfold with_cells, set_dst. cbn [a_rows a_frames a_dst]. rewrite <- !app_assoc, W.
  destruct (length A) as [|n'] eqn:E; do 3 f_equal; nia.
Qed.
Lemma sub_rows_shape fc c f n0 m0 : fc_indexfmt fc = c :: f -> good c n0 m0 -> forall n ix subframe ks, sub_rows n fc ix subframe = Ok ks ->
  length ks = n /\ widths (char_width c) ks.
Proof.
  intros FI G. induction n as [|n IH]; intros ix subframe ks H; cbn [sub_rows] in H.
  { injection H as <-. split; constructor. }
  destruct (index_value _ _ _) as [x| | |]; try discriminate. cbn [rbind] in H.
  destruct (write_index _ _) as [k| | |] eqn:W; try discriminate. cbn [rbind] in H.
  destruct (sub_rows n _ _ _) as [more| | |] eqn:S; try discriminate. cbn [rbind] in H. injection H as <-.
  destruct (IH _ _ _ S) as [L F]. cbn [length]. split; [lia|]. constructor; [|exact F]. rewrite FI in W. exact (write_index_width _ _ _ _ _ _ G W).
Qed.

(** ** Frames *)
Definition pure_frame (fc : frameconfig) (its : list item) (p : ptr) (ix : indexchannel) : res (list (list cell) * ptr * indexchannel) :=
  let fast := fc_samples fc >? 1 in
  let rate := Z.to_nat (fc_samples fc) in
  let! (p, ix) := if (fc_mode fc =? 0) && fast then read_index (fc_indexfmt fc) p ix else Ok (p, ix) in
  let! (ks, p) :=
    if (fc_mode fc =? 0) && negb fast then
      let! (cells, _, p) := read_sample (fc_indexfmt fc) p in Ok ([cells], p)
    else let! ks := sub_rows rate fc ix 1 in Ok (ks, p) in
  let! (rows, p) := read_cols rate its p in
  Ok (beside ks rows, p, ix).

(** a configuration that belongs to index [c], rate [rate], items [its] *)
Record config_of (c : byte) (rate : nat) (its : list item) (fc : frameconfig) : Prop := mk_config_of {
  co_idx : fc_indexfmt fc = c :: text "1";
  co_good : exists n m, good c n m;
  co_fmt : fc_fmtstr fc = fmt_of its;
  co_rate : fc_samples fc = Z.of_nat rate;
  co_pos : (1 <= rate)%nat;
  co_valid : Forall valid_item its;
  co_size : fc_framesize fc = Z.of_nat (char_width c + items_width its) }.

Lemma index_item c p : (exists n m, good c n m) -> read_sample (c :: text "1") p = let! (k, p) := read_numbers 1 c p in Ok (k, [], p).
Proof.
  intros (n & m & G). change (c :: text "1") with (item_fmt (Num c 1) ++ []). rewrite sample_item; [reflexivity| |discriminate|exact I].
  split; [lia | eauto].
Qed.
Lemma frame_pure c rate its fc : config_of c rate its fc -> forall p a ix pre blk post,
  a_cells a = pre ++ blk ++ post -> Z.of_nat (length blk) = Z.of_nat rate * fc_framesize fc -> a_dst a = Z.of_nat (length pre) ->
  read_frame fc p a ix = let! (rows, p', ix') := pure_frame fc its p ix in
    Ok (p', with_cells a (pre ++ concat rows ++ post) (a_dst a + Z.of_nat rate * fc_framesize fc), ix').
Proof.
  intros [FI G FF FS P V SZ] p a ix pre blk post C LB D. destruct (G) as (n0 & m0 & G0).
  assert (LB' : length blk = (rate * (char_width c + items_width its))%nat) by nia.
  apply chop in LB' as (rows0 & -> & LR & WR). apply chop_beside in WR as (A & R & -> & LA & LR' & WA & WR). rewrite LR in LA, LR'. clear LR LB.
  unfold read_frame, pure_frame.
  set (r1 := if (fc_mode fc =? 0) && (fc_samples fc >? 1) then read_index (fc_indexfmt fc) p ix else Ok (p, ix)).
  destruct r1 as [[p1 ix1]| | |]; cbn [rbind]; try reflexivity. clear p ix.
  rewrite FF.
  assert (E : (if (fc_mode fc =? 0) && negb (fc_samples fc >? 1)
     then let! (cells, _, p2) := read_sample (fc_indexfmt fc) p1 in let! a0 := write_dst a cells in Ok (p2, a0)
     else let! (a0, current) := write_subframes (Z.to_nat (fc_samples fc)) fc ix1 1 a (a_dst a) in
          Ok (p1, set_dst a0 (current - fc_framesize fc * (fc_samples fc - 1)))) =
    (let! (ks, p2) := (if (fc_mode fc =? 0) && negb (fc_samples fc >? 1)
      then let! (cells, _, p0) := read_sample (fc_indexfmt fc) p1 in Ok ([cells], p0)
      else let! ks := sub_rows (Z.to_nat (fc_samples fc)) fc ix1 1 in Ok (ks, p1)) in
    Ok (p2, with_cells a (pre ++ concat (beside ks R) ++ post) (Z.of_nat (length pre + char_width c))))
    /\ (forall ks p2, (if (fc_mode fc =? 0) && negb (fc_samples fc >? 1)
      then let! (cells, _, p0) := read_sample (fc_indexfmt fc) p1 in Ok ([cells], p0)
      else let! ks := sub_rows (Z.to_nat (fc_samples fc)) fc ix1 1 in Ok (ks, p1)) = Ok (ks, p2) -> length ks = rate /\ widths (char_width c) ks)).
  { destruct ((fc_mode fc =? 0) && negb (fc_samples fc >? 1)) eqn:SL.
    - rewrite FI. rewrite index_item by exact G. assert (rate = 1%nat) by lia. subst rate.
      destruct (read_numbers 1 c p1) as [[k p2]| | |] eqn:RN; cbn [rbind]; try (split; [reflexivity | discriminate]).
      destruct A as [|A1 [|]]; try discriminate. destruct R as [|R1 [|]]; try discriminate. inversion WA as [|? ? EA _]; subst.
      assert (Lk : length k = char_width c).
      { rewrite <- (Nat.add_0_r (char_width c)). apply (item_length (Num c 1) p1 k p2); [split; [lia | eauto] | exact RN]. }
      cbn [beside concat] in C. rewrite app_nil_r, <- app_assoc in C. rewrite (write_mid a pre A1 _ k C D) by lia. cbn [rbind].
      split.
      + unfold with_cells. cbn [beside concat]. rewrite app_nil_r, <- !app_assoc. do 3 f_equal. lia.
      + intros ks p2' E. injection E as <- <-. split; [reflexivity|]. constructor; [exact Lk | constructor].
    - rewrite FS, Nat2Z.id. rewrite (subframes_pure fc c _ n0 m0 FI G0 rate ix1 1 a (a_dst a) pre A R post (items_width its)); try assumption.
      destruct (sub_rows rate fc ix1 1) as [ks| | |] eqn:SR; cbn [rbind]; try (split; [reflexivity | discriminate]).
      split.
      + unfold with_cells, set_dst. cbn [a_cells a_rows a_frames]. destruct rate as [|r]; [lia|]. do 3 f_equal. lia.
      + intros ks' p2' E. injection E as <- <-. exact (sub_rows_shape _ _ _ _ _ FI G0 _ _ _ _ SR). }
  destruct E as [E SH]. rewrite E. clear E.
  destruct (if (fc_mode fc =? 0) && negb (fc_samples fc >? 1) then _ else _) as [[ks p2]| | |]; cbn [rbind]; try reflexivity.
  destruct (SH ks p2 eq_refl) as [Lks Wks]. clear SH.
  rewrite (channels_pure fc rate P FS its V (length (fmt_of its)) p2 _ pre ks R post (char_width c)); try assumption; try reflexivity.
  rewrite FS, Nat2Z.id. destruct (read_cols rate its p2) as [[rows p3]| | |]; cbn [rbind]; try reflexivity.
  unfold with_cells, set_dst. cbn [a_cells a_rows a_frames a_dst]. do 3 f_equal. rewrite SZ. f_equal. rewrite D. nia.
Qed.
Lemma frame_shape c rate its fc : config_of c rate its fc -> forall p ix rows p' ix', pure_frame fc its p ix = Ok (rows, p', ix') ->
  length rows = rate /\ widths (char_width c + items_width its) rows.
Proof.
  intros [FI G FF FS P V SZ] p ix rows p' ix'. unfold pure_frame. destruct (if _ && _ then read_index _ _ _ else _) as [[p1 ix1]| | |]; try discriminate. cbn [rbind].
  intros H. destruct (G) as (n0 & m0 & G0).
  destruct ((fc_mode fc =? 0) && negb (fc_samples fc >? 1)) eqn:SL.
  - rewrite FI, index_item in H by exact G. destruct (read_numbers 1 c p1) as [[k p2]| | |] eqn:RN; try discriminate. cbn [rbind] in H.
    destruct (read_cols _ its p2) as [[rows' p3]| | |] eqn:RC; try discriminate. cbn [rbind] in H.
    assert (rows = beside [k] rows') as -> by congruence. clear H.
    rewrite FS, Nat2Z.id in RC. apply (cols_shape _ _ V) in RC as [LR WR]. assert (rate = 1%nat) by lia. subst rate.
    assert (Lk : length k = char_width c).
    { rewrite <- (Nat.add_0_r (char_width c)). apply (item_length (Num c 1) p1 k p2); [split; [lia | eauto] | exact RN]. }
    split; [rewrite (beside_length [k] rows') by (cbn [length]; lia); cbn [length]; lia|].
    apply (beside_widths [k]); [|exact WR]. constructor; [exact Lk | constructor].
  - destruct (sub_rows _ fc ix1 1) as [ks| | |] eqn:SR; try discriminate. cbn [rbind] in H.
    destruct (read_cols _ its p1) as [[rows' p3]| | |] eqn:RC; try discriminate. cbn [rbind] in H. injection H as <- <- <-.
    rewrite FS, Nat2Z.id in RC, SR. apply (cols_shape _ _ V) in RC as [LR WR]. apply (sub_rows_shape _ _ _ _ _ FI G0) in SR as [LK WK].
    split; [rewrite beside_length; lia|]. apply beside_widths; assumption.
Qed.

(** ** Records *)
Fixpoint pure_frames (fuel : nat) (fc : frameconfig) (its : list item) (p : ptr) (ix : indexchannel) : res (list (list cell) * indexchannel) :=
  if p_left p <=? 0 then Ok ([], ix)
  else match fuel with
  | O => Fuel
  | S fuel =>
      let! (rows, p, ix) := pure_frame fc its p ix in
      let! ix := if (fc_mode fc =? 1) && (p_left p >? 0) then
                   let! x := index_index ix in Ok (index_update (f64_add x (fc_spacing fc)) ix)
                 else Ok ix in
      let! (more, ix) := pure_frames fuel fc its p ix in
      Ok (rows ++ more, ix)
  end.
Definition pure_record (fc : frameconfig) (its : list item) (after data : bytes) (ix : indexchannel) : res (list (list cell) * indexchannel) :=
  let p := mk_ptr (data ++ after) (Z.of_nat (length data)) in
  let! (p, ix) := if fc_mode fc =? 1 then read_index (fc_indexfmt fc) p ix else Ok (p, ix) in
  pure_frames (S (length data)) fc its p ix.

(** the array holds the rows so far *)
Record holds (rate : nat) (fsize : Z) (a : array) (rows : list (list cell)) : Prop := mk_holds {
  h_cells : exists junk, a_cells a = concat rows ++ junk;
  h_size : Z.of_nat (length (a_cells a)) = a_rows a * fsize;
  h_full : Z.of_nat (length (concat rows)) = a_frames a * fsize;
  h_frames : a_frames a = Z.of_nat (length rows);
  h_dst : a_dst a = a_frames a * fsize;
  h_div : exists i j, a_frames a = i * Z.of_nat rate /\ a_rows a = j * Z.of_nat rate /\ 0 <= i <= j /\ 1 <= j }.
Definition outcome {A B} (P : A -> B -> Prop) (x : res A) (y : res B) : Prop :=
  match x, y with
  | Ok a, Ok b => P a b
  | Exn, Exn | UB, UB | Fuel, Fuel => True
  | _, _ => False
  end.
Lemma resize_more fsize n a : 0 <= fsize -> Z.of_nat (length (a_cells a)) = a_rows a * fsize -> 0 <= a_rows a <= n ->
  exists junk, a_cells (resize fsize n a) = a_cells a ++ junk /\ Z.of_nat (length (a_cells (resize fsize n a))) = n * fsize.
Proof.
  intros F L N. unfold resize. cbn [a_cells].
  assert (B : (length (a_cells a) <= Z.to_nat (n * fsize))%nat) by nia.
  exists (firstn (Z.to_nat (n * fsize) - length (a_cells a)) (repeat Undef (Z.to_nat (n * fsize)))).
  rewrite firstn_app, firstn_all2 by lia. split; [reflexivity|]. rewrite app_length, firstn_length, repeat_length. nia.
Qed.
Lemma frames_pure c rate its fc : config_of c rate its fc -> forall fuel p a ix rows, holds rate (fc_framesize fc) a rows ->
  outcome (fun '(a', ix') '(more, ix'') => ix' = ix'' /\ holds rate (fc_framesize fc) a' (rows ++ more) /\ exists k, (length more = k * rate)%nat)
    (read_frames fuel fc p a ix) (pure_frames fuel fc its p ix).
Proof.
  intros CF. pose proof CF as [FI G FF FS P V SZ]. induction fuel as [|fuel IH]; intros p a ix rows Ha; cbn [read_frames pure_frames].
  { destruct (p_left p <=? 0); [|exact I]. cbn. rewrite app_nil_r. split; [reflexivity|]. split; [exact Ha | exists 0%nat; reflexivity]. }
  destruct (p_left p <=? 0) eqn:PL. { cbn. rewrite app_nil_r. split; [reflexivity|]. split; [exact Ha | exists 0%nat; reflexivity]. }
  set (a1 := if a_frames a =? a_rows a then _ else a).
  assert (H1 : holds rate (fc_framesize fc) a1 rows /\ a_frames a1 < a_rows a1).
  { destruct Ha as [[junk HC] HS HF HN HD (i & j & HI & HJ & HIJ & HJ1)]. unfold a1. destruct (a_frames a =? a_rows a) eqn:E.
    - destruct (resize_more (fc_framesize fc) (a_frames a * 2) a) as (junk' & C1 & L1); [lia|exact HS|nia|].
      assert (i = j) by nia. subst j.
      split; [|cbn [set_dst resize a_frames a_rows]; nia]. split.
      + exists (junk ++ junk'). cbn [set_dst a_cells]. rewrite C1, HC, <- app_assoc. reflexivity.
      + cbn [set_dst a_cells a_rows]. rewrite L1. reflexivity.
      + cbn [set_dst a_frames resize]. exact HF.
      + exact HN.
      + reflexivity.
      + exists i, (2 * i). cbn [set_dst resize a_frames a_rows]. repeat split; nia.
    - split; [|nia]. split; try assumption; eauto. exists i, j. repeat split; nia. }
  clearbody a1. destruct H1 as [[[junk HC] HS HF HN HD (i & j & HI & HJ & HIJ & HJ1)] LT].
  assert (LJ : (rate * (char_width c + items_width its) <= length junk)%nat).
  { rewrite HC, app_length in HS. assert (i < j) by nia. assert (Z.of_nat (length junk) = (a_rows a1 - a_frames a1) * fc_framesize fc) by nia.
    rewrite HI, HJ, SZ in H0. assert ((1 * Z.of_nat rate) * Z.of_nat (char_width c + items_width its) <= (j * Z.of_nat rate - i * Z.of_nat rate) * Z.of_nat (char_width c + items_width its)).
    { apply Z.mul_le_mono_nonneg_r; nia. } nia. }
  rewrite <- (firstn_skipn (rate * (char_width c + items_width its)) junk) in HC.
  set (blk := firstn _ junk) in HC. set (post := skipn _ junk) in HC.
  assert (LB : length blk = (rate * (char_width c + items_width its))%nat) by (unfold blk; rewrite firstn_length; lia).
  rewrite (frame_pure c rate its fc CF p a1 ix (concat rows) blk post HC) by (rewrite ?SZ; lia).
  destruct (pure_frame fc its p ix) as [[[new p1] ix1]| | |] eqn:PF; cbn [rbind outcome]; try exact I.
  destruct (frame_shape _ _ _ _ CF _ _ _ _ _ PF) as [LN WN].
  set (a2 := mk_array _ _ _ _).
  assert (H2 : holds rate (fc_framesize fc) a2 (rows ++ new)).
  { apply concat_widths in WN. rewrite LN in WN. unfold a2. cbn [with_cells a_cells a_rows a_frames a_dst].
    rewrite HC, !app_length, LB in HS. split; cbn [a_cells a_rows a_frames a_dst].
    - exists post. rewrite concat_app, <- app_assoc. reflexivity.
    - rewrite !app_length. lia.
    - rewrite concat_app, app_length, WN, FS. nia.
    - rewrite app_length, LN, FS. lia.
    - rewrite FS. nia.
    - assert (i < j) by nia. exists (i + 1), j. rewrite FS. repeat split; nia. }
  clearbody a2. destruct (if (fc_mode fc =? 1) && (p_left p1 >? 0) then _ else _) as [ix2| | |]; cbn [rbind outcome]; try exact I.
  specialize (IH p1 a2 ix2 _ H2). destruct (read_frames fuel fc p1 a2 ix2) as [[a3 ix3]| | |], (pure_frames fuel fc its p1 ix2) as [[more ix4]| | |];
    cbn [rbind outcome] in *; try exact I; try contradiction.
  destruct IH as (-> & Hh & k & K). split; [reflexivity|]. rewrite app_assoc. split; [exact Hh|]. exists (S k). rewrite app_length. lia.
Qed.
Lemma record_pure c rate its fc : config_of c rate its fc -> forall after data a ix rows, holds rate (fc_framesize fc) a rows ->
  outcome (fun '(a', ix') '(more, ix'') => ix' = ix'' /\ holds rate (fc_framesize fc) a' (rows ++ more) /\ exists k, (length more = k * rate)%nat)
    (read_data_record fc after data a ix) (pure_record fc its after data ix).
Proof.
  intros CF after data a ix rows H. unfold read_data_record, pure_record.
  destruct (if fc_mode fc =? 1 then _ else _) as [[p ix1]| | |]; cbn [rbind outcome]; try exact I.
  apply frames_pure with (c := c); assumption.
Qed.

(** ** All records *)
Fixpoint pure_each (fc : frameconfig) (its : list item) (recs : list (bytes * bytes)) (ix : indexchannel) : res (list (list cell)) :=
  match recs with
  | [] => Ok []
  | (after, data) :: t =>
      let! (rows, ix) := pure_record fc its after data ix in
      let! more := pure_each fc its t ix in Ok (rows ++ more)
  end.
(** the data of the records of an index *)
Inductive fetched (dv : device) (after : Z -> bytes) : list record_info -> list (bytes * bytes) -> Prop :=
| fe_nil : fetched dv after [] []
| fe_cons h hs data t recs : read_record dv h 0 = (DOk data, t) -> fetched dv after hs recs -> fetched dv after (h :: hs) ((after (ri_ltell h), data) :: recs).
Lemma each_pure c rate its fc dv after : config_of c rate its fc -> forall heads recs, fetched dv after heads recs -> forall a ix rows,
  holds rate (fc_framesize fc) a rows ->
  outcome (fun a' more => holds rate (fc_framesize fc) a' (rows ++ more)) (read_each fc dv after heads a ix) (pure_each fc its recs ix).
Proof.
  intros CF. induction 1 as [|h hs data t recs R F IH]; intros a ix rows H; cbn [read_each pure_each].
  { cbn. rewrite app_nil_r. exact H. }
  rewrite R. cbn [fst]. pose proof (record_pure c rate its fc CF (after (ri_ltell h)) data a ix rows H) as O.
  destruct (read_data_record _ _ _ _ _) as [[a1 ix1]| | |], (pure_record _ _ _ _ _) as [[more ix2]| | |]; cbn [outcome rbind] in *; try exact I; try contradiction.
  destruct O as (-> & Hh & _). specialize (IH a1 ix2 _ Hh).
  destruct (read_each _ _ _ _ _ _) as [a2| | |], (pure_each _ _ _ _) as [more2| | |]; cbn [outcome rbind] in *; try exact I; try contradiction.
  rewrite app_assoc. exact IH.
Qed.
Lemma each_fetched fc dv after heads : forall a ix b, read_each fc dv after heads a ix = Ok b -> exists recs, fetched dv after heads recs.
Proof.
  induction heads as [|h hs IH]; intros a ix b H; cbn [read_each] in H; [exists []; constructor|].
  destruct (read_record dv h 0) as [[data| |] t] eqn:R; cbn [fst] in H; try discriminate.
  destruct (read_data_record _ _ _ _ _) as [[a1 ix1]| | |]; try discriminate. cbn [rbind] in H.
  destruct (IH _ _ _ H) as (recs & F). eexists. econstructor; eassumption.
Qed.
(** the whole array *)
Lemma records_pure c rate its fc dv after ix tell heads recs : config_of c rate its fc ->
  implicits_of ix tell = Some heads -> fetched dv after heads recs ->
  outcome (fun '(cells, n) rows => cells = concat rows /\ n = Z.of_nat (length rows))
    (read_data_records fc dv after ix tell) (pure_each fc its recs new_index).
Proof.
  intros CF I F. unfold read_data_records. rewrite I. destruct heads as [|h hs].
  { inversion F; subst. cbn. split; reflexivity. }
  pose proof CF as [FI G FF FS P V SZ].
  assert (H : holds rate (fc_framesize fc) (new_array (fc_framesize fc) (Z.of_nat (length (h :: hs)) * fc_samples fc)) []).
  { unfold new_array. split; cbn [a_cells a_rows a_frames a_dst concat app length].
    - eexists. reflexivity.
    - rewrite repeat_length, Z2Nat.id; [reflexivity|]. rewrite FS, SZ. nia.
    - reflexivity.
    - reflexivity.
    - reflexivity.
    - exists 0, (Z.of_nat (length (h :: hs))). rewrite FS. cbn [length]. repeat split; lia. }
  pose proof (each_pure c rate its fc dv after CF _ _ F _ new_index _ H) as O. set (a0 := new_array _ _) in *. clearbody a0.
  destruct (read_each _ _ _ _ _ _) as [a| | |], (pure_each _ _ _ _) as [rows| | |]; cbn [outcome rbind] in *; try exact Logic.I; try contradiction.
  cbn [app] in O. destruct O as [[junk HC] HS HF HN HD (i & j & HI & HJ & HIJ & HJ1)].
  destruct (a_rows a >? a_frames a) eqn:E.
  - cbn [resize a_cells a_rows]. split; [|exact HN]. rewrite <- HF, Nat2Z.id, HC.
    rewrite <- app_assoc, firstn_app, firstn_all, Nat.sub_diag. cbn [firstn]. apply app_nil_r.
  - assert (a_rows a = a_frames a) by nia. split; [|lia]. rewrite HC in HS |- *. rewrite app_length in HS.
    destruct junk; [apply app_nil_r|]. cbn [length] in HS. nia.
Qed.
