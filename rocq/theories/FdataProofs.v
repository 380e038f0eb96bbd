(** Lemmas about the curve readers: one sample, one row. *)
From Verif Require Import Bytes BytesProofs DlisTypes SpecTypes TypesProofs TypesProofs2
  DlisCore CoreProofs CoreProofs2 Stream DlisIo DlisRecords SpecRecords RecordsProofs PyBase DlisFdata SpecFdata.
Local Open Scope Z_scope.
Ltac Zify.zify_post_hook ::= Z.div_mod_to_equations.

Definition codes : list Z :=
  [1; 2; 3; 4; 5; 6; 7; 8; 9; 10; 11; 12; 13; 14; 15; 16; 17; 18; 19; 20; 21; 22; 23; 24; 25; 26; 27].
Lemma char_cases rc c : char_of rc c -> In (rc, c) (combine codes format_chars).
Proof.
  intros [H1 H2].
  assert (H3 : (Z.to_nat (rc - 1) < 27)%nat) by (change 27%nat with (length format_chars); apply nth_error_Some; congruence).
  assert (K : forall k, (k < 27)%nat -> nth_error format_chars k = Some c -> In (Z.of_nat k + 1, c) (combine codes format_chars)).
  { clear. intros k Hk.
    do 27 (destruct k as [|k]; [cbn [nth_error format_chars text txt_bytes]; intros [= <-]; vm_compute; tauto|]). lia. }
  specialize (K _ H3 H2). replace (Z.of_nat (Z.to_nat (rc - 1)) + 1) with rc in K by lia. exact K.
Qed.
Ltac char_cases H :=
  apply char_cases in H; cbn [combine codes format_chars text txt_bytes In] in H;
  repeat (destruct H as [H|H]; [injection H as <- <-|]); [..|destruct H].

(** ** Numbers in memory *)

Lemma enc_le_le w : enc_le (length w) (le w) = w.
Proof.
  induction w as [|b w IH]; cbn [length enc_le le]; [reflexivity|].
  pose proof (b2z_range b).
  replace ((b2z b + 256 * le w) / 256) with (le w) by lia. rewrite IH. f_equal.
  rewrite <- (z2b_b2z b) at 2. apply z2b_eq_mod. lia.
Qed.
Lemma number_native n z w : number n z w <-> w = native n z.
Proof.
  split.
  - intros [L E]. rewrite <- (enc_le_le w), L, E. unfold native. reflexivity.
  - intros ->. split; [apply native_length | apply native_le].
Qed.

(** ** Elements as arguments of pack *)

Definition num_size (rc : Z) : nat :=
  match rc with
  | 7 => 8%nat | 12 | 15 | 26 => 1%nat | 13 | 16 => 2%nat | _ => 4%nat
  end.
Definition mem_args (rc : Z) (v : value) : list arg :=
  match v with
  | VNum z => [Scalar (num_size rc) z]
  | VNums zs => map (Scalar (match rc with 3 | 4 | 10 => 4%nat | _ => 8%nat end)) zs
  | VText s => [Str s]
  | VTime t => [Scalar 4 (dt_Y t); Scalar 4 (dt_TZ t); Scalar 4 (dt_M t); Scalar 4 (dt_D t);
                Scalar 4 (dt_H t); Scalar 4 (dt_MN t); Scalar 4 (dt_S t); Scalar 4 (dt_MS t)]
  | VName n => [Scalar 4 (ob_origin n); Scalar 1 (ob_copy n); Str (ob_id n)]
  | VRef n => [Str (or_type n); Scalar 4 (ob_origin (or_name n)); Scalar 1 (ob_copy (or_name n));
               Str (ob_id (or_name n))]
  | VAttr n => [Str (ar_type n); Scalar 4 (ob_origin (ar_name n)); Scalar 1 (ob_copy (ar_name n));
                Str (ob_id (ar_name n)); Str (ar_label n)]
  end.

Lemma interpret_cast rc c : char_of rc c ->
  exists x, fmt_of_byte c = Some x /\
  forall src, interpret x src = (do (v, r) <- cast_value rc src; Some (mem_args rc v, r)).
Proof.
  intros H. char_cases H; eexists; (split; [reflexivity|]); intros src; cbn [interpret cast_value];
    unfold num, num2, num3, str;
    match goal with |- context [match ?r src with _ => _ end] => destruct (r src) as [[? ?]|]
    | |- context [obind (?r src) _] => destruct (r src) as [[? ?]|] end;
    cbn [obind]; try reflexivity; repeat match goal with p : (_ * _)%type |- _ => destruct p end; reflexivity.
Qed.

Lemma value_nonempty rc e v : rp66_value rc e v -> e <> [].
Proof.
  intros H ->. pose proof (cast_value_read rc [] v [] H) as C. cbn [app] in C. clear -C H.
  remember [] as e eqn:E in H. destruct H; discriminate C.
Qed.

(** ** One sample *)

Lemma moved_app e rest left : moved (mk_ptr (e ++ rest) left) rest = mk_ptr rest (left - Z.of_nat (length e)).
Proof. unfold moved. cbn [p_mem p_left]. f_equal. rewrite app_length. lia. Qed.

Lemma skip_unpack f src left o r : unpack f src = ROk o r ->
  skip_fmt f (mk_ptr src left) =
  if Z.of_nat (length src) - Z.of_nat (length r) >? left then Exn
  else Ok (mk_ptr r (left - (Z.of_nat (length src) - Z.of_nat (length r)))).
Proof.
  intros U. unfold skip_fmt, overflows. cbn [p_mem p_left]. rewrite dlis_packflen_eq, U.
  destruct (_ >? left); [reflexivity|].
  apply unpack_local in U as (e & -> & _). rewrite app_length. f_equal. f_equal.
  replace (Z.to_nat _) with (length e) by lia. rewrite skipn_app, skipn_all, Nat.sub_diag. reflexivity.
Qed.

Lemma unpack_one c rc src v r : char_of rc c -> cast_value rc src = Some (v, r) ->
  unpack [c] src = ROk (args_bytes (mem_args rc v)) r.
Proof.
  intros H E. destruct (interpret_cast rc c H) as (x & Hx & I). cbn [unpack]. rewrite Hx, I, E. cbn [obind].
  rewrite app_nil_r. reflexivity.
Qed.

Definition plain (rc : Z) : bool :=
  match rc with 3 | 4 | 8 | 9 | 19 | 20 | 21 | 23 | 24 | 25 | 27 => false | _ => true end.
Lemma read_plain rc c p : char_of rc c -> plain rc = true ->
  read_curve_sample c p =
  let! q := skip_fmt [c] p in
  match dlis_packf [c] (p_mem p) with PackOk out => Ok (map Raw out, q) | _ => UB end.
Proof. intros H P. char_cases H; try discriminate P; reflexivity. Qed.

Lemma flat_units s : flat_map (fun b => native 4 (signed 8 (b2z b))) s =
  flat_map (native 4) (map (fun b => if b2z b <? 128 then b2z b else b2z b + 0xFFFFFF00) s).
Proof.
  induction s as [|b s IH]; cbn [map flat_map]; [reflexivity|]. rewrite IH. f_equal.
  unfold native. f_equal. unfold signed. change (2 ^ (8 - 1)) with 128. change (2 ^ 8) with 256.
  change (256 ^ Z.of_nat 4) with 4294967296. pose proof (b2z_range b).
  destruct (b2z b <? 128) eqn:E; [reflexivity|]. lia.
Qed.
Lemma code_units_spec us w : code_units us w <-> w = flat_map (native 4) us.
Proof.
  split.
  - induction 1 as [|u w us ws H _ IH]; cbn [flat_map]; [reflexivity|]. apply number_native in H. congruence.
  - revert w. induction us as [|u us IH]; intros w ->; cbn [flat_map]; constructor; auto. apply number_native. reflexivity.
Qed.
Lemma flat_zero n : flat_map (native 4) (repeat 0 n) = repeat x00 (4 * n).
Proof.
  induction n as [|n IH]; [reflexivity|].
  replace (4 * S n)%nat with (4 + 4 * n)%nat by lia. cbn [repeat flat_map]. rewrite IH. reflexivity.
Qed.
Lemma forall2_map {A B} (f : A -> B) s us : Forall2 (fun a u => u = f a) s us <-> us = map f s.
Proof.
  split.
  - induction 1; cbn [map]; congruence.
  - intros ->. induction s; cbn [map]; constructor; auto.
Qed.
Lemma map_repeat' {A B} (f : A -> B) x n : map f (repeat x n) = repeat (f x) n.
Proof. induction n; cbn [repeat map]; congruence. Qed.
Lemma ident_cells_spec s us w :
  Forall2 (fun b u => u = if b2z b <? 128 then b2z b else b2z b + 0xFFFFFF00) s us ->
  code_units (us ++ repeat 0 (255 - length s)) w ->
  ident_cells s = map Raw w.
Proof.
  intros H1 H2. apply code_units_spec in H2 as ->.
  apply (forall2_map (fun b => if b2z b <? 128 then b2z b else b2z b + 0xFFFFFF00)) in H1 as ->.
  unfold ident_cells. rewrite flat_units, flat_map_app, map_app, flat_zero, map_repeat'. reflexivity.
Qed.

Lemma ref_pointer o : ref_cells o = pointer o.
Proof. reflexivity. Qed.

Lemma leap_iff y : is_leap y = true <-> leap y.
Proof. unfold is_leap, leap. lia. Qed.
Lemma date_time_iff t : dtime_in_range t ->
  forall p, to_pydatetime t = Some p <-> date_time t p.
Proof.
  intros (HY & HTZ & HM & HD & HH & HMN & HS & HMS) p.
  unfold to_pydatetime, valid_datetime, date_time, dlis_year, DLIS_YEAR_ZERO.
  cbn [py_year py_month py_day py_hour py_minute py_second py_us].
  replace (dt_Y t + 1900) with (1900 + dt_Y t) by lia. replace (dt_MS t * 1000) with (1000 * dt_MS t) by lia.
  assert (DM : 1 <= dt_M t <= 12 /\ 1 <= dt_D t <= days_in_month (1900 + dt_Y t) (dt_M t) <->
               month_days (1900 + dt_Y t) (dt_M t) (dt_D t)).
  { unfold days_in_month, month_days. pose proof (leap_iff (1900 + dt_Y t)) as L. cbn [In].
    destruct (dt_M t =? 2) eqn:E2; [|destruct ((dt_M t =? 4) || (dt_M t =? 6) || (dt_M t =? 9) || (dt_M t =? 11)) eqn:E4].
    - assert (Y2 : dt_M t = 2) by lia. rewrite Y2. destruct (is_leap (1900 + dt_Y t)).
      + assert (LY : leap (1900 + dt_Y t)) by (apply L; reflexivity). split.
        * intros [_ D]. right. right. split; [lia|]. split; [lia|].
          destruct (Z_le_gt_dec (dt_D t) 28); [left; lia | right; split; [lia | exact LY]].
        * lia.
      + assert (LY : ~ leap (1900 + dt_Y t)) by (intros K; apply L in K; discriminate). split.
        * lia.
        * intros [[K _]|[[K _]|(_ & K1 & [K2|[_ K2]])]]; [lia | lia | lia | contradiction].
    - lia.
    - lia. }
  match goal with |- context [if ?b then _ else _] => destruct b eqn:V end.
  - split.
    + intros [= <-]. split; [reflexivity|]. split; [apply DM; lia|lia].
    + intros [-> _]. reflexivity.
  - split; [discriminate|]. intros (_ & HMD & ? & ? & ? & ?). apply DM in HMD. lia.
Qed.

Lemma image_plain rc v k : plain rc = true -> image rc v k -> k = map Raw (args_bytes (mem_args rc v)).
Proof.
  intros P I. destruct I as [rc n z w H N|rc n a b u w H N M|rc zs H|rc s us w H F N| | | | | ]; try discriminate P.
  - apply number_native in N as ->. cbn [mem_args args_bytes]. rewrite app_nil_r. f_equal.
    cbn [In] in H. repeat (destruct H as [H|H]; [injection H as <- <-; reflexivity|]). destruct H.
  - apply number_native in N as ->. apply number_native in M as ->. cbn [mem_args map args_bytes]. rewrite app_nil_r.
    cbn [In] in H. repeat (destruct H as [H|H]; [injection H as <- <-; reflexivity|]). destruct H.
  - cbn [In] in H. repeat (destruct H as [H|H]; [subst rc; discriminate P|]). destruct H.
  - cbn [In] in H. repeat (destruct H as [H|H]; [subst rc; discriminate P|]). destruct H.
Qed.

Lemma sample_read c e k rest left : sample c e k -> Z.of_nat (length e) <= left ->
  read_curve_sample c (mk_ptr (e ++ rest) left) = Ok (k, mk_ptr rest (left - Z.of_nat (length e))).
Proof.
  intros (rc & v & C & V & I) L.
  pose proof (cast_value_read rc e v rest V) as R.
  destruct (plain rc) eqn:P.
  - rewrite (read_plain rc c _ C P). cbn [p_mem].
    pose proof (unpack_one c rc _ v rest C R) as U.
    rewrite (skip_unpack _ _ _ _ _ U), dlis_packf_eq, U, app_length.
    replace (_ >? left) with false by lia. cbn [rbind].
    rewrite (image_plain rc v k P I). f_equal. f_equal. f_equal. lia.
  - rewrite <- moved_app. set (m := e ++ rest) in *. clearbody m.
    char_cases C; try discriminate P; cbn [cast_value] in R; unfold num2, num3, str in R;
      try rewrite units_is_ident in R;
      unfold read_curve_sample; cbn [fmt_of_byte p_mem];
      match type of R with match ?x with _ => _ end = _ => destruct x as [[y r]|] eqn:Q
                         | obind ?x _ = _ => destruct x as [[y r]|] eqn:Q end;
      try discriminate R; cbn [obind] in R; repeat match goal with p : (_ * _)%type |- _ => destruct p end;
      cbn [unchecked rbind]; apply some_pair_inj in R as [<- <-];
      inversion I; subst;
      repeat match goal with
        | H : In _ _ |- _ => cbn [In] in H; repeat (destruct H as [H|H]; [try discriminate H; try injection H as <- <-; try lia|]); [..|destruct H] end.
    all: try reflexivity.
    + f_equal. f_equal. eapply ident_cells_spec; eassumption.
    + match goal with H : utf8 _ = _ |- _ => rewrite H end. reflexivity.
    + apply dtime_read_range in Q.
      match goal with H : date_time _ _ |- _ => apply (date_time_iff _ Q) in H; rewrite H end. reflexivity.
    + f_equal. f_equal. eapply ident_cells_spec; eassumption.
Qed.

(** ** Widths *)

Lemma width_cases c n : width_of c n -> In (c, n) (combine format_chars widths).
Proof.
  intros (k & H1 & H2).
  assert (H3 : (k < 27)%nat) by (change 27%nat with (length format_chars); apply nth_error_Some; congruence).
  do 27 (destruct k as [|k]; [injection H1 as <-; injection H2 as <-; vm_compute; tauto|]). lia.
Qed.
Lemma ident_length xs s rest : dlis_ident xs = Some (s, rest) -> (length s <= 255)%nat.
Proof.
  intros H. apply ident_read_spec in H as (e & _ & I). inversion I; subst.
  match goal with H : b2z ?b = Z.of_nat _ |- _ => pose proof (b2z_range b); lia
                | H : Z.of_nat _ = b2z ?b |- _ => pose proof (b2z_range b); lia end.
Qed.
Lemma flat_native_length {A} (f : A -> Z) l : length (flat_map (fun x => native 4 (f x)) l) = (4 * length l)%nat.
Proof. induction l; cbn [flat_map length]; [reflexivity|]. rewrite app_length, native_length, IHl. lia. Qed.
Lemma ident_cells_length s : (length s <= 255)%nat -> length (ident_cells s) = 1020%nat.
Proof.
  intros L. unfold ident_cells. rewrite app_length, map_length, repeat_length, flat_native_length. lia.
Qed.

Lemma sample_width c n p k q : width_of c n -> read_curve_sample c p = Ok (k, q) -> Z.of_nat (length k) = n.
Proof.
  intros W H. apply width_cases in W. cbn [combine format_chars text txt_bytes widths In] in W.
  assert (G : forall x s d, fmt_of_byte c = Some x -> fixed_fmt x = Some (s, d) ->
     (let! q := skip_fmt [c] p in
      match dlis_packf [c] (p_mem p) with PackOk out => Ok (map Raw out, q) | _ => UB end) = Ok (k, q) ->
     Z.of_nat (length k) = d).
  { intros x s d Hx F E. destruct (skip_fmt [c] p); try discriminate E. cbn [rbind] in E.
    rewrite dlis_packf_eq in E. cbn [unpack] in E. rewrite Hx in E.
    destruct (interpret_fixed x s d (p_mem p) F) as (_ & A & B).
    destruct (Z_lt_ge_dec (Z.of_nat (length (p_mem p))) s) as [K|K]; [rewrite B in E by lia; discriminate E|].
    destruct A as (args & A & L); [lia|]. rewrite A in E. rewrite app_nil_r in E. injection E as <- _.
    rewrite map_length. exact L. }
  assert (G4 : forall x, fmt_of_byte c = Some x -> (x = UVARI \/ x = ORIGIN) ->
     (let! q := skip_fmt [c] p in
      match dlis_packf [c] (p_mem p) with PackOk out => Ok (map Raw out, q) | _ => UB end) = Ok (k, q) ->
     Z.of_nat (length k) = 4).
  { intros x Hx F E. destruct (skip_fmt [c] p); try discriminate E. cbn [rbind] in E.
    rewrite dlis_packf_eq in E. cbn [unpack] in E. rewrite Hx in E.
    destruct F as [-> | ->]; unfold interpret in E;
      match type of E with context [obind ?x _] => destruct x as [[v r]|] end; try discriminate E; cbn [obind args_bytes] in E;
      (match type of E with Ok (?a, _) = _ => assert (K : a = k) by congruence; rewrite <- K end);
      rewrite map_length, !app_length, native_length; reflexivity. }
  repeat (destruct W as [W|W]; [injection W as <- <-; unfold read_curve_sample in H; cbn [fmt_of_byte] in H|]); [..|destruct W].
  all: try (eapply G; [reflexivity | reflexivity | exact H]).
  all: try (eapply G4; [reflexivity | auto | exact H]).
  all: match type of H with context [unchecked ?x] => destruct x as [[y r]|] eqn:Q end; try discriminate H; cbn [unchecked rbind] in H;
    repeat match goal with p : (_ * _)%type |- _ => destruct p end.
  all: try (injection H as <- _; first [reflexivity | rewrite ident_cells_length by (eapply ident_length; exact Q); reflexivity]).
  - destruct (utf8 y); [injection H as <- _; reflexivity | discriminate H].
  - destruct (to_pydatetime y); [injection H as <- _; reflexivity | discriminate H].
Qed.

Lemma frame_width f n p k r : row_width f n -> read_fdata_frame f p = (k, r) ->
  Z.of_nat (length k) <= n /\ (forall q, r = Ok q -> Z.of_nat (length k) = n).
Proof.
  intros W. revert p k r. induction W as [|c n f m Wc Wf IH]; intros p k r; cbn [read_fdata_frame].
  - intros [= <- <-]. split; [cbn; lia | intros; reflexivity].
  - assert (0 <= n).
    { apply width_cases in Wc. cbn [combine format_chars text txt_bytes widths In] in Wc.
      repeat (destruct Wc as [Wc|Wc]; [injection Wc as <- <-; lia|]). destruct Wc. }
    assert (M : 0 <= m) by (destruct (read_fdata_frame f p) as [k' r'] eqn:Q; destruct (IH _ _ _ Q); lia).
    destruct (read_curve_sample c p) as [[cells q]| | |] eqn:S.
    + destruct (read_fdata_frame f q) as [more r'] eqn:Q. intros [= <- <-].
      apply (sample_width c n) in S; [|exact Wc]. destruct (IH _ _ _ Q) as [A B]. rewrite app_length.
      split; [lia|]. intros q' E. apply B in E. lia.
    + intros [= <- <-]. split; [cbn; lia | discriminate].
    + intros [= <- <-]. split; [cbn; lia | discriminate].
    + intros [= <- <-]. split; [cbn; lia | discriminate].
Qed.
Lemma row_width_nonneg f n : row_width f n -> 0 <= n.
Proof. intros W. destruct (read_fdata_frame f (mk_ptr [] 0)) as [k r] eqn:Q. destruct (frame_width _ _ _ _ _ W Q). lia. Qed.

(** ** Stepping over columns *)

Lemma skipped_unpack f e : skipped f e -> forall rest, exists o, unpack f (e ++ rest) = ROk o rest.
Proof.
  induction 1 as [|c rc e v f e' C V _ IH]; intros rest.
  - exists []. reflexivity.
  - destruct (interpret_cast rc c C) as (x & Hx & I). cbn [unpack]. rewrite <- app_assoc, Hx, I.
    rewrite (cast_value_read rc e v _ V). cbn [obind]. destruct (IH rest) as [o ->]. eauto.
Qed.
Lemma skip_read f e rest left : skipped f e -> Z.of_nat (length e) <= left ->
  skip_fmt f (mk_ptr (e ++ rest) left) = Ok (mk_ptr rest (left - Z.of_nat (length e))).
Proof.
  intros S L. destruct (skipped_unpack f e S rest) as [o U]. rewrite (skip_unpack _ _ _ _ _ U), app_length.
  replace (_ >? left) with false by lia. f_equal. f_equal. lia.
Qed.
Lemma row_read f e k : row f e k -> forall rest left, Z.of_nat (length e) <= left ->
  read_fdata_frame f (mk_ptr (e ++ rest) left) = (k, Ok (mk_ptr rest (left - Z.of_nat (length e)))).
Proof.
  induction 1 as [|c e k f e' k' S _ IH]; intros rest left L; cbn [read_fdata_frame].
  - cbn [app length]. do 3 f_equal. lia.
  - rewrite app_length in L. rewrite <- app_assoc, (sample_read c e k) by (assumption || lia).
    rewrite IH by lia. rewrite app_length. do 3 f_equal. lia.
Qed.
