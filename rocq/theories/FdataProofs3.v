(** Lemmas about the curve readers: whatever is returned is in the record. *)
From Verif Require Import Bytes BytesProofs DlisTypes SpecTypes TypesProofs TypesProofs2
  DlisCore CoreProofs CoreProofs2 Stream DlisIo SpecIo IoProofs DlisRecords SpecRecords RecordsProofs
  PyBase DlisFdata SpecFdata FdataProofs FdataProofs2.
Local Open Scope Z_scope.
Ltac Zify.zify_post_hook ::= Z.div_mod_to_equations.

Lemma single_of e : length e = 4%nat -> exists z, ieee_single e z.
Proof. intros L. destruct e as [|b0 [|b1 [|b2 [|b3 [|]]]]]; try discriminate L. eexists. constructor. Qed.
Lemma fsingl_inv xs z r : dlis_fsingl xs = Some (z, r) -> exists e, xs = e ++ r /\ ieee_single e z.
Proof.
  intros H. apply read_be_Some in H as (a & -> & L & ->). apply list_len4 in L as (b0 & b1 & b2 & b3 & ->).
  eexists. split; [reflexivity|]. rewrite be4. constructor.
Qed.
Lemma fdoubl_inv xs z r : dlis_fdoubl xs = Some (z, r) -> exists e, xs = e ++ r /\ ieee_double e z.
Proof.
  intros H. apply read_be_Some in H as (a & -> & L & ->).
  destruct a as [|b0 [|b1 [|b2 [|b3 [|b4 [|b5 [|b6 [|b7 [|]]]]]]]]]; try discriminate L.
  eexists. split; [reflexivity|]. rewrite be8. constructor.
Qed.

Lemma take6 {A} (l : list A) : length l = 6%nat -> exists a b c d e f, l = [a; b; c; d; e; f].
Proof. destruct l as [|a [|b [|c [|d [|e [|f [|]]]]]]]; try discriminate. eauto 10. Qed.
Lemma list_len2 {A} (l : list A) : length l = 2%nat -> exists a b, l = [a; b].
Proof. destruct l as [|a [|b [|]]]; try discriminate. eauto. Qed.
Lemma list_len1 {A} (l : list A) : length l = 1%nat -> exists a, l = [a].
Proof. destruct l as [|a [|]]; try discriminate. eauto. Qed.

Ltac ob H := match type of H with context [obind ?x ?f] =>
  lazymatch x with context [obind _ _] => fail | _ => let Q := fresh "Q" in destruct x as [[? ?]|] eqn:Q; cbn [obind] in H; [|discriminate H] end end.
Ltac fin := eexists; split; [reflexivity|].

Lemma cast_value_inv rc xs v r : cast_value rc xs = Some (v, r) ->
  exists e, xs = e ++ r /\ rp66_value rc e v.
Proof.
  intros H.
  assert (K : In rc codes).
  { destruct rc as [|p|]; try discriminate H. do 6 (try (vm_compute; tauto); destruct p as [p|p|]; try discriminate H). }
  cbn [codes In] in K.
  repeat (destruct K as [<-|K]; [unfold cast_value, num, num2, num3, str in H|]); [..|destruct K];
    try (unfold dlis_fshort, dlis_unorm, dlis_fsing1, dlis_fsing2, dlis_fdoub1, dlis_fdoub2, dlis_csingl, dlis_cdoubl, dlis_isingl,
    dlis_vsingl, dlis_sshort, dlis_snorm, dlis_slong, dlis_ushort, dlis_unorm, dlis_ulong, dlis_origin, dlis_status in H;
    rewrite ?units_is_ident in H; unfold dlis_ushort in H;
    repeat ob H; try (apply some_pair_inj in H as [<- <-])).
  - apply read_be_Some in Q as (a & -> & L & ->).
    exists a. split; [reflexivity|]. constructor; [exact L|]. unfold dlis_fshort, dlis_unorm.
    rewrite <- (app_nil_r a) at 1. rewrite read_be_app by exact L. reflexivity.
  - apply fsingl_inv in Q as (e & -> & S). exists e. split; [reflexivity|]. constructor. exact S.
  - apply fsingl_inv in Q as (e & -> & S). apply fsingl_inv in Q0 as (e1 & -> & S1).
    exists (e ++ e1). split; [apply app_assoc|]. constructor; assumption.
  - apply fsingl_inv in Q as (e & -> & S). apply fsingl_inv in Q0 as (e1 & -> & S1). apply fsingl_inv in Q1 as (e2 & -> & S2).
    exists (e ++ e1 ++ e2). split; [rewrite <- !app_assoc; reflexivity|]. constructor; assumption.
  - apply read_be_Some in Q as (a & -> & L & ->).
    exists a. split; [reflexivity|]. constructor; [exact L|]. unfold dlis_isingl.
    rewrite <- (app_nil_r a) at 1. rewrite read_be_app by exact L. reflexivity.
  - pose proof Q as Q'. apply take_Some in Q' as (-> & L).
    pose proof L as L'. apply list_len4 in L' as (b0 & b1 & b2 & b3 & ->).
    apply some_pair_inj in Q0 as [<- <-].
    eexists. split; [reflexivity|]. constructor; [exact L|]. reflexivity.
  - apply fdoubl_inv in Q as (e & -> & S). exists e. split; [reflexivity|]. constructor. exact S.
  - apply fdoubl_inv in Q as (e & -> & S). apply fdoubl_inv in Q0 as (e1 & -> & S1).
    exists (e ++ e1). split; [apply app_assoc|]. constructor; assumption.
  - apply fdoubl_inv in Q as (e & -> & S). apply fdoubl_inv in Q0 as (e1 & -> & S1). apply fdoubl_inv in Q1 as (e2 & -> & S2).
    exists (e ++ e1 ++ e2). split; [rewrite <- !app_assoc; reflexivity|]. constructor; assumption.
  - apply fsingl_inv in Q as (e & -> & S). apply fsingl_inv in Q0 as (e1 & -> & S1).
    exists (e ++ e1). split; [apply app_assoc|]. constructor; assumption.
  - apply fdoubl_inv in Q as (e & -> & S). apply fdoubl_inv in Q0 as (e1 & -> & S1).
    exists (e ++ e1). split; [apply app_assoc|]. constructor; assumption.
  - apply read_be_Some in Q as (a & -> & L & ->). apply list_len1 in L as (b & ->). fin. rewrite be1. constructor.
    apply signed_twos; [lia|]. pose proof (b2z_range b). change (2 ^ 8) with 256. lia.
  - apply read_be_Some in Q as (a & -> & L & ->). apply list_len2 in L as (b & b' & ->). fin. rewrite be2. constructor.
    apply signed_twos; [lia|]. pose proof (b2z_range b). pose proof (b2z_range b'). unfold u16. change (2 ^ 16) with 65536. lia.
  - apply read_be_Some in Q as (a & -> & L & ->). apply list_len4 in L as (b0 & b1 & b2 & b3 & ->). fin. rewrite be4. constructor.
    apply signed_twos; [lia|]. pose proof (b2z_range b0). pose proof (b2z_range b1). pose proof (b2z_range b2). pose proof (b2z_range b3).
    unfold u32be, u16. change (2 ^ 32) with 4294967296. lia.
  - apply read_be_Some in Q as (a & -> & L & ->). apply list_len1 in L as (b & ->). fin. constructor.
  - apply read_be_Some in Q as (a & -> & L & ->). apply list_len2 in L as (b & b' & ->). fin. rewrite be2. constructor.
  - apply read_be_Some in Q as (a & -> & L & ->). apply list_len4 in L as (b0 & b1 & b2 & b3 & ->). fin. rewrite be4. constructor.
  - apply uvari_read_spec in Q as (e & -> & E). fin. constructor. exact E.
  - apply ident_read_spec in Q as (e & -> & E). fin. constructor. exact E.
  - apply ascii_read_spec in Q as (e & -> & E). fin. constructor. exact E.
  - pose proof Q as Q0. unfold dlis_dtime in Q. destruct (take 6 xs) as [[t q]|] eqn:T; [|discriminate Q]. cbn [obind] in Q.
    apply take_Some in T as (-> & L). apply take6 in L as (x0 & x1 & x2 & x3 & x4 & x5 & ->).
    destruct (read_be 2 q) as [[t q']|] eqn:R; [|discriminate Q].
    apply read_be_Some in R as (a & -> & La & ->). apply list_len2 in La as (b & b' & ->).
    cbn [app] in Q0. rewrite dtime_read in Q0. apply some_pair_inj in Q0 as [<- <-].
    exists [x0; x1; x2; x3; x4; x5; b; b']. split; [reflexivity|]. constructor.
  - apply uvari_read_spec in Q as (e & -> & E). fin. constructor. exact E.
  - apply obname_read_spec in Q as (e & -> & E). fin. destruct o. constructor. exact E.
  - apply objref_read_spec in Q as (e & -> & E). fin. destruct o as [? []]. constructor. exact E.
  - apply attref_read_spec in Q as (e & -> & E). fin. destruct a as [? [] ?]. constructor. exact E.
  - apply read_be_Some in Q as (a & -> & L & ->). apply list_len1 in L as (b & ->). fin. constructor.
  - apply ident_read_spec in Q as (e & -> & E). fin. constructor. exact E.
Qed.

Lemma char_known c x : fmt_of_byte c = Some x -> exists rc, char_of rc c.
Proof.
  intros H.
  assert (K : exists k, (k < 27)%nat /\ nth_error format_chars k = Some c).
  { assert (I : In c format_chars).
    { destruct c; try discriminate H; vm_compute; tauto. }
    apply In_nth_error in I as [k I]. exists k. split; [|exact I].
    change 27%nat with (length format_chars). apply nth_error_Some. congruence. }
  destruct K as (k & L & K). exists (Z.of_nat k + 1). split; [lia|].
  replace (Z.to_nat (Z.of_nat k + 1 - 1)) with k by lia. exact K.
Qed.

Lemma char_unique rc rc' c : char_of rc c -> char_of rc' c -> rc = rc'.
Proof.
  intros C C'. char_cases C; apply char_cases in C'; cbn [combine codes format_chars text txt_bytes In] in C';
    repeat (destruct C' as [C'|C']; [first [discriminate C' | injection C' as <-; reflexivity]|]); destruct C'.
Qed.

Lemma unpack_inv f : forall src o r, unpack f src = ROk o r -> exists e, src = e ++ r /\ skipped f e.
Proof.
  induction f as [|c f IH]; intros src o r; cbn [unpack].
  - intros [= _ <-]. exists []. split; [reflexivity|constructor].
  - destruct (fmt_of_byte c) as [x|] eqn:X; [|discriminate].
    destruct (char_known c x X) as [rc C]. destruct (interpret_cast rc c C) as (x' & X' & I).
    assert (x' = x) as -> by congruence. rewrite I.
    destruct (cast_value rc src) as [[v r1]|] eqn:E; cbn [obind]; [|discriminate].
    destruct (unpack f r1) as [|o1|o1 r2] eqn:U; try discriminate. intros [= _ <-].
    apply cast_value_inv in E as (e & -> & V). apply IH in U as (e' & -> & S).
    exists (e ++ e'). split; [apply app_assoc|]. econstructor; eassumption.
Qed.

Lemma skip_inv f p q : skip_fmt f p = Ok q ->
  exists e, p_mem p = e ++ p_mem q /\ skipped f e /\ p_left q = p_left p - Z.of_nat (length e) /\ 0 <= p_left q.
Proof.
  destruct p as [m left]. destruct (unpack f m) as [|o|o r] eqn:U.
  - unfold skip_fmt. cbn [p_mem]. rewrite dlis_packflen_eq, U. discriminate.
  - unfold skip_fmt. cbn [p_mem]. rewrite dlis_packflen_eq, U. discriminate.
  - rewrite (skip_unpack _ _ left _ _ U). apply unpack_inv in U as (e & -> & S). rewrite app_length.
    destruct (_ >? left) eqn:G; [discriminate|]. intros [= <-]. exists e. cbn [p_mem p_left]. repeat split; [exact S | lia | lia].
Qed.

Lemma ident_image rc s : In rc [19; 27] -> image rc (VText s) (ident_cells s).
Proof.
  intros I. set (us := map (fun b => if b2z b <? 128 then b2z b else b2z b + 0xFFFFFF00) s).
  assert (F : Forall2 (fun b u => u = if b2z b <? 128 then b2z b else b2z b + 0xFFFFFF00) s us)
    by (apply (forall2_map (fun b => if b2z b <? 128 then b2z b else b2z b + 0xFFFFFF00)); reflexivity).
  rewrite (ident_cells_spec s us (flat_map (native 4) (us ++ repeat 0 (255 - length s))) F).
  - econstructor; [exact I | exact F | apply code_units_spec; reflexivity].
  - apply code_units_spec. reflexivity.
Qed.

Lemma plain_image rc e v : plain rc = true -> rp66_value rc e v -> image rc v (map Raw (args_bytes (mem_args rc v))).
Proof.
  intros P V. destruct V; try discriminate P; cbn [mem_args args_bytes map]; rewrite ?app_nil_r.
  all: match goal with
    | |- image ?rc (VNum ?z) _ =>
        let k := eval vm_compute in (Z.to_nat rc) in
        change rc with (Z.of_nat k); eapply im_num; [cbn [In]; cbn [num_size Z.of_nat Pos.of_succ_nat Pos.succ]; tauto | apply number_native; reflexivity]
    | |- image ?rc (VNums _) _ =>
        let k := eval vm_compute in (Z.to_nat rc) in
        change rc with (Z.of_nat k); eapply im_complex; [cbn [In]; cbn [num_size Z.of_nat Pos.of_succ_nat Pos.succ]; tauto | apply number_native; reflexivity | apply number_native; reflexivity]
    end.
Qed.

Lemma sample_inv c p k q : read_curve_sample c p = Ok (k, q) ->
  exists e, p_mem p = e ++ p_mem q /\ sample c e k /\ p_left q = p_left p - Z.of_nat (length e).
Proof.
  intros H. destruct (fmt_of_byte c) as [x|] eqn:X.
  2: { unfold read_curve_sample in H. rewrite X in H. unfold skip_fmt in H. rewrite dlis_packflen_eq in H.
       cbn [unpack] in H. rewrite X in H. discriminate H. }
  destruct (char_known c x X) as [rc C]. destruct (plain rc) eqn:P.
  - rewrite (read_plain rc c _ C P) in H. destruct (skip_fmt [c] p) as [q'| | |] eqn:K; try discriminate H.
    cbn [rbind] in H. destruct (dlis_packf [c] (p_mem p)) eqn:O; try discriminate H.
    injection H as <- <-. apply skip_inv in K as (e & E & S & L & _). exists e. split; [exact E|]. split; [|exact L].
    inversion S as [|? rc' e1 v ? e2 C' V S']; subst. inversion S'; subst. rewrite app_nil_r in *.
    assert (rc' = rc) as -> by (apply (char_unique rc' rc c); assumption).
    pose proof (cast_value_read rc e1 v (p_mem q') V) as R. rewrite <- E in R.
    rewrite dlis_packf_eq, (unpack_one c rc _ v _ C R) in O. injection O as <-.
    exists rc, v. split; [exact C|]. split; [exact V|]. apply plain_image with e1; assumption.
  - destruct p as [m left]. cbn [p_mem].
    assert (G : forall v r k', cast_value rc m = Some (v, r) -> q = moved (mk_ptr m left) r -> k' = k -> image rc v k' ->
      exists e, m = e ++ p_mem q /\ sample c e k /\ p_left q = p_left (mk_ptr m left) - Z.of_nat (length e)).
    { intros v r k' Cv -> -> I. apply cast_value_inv in Cv as (e & -> & V). exists e. split; [reflexivity|].
      split; [exists rc, v; auto|]. rewrite moved_app. reflexivity. }
    unfold read_curve_sample in H.
    char_cases C; try discriminate P; cbn [fmt_of_byte p_mem] in H;
      (match type of H with context [unchecked ?x] => destruct x as [[y r]|] eqn:Q end); try discriminate H; cbn [unchecked rbind] in H;
      repeat match goal with p : (_ * _)%type |- _ => destruct p end.
    all: cbn [cast_value] in G; unfold num2, num3, str in G; rewrite ?units_is_ident in G; rewrite Q in G; cbn [obind] in G.
    all: try (injection H as <- <-; eapply G; [reflexivity | reflexivity | reflexivity | constructor; vm_compute; tauto]).
    all: try (injection H as <- <-; eapply G; [reflexivity | reflexivity | reflexivity | apply ident_image; vm_compute; tauto]).
    + destruct (utf8 y) as [u|] eqn:U; [|discriminate H]. cbn [obind] in H. injection H as <- <-.
      eapply G; [reflexivity | reflexivity | reflexivity | constructor; exact U].
    + destruct (to_pydatetime y) as [u|] eqn:U; [|discriminate H]. cbn [obind] in H. injection H as <- <-.
      apply (date_time_iff _ (dtime_read_range _ _ _ Q)) in U.
      eapply G; [reflexivity | reflexivity | reflexivity | constructor; exact U].
Qed.

Lemma frame_inv f : forall p k q, read_fdata_frame f p = (k, Ok q) ->
  exists e, p_mem p = e ++ p_mem q /\ row f e k /\ p_left q = p_left p - Z.of_nat (length e).
Proof.
  induction f as [|c f IH]; intros p k q; cbn [read_fdata_frame].
  - intros [= <- <-]. exists []. split; [reflexivity|]. split; [constructor|]. cbn. lia.
  - destruct (read_curve_sample c p) as [[cells q']| | |] eqn:S; try discriminate.
    destruct (read_fdata_frame f q') as [more r] eqn:F. intros [= <- ->].
    apply sample_inv in S as (e & E & S & L). apply IH in F as (e' & E' & R & L').
    exists (e ++ e'). split; [rewrite E, E'; apply app_assoc|]. split; [constructor; assumption|].
    rewrite app_length. lia.
Qed.

(** the rows of a record are a prefix of its bytes; nothing that follows is a
    row, and when nothing goes wrong nothing follows *)
Lemma rec_rows_inv pre fmt post fuel : forall m left ks r,
  left <= Z.of_nat (length m) ->
  rec_rows fuel pre fmt post (mk_ptr m left) = (ks, r) -> 0 <= left ->
  exists es t, firstn (Z.to_nat left) m = es ++ t /\ rows pre fmt post es ks /\ (r = Ok tt -> t = []) /\ (r <> Ok tt -> t <> []) /\
    (r = Exn -> forall e1 e2 e3 k t', skipped pre e1 -> row fmt e2 k -> skipped post e3 -> t <> (e1 ++ e2 ++ e3) ++ t').
Proof.
  induction fuel as [|fuel IH]; intros m left ks r Lm; cbn [rec_rows p_left]; destruct (left <=? 0) eqn:Z0.
  - intros [= <- <-] L. exists [], []. replace left with 0 by lia. repeat split; try constructor; congruence.
  - intros [= <- <-] L. exists [], (firstn (Z.to_nat left) m). repeat split; try constructor; try discriminate.
    intros _ K. apply (f_equal (@length _)) in K. rewrite firstn_length in K. cbn [length] in K. lia.
  - intros [= <- <-] L. exists [], []. replace left with 0 by lia. repeat split; try constructor; congruence.
  - intros H L. apply Z.leb_gt in Z0.
    assert (B : (ks, r) = ([], r) /\ r <> Ok tt \/
                exists p1 p2 p3 k ks', skip_fmt pre (mk_ptr m left) = Ok p1 /\ read_fdata_frame fmt p1 = (k, Ok p2) /\
                  skip_fmt post p2 = Ok p3 /\ ks = k :: ks' /\ rec_rows fuel pre fmt post p3 = (ks', r)).
    { destruct (skip_fmt pre (mk_ptr m left)) as [p1| | |] eqn:E1; try (left; split; congruence).
      destruct (read_fdata_frame fmt p1) as [k [p2| | |]] eqn:E2; try (left; split; congruence).
      destruct (skip_fmt post p2) as [p3| | |] eqn:E3; try (left; split; congruence).
      destruct (rec_rows fuel pre fmt post p3) as [ks' r'] eqn:E4. injection H as <- <-.
      right. exists p1, p2, p3, k, ks'. auto. }
    destruct B as [[B R]|(p1 & p2 & p3 & k & ks' & E1 & E2 & E3 & -> & E4)].
    + assert (ks = []) as -> by congruence. exists [], (firstn (Z.to_nat left) m).
      split; [reflexivity|]. split; [constructor|]. split; [intros; congruence|].
      split; [intros _ K; apply (f_equal (@length _)) in K; rewrite firstn_length in K; cbn [length] in K; lia|].
      intros -> e1 e2 e3 k t' S1 S2 S3 K.
      assert (M : m = e1 ++ e2 ++ e3 ++ (t' ++ skipn (Z.to_nat left) m)).
      { rewrite <- (firstn_skipn (Z.to_nat left) m) at 1. rewrite K, <- !app_assoc. reflexivity. }
      assert (LL : Z.of_nat (length e1) + Z.of_nat (length e2) + Z.of_nat (length e3) <= left).
      { apply (f_equal (@length _)) in K. rewrite firstn_length, !app_length in K. lia. }
      rewrite M in H. rewrite (skip_read pre e1) in H by (assumption || lia).
      rewrite (row_read fmt e2 k) in H by (assumption || lia).
      rewrite (skip_read post e3) in H by (assumption || lia).
      destruct (rec_rows fuel pre fmt post _) as [ks' r'] in H. discriminate H.
    + apply skip_inv in E1 as (e1 & M1 & S1 & L1 & _). apply frame_inv in E2 as (e2 & M2 & S2 & L2).
      apply skip_inv in E3 as (e3 & M3 & S3 & L3 & L3').
      cbn [p_mem p_left] in M1, L1. destruct p3 as [m3 left3]. cbn [p_mem p_left] in *.
      assert (M : m = (e1 ++ e2 ++ e3) ++ m3) by (rewrite M1, M2, M3, <- !app_assoc; reflexivity).
      assert (LE : left = Z.of_nat (length (e1 ++ e2 ++ e3)) + left3) by (rewrite !app_length; lia).
      assert (LM3 : left3 <= Z.of_nat (length m3)).
      { apply (f_equal (@length _)) in M. rewrite app_length in M. lia. }
      destruct (IH _ _ _ _ LM3 E4 L3') as (es & t & F & R & Q1 & Q2 & Q3).
      exists ((e1 ++ e2 ++ e3) ++ es), t. split.
      { rewrite M, LE. replace (Z.to_nat _) with (length (e1 ++ e2 ++ e3) + Z.to_nat left3)%nat by lia.
        rewrite firstn_app_2, F, <- !app_assoc. reflexivity. }
      split; [constructor; assumption|]. auto.
Qed.

Lemma read_exact esc data hard after pre fmt post n tell en o c i body l k r :
  row_width fmt n -> len data < 2 ^ 63 -> plain_record data tell (en ++ body) -> rp66_obname en o c i ->
  read_fdata esc (mk_stream data hard) after pre fmt post n [tell] = (l, Ok (k, r)) ->
  exists es t ks, body = es ++ t /\ rows pre fmt post es ks /\ k = concat ks /\ r = Z.of_nat (length ks) /\
    (t = [] /\ l = [] \/
     t <> [] /\ l = [CRITICAL] /\
     forall e1 e2 e3 k t', skipped pre e1 -> row fmt e2 k -> skipped post e3 -> t <> (e1 ++ e2 ++ e3) ++ t').
Proof.
  intros W L P N H. rewrite (read_fdata_rows n fmt _ _ _ _ _ _ W) in H. cbn [loop_rows] in H.
  destruct (plain_extract esc data hard tell (en ++ body) P L) as (rec & E & D & I). rewrite E, I in H. cbn [bind] in H.
  unfold record_rows in H. cbn [p_mem] in H. rewrite D in H.
  assert (O : dlis_obname (en ++ (body ++ after tell)) = Some (mk_obname o c i, body ++ after tell))
    by (apply obname_read_spec; exists en; auto).
  rewrite <- app_assoc in H. rewrite O in H. rewrite moved_app in H.
  destruct (rec_rows _ _ _ _ _) as [ks q] eqn:R in H.
  rewrite !app_length in R.
  apply rec_rows_inv in R as (es & t & F & Rw & Q1 & Q2 & Q3); [| rewrite !app_length; lia | lia].
  replace (Z.to_nat _) with (length body + 0)%nat in F by lia. rewrite firstn_app_2 in F.
  cbn [firstn] in F. rewrite app_nil_r in F.
  exists es, t, ks. split; [exact F|]. split; [exact Rw|].
  destruct q as [[]| | |]; cbn [bind ret app concat length] in H; try discriminate H.
  - rewrite app_nil_r in H.
    assert (k = concat ks /\ r = Z.of_nat (length ks) /\ l = []) as (-> & -> & ->) by (split; [|split]; congruence).
    auto 10.
  - unfold log in H. destruct (esc CRITICAL); [discriminate H|]. cbn [bind ret app] in H. rewrite !app_nil_r in H.
    assert (k = concat ks /\ r = Z.of_nat (length ks) /\ l = [CRITICAL]) as (-> & -> & ->) by (split; [|split]; congruence).
    split; [reflexivity|]. split; [reflexivity|]. right. split; [apply Q2; discriminate|]. split; [reflexivity|]. apply Q3. reflexivity.
Qed.
