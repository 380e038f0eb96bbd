(** Proofs about splitting LIS79 files: whole files. *)
From Verif Require Import Bytes BytesProofs DlisTypes SpecTypes TypesProofs Stream SpecIo IoProofs LisProtocol LisIo SpecLisIo LisIoProofs LisIoProofs2 LisIoProofs3 LisIoProofs4 LisIoProofs5 Tapemark LisLoad SpecLisLoad LisLoadProofs LisLoadProofs2 LisLoadProofs3 LisLoadProofs4.
Local Open Scope Z_scope.
Ltac Zify.zify_post_hook ::= Z.div_mod_to_equations.

Lemma course_loaded esc openlis stopped b o secs : course (opens_of openlis) stopped b o secs ->
  exists n st, dloaded secs st /\ forall fuel, (n <= fuel)%nat ->
    exists st', core st' = core st /\ index_all esc openlis stopped fuel (new_indexer o) = (fin b, outcome esc b st').
Proof.
  intros C. destruct (course_runs esc openlis stopped b o secs C) as (evs & n & M & R).
  exists n, (happens evs (new_indexer o)). split; [apply (association secs evs o); [exact M | reflexivity]|].
  intros fuel F. exact (R (new_indexer o) fuel eq_refl eq_refl F).
Qed.
Lemma dloaded_core secs st st' : core st = core st' -> dloaded secs st -> dloaded secs st'.
Proof. unfold core, dloaded. intros E. injection E as -> -> _ -> _. auto. Qed.

Lemma related_delims secs secs' data : Forall2 (fun s s' => related s s' data) secs secs' ->
  ddelimiters secs' = delimiters secs /\ dcount_files secs' = count_files secs.
Proof.
  induction 1 as [|s s' l l' R Rs [I1 I2]]; [split; reflexivity|].
  destruct s as [ty ds|rs], s' as [ty' ds'|d rs']; cbn [related] in R; try contradiction.
  - destruct R as [-> ->]. unfold ddelimiters, delimiters in *. cbn. rewrite I1, I2. split; reflexivity.
  - unfold ddelimiters, delimiters in *. cbn. rewrite I1, I2. split; reflexivity.
Qed.
Lemma tail_from o data : 0 <= o <= len data -> tail_at data o (from o data).
Proof.
  intros H. exists (firstn (Z.to_nat o) data). split; [symmetry; apply firstn_skipn|]. unfold len in *. rewrite firstn_length. lia.
Qed.
Lemma loaded_plain data secs secs' st : Forall2 (fun s s' => related s s' data) secs secs' ->
  dloaded secs' st -> loaded data secs st.
Proof.
  intros R [L D]. destruct (related_delims _ _ _ R) as [E1 E2]. split; [congruence|].
  intros before rs after ->. apply Forall2_app_inv_l in R as (b' & a' & R1 & R2 & ->).
  inversion R2 as [|? s' ? a'' Rf R3]; subst. destruct s' as [|d rs']; cbn [related] in Rf; [contradiction|].
  destruct Rf as (o & Ho & Hs & -> & ->). destruct (D b' _ _ a'' eq_refl) as (f & F1 & F2 & F3 & F4 & F5).
  destruct (related_delims _ _ _ R1) as [E3 E4]. destruct (related_delims _ _ _ R3) as [E5 E6].
  exists f, o. rewrite E4 in F1. rewrite E3, E5 in F4, F5. split; [exact F1|]. rewrite F2.
  split; [reflexivity|]. split; [|auto]. change (d_data (plain_device data o)) with (from o data).
  apply tail_from. exact Ho.
Qed.

Lemma all_plain esc data b secs fuel : layout data b 0 secs -> (length data + 2 <= fuel)%nat ->
  exists st, loaded data secs st /\
    index_all esc (open_plain data) plain_stopped fuel (new_indexer 0) = (fin b, outcome esc b st).
Proof.
  intros Y F. destruct (layout_follows data b 0 secs Y ltac:(lia)) as [(secs' & R & C) _].
  destruct (course_loaded esc _ _ _ _ _ C) as (n & st & D & A).
  destruct (A (fuel + n)%nat ltac:(lia)) as (st' & E1 & E2). exists st'.
  split; [eapply loaded_plain; [exact R|]; apply (dloaded_core secs' st); [symmetry; exact E1 | exact D]|].
  rewrite all_more in E2; [exact E2|]. apply all_ends; cbn; [lia|]. pose proof (len_nonneg data). unfold len in *. lia.
Qed.

(** ** Tape marks *)
Lemma valid_spec tm : valid_tapemark tm = true <-> (tm_type tm = 0 \/ tm_type tm = 1) /\ tm_prev tm < tm_next tm.
Proof. unfold valid_tapemark. destruct tm as [ty p n]. cbn. destruct (Z.eqb_spec ty 0), (Z.eqb_spec ty 1), (Z.leb_spec n p); cbn; split; intros; try discriminate; try lia; try tauto. Qed.
Lemma mark_unique ty p n ty' p' n' m : mark ty p n m -> mark ty' p' n' m -> ty = ty' /\ p = p' /\ n = n'.
Proof.
  intros (t0 & t1 & t2 & t3 & p0 & p1 & p2 & p3 & n0 & n1 & n2 & n3 & -> & <- & <- & <-).
  intros (t0' & t1' & t2' & t3' & p0' & p1' & p2' & p3' & n0' & n1' & n2' & n3' & E & <- & <- & <-).
  injection E as -> -> -> -> -> -> -> -> -> -> -> ->. auto.
Qed.
Lemma mark_len ty p n m : mark ty p n m -> len m = 12.
Proof. intros (t0 & t1 & t2 & t3 & p0 & p1 & p2 & p3 & n0 & n1 & n2 & n3 & -> & _). reflexivity. Qed.
Lemma read_mark_total file pos : 0 <= pos -> (exists tm, read_tapemark file pos = Ok tm) \/ (read_tapemark file pos = Exn /\ len file < pos + 12).
Proof.
  intros Hp. destruct (Z_lt_ge_dec (len file) (pos + 12)) as [L|L]; [right; split; [apply read_mark_short; assumption | exact L]|left].
  unfold read_tapemark, read. cbn [s_data s_hard]. replace (12 =? 0) with false by lia. replace ((12 <? 0) || (pos <? 0)) with false by lia.
  cbv zeta. change (Z.to_nat 12) with 12%nat. set (g := firstn 12 (skipn (Z.to_nat pos) file)).
  assert (G : length g = 12%nat) by (unfold g; rewrite firstn_length, skipn_length; unfold len in L; lia).
  rewrite G, Nat.eqb_refl, G. replace (Z.of_nat 12 <? 12) with false by lia. eexists. reflexivity.
Qed.

Lemma skip_marks_spec file : forall fuel tm pos, 12 <= pos -> read_tapemark file (pos - 12) = Ok tm ->
  Z.max 0 (len file - pos) < 12 * Z.of_nat fuel ->
  match skip_marks fuel file tm pos with
  | Ok o => exists j : Z, 0 <= j /\ o = pos - 12 + 12 * j /\
      (exists tm', read_tapemark file o = Ok tm' /\ tm_type tm' = 0) /\
      forall i, 0 <= i < j -> exists tm', read_tapemark file (pos - 12 + 12 * i) = Ok tm' /\ tm_type tm' <> 0
  | Exn => forall k, 0 <= k -> forall tm', read_tapemark file (pos - 12 + 12 * k) = Ok tm' -> tm_type tm' <> 0
  | UB | Fuel => False
  end.
Proof.
  induction fuel as [|fuel IH]; intros tm pos Hp R M; [lia|]. cbn [skip_marks]. destruct (Z.eqb_spec (tm_type tm) 0) as [E|N].
  - exists 0. split; [lia|]. split; [lia|]. split; [exists tm; auto|]. intros i Hi. lia.
  - destruct (read_mark_total file pos ltac:(lia)) as [(tm1 & R1)|[R1 L]]; rewrite R1.
    + assert (B : pos + 12 <= len file). { destruct (read_mark_inv file pos tm1 ltac:(lia) R1) as (m & A & Mk). apply at_pos_bound in A. rewrite (mark_len _ _ _ _ Mk) in A. lia. }
      specialize (IH tm1 (pos + 12) ltac:(lia)). replace (pos + 12 - 12) with pos in IH by lia. specialize (IH R1 ltac:(lia)).
      destruct (skip_marks fuel file tm1 (pos + 12)) as [o| | |]; auto.
      * destruct IH as (j & J1 & J2 & J3 & J4). exists (j + 1). split; [lia|]. split; [lia|]. split; [exact J3|].
        intros i Hi. destruct (Z.eq_dec i 0) as [->|Ni]; [exists tm; rewrite Z.mul_0_r, Z.add_0_r; auto|].
        destruct (J4 (i - 1) ltac:(lia)) as (tm' & T1 & T2). exists tm'. replace (pos - 12 + 12 * i) with (pos + 12 * (i - 1)) by lia. auto.
      * intros k Hk tm' T. destruct (Z.eq_dec k 0) as [->|Ni].
        { rewrite Z.mul_0_r, Z.add_0_r, R in T. injection T as <-. exact N. }
        apply (IH (k - 1) ltac:(lia)). rewrite <- T. f_equal. lia.
    + intros k Hk tm' T. destruct (Z.eq_dec k 0) as [->|Ni].
      { rewrite Z.mul_0_r, Z.add_0_r, R in T. injection T as <-. exact N. }
      rewrite read_mark_short in T by lia. discriminate.
Qed.
Lemma starts_read file type : starts_with_mark file type -> exists tm, read_tapemark file 0 = Ok tm /\ valid_tapemark tm = true /\ tm_type tm = type.
Proof.
  intros (p & n & m & A & M & T & L). exists (mk_tapemark type p n). split; [eapply read_mark; eauto; lia|].
  split; [apply valid_spec; auto | reflexivity].
Qed.
Lemma read_starts file tm : read_tapemark file 0 = Ok tm -> valid_tapemark tm = true -> starts_with_mark file (tm_type tm).
Proof.
  intros R V. apply valid_spec in V as [V1 V2]. destruct (read_mark_inv file 0 tm ltac:(lia) R) as (m & A & M).
  exists (tm_prev tm), (tm_next tm), m. auto.
Qed.
Lemma check_plain file : check_for_tapemarks file = Ok (false, 0) <-> 12 <= len file /\ forall type, ~ starts_with_mark file type.
Proof.
  unfold check_for_tapemarks. split.
  - destruct (read_tapemark file 0) as [tm| | |] eqn:R; try discriminate. destruct (valid_tapemark tm) eqn:V.
    + destruct (skip_marks _ _ _ _); discriminate.
    + intros _. split.
      * destruct (read_mark_inv file 0 tm ltac:(lia) R) as (m & A & M). apply at_pos_bound in A. rewrite (mark_len _ _ _ _ M) in A. lia.
      * intros type S. apply starts_read in S as (tm' & R' & V' & _). congruence.
  - intros [L N]. destruct (read_mark_total file 0 ltac:(lia)) as [(tm & R)|[_ S]]; [|lia]. rewrite R.
    destruct (valid_tapemark tm) eqn:V; [|reflexivity]. destruct (N _ (read_starts _ _ R V)).
Qed.
Lemma check_tif file o : check_for_tapemarks file = Ok (true, o) <-> (exists type, starts_with_mark file type) /\ exists k, 0 <= k /\ o = 12 * k /\ first_block file k.
Proof.
  unfold check_for_tapemarks. split.
  - destruct (read_tapemark file 0) as [tm| | |] eqn:R; try discriminate. destruct (valid_tapemark tm) eqn:V; [|discriminate].
    pose proof (skip_marks_spec file (S (length file)) tm 12 ltac:(lia) R ltac:(unfold len; lia)) as S.
    destruct (skip_marks _ _ _ _) as [o'| | |]; try discriminate. intros E. injection E as <-.
    split; [exists (tm_type tm); apply read_starts; assumption|]. destruct S as (j & J1 & J2 & (tm' & J3 & J4) & J5).
    exists j. split; [exact J1|]. split; [lia|]. split.
    + destruct (read_mark_inv file o' tm' ltac:(lia) J3) as (m & A & M). exists (tm_prev tm'), (tm_next tm'), m. rewrite J4 in M.
      replace (12 * j) with o' by lia. auto.
    + intros i Hi. destruct (J5 i Hi) as (t' & T1 & T2). destruct (read_mark_inv file (12 - 12 + 12 * i) t' ltac:(lia) T1) as (m & A & M).
      exists (tm_type t'), (tm_prev t'), (tm_next t'), m. replace (12 * i) with (12 - 12 + 12 * i) by lia. auto.
  - intros [(type & S) (k & K1 & -> & (p0 & n0 & m0 & A0 & M0) & K3)]. apply starts_read in S as (tm & R & V & _). rewrite R, V.
    pose proof (skip_marks_spec file (S (length file)) tm 12 ltac:(lia) R ltac:(unfold len; lia)) as S.
    pose proof (read_mark file (12 * k) _ _ _ _ A0 M0 ltac:(lia)) as R0.
    destruct (skip_marks _ _ _ _) as [o'| | |].
    + destruct S as (j & J1 & J2 & (tm' & J3 & J4) & J5). assert (j = k) as ->; [|do 2 f_equal; lia].
      destruct (Z.lt_trichotomy j k) as [C|[C|C]]; [|exact C|].
      * destruct (K3 j ltac:(lia)) as (t' & p' & n' & m' & A' & M' & N'). pose proof (read_mark file (12 * j) _ _ _ _ A' M' ltac:(lia)) as R'.
        replace (12 * j) with o' in R' by lia. rewrite R' in J3. injection J3 as <-. cbn in J4. congruence.
      * destruct (J5 k ltac:(lia)) as (t' & T1 & T2). replace (12 - 12 + 12 * k) with (12 * k) in T1 by lia. rewrite R0 in T1. injection T1 as <-. cbn in T2. congruence.
    + exfalso. apply (S k K1 (mk_tapemark 0 p0 n0)); [|reflexivity]. rewrite <- R0. reflexivity.
    + destruct S.
    + destruct S.
Qed.
Lemma check_total file : check_for_tapemarks file <> Fuel /\ check_for_tapemarks file <> UB /\
  forall b o, check_for_tapemarks file = Ok (b, o) -> b = false -> o = 0.
Proof.
  unfold check_for_tapemarks. destruct (read_mark_total file 0 ltac:(lia)) as [(tm & R)|[R _]]; rewrite R; [|repeat split; discriminate].
  destruct (valid_tapemark tm); [|repeat split; try discriminate; intros b o E; injection E; auto].
  pose proof (skip_marks_spec file (S (length file)) tm 12 ltac:(lia) R ltac:(unfold len; lia)) as S.
  destruct (skip_marks _ _ _ _); try contradiction; repeat split; try discriminate. intros b o E B. congruence.
Qed.
