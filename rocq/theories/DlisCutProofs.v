(** Proofs for C87: DLIS files that end too early. *)
From Verif Require Import Bytes BytesProofs Stream DlisTypes SpecTypes DlisCore SpecCore DlisIo SpecIo IoProofs IoProofs2
  DlisRecords SpecRecords RecordsProofs3 Tapemark Lfp DlisStore SpecDlisStore SpecDlisLoad DlisLoadProofs DlisLoadProofs2 DlisLoadProofs3 DlisLoadProofs4
  SpecDlisSurvey DlisSurveyProofs SpecDlisPrefix DlisPrefixProofs SpecDlisCurves DlisCurvesProofs4 DlisCurvesProofs5 SpecDlisCut.
From Verif Require DlisLoad.
Import DlisLoad (lf_stream, lf_sets, lf_fdata, lf_sul, indexer, di_files, load).
Local Open Scope Z_scope.

(** ** What is left of a record is no record *)

Lemma part_header pre segs k g gs l a t : segs = g :: gs -> seg_fits g ->
  header_at (pre ++ firstn k (enc_record segs)) (len pre) l a t ->
  l = 4 + len (g_payload g) /\ a = b2z (g_attrs g) /\ t = b2z (g_type g) /\ (4 <= k)%nat.
Proof.
  intros -> SG H.
  assert (E : pre ++ firstn k (enc_record (g :: gs)) = firstn (length pre + k) (pre ++ enc_record (g :: gs))).
  { rewrite firstn_app, (firstn_all2 pre) by lia. f_equal. f_equal. lia. }
  pose proof (header_bounds _ _ _ _ _ H) as (_ & B & _). rewrite E in H. apply header_cut in H. rewrite enc_record_cons in H.
  pose proof (seg_header pre g (skipn 4 (enc_segment g) ++ enc_record gs) SG) as SH.
  rewrite (app_assoc (firstn 4 _)), firstn_skipn in SH. destruct (header_inj _ _ _ _ _ _ _ _ H SH) as (-> & -> & ->).
  rewrite len_app in B. unfold len in B. rewrite firstn_length in B. repeat split; lia.
Qed.

Lemma part_no_record hard seen segs : chained segs -> Forall seg_fits segs -> forall pre k q e, (k < length (enc_record segs))%nat ->
  hard = true \/ (k < length (enc_record (removelast segs)) + 4)%nat ->
  ~ record_at (pre ++ firstn k (enc_record segs)) hard seen (len pre) q e.
Proof.
  induction segs as [|g gs IH]; intros CH SF pre k q e K HK R; [destruct CH|]. inversion SF as [|? ? SG SGS]; subst.
  assert (LS : length (enc_segment g) = (4 + length (g_payload g))%nat) by reflexivity.
  destruct gs as [|g2 gs].
  - cbn [chained] in CH. unfold has_succ, seg_bit in CH. cbn [removelast] in HK. rewrite enc_record_cons in K. change (enc_record []) with (@nil byte) in *. rewrite app_nil_r in K. cbn [length] in HK.
    inversion R as [p ln at_ ty (S1 & S2 & S3 & _) T|p ln at_ ty q' e' (S1 & _) T R']; subst;
      destruct (part_header _ _ _ _ _ _ _ _ eq_refl SG S1) as (-> & -> & -> & K4).
    + destruct HK as [->|HK]; [|lia]. specialize (S3 eq_refl). rewrite len_app in S3. unfold len in S3. rewrite firstn_length in S3. lia.
    + rewrite CH in T. discriminate T.
  - destruct CH as [HS CH]. unfold has_succ, seg_bit in HS.
    inversion R as [p ln at_ ty (S1 & S2 & S3 & _) T|p ln at_ ty q' e' (S1 & _) T R']; subst;
      destruct (part_header _ _ _ _ _ _ _ _ eq_refl SG S1) as (-> & -> & -> & K4); [congruence|].
    rewrite (enc_record_cons g (g2 :: gs)) in K, R'. destruct (Nat.lt_ge_cases k (length (enc_segment g))) as [L|L].
    + apply record_at_lt in R' as (_ & B & _). rewrite len_app in B. unfold len in B. rewrite firstn_length in B. lia.
    + rewrite firstn_app, firstn_all2, app_assoc in R' by lia.
      replace (len pre + (4 + len (g_payload g))) with (len (pre ++ enc_segment g)) in R' by (rewrite len_app; unfold len; rewrite LS; lia).
      revert R'. apply (IH CH SGS).
      * rewrite app_length in K. lia.
      * destruct HK as [HK|HK]; [left; exact HK|right]. change (removelast (g :: g2 :: gs)) with (g :: removelast (g2 :: gs)) in HK.
        rewrite enc_record_cons, app_length in HK. lia.
Qed.

(** ** Where visible records end *)
Lemma kept_hard ps : Forall visible_fits ps -> forall m fuel, (m <= length (concat (map enc_visible ps)))%nat -> (length (firstn m (concat (map enc_visible ps))) < fuel)%nat ->
  snd (visible_records fuel (firstn m (concat (map enc_visible ps)))) = false -> between ps m.
Proof.
  induction 1 as [|p ps H HS IH]; intros m fuel M F V; cbn [map concat] in *.
  - cbn [length] in M. exists [], []. split; [reflexivity|]. cbn. lia.
  - assert (LE : length (enc_visible p) = (4 + length p)%nat) by reflexivity. rewrite firstn_app, LE in *. rewrite app_length, LE in M.
    destruct (m <? 4 + length p)%nat eqn:MP.
    + apply Nat.ltb_lt in MP. replace (m - (4 + length p))%nat with 0%nat in * by lia. rewrite firstn_O, app_nil_r in *.
      destruct fuel as [|fuel]; [lia|]. unfold enc_visible in *.
      destruct m as [|[|[|[|m]]]]; cbn [app firstn] in V; [exists [], (p :: ps); split; reflexivity|discriminate V|discriminate V|discriminate V|].
      cbn [visible_records] in V. rewrite visible_header in V by exact H. destruct H as [H1 H2].
      change (negb ((b2z xff =? 0xFF) && (b2z x01 =? 1))) with false in V. cbn [orb] in V.
      replace (4 + len p <? 4) with false in V by lia.
      replace (Z.to_nat (4 + len p - 4)) with (length p) in V by (unfold len; lia).
      rewrite firstn_length in V. replace (Nat.min m (length p) <? length p)%nat with true in V by (symmetry; apply Nat.ltb_lt; lia). discriminate V.
    + apply Nat.ltb_ge in MP. rewrite firstn_all2 in * by lia.
      destruct (visible_app [p] ltac:(repeat constructor; apply H) fuel (firstn (m - (4 + length p)) (concat (map enc_visible ps)))) as (f' & F' & E);
        [cbn [map concat]; rewrite app_nil_r; exact F|].
      cbn [map concat] in E. rewrite app_nil_r in E. rewrite E in V. destruct (visible_records f' _) as [qs b] eqn:V'. cbn [snd] in V. subst b.
      destruct (IH (m - (4 + length p))%nat f') as (a & c & -> & EM); [lia|exact F'|rewrite V'; reflexivity|].
      exists (p :: a), c. split; [reflexivity|]. cbn [map concat]. rewrite app_length, LE, <- EM. lia.
Qed.

(** ** Courses *)
Section devices.
Variable tif : bool.
Variable open_stream : Z -> option raw.
Variable open_rp66 : raw -> Z -> option rp66.
Notation leads := (leads tif open_stream open_rp66).
Notation course := (course tif open_stream open_rp66).
Definition bounded (x : found) : Prop := let '(_, vs, recs, cs) := x in
  len (s_data (vs_stream vs)) < 2 ^ 63 /\ logical_file false recs /\ Forall2 holds recs cs /\ exists tail, s_data (vs_stream vs) = enc_records recs ++ tail.

Lemma leads_course next sul first log fs n s b log' fs' : leads next sul first log fs n s b -> course n s b log' fs' ->
  course next sul first (log ++ log') (fs ++ fs').
Proof.
  induction 1 as [| |next sul first r sul' pos l log fs n s b O N B E H P L IH|next sul first r sul' pos l q l' vs recs tail cs next' log fs n s b O B P V R D SM LF HO EN L IH]; intros C.
  - exact C.
  - eapply co_mark; eauto.
  - rewrite <- app_assoc. eapply co_label_mark; eauto.
  - rewrite <- !app_assoc. cbn [app]. eapply co_file; eauto.
Qed.
Lemma leads_bounded next sul first log fs n s b : leads next sul first log fs n s b -> Forall bounded fs.
Proof. induction 1; try constructor; auto. unfold bounded. eauto 8. Qed.
Lemma course_bounded next sul first log fs : course next sul first log fs -> Forall bounded fs.
Proof. induction 1; try constructor; auto; unfold bounded; eauto 8. Qed.
End devices.

(** ** Logical files that consist of records *)
Lemma made_sound st xs ys more : files_sound st -> di_files st = ys ++ more ->
  Forall bounded xs -> Forall2 file_reads xs ys ->
  Forall2 (fun x y => let '(s, vs, recs, cs) := x in consists_of s recs cs y) xs ys.
Proof.
  intros SO E B F. unfold files_sound in SO.
  rewrite E in SO. apply Forall_app in SO as [SO _]. clear -SO B F.
  induction F as [|[[[s vs] recs] cs] y xs ys (F1 & F2 & F3 & F4) F IH]; constructor; apply Forall_cons_iff in B as [(B1 & B2 & B3 & B4) B]; apply Forall_cons_iff in SO as [[S1 S2] SO].
  - unfold consists_of, data_of. rewrite F1. pose proof (reads_parsable _ _ F3). auto 15.
  - exact (IH SO B).
Qed.
Lemma made_of esc ot tr fuel file l st xs ys more : load esc ot tr fuel file = (l, Ok st) -> di_files st = ys ++ more ->
  Forall bounded xs -> Forall2 file_reads xs ys ->
  Forall2 (fun x y => let '(s, vs, recs, cs) := x in consists_of s recs cs y) xs ys.
Proof. intros LD. apply made_sound. apply (load_sound esc ot tr fuel file st). rewrite LD. reflexivity. Qed.
Lemma made_as lab fs : forall xs ys, Forall2 (seen_as lab) fs xs ->
  Forall2 (fun x y => let '(s, vs, recs, cs) := x in consists_of s recs cs y) xs ys ->
  Forall2 (fun f y => consists_of lab (wf_recs f) (wf_contents f) y) fs ys.
Proof.
  induction fs as [|f fs IH]; intros xs ys A B; inversion A as [|? [[[s vs] recs] cs] ? xs' (-> & -> & -> & _) A']; subst; inversion B; subst; constructor; eauto.
Qed.

(** ** Cut files *)
Lemma part_prefix f m r1 segs part : wf_file f -> cut f m r1 segs part -> exists k, part = firstn k (enc_record segs) /\ (k < length (enc_record segs))%nat /\ length part = k.
Proof.
  intros W ((e & r2 & ER) & NE & EK & LP). pose proof W as (_ & _ & _ & EV & _). destruct (kept_firstn (wf_visible f) m) as (k & KK).
  assert (ER' : enc_records (wf_recs f) = enc_records r1 ++ enc_record segs ++ enc_records r2).
  { rewrite ER. unfold enc_records. rewrite map_app, concat_app. reflexivity. }
  rewrite EK, EV, ER' in KK. exists (length part). split; [|split; [exact LP|reflexivity]].
  assert (X : length (enc_records r1 ++ part) = Nat.min k (length (enc_records r1 ++ enc_record segs ++ enc_records r2))) by (rewrite KK; apply firstn_length).
  rewrite !app_length in X. rewrite firstn_app in KK.
  destruct (Nat.le_gt_cases (length (enc_records r1)) k) as [G|G].
  - rewrite firstn_all2 in KK by lia. apply app_inv_head in KK. rewrite firstn_app in KK.
    assert (k - length (enc_records r1) = length part)%nat as EL by lia. rewrite EL in KK.
    replace (length part - length (enc_record segs))%nat with 0%nat in KK by lia. rewrite firstn_O, app_nil_r in KK. exact KK.
  - destruct part as [|b part]; [reflexivity|]. cbn [length] in X. lia.
Qed.
Lemma firstn_holds r1 r2 cs : Forall2 holds (r1 ++ r2) cs -> Forall2 holds r1 (firstn (length r1) cs).
Proof. intros H. apply Forall2_app_inv_l in H as (c1 & c2 & H1 & H2 & ->). rewrite (Forall2_len _ _ _ H1), firstn_app, Nat.sub_diag, firstn_all, firstn_O, app_nil_r. exact H1. Qed.
Lemma logical_front r1 r2 : forall seen, logical_file seen (r1 ++ r2) -> logical_file seen r1.
Proof. induction r1 as [|[e r] u IH]; intros seen H; [exact I|]. destruct H as (A & B & C). split; [exact A|]. split; [exact B|]. apply IH. exact C. Qed.
Lemma logical_next r1 e r r2 : forall seen, logical_file seen (r1 ++ (e, r) :: r2) -> wf_record e r /\ (seen || existsb fst r1 = true -> ~ file_header r).
Proof.
  induction r1 as [|[e1 r'] u IH]; intros seen H; cbn [app logical_file existsb fst] in *.
  - destruct H as (A & B & _). rewrite orb_false_r. auto.
  - destruct H as (_ & _ & C). destruct (IH _ C) as [A B]. rewrite orb_assoc. auto.
Qed.
Lemma cut_begun f m r1 r2 part : wf_file f -> wf_recs f = r1 ++ r2 -> r1 <> [] -> kept (wf_visible f) m = enc_records r1 ++ part ->
  begun (firstn m (enc_file f)) r1 (firstn (length r1) (wf_contents f)).
Proof.
  intros ((segs & t & EH & FH) & LF & HO & EV & VF & L15 & NL) ER NE EK.
  destruct r1 as [|x r1]; [congruence|]. pose proof ER as ER2. rewrite EH in ER2. injection ER2 as <- ER2. split; [exists segs, r1; auto|].
  rewrite ER in LF, HO. split; [eapply logical_front; exact LF|]. split; [eapply firstn_holds; exact HO|]. split.
  - exists part. rewrite <- EK. apply kept_carried. exact VF.
  - destruct (Nat.le_gt_cases 15 m) as [G|G].
    + intros X. apply NL. rewrite <- X, <- (firstn_skipn m (enc_file f)) at 1. rewrite skipn_app, firstn_app, skipn_length, firstn_length. unfold len in L15.
      replace (6 - (Nat.min m (length (enc_file f)) - 9))%nat with 0%nat by lia. rewrite firstn_O, app_nil_r. reflexivity.
    + intros X. apply (f_equal (@length _)) in X. rewrite firstn_length, skipn_length, firstn_length in X.
      change (length (text "RECORD")) with 6%nat in X. lia.
Qed.
Lemma cut_file lab fs f gs m : length lab = 80%nat -> (m <= length (enc_file f))%nat ->
  firstn (80 + length (enc_files fs) + m) (lab ++ enc_files (fs ++ f :: gs)) = lab ++ enc_files fs ++ firstn m (enc_file f).
Proof.
  intros L80 M. unfold enc_files. rewrite map_app, concat_app. cbn [map concat]. rewrite firstn_app, L80, (firstn_all2 lab) by lia. f_equal.
  rewrite firstn_app, firstn_all2 by lia. f_equal. rewrite firstn_app.
  replace (80 + length (concat (map enc_file fs)) + m - 80 - length (concat (map enc_file fs)))%nat with m by lia.
  replace (m - length (enc_file f))%nat with 0%nat by lia. rewrite firstn_O, app_nil_r. reflexivity.
Qed.

Lemma cut_course lab fs f gs m r1 segs part : storage_label lab -> Forall wf_file (fs ++ f :: gs) -> (m <= length (enc_file f))%nat ->
  let file := firstn (80 + length (enc_files fs) + m) (lab ++ enc_files (fs ++ f :: gs)) in
  len file < 2 ^ 63 -> cut f m r1 segs part -> noticed f m segs part ->
  plain_start file /\ exists xs vs, Forall2 (seen_as (Some lab)) fs xs /\
    course false (fun o => Some (plain_raw file o)) plain_rp66 0 None true [CRITICAL] (xs ++ [(Some lab, vs, r1, firstn (length r1) (wf_contents f))]).
Proof.
  intros L W M file SM CU NO. apply Forall_app in W as [Wf W]. apply Forall_cons_iff in W as [Hf _].
  assert (L80 : length lab = 80%nat). { destruct L as (seq & rest & -> & LS & LR & _). rewrite !app_length, LS, LR. reflexivity. }
  pose proof (cut_file lab fs f gs m L80 M) as EF. fold file in EF. clearbody file.
  split; [rewrite EF; apply start_label; exact L|].
  destruct (part_prefix _ _ _ _ _ Hf CU) as (k & EP & K & LK). destruct CU as ((e & r2 & ER) & NE & EK & _).
  pose proof (cut_begun f m r1 ((e, segs) :: r2) part Hf ER NE EK) as BG.
  destruct (files_lead file SM fs (firstn m (enc_file f)) r1 _ BG [] lab None true (Some lab) [] Wf EF (label_begins _ lab _ L EF))
    as (xs & n & s & bf & l1 & l2 & vs & LD & FF & EL & (r & pos & q & l3 & l4 & tail & O1 & O2 & O3 & O4 & O5 & O6 & O7 & O8 & O9 & O10) & pre & mid & EP' & -> & B & V & O).
  symmetry in EL. apply app_eq_nil in EL as [-> ->]. symmetry in O6. apply app_eq_nil in O6 as [-> ->].
  exists xs, vs. split; [exact FF|]. change [CRITICAL] with ([] ++ [CRITICAL]). change (@nil severity) with (@nil severity ++ []) at 1.
  eapply leads_course; [exact LD|]. change [CRITICAL] with (@nil severity ++ [] ++ [CRITICAL]).
  eapply co_broken with (tail := tail); eauto.
  (* the damage *)
  pose proof Hf as (_ & LF & _ & EV & VF & _). rewrite ER in LF. destruct (logical_next _ _ _ _ _ LF) as [(CH & SF & _) NH]. cbn [orb] in NH.
  assert (VD : vs_stream vs = mk_stream (concat (fst (visible_records (S (length (firstn m (enc_file f)))) (firstn m (enc_file f)))))
                                        (snd (visible_records (S (length (firstn m (enc_file f)))) (firstn m (enc_file f))))).
  { unfold plain_rp66, plain_raw in O. cbn [raw_stream s_data raw_ptell] in O.
    assert (SK : skipn (Z.to_nat (len mid)) (skipn (Z.to_nat (len pre)) file) = firstn m (enc_file f)).
    { rewrite EP', <- app_assoc. unfold len. rewrite !Nat2Z.id, !skipn_app_len. reflexivity. }
    rewrite SK in O. destruct (visible_records _ _) as [[|q0 qs] [|]]; try discriminate O; injection O as <-; reflexivity. }
  destruct (kept_records (wf_visible f) VF m (S (length (firstn m (enc_file f)))) ltac:(apply Nat.lt_succ_diag_r)) as (qs & h & VR & KQ).
  pose proof (kept_hard (wf_visible f) VF m (S (length (firstn m (enc_file f)))) M ltac:(apply Nat.lt_succ_diag_r)) as KH.
  change (concat (map enc_visible (wf_visible f))) with (enc_file f) in VR, KH. rewrite VR in VD, KH. cbn [fst snd] in VD, KH.
  rewrite VD in *. cbn [s_data s_hard] in *. rewrite KQ, EK in O7. apply app_inv_head in O7. subst tail.
  assert (HN : h = true \/ (part <> [] /\ (length part < length (enc_record (removelast segs)) + 4)%nat)).
  { destruct NO as [NO|NO]; [|right; exact NO]. destruct h; [left; reflexivity|]. exfalso. apply NO, KH. reflexivity. }
  destruct segs as [|g gs']; [destruct CH|]. inversion SF as [|? ? SG _]; subst.
  unfold damaged. rewrite VD. cbn [s_hard]. split.
  - intros [[HH LE]|(SE & ln & a & t & HA & _ & HF)].
    + subst h. destruct HN as [HN|[HN _]]; [discriminate HN|]. rewrite len_app in LE. destruct (firstn _ (enc_record (g :: gs'))) as [|b bs]; [congruence|].
      rewrite len_cons in LE. pose proof (len_nonneg bs). lia.
    + destruct (part_header _ _ _ _ _ _ _ _ eq_refl SG HA) as (-> & -> & -> & _). apply (NH SE). destruct HF as (P & X & T). cbn [file_header].
      split; [exact P|]. split; [exact X|]. apply b2z_inj. exact T.
  - intros q' e'. apply part_no_record; [exact CH|exact SF|exact K|]. destruct HN as [HN|[_ HN]]; [left; exact HN|right; lia].
Qed.
