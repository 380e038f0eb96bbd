(** Proofs for C62 and C61: the loop over the file, for any way of opening
    streams. *)
From Verif Require Import Bytes BytesProofs Stream DlisTypes SpecTypes DlisCore SpecCore DlisIo SpecIo IoProofs IoProofs2
  DlisRecords SpecRecords Lfp SpecDlisLoad DlisLoadProofs.
From Verif Require DlisLoad.
Import DlisLoad (lf_stream, lf_sets, lf_fdata, lf_sul,
  indexer, mk_indexer, new_indexer, di_files, di_sul, di_next, di_end, with_sul, with_next, with_file, ended, logical_eof, find_sul, read_sul,
  apply_rp66_protocol, parse_logical_file, load_round, load_loop, load).
Local Open Scope Z_scope.

(** ** Looking for the label *)
Lemma within_readable r n : within r n <-> readable (raw_stream r) 0 n.
Proof. unfold within, readable, raw_data. rewrite Z.add_0_l. reflexivity. Qed.

Lemma findsul_fails esc s (expected : bool) :
  (forall l q, findsul esc s 0 expected <> (l, Ok q)) ->
  (expected = true -> esc MINOR = true -> findsul_window s 0 1700 = None) ->
  findsul esc s 0 expected = ([], Exn).
Proof.
  unfold findsul. intros N M. destruct (findsul_window s 0 15) as [q|]; [exfalso; apply (N [] q); reflexivity|].
  destruct expected; cbn [negb]; [|reflexivity]. destruct (findsul_window s 0 1700) as [q|]; [|reflexivity].
  unfold log in *. destruct (esc MINOR); [specialize (M eq_refl eq_refl); discriminate|]. exfalso. apply (N [MINOR] q). reflexivity.
Qed.

Lemma quiet_app esc l l' : quiet esc (l ++ l') <-> quiet esc l /\ quiet esc l'.
Proof.
  unfold quiet. split; [intros H; split; intros s I; apply H, in_or_app; auto|].
  intros [H H'] s I. apply in_app_or in I as [I|I]; auto.
Qed.
Lemma quiet_one esc s l : quiet esc (s :: l) -> esc s = false.
Proof. intros H. apply H. left. reflexivity. Qed.

Section find.
Variable esc : severity -> bool.
Definition expects (sul : option bytes) (first : bool) : bool :=
  first && match sul with Some _ => false | None => true end.

Lemma findsul_no r (expected : bool) l q :
  findsul esc (raw_stream r) 0 expected = (l, Ok q) ->
  (within r 15 /\ first_occurrence (text "RECORD") (window (raw_data r) 0 15) 9) \/
  (expected = true /\ 0 < q /\ within r 1700 /\
     first_occurrence (text "RECORD") (window (raw_data r) 0 1700) (Z.to_nat (q + 9))).
Proof.
  intros H. apply findsul_spec in H; [|lia]. rewrite !within_readable.
  destruct H as [(_ & _ & R & O)|(_ & _ & X & Q & R & O)]; [left; auto|right]. rewrite Z.sub_0_r in O. auto.
Qed.

Lemma find_sul_some st r first q l :
  di_sul st <> Some [] -> first = (length (di_files st) =? 0)%nat ->
  label r (expects (di_sul st) first) (Some q) l -> quiet esc l ->
  find_sul esc st r = (l, Ok (true, q)).
Proof.
  intros NE FI LB QU. unfold find_sul.
  assert (X : match di_sul st with None | Some [] => true | _ => false end && (length (di_files st) =? 0)%nat = expects (di_sul st) first).
  { subst first. unfold expects. rewrite andb_comm. f_equal. destruct (di_sul st) as [[|]|]; congruence. }
  rewrite X. clear X. set (ex := expects (di_sul st) first) in *. clearbody ex. clear FI NE.
  inversion LB as [W O E1 E2|q' EX Q0 W O E1 E2| |]; subst.
  - assert (F : findsul esc (raw_stream r) 0 ex = ([], Ok 0)).
    { apply findsul_spec; [lia|]. left. apply within_readable in W. auto. }
    rewrite F. destruct ex; [reflexivity|]. cbn [bind ret app]. unfold log. rewrite (quiet_one _ _ _ QU). reflexivity.
  - assert (F : findsul esc (raw_stream r) 0 true = ([MINOR], Ok q)).
    { apply findsul_spec; [lia|]. right. apply within_readable in W. rewrite Z.sub_0_r. apply quiet_one in QU. auto 10. }
    rewrite F. reflexivity.
Qed.

Lemma findsul_window_1700 s q : findsul_window s 0 1700 = Some q ->
  findsul_window s 0 15 = Some 0 \/ (0 < q /\ readable s 0 1700 /\ first_occurrence (text "RECORD") (window (s_data s) 0 1700) (Z.to_nat (q + 9))).
Proof.
  intros H. destruct (findsul_window s 0 15) as [q0|] eqn:E.
  - left. f_equal.
    assert (X : findsul (fun _ => false) s 0 true = ([], Ok q0)) by (unfold findsul; rewrite E; reflexivity).
    apply findsul_spec in X; [|lia]. destruct X as [(_ & -> & _)|(X & _)]; [reflexivity|discriminate].
  - right. assert (X : findsul (fun _ => false) s 0 true = ([MINOR], Ok q)) by (unfold findsul; rewrite E, H; reflexivity).
    apply findsul_spec in X; [|lia]. destruct X as [(X & _)|(_ & _ & _ & Q & R & O)]; [discriminate|]. rewrite Z.sub_0_r in O. auto.
Qed.

Lemma find_sul_none st r first l :
  di_sul st <> Some [] -> first = (length (di_files st) =? 0)%nat ->
  label r (expects (di_sul st) first) None l -> quiet esc l ->
  find_sul esc st r = (l, Ok (false, 0)).
Proof.
  intros NE FI LB QU. unfold find_sul.
  assert (X : match di_sul st with None | Some [] => true | _ => false end && (length (di_files st) =? 0)%nat = expects (di_sul st) first).
  { subst first. unfold expects. rewrite andb_comm. f_equal. destruct (di_sul st) as [[|]|]; congruence. }
  rewrite X. clear X. set (ex := expects (di_sul st) first) in *. clearbody ex. clear FI NE.
  inversion LB as [| |EX N E1 E2|EX N N' E1 E2]; subst.
  - rewrite findsul_fails; [reflexivity| |discriminate].
    intros l' q F. apply findsul_no in F as [F|(F & _)]; [tauto|discriminate].
  - assert (NO : forall l' q, findsul esc (raw_stream r) 0 true <> (l', Ok q)).
    { intros l' q F. apply findsul_no in F as [F|(_ & Q & F)]; [tauto|]. apply (N' q Q). exact F. }
    rewrite findsul_fails; [|exact NO|].
    + cbn [bind ret app]. unfold log. rewrite (quiet_one _ _ _ QU). reflexivity.
    + intros _ _. destruct (findsul_window (raw_stream r) 0 1700) as [q|] eqn:F; [|reflexivity].
      apply findsul_window_1700 in F as [F|(Q & R & O)].
      * exfalso. apply (NO [] 0). unfold findsul. rewrite F. reflexivity.
      * exfalso. apply (N' q Q). rewrite within_readable. auto.
Qed.

Lemma begins_ok st r first sul' pos l :
  di_sul st <> Some [] -> first = (length (di_files st) =? 0)%nat ->
  begins r (di_sul st) first sul' pos l -> quiet esc l ->
  exists fnd p, find_sul esc st r = (l, Ok (fnd, p)) /\ 0 <= pos /\
    (if fnd then read_sul esc st r p else ret (st, p)) =
      ([], Ok (mk_indexer (di_files st) sul' (di_next st) (di_end st), pos)) /\ sul' <> Some [].
Proof.
  intros NE FI B QU. inversion B as [q l' LB L80|l' LB]; subst.
  - pose proof (find_sul_some st r _ q l NE eq_refl LB QU) as F. exists true, q. split; [exact F|].
    assert (Q0 : 0 <= q) by (inversion LB; lia). split; [lia|].
    assert (LW : len (window (raw_data r) q 80) = 80).
    { unfold window, len in *. rewrite firstn_length, skipn_length. lia. }
    split; [|destruct (window (raw_data r) q 80); [rewrite len_nil in LW; lia|discriminate]].
    unfold read_sul.
    destruct (split_len (raw_data r) (len (raw_data r) - q)) as (a & b & E & Lb); [lia|].
    destruct (split_len b (len b - 80)) as (m & c & E' & Lc); [lia|]. subst b.
    assert (La : len a = q). { apply (f_equal len) in E. rewrite len_app in E. lia. }
    assert (Lm : len m = 80). { rewrite len_app in Lc. lia. }
    assert (W : window (raw_data r) q 80 = m).
    { unfold window. rewrite E, <- La. unfold len at 1. rewrite Nat2Z.id, skipn_app_len.
      rewrite firstn_app. unfold len in Lm. replace (Z.to_nat 80 - length m)%nat with 0%nat by lia.
      cbn [firstn]. rewrite app_nil_r. apply firstn_all2. lia. }
    rewrite W. destruct r as [[d h] pt pe]. unfold raw_data in *. cbn [raw_stream s_data] in *. rewrite E.
    rewrite (read_mid' a m c h q 80); [|lia|lia].
    unfold len in Lm. replace (length m =? 80)%nat with true by (symmetry; apply Nat.eqb_eq; lia).
    cbn [bind ret app with_sul]. rewrite Lm. destruct st; reflexivity.
  - pose proof (find_sul_none st r _ l NE eq_refl LB QU) as F. exists false, 0. split; [exact F|]. split; [lia|].
    destruct st; split; [reflexivity|exact NE].
Qed.

Lemma label_minor r ex x l s : label r ex x l -> In s l -> s = MINOR.
Proof. intros H I. inversion H; subst; try destruct ex; cbn in I; intuition congruence. Qed.
Lemma begins_minor r sul first sul' pos l s : begins r sul first sul' pos l -> In s l -> s = MINOR.
Proof. intros H I. inversion H; subst; eapply label_minor; eassumption. Qed.
Lemma visible_minor r p q l s : visible_start r p q l -> In s l -> s = MINOR.
Proof. intros H I. inversion H; subst; cbn in I; intuition congruence. Qed.

Lemma visible_ok r p q l : 0 <= p -> visible_start r p q l -> quiet esc l -> findvrl esc (raw_stream r) p = (l, Ok q).
Proof.
  intros P V QU. apply findvrl_spec; [exact P|]. unfold readable.
  inversion V as [W O|q' PQ W O]; subst; [left|right]; unfold within, raw_data in *.
  - auto.
  - apply quiet_one in QU. repeat split; auto; apply O.
Qed.
End find.

(** ** The loop *)
Section devices.
Variables (esc : severity -> bool) (tif : bool) (open_stream : Z -> option raw) (open_rp66 : raw -> Z -> option rp66).

Lemma read_end s pos n : s_hard s = false -> pos = len (s_data s) -> 0 < n -> read s pos n = Some [].
Proof.
  intros H P N. unfold read. rewrite H. unfold len in P. rewrite skipn_all2 by lia.
  replace (n =? 0) with false by lia. replace ((n <? 0) || (pos <? 0)) with false by lia.
  rewrite firstn_nil. destruct (_ =? _)%nat; reflexivity.
Qed.
Lemma read_one s pos : 0 <= pos < len (s_data s) -> exists b, read s pos 1 = Some [b].
Proof.
  intros H. destruct s as [d h]. cbn [s_data] in *.
  destruct (split_len d (len d - pos)) as (a & b & -> & L); [lia|]. rewrite len_app in *. destruct b as [|c b]; [rewrite len_nil in *; lia|].
  exists c. apply (read_mid' a [c] b h pos 1); [lia|reflexivity].
Qed.

Lemma not_eof st r pos : 0 <= pos < len (raw_data r) -> logical_eof esc st r pos = ([], Ok (false, st)).
Proof. intros H. destruct (read_one (raw_stream r) pos H) as (b & E). unfold logical_eof. rewrite E. reflexivity. Qed.
Lemma at_eof st r pos : s_hard (raw_stream r) = false -> pos = len (raw_data r) ->
  logical_eof esc st r pos = ([], Ok (true, if raw_peof r then ended st else with_next st (raw_ptell r pos))).
Proof.
  intros H P. unfold logical_eof. rewrite read_end; [|exact H|exact P|lia]. destruct (raw_peof r); reflexivity.
Qed.

Notation course := (course tif open_stream open_rp66).
Notation round := (load_round esc tif open_stream open_rp66).
Notation loop := (load_loop esc tif open_stream open_rp66).

Lemma loop_more n : forall st r k, loop n st = r -> snd r <> Fuel -> loop (n + k) st = r.
Proof.
  induction n as [|n IH]; intros st r k E NF; [cbn in E; subst r; exfalso; apply NF; reflexivity|]. cbn [load_loop plus] in *.
  destruct (di_end st); [exact E|]. destruct (round st) as [l [st'| | |]]; cbn [bind] in *; try exact E.
  destruct (loop n st') as [l' r'] eqn:E'. rewrite (IH st' (l', r') k E').
  - exact E.
  - subst r. exact NF.
Qed.

(** a file step, up to the indexing *)
Lemma round_file st r sul' pos l q l' vs :
  di_sul st <> Some [] ->
  open_stream (di_next st) = Some r -> begins r (di_sul st) (length (di_files st) =? 0)%nat sul' pos l -> pos < len (raw_data r) ->
  visible_start r pos q l' -> open_rp66 r q = Some vs -> quiet esc (l ++ l') ->
  round st = let* st' := (l ++ l', Ok (mk_indexer (di_files st) sul' (di_next st) (di_end st))) in parse_logical_file esc tif st' vs.
Proof.
  intros NE O B P V OV QU. apply quiet_app in QU as [Q1 Q2].
  destruct (begins_ok esc st r _ sul' pos l NE eq_refl B Q1) as (fnd & p & F & P0 & R & NE').
  unfold load_round. rewrite O, not_eof by (pose proof (len_nonneg (raw_data r)); lia). cbn [bind ret].
  rewrite F. cbn [bind ret]. rewrite R. cbn [bind ret]. rewrite not_eof by lia. cbn [bind ret].
  unfold apply_rp66_protocol. rewrite (visible_ok esc r pos q l' P0 V Q2). cbn [bind ret]. rewrite OV. cbn [bind ret].
  destruct (parse_logical_file _ _ _ _) as [lp rp]. cbn [app]. rewrite app_nil_r, app_assoc. reflexivity.
Qed.

Theorem course_loads next sul first log fs : course next sul first log fs -> quiet esc log ->
  forall files, sul <> Some [] -> first = (length files =? 0)%nat ->
  exists fuel0 st, (forall fuel, (fuel0 <= fuel)%nat -> loop fuel (mk_indexer files sul next false) = (log, Ok st)) /\
    exists more, di_files st = files ++ more /\ Forall2 file_reads fs more.
Proof.
  intros C. induction C as [next sul first r O E H PE|next sul first r log fs O E H PE C IH
    |next sul first r sul' pos l O NEr B P H PE|next sul first r sul' pos l log fs O NEr B P H PE C IH
    |next sul first r sul' pos l q l' vs recs tail cs next' log fs O B P V OV EV LV LF HO EN C IH
    |next sul first r sul' pos l q l' vs recs tail cs O B P V OV EV LV LF HO DM]; intros QU files NE FI.
  - assert (R : round (mk_indexer files sul next false) = ([], Ok (mk_indexer files sul next true))).
    { unfold load_round. cbn [di_next]. rewrite O, at_eof; [|exact H|rewrite E; reflexivity]. rewrite PE. reflexivity. }
    exists 2%nat, (mk_indexer files sul next true). split.
    + intros fuel F. destruct fuel as [|[|fuel]]; [lia|lia|]. cbn [load_loop di_end]. rewrite R. reflexivity.
    + exists []. rewrite app_nil_r. split; [reflexivity|constructor].
  - destruct (IH QU files NE FI) as (f0 & st & L & R).
    assert (X : round (mk_indexer files sul next false) = ([], Ok (mk_indexer files sul (raw_ptell r 0) false))).
    { unfold load_round. cbn [di_next]. rewrite O, at_eof; [|exact H|rewrite E; reflexivity]. rewrite PE. reflexivity. }
    exists (S f0), st. split; [|exact R]. intros fuel F. destruct fuel as [|fuel]; [lia|]. cbn [load_loop di_end]. rewrite X.
    cbn [bind]. rewrite L by lia. reflexivity.
  - subst first. destruct (begins_ok esc (mk_indexer files sul next false) r _ sul' pos l NE eq_refl B QU) as (fnd & p & F & P0 & R & NE').
    cbn [di_files di_next di_end] in R.
    assert (X : round (mk_indexer files sul next false) = (l, Ok (mk_indexer files sul' next true))).
    { unfold load_round. cbn [di_next]. rewrite O, not_eof.
      - cbn [bind ret]. rewrite F. cbn [bind ret]. rewrite R. cbn [bind ret]. rewrite at_eof by assumption. rewrite PE.
        cbn [bind ret app]. rewrite app_nil_r. reflexivity.
      - destruct (raw_data r) as [|b0 b1]; [congruence|]. rewrite len_cons. pose proof (len_nonneg b1). lia. }
    exists 2%nat, (mk_indexer files sul' next true). split.
    + intros fuel FF. destruct fuel as [|[|fuel]]; [lia|lia|]. cbn [load_loop di_end]. rewrite X. cbn [bind ret load_loop di_end]. rewrite app_nil_r. reflexivity.
    + exists []. rewrite app_nil_r. split; [reflexivity|constructor].
  - subst first. apply quiet_app in QU as [Q1 Q2].
    destruct (begins_ok esc (mk_indexer files sul next false) r _ sul' pos l NE eq_refl B Q1) as (fnd & p & F & P0 & R & NE').
    cbn [di_files di_next di_end] in R.
    assert (X : round (mk_indexer files sul next false) = (l, Ok (mk_indexer files sul' (raw_ptell r pos) false))).
    { unfold load_round. cbn [di_next]. rewrite O, not_eof.
      - cbn [bind ret]. rewrite F. cbn [bind ret]. rewrite R. cbn [bind ret]. rewrite at_eof by assumption. rewrite PE.
        cbn [bind ret app]. rewrite app_nil_r. reflexivity.
      - destruct (raw_data r) as [|b0 b1]; [congruence|]. rewrite len_cons. pose proof (len_nonneg b1). lia. }
    destruct (IH Q2 files NE' eq_refl) as (f0 & st & L & RR).
    exists (S f0), st. split; [|exact RR]. intros fuel FF. destruct fuel as [|fuel]; [lia|]. cbn [load_loop di_end]. rewrite X.
    cbn [bind]. rewrite L by lia. reflexivity.
  - subst first. rewrite app_assoc in QU. apply quiet_app in QU as [Q1 Q2].
    pose proof (round_file (mk_indexer files sul next false) r sul' pos l q l' vs NE O B P V OV Q1) as X.
    destruct (parse_file esc tif (mk_indexer files sul' next false) vs recs tail cs EV LV LF HO) as [G _].
    destruct (G next' EN) as (f & PF & FR). cbn [di_files di_next di_end bind] in X. rewrite PF in X.
    assert (NE' : sul' <> Some []).
    { apply quiet_app in Q1 as [Q1 _].
      destruct (begins_ok esc (mk_indexer files sul next false) r _ sul' pos l NE eq_refl B Q1) as (fnd & p & F & P0 & R & NE'). exact NE'. }
    destruct (IH Q2 (files ++ [f]) NE') as (f0 & st & L & more & DF & FF).
    { rewrite app_length. cbn. destruct (length files); reflexivity. }
    exists (S f0), st. split.
    + intros fuel HF. destruct fuel as [|fuel]; [lia|]. cbn [load_loop di_end]. rewrite X. cbn [bind with_file with_next di_files di_sul di_next di_end].
      rewrite app_nil_r. rewrite L by lia. rewrite app_assoc. reflexivity.
    + exists (f :: more). rewrite DF, <- app_assoc. split; [reflexivity|]. constructor; [exact FR|exact FF].
  - subst first. rewrite app_assoc in QU. apply quiet_app in QU as [Q1 Q2]. apply quiet_one in Q2.
    pose proof (round_file (mk_indexer files sul next false) r sul' pos l q l' vs NE O B P V OV Q1) as X.
    destruct (parse_file esc tif (mk_indexer files sul' next false) vs recs tail cs EV LV LF HO) as [_ G].
    destruct (proj1 (G DM) Q2) as (next' & f & PF & FR). cbn [di_files di_next di_end bind] in X. rewrite PF in X.
    eexists 2%nat, _. split.
    + intros fuel HF. destruct fuel as [|[|fuel]]; [lia|lia|]. cbn [load_loop di_end]. rewrite X.
      cbn [bind with_file with_next ended di_files di_sul di_next di_end ret]. rewrite app_nil_r, <- app_assoc. reflexivity.
    + exists [f]. split; [reflexivity|]. constructor; [exact FR|constructor].
Qed.

(** damage raises when critical problems do *)
Theorem course_raises next sul first log fs : course next sul first (log ++ [CRITICAL]) fs -> quiet esc log -> esc CRITICAL = true ->
  forall files, sul <> Some [] -> first = (length files =? 0)%nat ->
  exists fuel0, forall fuel, (fuel0 <= fuel)%nat -> loop fuel (mk_indexer files sul next false) = (log ++ [CRITICAL], Exn).
Proof.
  intros C QU EC. remember (log ++ [CRITICAL]) as lg eqn:EL. revert log EL QU.
  induction C as [next sul first r O E H PE|next sul first r lg fs O E H PE C IH
    |next sul first r sul' pos l O NEr B P H PE|next sul first r sul' pos l lg fs O NEr B P H PE C IH
    |next sul first r sul' pos l q l' vs recs tail cs next' lg fs O B P V OV EV LV LF HO EN C IH
    |next sul first r sul' pos l q l' vs recs tail cs O B P V OV EV LV LF HO DM]; intros log EL QU files NE FI.
  - destruct log; discriminate.
  - destruct (IH log EL QU files NE FI) as (f0 & L).
    assert (X : round (mk_indexer files sul next false) = ([], Ok (mk_indexer files sul (raw_ptell r 0) false))).
    { unfold load_round. cbn [di_next]. rewrite O, at_eof; [|exact H|rewrite E; reflexivity]. rewrite PE. reflexivity. }
    exists (S f0). intros fuel F. destruct fuel as [|fuel]; [lia|]. cbn [load_loop di_end]. rewrite X.
    cbn [bind]. rewrite L by lia. reflexivity.
  - exfalso. assert (In CRITICAL l) as I by (rewrite EL; apply in_or_app; right; left; reflexivity).
    assert (CRITICAL = MINOR) by (eapply begins_minor; eassumption). discriminate.
  - subst first.
    assert (NC : ~ In CRITICAL l).
    { intros I. assert (CRITICAL = MINOR) by (eapply begins_minor; eassumption). discriminate. }
    assert (exists lg', lg = lg' ++ [CRITICAL]) as [lg' EL'].
    { destruct lg as [|x lg0] using rev_ind; [rewrite app_nil_r in EL; exfalso; apply NC; rewrite EL; apply in_or_app; right; left; reflexivity|].
      rewrite app_assoc in EL. apply app_inj_tail in EL as [_ ->]. eauto. }
    subst lg. rewrite app_assoc in EL. apply app_inj_tail in EL as [<- _].
    apply quiet_app in QU as [Q1 Q2].
    destruct (begins_ok esc (mk_indexer files sul next false) r _ sul' pos l NE eq_refl B Q1) as (fnd & p & F & P0 & R & NE').
    cbn [di_files di_next di_end] in R.
    assert (X : round (mk_indexer files sul next false) = (l, Ok (mk_indexer files sul' (raw_ptell r pos) false))).
    { unfold load_round. cbn [di_next]. rewrite O, not_eof.
      - cbn [bind ret]. rewrite F. cbn [bind ret]. rewrite R. cbn [bind ret]. rewrite at_eof by assumption. rewrite PE.
        cbn [bind ret app]. rewrite app_nil_r. reflexivity.
      - destruct (raw_data r) as [|b0 b1]; [congruence|]. rewrite len_cons. pose proof (len_nonneg b1). lia. }
    destruct (IH lg' eq_refl Q2 files NE' eq_refl) as (f0 & L).
    exists (S f0). intros fuel FF. destruct fuel as [|fuel]; [lia|]. cbn [load_loop di_end]. rewrite X.
    cbn [bind]. rewrite L by lia. rewrite app_assoc. reflexivity.
  - subst first.
    assert (NC : ~ In CRITICAL (l ++ l')).
    { intros I. apply in_app_or in I as [I|I].
      - assert (CRITICAL = MINOR) by (eapply begins_minor; eassumption). discriminate.
      - assert (CRITICAL = MINOR) by (eapply visible_minor; eassumption). discriminate. }
    rewrite app_assoc in EL.
    assert (exists lg', lg = lg' ++ [CRITICAL]) as [lg' EL'].
    { destruct lg as [|x lg0] using rev_ind; [rewrite app_nil_r in EL; exfalso; apply NC; rewrite EL; apply in_or_app; right; left; reflexivity|].
      rewrite (app_assoc (l ++ l')) in EL. apply app_inj_tail in EL as [_ ->]. eauto. }
    subst lg. rewrite app_assoc in EL. apply app_inj_tail in EL as [<- _].
    apply quiet_app in QU as [Q1 Q2].
    pose proof (round_file (mk_indexer files sul next false) r sul' pos l q l' vs NE O B P V OV Q1) as X.
    destruct (parse_file esc tif (mk_indexer files sul' next false) vs recs tail cs EV LV LF HO) as [G _].
    destruct (G next' EN) as (f & PF & FR). cbn [di_files di_next di_end bind] in X. rewrite PF in X.
    assert (NE' : sul' <> Some []).
    { apply quiet_app in Q1 as [Q1 _].
      destruct (begins_ok esc (mk_indexer files sul next false) r _ sul' pos l NE eq_refl B Q1) as (fnd & p & F & P0 & R & NE'). exact NE'. }
    destruct (IH lg' eq_refl Q2 (files ++ [f]) NE') as (f0 & L).
    { rewrite app_length. cbn. destruct (length files); reflexivity. }
    exists (S f0). intros fuel HF. destruct fuel as [|fuel]; [lia|]. cbn [load_loop di_end]. rewrite X. cbn [bind with_file with_next di_files di_sul di_next di_end].
    rewrite app_nil_r. rewrite L by lia. rewrite <- !app_assoc. reflexivity.
  - subst first. rewrite app_assoc in EL. apply app_inj_tail in EL as [<- _].
    pose proof (round_file (mk_indexer files sul next false) r sul' pos l q l' vs NE O B P V OV QU) as X.
    destruct (parse_file esc tif (mk_indexer files sul' next false) vs recs tail cs EV LV LF HO) as [_ G].
    pose proof (proj2 (G DM) EC) as PF. cbn [di_files di_next di_end bind] in X. rewrite PF in X.
    exists 1%nat. intros fuel HF. destruct fuel as [|fuel]; [lia|]. cbn [load_loop di_end]. rewrite X. rewrite app_assoc. reflexivity.
Qed.
End devices.
