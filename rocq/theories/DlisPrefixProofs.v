(** Proofs for C86: damage in a DLIS file does not reach back. *)
From Verif Require Import Bytes BytesProofs Stream DlisTypes SpecTypes DlisCore SpecCore DlisIo SpecIo IoProofs IoProofs2
  DlisRecords SpecRecords RecordsProofs3 Tapemark Lfp SpecDlisLoad DlisLoadProofs DlisLoadProofs2 DlisLoadProofs3 DlisLoadProofs4
  SpecDlisSurvey DlisSurveyProofs SpecDlisPrefix.
From Verif Require DlisLoad.
Import DlisLoad (findoffsets_at_loop, findoffsets_at, extract_records, lf_stream, lf_sets, lf_fdata, lf_sul,
  indexer, mk_indexer, new_indexer, di_files, di_sul, di_next, di_end, with_sul, with_next, with_file, ended, logical_eof, find_sul, read_sul,
  apply_rp66_protocol, parse_logical_file, load_round, load_loop, load).
Local Open Scope Z_scope.

Lemma bind_ok {A B} (m : io A) (k : A -> io B) l y : (let* x := m in k x) = (l, Ok y) ->
  exists l1 l2 x, m = (l1, Ok x) /\ k x = (l2, Ok y) /\ l = l1 ++ l2.
Proof.
  destruct m as [l1 [x| | |]]; cbn [bind]; try discriminate. destruct (k x) as [l2 r] eqn:E. intros [= <- ->]. eauto 10.
Qed.

(** ** Indexing behind the known records *)
Lemma loop_grows fuel : forall esc s lr lrs hs ex im l ofs stop eof, lr <= lrs ->
  findoffsets_at_loop fuel esc s lr lrs hs ex im = (l, Ok (ofs, stop, eof)) ->
  exists e i, explicits ofs = ex ++ e /\ implicits ofs = im ++ i /\ Forall (Z.le lr) e /\ Forall (Z.le lr) i.
Proof.
  induction fuel as [|fuel IH]; intros esc s lr lrs hs ex im l ofs stop eof L H; [discriminate H|]. cbn [findoffsets_at_loop] in H.
  assert (Q : forall b, mk_offsets ex im b = ofs ->
     exists e i, explicits ofs = ex ++ e /\ implicits ofs = im ++ i /\ Forall (Z.le lr) e /\ Forall (Z.le lr) i).
  { intros b <-. exists [], []. rewrite !app_nil_r. repeat split; constructor. }
  assert (K : (let* _ := log esc CRITICAL in ret (mk_offsets ex im [lr], lrs, false)) = (l, Ok (ofs, stop, eof)) ->
     exists e i, explicits ofs = ex ++ e /\ implicits ofs = im ++ i /\ Forall (Z.le lr) e /\ Forall (Z.le lr) i).
  { intros X. apply bind_ok in X as (l1 & l2 & [] & _ & X & _). injection X as _ X _ _. eapply Q. exact X. }
  assert (D : forall e, ret (mk_offsets ex im [], lrs, e) = (l, Ok (ofs, stop, eof)) ->
     exists e i, explicits ofs = ex ++ e /\ implicits ofs = im ++ i /\ Forall (Z.le lr) e /\ Forall (Z.le lr) i).
  { intros e X. injection X as _ X _ _. eapply Q. exact X. }
  destruct (read s lrs 4) as [[|b0 h]|]; [destruct hs; eauto| |auto].
  destruct (dlis_lrsh (b0 :: h)) as [[[n a] t]|]; [|auto]. cbv zeta in H. destruct (n <? 4) eqn:N4; [auto|].
  destruct (_ && negb (length ex =? 0)%nat); [destruct hs; eauto|].
  destruct (read s (lrs + n - 1) 1); [|auto].
  assert (G : forall lr' e' i', lr <= lr' -> Forall (Z.le lr) e' -> Forall (Z.le lr) i' -> lr' <= lrs + n ->
     findoffsets_at_loop fuel esc s lr' (lrs + n) (has a SEGATTR_SUCCSEG) (ex ++ e') (im ++ i') = (l, Ok (ofs, stop, eof)) ->
     exists e i, explicits ofs = ex ++ e /\ implicits ofs = im ++ i /\ Forall (Z.le lr) e /\ Forall (Z.le lr) i).
  { intros lr' e' i' L' E' I' L2 X. apply IH in X as (e & i & XE & XI & FE & FI); [|exact L2].
    exists (e' ++ e), (i' ++ i). rewrite XE, XI, <- !app_assoc. split; [reflexivity|]. split; [reflexivity|].
    split; apply Forall_app; split; auto; eapply Forall_impl; try eassumption; cbv beta; lia. }
  destruct (has a SEGATTR_SUCCSEG) eqn:HS.
  - apply (G lr [] []); try constructor; try lia. rewrite !app_nil_r. exact H.
  - destruct (has a SEGATTR_EXFMTLR).
    + apply (G (lrs + n) [lr] []); try lia; [repeat constructor; lia|constructor|rewrite app_nil_r; exact H].
    + apply (G (lrs + n) [] [lr]); try lia; [constructor|repeat constructor; lia|rewrite app_nil_r; exact H].
Qed.

Lemma at_front esc hard recs tail l ofs stop eof : logical_file false recs ->
  findoffsets_at esc (mk_stream (enc_records recs ++ tail) hard) = (l, Ok (ofs, stop, eof)) ->
  exists e i, explicits ofs = offsets_where (fun e => e) 0 recs ++ e /\ implicits ofs = offsets_where negb 0 recs ++ i /\
    Forall (Z.le (len (enc_records recs))) i.
Proof.
  intros LF H. pose proof (records_ok hard recs false [] tail LF) as RS. cbn [app] in RS.
  unfold findoffsets_at in H.
  destruct (at_records _ _ _ _ _ _ RS esc [] [] (S (S (length (s_data (mk_stream (enc_records recs ++ tail) hard))))))
    as (fuel & F & E); [reflexivity|lia|cbn [s_data]; rewrite ?len_nil; unfold len; lia|].
  rewrite len_nil in E. rewrite E in H. apply loop_grows in H as (e & i & XE & XI & FE & FI); [|lia].
  cbn [app] in XE, XI. rewrite marks_where in XE. rewrite marks_where in XI. exists e, i. rewrite len_nil in *. auto.
Qed.

(** ** Reading behind the known records *)
Lemma extract_app esc s a : forall b l rs, extract_records esc s (a ++ b) = (l, Ok rs) ->
  exists l1 l2 r1 r2, extract_records esc s a = (l1, Ok r1) /\ extract_records esc s b = (l2, Ok r2) /\ rs = r1 ++ r2.
Proof.
  induction a as [|t a IH]; intros b l rs H; [exists [], l, [], rs; auto|]. cbn [app extract_records] in *.
  destruct (extract esc s t) as [l0 [rec| | |]]; try discriminate H.
  - apply bind_ok in H as (? & ? & [] & [= <-] & H & _). apply bind_ok in H as (? & ? & rest & H & [= <- <-] & _).
    apply IH in H as (l1 & l2 & r1 & r2 & -> & E2 & ->). rewrite E2. cbn [bind ret].
    do 4 eexists. split; [reflexivity|]. split; [reflexivity|]. destruct (_ =? 0)%nat; reflexivity.
  - apply bind_ok in H as (? & ? & [] & [= <-] & H & _). apply bind_ok in H as (? & ? & [] & -> & H & _).
    apply IH in H as (l1 & l2 & r1 & r2 & -> & E2 & ->). rewrite E2. cbn [bind ret]. do 4 eexists. repeat split.
Qed.
Lemma sets_app esc a : forall b l ss, parse_sets esc (a ++ b) = (l, Ok ss) ->
  exists l1 s1 s2, parse_sets esc a = (l1, Ok s1) /\ ss = s1 ++ s2.
Proof.
  induction a as [|[e d] a IH]; intros b l ss H; [exists [], [], ss; auto|]. cbn [app parse_sets] in *.
  destruct e; [eauto|]. destruct (new_set d) as [s| | |]; try discriminate H.
  - apply bind_ok in H as (? & ? & r & H & [= <- <-] & _). apply IH in H as (l1 & s1 & s2 & -> & ->). cbn [bind ret].
    do 3 eexists. split; reflexivity.
  - apply bind_ok in H as (? & ? & [] & -> & H & _). apply IH in H as (l1 & s1 & s2 & -> & ->). cbn [bind ret].
    do 3 eexists. split; reflexivity.
Qed.
Lemma fdata_grows esc s tells : forall xs l ys, findfdata esc s tells xs = (l, Ok ys) ->
  forall k, exists more, index_get k ys = index_get k xs ++ more /\ incl more tells.
Proof.
  induction tells as [|t tells IH]; intros xs l ys H k.
  - injection H as _ <-. exists []. rewrite app_nil_r. split; [reflexivity|intros ? []].
  - cbn [findfdata] in H.
    assert (G : forall l, findfdata esc s tells xs = (l, Ok ys) -> exists more, index_get k ys = index_get k xs ++ more /\ incl more (t :: tells)).
    { intros l0 X. destruct (IH _ _ _ X k) as (m & E & I). exists m. split; [exact E|]. intros u U. right. auto. }
    destruct (extract_n esc s t 262) as [l0 [rec| | |]]; try discriminate H.
    + apply bind_ok in H as (? & ? & [] & _ & H & _). destruct (isencrypted rec); [eauto|]. destruct (_ && _); [eauto|].
      destruct (_ =? 0)%nat; [eauto|]. destruct (dlis_obname _) as [[name rest]|].
      * destruct (obname_fingerprint _ name) as [| |k']; try discriminate H. destruct (IH _ _ _ H k) as (m & E & I).
        rewrite index_get_push, <- app_assoc in E. exists ((if bytes_eqb k k' then [t] else []) ++ m). split; [exact E|].
        intros u U. apply in_app_or in U as [U|U]; [|right; auto]. destruct (bytes_eqb k k'); [left; destruct U as [U|[]]; exact U|destruct U].
      * apply bind_ok in H as (? & ? & [] & _ & H & _). eauto.
    + apply bind_ok in H as (? & ? & [] & _ & H & _). apply bind_ok in H as (? & ? & [] & _ & H & _). eauto.
Qed.

Section one.
Variables (esc : severity -> bool) (tif : bool).

Lemma parse_front st vs recs tail cs l st' : s_data (vs_stream vs) = enc_records recs ++ tail -> len (s_data (vs_stream vs)) < 2 ^ 63 ->
  logical_file false recs -> Forall2 holds recs cs ->
  parse_logical_file esc tif st vs = (l, Ok st') ->
  exists f, di_files st' = di_files st ++ [f] /\ front_reads (di_sul st, vs, recs, cs) f.
Proof.
  intros E L LF H P. destruct vs as [[data hard] tell]. cbn [vs_stream s_data s_hard vs_ptell] in *. subst data.
  rewrite len_app in L. pose proof (len_nonneg tail).
  destruct (sets_read esc hard recs false cs [] tail LF H) as (rs & sets & X & PS & S); [lia|]. cbn [app] in X. rewrite len_nil in X.
  destruct (index_read esc hard recs cs tail H) as (idx & FD & IR & _).
  unfold parse_logical_file in P. cbn [vs_stream vs_ptell] in P.
  apply bind_ok in P as (? & ? & [[ofs stop] eof] & FO & P & _).
  apply (at_front esc hard recs tail _ _ _ _ LF) in FO as (e & i & XE & XI & FI). rewrite XE, XI in P.
  apply bind_ok in P as (? & ? & rs' & ER & P & _). apply extract_app in ER as (? & ? & r1 & r2 & E1 & _ & ->).
  rewrite X in E1. injection E1 as <- <-.
  apply bind_ok in P as (? & ? & ss & ES & P & _). apply sets_app in ES as (? & s1 & s2 & E1 & ->).
  rewrite PS in E1. injection E1 as <- <-.
  apply bind_ok in P as (? & ? & fd & EF & P & _). rewrite findfdata_app, FD in EF. cbn [bind] in EF.
  destruct (findfdata esc (mk_stream (enc_records recs ++ tail) hard) i idx) as [lf [fd'| | |]] eqn:FE; try discriminate EF. injection EF as _ ->.
  injection P as _ <-. cbn [di_files with_file with_next].
  assert (DF : forall b : list Z, di_files (match b with [] => st | _ => ended st end) = di_files st) by (intros []; reflexivity).
  rewrite DF. eexists. split; [reflexivity|]. split; [reflexivity|].
  assert (DS : forall b : list Z, di_sul (match b with [] => st | _ => ended st end) = di_sul st) by (intros []; reflexivity).
  split; [apply DS|]. unfold front. cbn [lf_stream lf_sets lf_fdata vs_stream s_data]. split; [eauto|]. split; [eauto|].
  intros ty o c id k T O K. destruct (fdata_grows _ _ _ _ _ _ FE k) as (m & EM & IM). exists m.
  rewrite EM, (IR ty o c id k T O K). split; [reflexivity|]. apply Forall_forall. intros t IT. apply IM in IT. rewrite Forall_forall in FI. auto.
Qed.

(** ** The files found stay found *)
Lemma eof_keeps st r p l b st' : logical_eof esc st r p = (l, Ok (b, st')) -> di_files st' = di_files st.
Proof.
  unfold logical_eof. destruct (read _ p 1) as [[|]|].
  - destruct (raw_peof r); intros [= _ _ <-]; reflexivity.
  - intros [= _ _ <-]. reflexivity.
  - intros X. apply bind_ok in X as (? & ? & [] & _ & [= _ _ <-] & _). reflexivity.
Qed.
Variable open_stream : Z -> option raw.
Variable open_rp66 : raw -> Z -> option rp66.
Notation round := (load_round esc tif open_stream open_rp66).
Notation loop := (load_loop esc tif open_stream open_rp66).

Lemma round_keeps st l st' : round st = (l, Ok st') -> exists more, di_files st' = di_files st ++ more.
Proof.
  unfold load_round. destruct (open_stream (di_next st)) as [r|]; [|discriminate]. intros X.
  apply bind_ok in X as (? & ? & [b1 st1] & E1 & X & _). apply eof_keeps in E1. rewrite <- E1. clear E1.
  destruct b1; [injection X as _ <-; exists []; rewrite app_nil_r; reflexivity|].
  apply bind_ok in X as (? & ? & [found pos] & _ & X & _).
  apply bind_ok in X as (? & ? & [st2 pos2] & E2 & X & _).
  assert (D2 : di_files st2 = di_files st1).
  { destruct found; [|injection E2 as _ <- _; reflexivity]. unfold read_sul in E2. destruct (read _ pos 80); [|discriminate].
    apply bind_ok in E2 as (? & ? & [] & _ & [= _ <- _] & _). reflexivity. }
  rewrite <- D2. clear E2 D2. apply bind_ok in X as (? & ? & [b3 st3] & E3 & X & _). apply eof_keeps in E3. rewrite <- E3. clear E3.
  destruct b3; [injection X as _ <-; exists []; rewrite app_nil_r; reflexivity|].
  apply bind_ok in X as (? & ? & vs & _ & X & _). unfold parse_logical_file in X.
  apply bind_ok in X as (? & ? & [[ofs stop] eof] & _ & X & _).
  apply bind_ok in X as (? & ? & rs & _ & X & _). apply bind_ok in X as (? & ? & ss & _ & X & _). apply bind_ok in X as (? & ? & fd & _ & X & _).
  injection X as _ <-. cbn [di_files with_file with_next]. eexists.
  assert (DF : forall b : list Z, di_files (match b with [] => st3 | _ => ended st3 end) = di_files st3) by (intros []; reflexivity).
  rewrite DF. reflexivity.
Qed.
Lemma loop_keeps fuel : forall st l st', loop fuel st = (l, Ok st') -> exists more, di_files st' = di_files st ++ more.
Proof.
  induction fuel as [|fuel IH]; intros st l st' H; [discriminate H|]. cbn [load_loop] in H.
  destruct (di_end st); [injection H as _ <-; exists []; rewrite app_nil_r; reflexivity|].
  apply bind_ok in H as (? & ? & st1 & R & H & _). apply round_keeps in R as (m1 & R). apply IH in H as (m2 & ->). rewrite R.
  exists (m1 ++ m2). rewrite app_assoc. reflexivity.
Qed.

(** ** What is led through is loaded *)
Theorem leads_loads next sul first log fs n s b : leads tif open_stream open_rp66 next sul first log fs n s b -> quiet esc log ->
  forall files, sul <> Some [] -> first = (length files =? 0)%nat ->
  exists k more, (forall fuel, loop (k + fuel) (mk_indexer files sul next false) =
      (let* st := (log, Ok (mk_indexer (files ++ more) s n false)) in loop fuel st)) /\
    Forall2 file_reads fs more /\ s <> Some [] /\ b = (length (files ++ more) =? 0)%nat.
Proof.
  intros C. induction C as [next sul first|next sul first r log fs n s b O E H PE C IH
    |next sul first r sul' pos l log fs n s b O NEr B P H PE C IH
    |next sul first r sul' pos l q l' vs recs tail cs next' log fs n s b O B P V OV EV LV LF HO EN C IH]; intros QU files NE FI.
  - exists 0%nat, []. rewrite app_nil_r. split; [|auto]. intros fuel. cbn [plus bind]. destruct (loop fuel _). reflexivity.
  - destruct (IH QU files NE FI) as (k & more & L & R). exists (S k), more. split; [|exact R]. intros fuel. cbn [load_loop di_end plus].
    assert (X : round (mk_indexer files sul next false) = ([], Ok (mk_indexer files sul (raw_ptell r 0) false))).
    { unfold load_round. cbn [di_next]. rewrite O, (at_eof esc open_stream open_rp66); [|exact H|rewrite E; reflexivity]. rewrite PE. reflexivity. }
    rewrite X. cbn [bind]. rewrite L. cbn [bind]. destruct (loop fuel _). reflexivity.
  - subst first. apply quiet_app in QU as [Q1 Q2].
    destruct (begins_ok esc (mk_indexer files sul next false) r _ sul' pos l NE eq_refl B Q1) as (fnd & p & F & P0 & R & NE').
    cbn [di_files di_next di_end] in R.
    assert (X : round (mk_indexer files sul next false) = (l, Ok (mk_indexer files sul' (raw_ptell r pos) false))).
    { unfold load_round. cbn [di_next]. rewrite O, (not_eof esc open_stream open_rp66).
      - cbn [bind ret]. rewrite F. cbn [bind ret]. rewrite R. cbn [bind ret]. rewrite (at_eof esc open_stream open_rp66) by assumption. rewrite PE.
        cbn [bind ret app]. rewrite app_nil_r. reflexivity.
      - destruct (raw_data r) as [|b0 b1]; [congruence|]. rewrite len_cons. pose proof (len_nonneg b1). lia. }
    destruct (IH Q2 files NE' eq_refl) as (k & more & L & R2). exists (S k), more. split; [|exact R2]. intros fuel. cbn [load_loop di_end plus].
    rewrite X. cbn [bind]. rewrite L. cbn [bind]. destruct (loop fuel _). rewrite app_assoc. reflexivity.
  - subst first. rewrite app_assoc in QU. apply quiet_app in QU as [Q1 Q2].
    pose proof (round_file esc tif _ _ (mk_indexer files sul next false) r sul' pos l q l' vs NE O B P V OV Q1) as X.
    destruct (parse_file esc tif (mk_indexer files sul' next false) vs recs tail cs EV LV LF HO) as [G _].
    destruct (G next' EN) as (f & PF & FR). cbn [di_files di_next di_end bind] in X. rewrite PF, app_nil_r in X.
    assert (NE' : sul' <> Some []).
    { apply quiet_app in Q1 as [Q1 _].
      destruct (begins_ok esc (mk_indexer files sul next false) r _ sul' pos l NE eq_refl B Q1) as (fnd & p & F & P0 & R & NE'). exact NE'. }
    destruct (IH Q2 (files ++ [f]) NE') as (k & more & L & F2 & NS & BS).
    { rewrite app_length. cbn. destruct (length files); reflexivity. }
    exists (S k), (f :: more). rewrite <- app_assoc in BS. split; [|split; [constructor; [exact FR|exact F2]|auto]].
    intros fuel. cbn [load_loop di_end plus]. rewrite X. cbn [bind with_file with_next di_files di_sul di_next di_end].
    rewrite L. cbn [bind]. rewrite <- app_assoc. cbn [app]. destruct (loop fuel _). rewrite <- !app_assoc. reflexivity.
Qed.

Theorem leads_front log fs n s b l1 x : leads tif open_stream open_rp66 0 None true log fs n s b ->
  starts_at open_stream open_rp66 n s b l1 x -> quiet esc (log ++ l1) ->
  forall fuel l st, loop fuel new_indexer = (l, Ok st) ->
  (exists l2, l = log ++ l1 ++ l2) /\
  exists ys y more, di_files st = ys ++ y :: more /\ Forall2 file_reads fs ys /\ front_reads x y.
Proof.
  intros LD ST QU fuel l st LP. apply quiet_app in QU as [Q1 Q2].
  destruct (leads_loads _ _ _ _ _ _ _ _ LD Q1 [] ltac:(discriminate) eq_refl) as (k & ys & L & F & NS & BS).
  cbn [app] in L, BS. apply (loop_more esc tif) with (k := k) in LP; [|discriminate]. rewrite Nat.add_comm in LP.
  change new_indexer with (mk_indexer [] None 0 false) in LP. rewrite L in LP. apply bind_ok in LP as (? & l2 & ? & [= <- <-] & L2 & ->). destruct x as [[[sul' vs] recs] cs].
  destruct ST as (r & pos & q & m1 & m2 & tail & O & B & P & V & OV & -> & EV & LV & LF & HO).
  destruct fuel as [|fuel]; [discriminate L2|]. cbn [load_loop di_end] in L2. subst b.
  rewrite (round_file esc tif _ _ (mk_indexer ys s n false) r sul' pos m1 q m2 vs NS O B P V OV Q2) in L2.
  apply bind_ok in L2 as (la & lb & st1 & R & L2 & ->). apply bind_ok in R as (? & lc & st0 & [= <- <-] & R & ->).
  cbn [di_files di_next di_end] in R.
  destruct (parse_front _ _ _ _ _ _ _ EV LV LF HO R) as (y & D & FR). cbn [di_files di_sul] in *.
  apply loop_keeps in L2 as (more & L2). split; [exists (lc ++ lb); rewrite <- !app_assoc; reflexivity|].
  exists ys, y, more. rewrite L2, D, <- app_assoc. auto.
Qed.
End one.

(** ** Plain files *)
Lemma visible_shrinks fuel : forall data ps b, visible_records fuel data = (ps, b) -> len (concat ps) <= len data.
Proof.
  induction fuel as [|fuel IH]; intros data ps b H; [inversion H; subst; apply len_nonneg|].
  destruct data as [|l0 [|l1 [|f [|v rest]]]]; try (inversion H; subst; apply len_nonneg).
  cbn [visible_records] in H. set (n := Z.to_nat (256 * b2z l0 + b2z l1 - 4)) in *. clearbody n. destruct (_ || _); [inversion H; subst; apply len_nonneg|].
  destruct (_ <? _)%nat eqn:N; [inversion H; subst; cbn [concat]; rewrite app_nil_r; unfold len; cbn [length]; lia|].
  destruct (visible_records fuel _) as [qs b'] eqn:E. inversion H; subst. apply IH in E. cbn [concat]. rewrite len_app, !len_cons.
  apply Nat.ltb_ge in N. unfold len in *. rewrite skipn_length in E. rewrite firstn_length. lia.
Qed.
Lemma visible_app ps : Forall visible_fits ps -> forall fuel rest, (length (concat (map enc_visible ps) ++ rest) < fuel)%nat ->
  exists fuel', (length rest < fuel')%nat /\ visible_records fuel (concat (map enc_visible ps) ++ rest) =
    (let '(qs, b) := visible_records fuel' rest in (ps ++ qs, b)).
Proof.
  induction 1 as [|p ps H HS IH]; intros fuel rest F.
  - cbn [map concat app] in *. exists fuel. split; [exact F|]. destruct (visible_records fuel rest). reflexivity.
  - destruct fuel as [|fuel]; [lia|]. cbn [map concat] in *. rewrite <- app_assoc in *. unfold enc_visible at 1 in F. unfold enc_visible at 1.
    cbn [app length] in F. cbn [app visible_records].
    rewrite visible_header by exact H. destruct H as [H1 H2].
    change (negb ((b2z xff =? 0xFF) && (b2z x01 =? 1))) with false. cbn [orb].
    replace (4 + len p <? 4) with false by lia.
    replace (Z.to_nat (4 + len p - 4)) with (length p) by (unfold len; lia).
    rewrite app_length in *. replace (length p + _ <? length p)%nat with false by (symmetry; apply Nat.ltb_ge; lia).
    rewrite skipn_app_len. destruct (IH fuel rest) as (f' & F' & ->); [lia|].
    exists f'. split; [exact F'|]. rewrite firstn_app, Nat.sub_diag, firstn_all. cbn [firstn]. rewrite app_nil_r.
    destruct (visible_records f' rest). reflexivity.
Qed.
Lemma carried_records b d : carried b d -> d <> [] -> forall fuel, (length b < fuel)%nat ->
  exists q ps e d', visible_records fuel b = (q :: ps, e) /\ 0 < len q /\ concat (q :: ps) = d ++ d'.
Proof.
  induction 1 as [rest|p rest d VF C IH|p j VF J]; intros NE fuel F; [congruence| |].
  - destruct (visible_app [p] ltac:(repeat constructor; apply VF) fuel rest) as (f' & F' & E); [cbn [map concat]; rewrite app_nil_r; exact F|].
    cbn [map concat] in E. rewrite app_nil_r in E. rewrite E.
    destruct d as [|d0 d].
    + destruct (visible_records f' rest) as [qs e]. exists p, qs, e, (concat qs). rewrite app_nil_r. split; [reflexivity|]. split; [apply VF|reflexivity].
    + destruct (IH ltac:(discriminate) f' F') as (q & ps & e & d' & -> & _ & X). exists p, (q :: ps), e, d'. split; [reflexivity|].
      split; [apply VF|]. cbn [concat] in *. rewrite X, <- app_assoc. reflexivity.
  - destruct fuel as [|fuel]; [lia|]. unfold enc_visible. change (4 + j)%nat with (S (S (S (S j)))). cbn [app firstn visible_records].
    rewrite visible_header by exact VF. destruct VF as [H1 H2].
    change (negb ((b2z xff =? 0xFF) && (b2z x01 =? 1))) with false. cbn [orb].
    replace (4 + len p <? 4) with false by lia.
    replace (Z.to_nat (4 + len p - 4)) with (length p) by (unfold len; lia).
    rewrite firstn_length. replace (Nat.min j (length p) <? length p)%nat with true by (symmetry; apply Nat.ltb_lt; lia).
    exists (firstn j p), [], true, []. split; [reflexivity|]. split; [destruct (firstn j p); [congruence|unfold len; cbn [length]; lia]|].
    cbn [concat]. reflexivity.
Qed.
Lemma carried_app ps b d : Forall visible_fits ps -> carried b d -> carried (concat (map enc_visible ps) ++ b) (concat ps ++ d).
Proof.
  induction 1 as [|p ps H HS IH]; intros C; [exact C|]. cbn [map concat]. rewrite <- !app_assoc. apply cr_record; auto.
Qed.
Lemma carried_start b d : carried b d -> d <> [] -> first_occurrence [xff; x01] (firstn 4 b) 2 /\ b <> [].
Proof.
  intros C NE. inversion C as [rest|p rest d0 VF C'|p j VF J]; subst; [congruence| |].
  - split; [apply vr_first; exact VF|]. unfold enc_visible. discriminate.
  - split.
    + rewrite firstn_firstn. replace (Nat.min 4 (4 + j)) with 4%nat by lia. rewrite <- (app_nil_r (enc_visible p)). apply vr_first. exact VF.
    + unfold enc_visible. discriminate.
Qed.
Lemma tell_behind ps q qs : 0 < len q ->
  visible_tell (ps ++ q :: qs) (len (concat ps)) = len (concat (map enc_visible ps)) + 4.
Proof.
  intros Q. induction ps as [|p ps IH].
  - cbn [app concat map visible_tell]. rewrite len_nil. change (Z.of_nat (length q)) with (len q). replace (0 <? len q) with true by lia. reflexivity.
  - cbn [app concat map visible_tell]. change (Z.of_nat (length p)) with (len p). rewrite !len_app, enc_visible_len.
    pose proof (len_nonneg (concat ps)). replace (len p + len (concat ps) <? len p) with false by lia.
    replace (len p + len (concat ps) - len p) with (len (concat ps)) by lia. rewrite IH. lia.
Qed.

Section plain.
Variable file : bytes.
Let open_plain := fun o => Some (plain_raw file o).
Notation leads := (leads false open_plain plain_rp66).
Hypothesis small : len file < 2 ^ 63.

Lemma raw_at pre b o : file = pre ++ b -> o = len pre -> raw_data (plain_raw file o) = b.
Proof. intros -> ->. unfold raw_data, plain_raw. cbn. unfold len. rewrite Nat2Z.id. apply skipn_app_len. Qed.

(** the visible records from some position of the file on *)
Lemma rp66_at pre mid b d : file = (pre ++ mid) ++ b -> carried b d -> d <> [] ->
  exists q ps e d', visible_records (S (length b)) b = (q :: ps, e) /\ 0 < len q /\ concat (q :: ps) = d ++ d' /\ len (d ++ d') < 2 ^ 63 /\
    plain_rp66 (plain_raw file (len pre)) (len mid) =
    Some (mk_rp66 (mk_stream (d ++ d') e) (fun n => len pre + (len mid + visible_tell (q :: ps) n))).
Proof.
  intros E C NE. destruct (carried_records b d C NE (S (length b)) ltac:(lia)) as (q & ps & e & d' & V & Q & X).
  exists q, ps, e, d'. split; [exact V|]. split; [exact Q|]. split; [exact X|].
  pose proof (visible_shrinks _ _ _ _ V) as SH. rewrite X in SH. split.
  { rewrite E, len_app in small. pose proof (len_nonneg (pre ++ mid)). lia. }
  unfold plain_rp66, plain_raw. cbn [raw_stream s_data raw_ptell].
  assert (SK : skipn (Z.to_nat (len mid)) (skipn (Z.to_nat (len pre)) file) = b).
  { rewrite E, <- app_assoc. unfold len. rewrite !Nat2Z.id, !skipn_app_len. reflexivity. }
  rewrite SK, V, X. reflexivity.
Qed.

Lemma step f pre mid rest d g d0 sul first sul' l : wf_file f -> file = (pre ++ mid) ++ enc_file f ++ rest ->
  carried rest d -> d = enc_segment g ++ d0 -> seg_fits g -> file_header_seg g ->
  begins (plain_raw file (len pre)) sul first sul' (len mid) l ->
  exists vs tail, s_data (vs_stream vs) = enc_records (wf_recs f) ++ tail /\
    forall log fs n s b, leads (len pre + len mid + len (enc_file f)) sul' false log fs n s b ->
    leads (len pre) sul first (l ++ log) ((sul', vs, wf_recs f, wf_contents f) :: fs) n s b.
Proof.
  intros ((segs & t0 & ER & FH) & LF & HO & EV & VF & L15 & NL) E C ED SF HG B.
  assert (C2 : carried (enc_file f ++ rest) (enc_records (wf_recs f) ++ d)).
  { rewrite <- EV. apply carried_app; [exact VF|exact C]. }
  assert (NE : enc_records (wf_recs f) ++ d <> []). { rewrite ED. destruct (enc_records _); [discriminate|discriminate]. }
  destruct (rp66_at pre mid _ _ E C2 NE) as (q & ps & e & d' & V & Q & X & SM & RP).
  pose proof (raw_at pre (mid ++ enc_file f ++ rest) (len pre) ltac:(rewrite E, <- app_assoc; reflexivity) eq_refl) as RD.
  destruct (carried_start _ _ C2 NE) as [FO NB].
  (* the visible records are those of the file and more *)
  destruct (visible_app (wf_visible f) VF (S (length (enc_file f ++ rest))) rest ltac:(apply Nat.lt_succ_diag_r)) as (f' & F' & VA).
  change (concat (map enc_visible (wf_visible f))) with (enc_file f) in VA. rewrite V in VA.
  destruct (carried_records rest d C ltac:(rewrite ED; discriminate) f' F') as (q2 & ps2 & e2 & d2 & V2 & Q2 & X2). rewrite V2 in VA.
  injection VA as QP EE.
  pose proof (tell_behind (wf_visible f) q2 ps2 Q2) as TB. rewrite EV in TB. rewrite <- QP in TB.
  match type of RP with _ = Some ?v => exists v, (d ++ d') end. split; [cbn [vs_stream s_data]; rewrite <- app_assoc; reflexivity|].
  intros log fs n s b LD. change log with ([] ++ log).
  eapply (ld_file false open_plain plain_rp66) with (pos := len mid) (q := len mid)
    (next' := len pre + len mid + len (enc_file f)) (tail := d ++ d').
  - reflexivity.
  - exact B.
  - rewrite RD, len_app. destruct (enc_file f ++ rest) as [|b0 bs]; [congruence|]. rewrite len_cons. pose proof (len_nonneg bs). lia.
  - apply vs_here; [left; reflexivity|]. rewrite RD. unfold window. unfold len at 1. rewrite Nat2Z.id, skipn_app_len. exact FO.
  - exact RP.
  - cbn [vs_stream s_data]. rewrite <- app_assoc. reflexivity.
  - exact SM.
  - exact LF.
  - exact HO.
  - match goal with |- ending _ ?v ?r _ ?x => replace x with (vs_ptell v (len (enc_records r)) - (if false then 16 else 4)) end.
    + apply (en_next false _ _ _ g (d0 ++ d')); [rewrite ED, <- app_assoc; reflexivity|exact SF|exact HG|rewrite ER; reflexivity].
    + cbn [vs_ptell]. rewrite TB. change (concat (map enc_visible (wf_visible f))) with (enc_file f). lia.
  - exact LD.
Qed.

(** a label is not seen where none is *)
Lemma unlabelled pre b : file = pre ++ b -> firstn 6 (skipn 9 b) <> text "RECORD" ->
  label (plain_raw file (len pre)) false None [].
Proof.
  intros E NR. apply lb_none; [reflexivity|]. rewrite (raw_at pre b _ E eq_refl). intros [_ [(p & q & X & L) _]]. apply NR.
  unfold window in X. change (Z.to_nat 0) with 0%nat in X. cbn [skipn] in X. change (Z.to_nat 15) with 15%nat in X.
  rewrite <- (firstn_skipn 15 b), X, <- app_assoc, <- L, skipn_app_len. reflexivity.
Qed.
Lemma start_unlabelled f b : wf_file f -> firstn 6 (skipn 9 (enc_file f ++ b)) <> text "RECORD".
Proof.
  intros (_ & _ & _ & _ & _ & L15 & NL). unfold len in L15. rewrite skipn_app, firstn_app, skipn_length.
  replace (6 - (length (enc_file f) - 9))%nat with 0%nat by lia. rewrite firstn_O, app_nil_r. exact NL.
Qed.

Definition seen_as (sul : option bytes) (f : wfile) (x : found) : Prop :=
  let '(s, vs, recs, cs) := x in s = sul /\ recs = wf_recs f /\ cs = wf_contents f /\ exists tail, s_data (vs_stream vs) = enc_records (wf_recs f) ++ tail.

Lemma head_of b recs cs : begun b recs cs -> exists g d part, carried b (enc_records recs ++ part) /\ enc_records recs ++ part = enc_segment g ++ d /\ seg_fits g /\ file_header_seg g.
Proof.
  intros ((segs & t & -> & FH) & LF & HO & (part & C) & NR). destruct LF as ((CH & SF & _) & _). destruct segs as [|g gs]; [destruct CH|].
  inversion SF as [|? ? SG SGS]; subst. exists g, (enc_record gs ++ enc_records t ++ part), part. split; [exact C|].
  rewrite enc_records_cons, enc_record_cons, <- !app_assoc. auto.
Qed.

Lemma files_lead fs b recs cs : begun b recs cs -> forall pre mid sul first sul' l, Forall wf_file fs ->
  file = (pre ++ mid) ++ enc_files fs ++ b -> begins (plain_raw file (len pre)) sul first sul' (len mid) l ->
  exists xs n s bf l1 l2 vs, leads (len pre) sul first l1 xs n s bf /\ Forall2 (seen_as sul') fs xs /\ l = l1 ++ l2 /\
    starts_at open_plain plain_rp66 n s bf l2 (sul', vs, recs, cs) /\
    exists pre' mid', file = (pre' ++ mid') ++ b /\ n = len pre' /\ begins (plain_raw file n) s bf sul' (len mid') l2 /\
      visible_start (plain_raw file n) (len mid') (len mid') [] /\ plain_rp66 (plain_raw file n) (len mid') = Some vs.
Proof.
  intros BG. destruct (head_of b recs cs BG) as (g & d & part & C & ED & SF & HG). destruct BG as (_ & LF & HO & _ & NR).
  induction fs as [|f fs IH]; intros pre mid sul first sul' l W E B.
  - change (enc_files [] ++ b) with b in E.
    assert (NE : enc_records recs ++ part <> []) by (rewrite ED; discriminate).
    destruct (rp66_at pre mid b _ E C NE) as (q & ps & e & d' & V & Q & X & SM & RP).
    destruct (carried_start _ _ C NE) as [FO NB].
    pose proof (raw_at pre (mid ++ b) (len pre) ltac:(rewrite E, <- app_assoc; reflexivity) eq_refl) as RD.
    match type of RP with _ = Some ?v => exists [], (len pre), sul, first, [], l, v end. split; [constructor|]. split; [constructor|]. split; [reflexivity|].
    assert (V0 : visible_start (plain_raw file (len pre)) (len mid) (len mid) []).
    { apply vs_here; [left; reflexivity|]. rewrite RD. unfold window. unfold len at 1. rewrite Nat2Z.id, skipn_app_len. exact FO. }
    split; [|exists pre, mid; auto].
    exists (plain_raw file (len pre)), (len mid), (len mid), l, [], (part ++ d'). split; [reflexivity|]. split; [exact B|]. split.
    { rewrite RD, len_app. destruct b as [|b0 bs]; [congruence|]. rewrite len_cons. pose proof (len_nonneg bs). lia. }
    split; [exact V0|]. split; [exact RP|]. split; [rewrite app_nil_r; reflexivity|]. cbn [vs_stream s_data]. split; [rewrite <- app_assoc; reflexivity|]. auto.
  - apply Forall_cons_iff in W as [Hf Ht].
    assert (EF : enc_files (f :: fs) ++ b = enc_file f ++ enc_files fs ++ b) by (unfold enc_files; cbn [map concat]; rewrite app_assoc; reflexivity).
    rewrite EF in E.
    (* what follows starts with a FILE-HEADER *)
    assert (NX : exists d1 g1 d2, carried (enc_files fs ++ b) d1 /\ d1 = enc_segment g1 ++ d2 /\ seg_fits g1 /\ file_header_seg g1).
    { rewrite files_visible. pose proof (carried_app (flat_map wf_visible fs) b _ (files_fit fs Ht) C) as CA.
      destruct fs as [|f2 t]; [exists (enc_records recs ++ part), g, d; auto|].
      inversion Ht as [|? ? Hf2 Ht2]; subst. destruct Hf2 as ((segs2 & t2 & ER2 & FH2) & LF2 & HO2 & EV2 & VF2 & L152 & NL2).
      rewrite ER2 in LF2. destruct LF2 as ((CH2 & SF2 & _) & _). destruct segs2 as [|g2 gs]; [destruct CH2|]. inversion SF2 as [|? ? SG SGS]; subst.
      eexists _, g2, _. split; [exact CA|]. cbn [flat_map]. rewrite concat_app, EV2, ER2, enc_records_cons, enc_record_cons, <- !app_assoc. split; [reflexivity|]. auto. }
    destruct NX as (d1 & g1 & d2 & C1 & E1 & S1 & H1).
    destruct (step f pre mid (enc_files fs ++ b) d1 g1 d2 sul first sul' l Hf E C1 E1 S1 H1 B) as (vs & tail & VS & ST).
    destruct (IH (pre ++ mid ++ enc_file f) [] sul' false sul' []) as (xs & n & s & bf & l1 & l2 & vs2 & LD & FF & EL & SA).
    + exact Ht.
    + rewrite app_nil_r, E, <- !app_assoc. reflexivity.
    + apply bg_none. destruct fs as [|f2 t].
      * apply (unlabelled _ b); [rewrite E, <- !app_assoc; reflexivity|exact NR].
      * apply (unlabelled _ (enc_file f2 ++ enc_files t ++ b)).
        -- rewrite E. unfold enc_files. cbn [map concat]. rewrite <- !app_assoc. reflexivity.
        -- apply start_unlabelled. inversion Ht; assumption.
    + symmetry in EL. apply app_eq_nil in EL as [-> ->].
      exists ((sul', vs, wf_recs f, wf_contents f) :: xs), n, s, bf, l, [], vs2. split.
      * rewrite <- (app_nil_r l). apply ST. replace (len pre + len mid + len (enc_file f)) with (len (pre ++ mid ++ enc_file f)) by (rewrite !len_app; lia). exact LD.
      * split; [constructor; [|exact FF]|split; [rewrite app_nil_r; reflexivity|exact SA]]. split; [reflexivity|]. eauto.
Qed.

(** a storage unit label at the start *)
Lemma label_begins lab b : storage_label lab -> file = lab ++ b -> begins (plain_raw file 0) None true (Some lab) (len lab) [].
Proof.
  intros (seq & rest & EL & LS & LR & _) E.
  assert (L80 : len lab = 80). { rewrite EL. unfold len. rewrite !app_length, LS, LR. reflexivity. }
  assert (RD : raw_data (plain_raw file 0) = lab ++ b) by (rewrite <- E; reflexivity).
  assert (WL : window (lab ++ b) 0 80 = lab).
  { unfold window. cbn [skipn Z.to_nat]. unfold len in L80. rewrite firstn_app.
    change (Z.to_nat 80) with 80%nat. change (Pos.to_nat 80) with 80%nat. replace (80 - length lab)%nat with 0%nat by lia. rewrite firstn_O, app_nil_r. apply firstn_all2. lia. }
  rewrite L80. replace (Some lab) with (Some (window (raw_data (plain_raw file 0)) 0 80)) by (rewrite RD, WL; reflexivity).
  apply (bg_label _ None true 0 []).
  - apply (lb_first (plain_raw file 0) true); [left; reflexivity|]. rewrite RD.
    destruct seq as [|s0 [|s1 [|s2 [|s3 [|]]]]]; try discriminate LS.
    rewrite EL. unfold window. cbn. split.
    + exists [s0; s1; s2; s3; "V"; "1"; "."; "0"; "0"]%byte, []. split; reflexivity.
    + intros j (p & q & X & <-). do 9 (destruct p as [|? p]; [cbn [app] in X; discriminate X|cbn [app] in X; injection X as _ X]). cbn [length]. lia.
  - rewrite RD, len_app. pose proof (len_nonneg b). lia.
Qed.
End plain.

Lemma seen_loaded sul fs : forall xs ys, Forall2 (seen_as sul) fs xs -> Forall2 file_reads xs ys -> Forall2 (loaded sul) fs ys.
Proof.
  induction fs as [|f fs IH]; intros xs ys A B; inversion A as [|? [[[s vs] recs] cs] ? xs' SA A']; subst; inversion B as [|? y ? ys' RB B']; subst;
  constructor; [|eauto]. destruct SA as (-> & -> & -> & T). destruct RB as (E1 & E2 & S & X). split; [exact E2|]. rewrite E1. auto.
Qed.

(** ** Cut files *)
Lemma Forall2_len {A B} (P : A -> B -> Prop) xs ys : Forall2 P xs ys -> length xs = length ys.
Proof. induction 1; cbn [length]; congruence. Qed.
Lemma kept_carried ps : Forall visible_fits ps -> forall m, carried (firstn m (concat (map enc_visible ps))) (kept ps m).
Proof.
  induction 1 as [|p ps H HS IH]; intros m; cbn [map concat kept].
  - rewrite firstn_nil. constructor.
  - assert (LE : length (enc_visible p) = (4 + length p)%nat) by reflexivity.
    destruct (m <? 4 + length p)%nat eqn:M.
    + apply Nat.ltb_lt in M. rewrite firstn_app, LE. replace (m - (4 + length p))%nat with 0%nat by lia. rewrite firstn_O, app_nil_r.
      destruct (Nat.le_gt_cases 4 m) as [G|G].
      * replace m with (4 + (m - 4))%nat at 1 by lia. apply cr_cut; [exact H|lia].
      * replace (m - 4)%nat with 0%nat by lia. rewrite firstn_O. constructor.
    + apply Nat.ltb_ge in M. rewrite firstn_app, LE, firstn_all2 by lia. replace (m - (4 + length p))%nat with (m - 4 - length p)%nat by lia.
      apply cr_record; auto.
Qed.
Lemma kept_firstn ps : forall m, exists k, kept ps m = firstn k (concat ps).
Proof.
  induction ps as [|p ps IH]; intros m; cbn [kept concat]; [exists 0%nat; reflexivity|].
  destruct (m <? 4 + length p)%nat eqn:M.
  - apply Nat.ltb_lt in M. exists (m - 4)%nat. rewrite firstn_app. replace (m - 4 - length p)%nat with 0%nat by lia. rewrite firstn_O, app_nil_r. reflexivity.
  - destruct (IH (m - 4 - length p)%nat) as (k & ->). exists (length p + k)%nat. rewrite firstn_app, (firstn_all2 p) by lia.
    replace (length p + k - length p)%nat with k by lia. reflexivity.
Qed.
Lemma kept_records ps : Forall visible_fits ps -> forall m fuel, (length (firstn m (concat (map enc_visible ps))) < fuel)%nat ->
  exists qs e, visible_records fuel (firstn m (concat (map enc_visible ps))) = (qs, e) /\ concat qs = kept ps m.
Proof.
  induction 1 as [|p ps H HS IH]; intros m fuel F; cbn [map concat kept] in *.
  - rewrite firstn_nil in *. destruct fuel as [|fuel]; [lia|]. exists [], false. split; reflexivity.
  - assert (LE : length (enc_visible p) = (4 + length p)%nat) by reflexivity. rewrite firstn_app, LE in *.
    destruct (m <? 4 + length p)%nat eqn:M.
    + apply Nat.ltb_lt in M. replace (m - (4 + length p))%nat with 0%nat in * by lia. rewrite firstn_O, app_nil_r in *.
      destruct fuel as [|fuel]; [lia|]. unfold enc_visible in *.
      destruct m as [|[|[|[|m]]]]; cbn [app firstn]; [exists [], false|exists [], true|exists [], true|exists [], true|]; try (split; reflexivity).
      cbn [visible_records]. rewrite visible_header by exact H. destruct H as [H1 H2].
      change (negb ((b2z xff =? 0xFF) && (b2z x01 =? 1))) with false. cbn [orb].
      replace (4 + len p <? 4) with false by lia.
      replace (Z.to_nat (4 + len p - 4)) with (length p) by (unfold len; lia).
      rewrite firstn_length. replace (Nat.min m (length p) <? length p)%nat with true by (symmetry; apply Nat.ltb_lt; lia).
      exists [firstn m p], true. split; [reflexivity|]. cbn [concat]. rewrite app_nil_r. f_equal. lia.
    + apply Nat.ltb_ge in M. rewrite firstn_all2 in * by lia.
      destruct (visible_app [p] ltac:(repeat constructor; apply H) fuel (firstn (m - (4 + length p)) (concat (map enc_visible ps)))) as (f' & F' & E);
        [cbn [map concat]; rewrite app_nil_r; exact F|].
      cbn [map concat] in E. rewrite app_nil_r in E. rewrite E. destruct (IH _ f' F') as (qs & e & -> & X). exists (p :: qs), e. split; [reflexivity|].
      cbn [concat]. rewrite X. f_equal. f_equal. lia.
Qed.
Lemma visible_whole fuel : forall data ps, visible_records fuel data = (ps, false) ->
  len data = 4 * Z.of_nat (length ps) + len (concat ps).
Proof.
  induction fuel as [|fuel IH]; intros data ps H; [discriminate H|].
  destruct data as [|l0 [|l1 [|f [|v rest]]]]; [inversion H; reflexivity|discriminate H|discriminate H|discriminate H|].
  cbn [visible_records] in H. set (n := Z.to_nat (256 * b2z l0 + b2z l1 - 4)) in *. clearbody n. destruct (_ || _); [discriminate H|].
  destruct (_ <? _)%nat eqn:N; [discriminate H|].
  destruct (visible_records fuel _) as [qs b'] eqn:E. inversion H; subst. apply IH in E. cbn [concat length]. rewrite len_app, !len_cons.
  apply Nat.ltb_ge in N. unfold len in *. rewrite skipn_length in E. rewrite firstn_length. lia.
Qed.
Lemma tell_end ps : forall n, len (concat ps) <= n -> visible_tell ps n = 4 * Z.of_nat (length ps) + n.
Proof.
  induction ps as [|p ps IH]; intros n L; [cbn; lia|]. cbn [concat visible_tell length] in *. rewrite len_app in L.
  pose proof (len_nonneg (concat ps)). change (Z.of_nat (length p)) with (len p). replace (n <? len p) with false by lia. rewrite IH; lia.
Qed.

(** behind the records of a cut file there is no FILE-HEADER *)
Lemma cut_no_header R k hard : forall pre seen stop recs, logical_file seen R ->
  records_at (firstn k (pre ++ enc_records R)) hard seen (len pre) stop recs ->
  forall l a t, seen || existsb snd recs = true -> header_at (firstn k (pre ++ enc_records R)) stop l a t -> ~ header_of_file a t.
Proof.
  induction R as [|[e r] R IH]; intros pre seen stop recs LF RA l a t SE HA.
  - change (enc_records []) with (@nil byte) in *. rewrite app_nil_r in *. exfalso. inversion RA as [|? ? q e ? ? R1 R2]; subst.
    + apply header_cut, header_bounds in HA. lia.
    + apply record_at_lt in R1. unfold len in *. rewrite firstn_length in R1. lia.
  - rewrite enc_records_cons in *. destruct LF as (W & NH & LF). inversion RA as [|? ? q e' ? recs' R1 R2]; subst.
    + cbn [existsb] in SE. rewrite orb_false_r in SE. specialize (NH SE). destruct W as (CH & SF & _). destruct r as [|g gs]; [destruct CH|].
      inversion SF as [|? ? SG _]; subst. apply header_cut in HA. rewrite enc_record_cons in HA.
      pose proof (seg_header pre g (skipn 4 (enc_segment g) ++ enc_record gs ++ enc_records R) SG) as SH.
      rewrite (app_assoc (firstn 4 _)), firstn_skipn in SH. rewrite <- !app_assoc in HA. destruct (header_inj _ _ _ _ _ _ _ _ HA SH) as (_ & -> & ->).
      intros (P & X & T). apply NH. cbn [file_header]. split; [exact P|]. split; [exact X|]. apply b2z_inj. exact T.
    + pose proof (record_ok false seen e r pre (enc_records R) W NH) as RO. apply record_cut in R1 as RC.
      destruct (record_at_fun _ _ _ _ _ _ _ _ RC RO) as [-> ->]. rewrite app_assoc in *.
      replace (len pre + len (enc_record r)) with (len (pre ++ enc_record r)) in * by (rewrite len_app; reflexivity).
      eapply IH; [exact LF|exact R2| |exact HA]. cbn [existsb snd] in SE. rewrite <- orb_assoc. exact SE.
Qed.

Lemma survey_nothing file next sul first fs fin : raw_data (plain_raw file next) = [] -> survey file next sul first fs fin ->
  fs = [] /\ fin = Returns.
Proof.
  intros E S. assert (L0 : len (raw_data (plain_raw file next)) = 0) by (rewrite E; reflexivity).
  inversion S as [n1 s1 f1 E1|n1 s1 f1 a1 p1 m1 B1 E1|n1 s1 f1 q1 m1 L1 E1|n1 s1 f1 a1 p1 m1 B1 P1 N1
    |n1 s1 f1 a1 p1 m1 q1 m1' k0 k1 rest1 B1 V1 E1 L1
    |n1 s1 f1 a1 p1 m1 q1 m1' vs1 recs1 stop1 fs1 fin1 B1 V1 O1 RA1 CE1 SV1|n1 s1 f1 a1 p1 m1 q1 m1' vs1 recs1 stop1 B1 V1 O1 RA1 NC1 NR1]; subst;
  auto; exfalso; pose proof (begins_pos _ _ _ _ _ _ B1); [lia| | |]; apply visible_lt in V1; lia.
Qed.

Lemma cut_ends file f m pre mid s bf sul' l vs fs fin : wf_file f -> file = (pre ++ mid) ++ firstn m (enc_file f) ->
  begins (plain_raw file (len pre)) s bf sul' (len mid) l -> visible_start (plain_raw file (len pre)) (len mid) (len mid) [] ->
  plain_rp66 (plain_raw file (len pre)) (len mid) = Some vs ->
  survey file (len pre) s bf fs fin -> fin = Returns /\ exists x, fs = [x].
Proof.
  intros (_ & LF & _ & EV & VF & _) E B V O SV. pose proof (begins_pos _ _ _ _ _ _ B) as P0. pose proof (visible_lt _ _ _ _ P0 V) as LT.
  assert (VS : vs_ptell vs = fun n => len pre + (len mid + visible_tell (fst (visible_records (S (length (firstn m (enc_file f)))) (firstn m (enc_file f)))) n)).
  { unfold plain_rp66, plain_raw in O. cbn [raw_stream s_data raw_ptell] in O.
    assert (SK : skipn (Z.to_nat (len mid)) (skipn (Z.to_nat (len pre)) file) = firstn m (enc_file f)).
    { rewrite E, <- app_assoc. unfold len. rewrite !Nat2Z.id, !skipn_app_len. reflexivity. }
    rewrite SK in O. destruct (visible_records _ _) as [[|q0 qs] [|]]; try discriminate O; injection O as <-; reflexivity. }
  assert (VD : vs_stream vs = mk_stream (concat (fst (visible_records (S (length (firstn m (enc_file f)))) (firstn m (enc_file f)))))
                                        (snd (visible_records (S (length (firstn m (enc_file f)))) (firstn m (enc_file f))))).
  { unfold plain_rp66, plain_raw in O. cbn [raw_stream s_data raw_ptell] in O.
    assert (SK : skipn (Z.to_nat (len mid)) (skipn (Z.to_nat (len pre)) file) = firstn m (enc_file f)).
    { rewrite E, <- app_assoc. unfold len. rewrite !Nat2Z.id, !skipn_app_len. reflexivity. }
    rewrite SK in O. destruct (visible_records _ _) as [[|q0 qs] [|]]; try discriminate O; injection O as <-; reflexivity. }
  destruct (kept_records (wf_visible f) VF m (S (length (firstn m (enc_file f)))) ltac:(apply Nat.lt_succ_diag_r)) as (qs & e & VR & KQ).
  change (concat (map enc_visible (wf_visible f))) with (enc_file f) in VR. rewrite VR in VS, VD. cbn [fst snd] in VS, VD.
  destruct (kept_firstn (wf_visible f) m) as (k & KK). rewrite KK, EV in KQ.
  inversion SV as [n1 s1 f1 E1|n1 s1 f1 a1 p1 m1 B1 E1|n1 s1 f1 q1 m1 L1 E1|n1 s1 f1 a1 p1 m1 B1 P1 N1
    |n1 s1 f1 a1 p1 m1 q1 m1' k0 k1 rest1 B1 V1 E1 L1
    |n1 s1 f1 a1 p1 m1 q1 m1' vs1 recs1 stop1 fs1 fin1 B1 V1 O1 RA1 CE1 SV1|n1 s1 f1 a1 p1 m1 q1 m1' vs1 recs1 stop1 B1 V1 O1 RA1 NC1 NR1]; subst n1 s1 f1;
  try (destruct (begins_fun _ _ _ _ _ _ _ _ _ B B1) as [<- <-]).
  - exfalso. apply (f_equal len) in E1. rewrite len_nil in E1. lia.
  - exfalso. lia.
  - exfalso. eapply begins_cut; eassumption.
  - exfalso. eapply N1. exact V.
  - exfalso. pose proof (visible_fun _ _ _ _ _ _ P0 V V1) as <-. rewrite (bad_rp66 _ _ _ _ _ E1 L1) in O. discriminate O.
  - pose proof (visible_fun _ _ _ _ _ _ P0 V V1) as <-. rewrite O in O1. injection O1 as <-.
    rewrite VD in *. cbn [s_data s_hard] in *. rewrite KQ in *.
    destruct CE1 as [[EH LE]|(SE & ln & a & t & HA & _ & HF)].
    + replace (len (firstn k (enc_records (wf_recs f))) <=? stop1) with true in SV1 by lia. rewrite Z.sub_0_r in SV1.
      subst e. apply visible_whole in VR. rewrite VS, tell_end in SV1 by (rewrite KQ; exact LE).
      apply survey_nothing in SV1 as [-> ->]; [split; [reflexivity|eauto]|].
      unfold raw_data, plain_raw. cbn [raw_stream s_data]. apply skipn_all2. rewrite KQ in VR.
      apply (f_equal len) in E. rewrite !len_app in E. unfold len in *. lia.
    + exfalso. eapply (cut_no_header (wf_recs f) k e [] false stop1 recs1 LF RA1 ln a t SE HA). exact HF.
  - split; [reflexivity|eauto].
Qed.
