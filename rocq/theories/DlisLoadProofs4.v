(** Proofs for C62: [load] on plain files, and its termination. *)
From Verif Require Import Bytes BytesProofs Stream DlisTypes SpecTypes DlisCore SpecCore DlisIo SpecIo IoProofs IoProofs2
  DlisRecords SpecRecords RecordsProofs3 Tapemark Lfp SpecDlisLoad DlisLoadProofs DlisLoadProofs2 DlisLoadProofs3.
From Verif Require DlisLoad.
Import DlisLoad (findoffsets_at_loop, findoffsets_at, extract_records, lf_stream, lf_sets, lf_fdata, lf_sul,
  indexer, mk_indexer, new_indexer, di_files, di_sul, di_next, di_end, with_sul, with_next, with_file, ended, logical_eof, find_sul, read_sul,
  apply_rp66_protocol, parse_logical_file, load_round, load_loop, load).
Local Open Scope Z_scope.

(** ** Termination *)
Definition ends {A} (m : io A) (P : A -> Prop) : Prop :=
  match snd m with Fuel => False | Ok x => P x | _ => True end.
Lemma ends_bind {A B} (m : io A) (k : A -> io B) P Q : ends m P -> (forall x, P x -> ends (k x) Q) -> ends (let* x := m in k x) Q.
Proof.
  unfold ends. destruct m as [l [x| | |]]; cbn [bind snd]; intros H K; try exact H.
  specialize (K x H). destruct (k x) as [l' r]. exact K.
Qed.
Lemma ends_imp {A} (m : io A) (P Q : A -> Prop) : ends m P -> (forall x, P x -> Q x) -> ends m Q.
Proof. unfold ends. destruct (snd m); auto. Qed.
Lemma ends_log esc s : ends (log esc s) (fun _ => True).
Proof. unfold log, ends. destruct (esc s); exact I. Qed.
Lemma ends_ret {A} (x : A) (P : A -> Prop) : P x -> ends (ret x) P.
Proof. auto. Qed.
Lemma ends_logs {A} (l : list severity) (m : io A) P : ends m P -> ends (let* _ := (l, Ok tt) in m) P.
Proof. intros H. eapply ends_bind with (P := fun _ => True); [exact I|auto]. Qed.

Lemma ends_at esc s fuel : forall lr lrs hs ex im,
  0 <= lr -> 0 <= lrs -> (0 < fuel)%nat -> len (s_data s) - lrs < Z.of_nat fuel ->
  Forall (Z.le 0) ex -> Forall (Z.le 0) im -> (ex <> [] -> 0 < lrs) ->
  ends (findoffsets_at_loop fuel esc s lr lrs hs ex im) (fun '(o, stop, eof) =>
    Forall (Z.le 0) (explicits o) /\ Forall (Z.le 0) (implicits o) /\ 0 <= stop /\ (broken o = [] -> eof = false -> 0 < stop)).
Proof.
  induction fuel as [|fuel IH]; intros lr lrs hs ex im L0 S0 F0 FU EX IM NE; [lia|]. cbn [findoffsets_at_loop]. cbv zeta.
  assert (HA : ends (let* _ := log esc CRITICAL in ret (mk_offsets ex im [lr], lrs, false)) (fun '(o, stop, eof) =>
    Forall (Z.le 0) (explicits o) /\ Forall (Z.le 0) (implicits o) /\ 0 <= stop /\ (broken o = [] -> eof = false -> 0 < stop))).
  { eapply ends_bind; [apply ends_log|]. intros _ _. apply ends_ret. repeat split; try assumption. discriminate. }
  destruct (read s lrs 4) as [[|b0 h]|] eqn:R; [| |exact HA].
  - destruct hs; [exact HA|]. apply ends_ret. repeat split; try assumption. discriminate.
  - destruct (dlis_lrsh (b0 :: h)) as [[[l a] t]|] eqn:LR; [|exact HA].
    destruct (l <? 4) eqn:L4; [exact HA|].
    destruct (_ && negb (length ex =? 0)%nat) eqn:FH.
    + destruct hs; [exact HA|]. apply ends_ret. repeat split; try assumption. intros _ _. apply NE.
      apply andb_true_iff in FH as [_ FH]. destruct ex; [discriminate|discriminate].
    + destruct (read s (lrs + l - 1) 1); [|exact HA].
      assert (B : lrs < len (s_data s)).
      { destruct (Z.lt_ge_cases lrs (len (s_data s))) as [X|X]; [exact X|exfalso]. unfold read in R.
        unfold len in X. rewrite skipn_all2 in R by lia. replace (lrs <? 0) with false in R by lia. cbn in R.
        destruct (s_hard s); discriminate. }
      destruct (has a SEGATTR_SUCCSEG).
      * apply IH; try assumption; try lia; intros; lia.
      * destruct (has a SEGATTR_EXFMTLR); apply IH; try assumption; try lia; try (intros; lia).
        -- apply Forall_app. split; [exact EX|]. constructor; [exact L0|constructor].
        -- apply Forall_app. split; [exact IM|]. constructor; [exact L0|constructor].
Qed.

Lemma ends_extract esc s tells : Forall (Z.le 0) tells -> ends (extract_records esc s tells) (fun _ => True).
Proof.
  induction 1 as [|t tells T HS IH]; [exact I|]. cbn [extract_records].
  unfold extract.
  destruct (extract_n esc s t _) as [l [rec| | |]] eqn:E; try exact I.
  - apply ends_logs. eapply ends_bind; [exact IH|]. intros; exact I.
  - apply ends_logs. eapply ends_bind; [apply ends_log|]. intros _ _. exact IH.
  - exfalso. eapply extract_n_fuel; [exact T|exact E].
Qed.
Lemma ends_sets esc recs : ends (parse_sets esc recs) (fun _ => True).
Proof.
  induction recs as [|[enc data] recs IH]; [exact I|]. cbn [parse_sets]. destruct enc; [exact IH|].
  pose proof (new_set_never data). destruct (new_set data); try exact I; [| |congruence].
  - eapply ends_bind; [exact IH|]. intros; exact I.
  - eapply ends_bind; [apply ends_log|]. intros _ _. exact IH.
Qed.
Lemma ends_fdata esc s tells : Forall (Z.le 0) tells -> forall xs, ends (findfdata esc s tells xs) (fun _ => True).
Proof.
  induction 1 as [|t tells T HS IH]; intros xs; [exact I|]. cbn [findfdata].
  destruct (extract_n esc s t 262) as [l [rec| | |]] eqn:E; try exact I.
  - apply ends_logs. destruct (isencrypted rec); [apply IH|]. destruct (_ && _); [apply IH|]. destruct (_ =? _)%nat; [apply IH|].
    destruct (dlis_obname _) as [[name ?]|]; [|eapply ends_bind; [apply ends_log|]; intros _ _; apply IH].
    destruct (obname_fingerprint _ name); try exact I. apply IH.
  - apply ends_logs. eapply ends_bind; [apply ends_log|]. intros _ _. apply IH.
  - exfalso. eapply extract_n_fuel; [exact T|exact E].
Qed.

Lemma visible_tell_ge ps : forall n, 0 <= n -> n + (match ps with [] => 0 | _ => 4 end) <= visible_tell ps n.
Proof.
  induction ps as [|p ps IH]; intros n H; cbn [visible_tell]; [lia|].
  destruct (n <? Z.of_nat (length p)) eqn:E; [lia|]. specialize (IH (n - Z.of_nat (length p)) ltac:(lia)).
  destruct ps; lia.
Qed.

Section plain.
Variables (esc : severity -> bool) (file : bytes).
Let open_plain := fun o => Some (plain_raw file o).
Notation round := (load_round esc false open_plain plain_rp66).
Notation loop := (load_loop esc false open_plain plain_rp66).

Lemma ends_find_sul st r : ends (find_sul esc st r) (fun '(_, p) => 0 <= p).
Proof.
  unfold find_sul. set (ex := _ && _). clearbody ex.
  destruct (search_ends esc (raw_stream r) 0 ex) as [[l [F|[q F]]] _]; rewrite F; cbn [bind ret].
  - apply ends_logs. eapply ends_bind with (P := fun _ => True); [destruct ex; [apply ends_log|exact I]|]. intros; apply ends_ret; lia.
  - assert (0 <= q). { apply findsul_spec in F; [|lia]. destruct F as [(_ & -> & _)|(_ & _ & _ & Q & _)]; lia. }
    unfold log. destruct ex; cbn [bind ret]; [exact H|]. destruct (esc MINOR); cbn [bind ret]; [|exact H].
    unfold ends. cbn. lia.
Qed.
Lemma ends_read_sul st r p : 0 <= p -> ends (read_sul esc st r p) (fun '(st', p') => 0 <= p' /\ di_next st' = di_next st).
Proof.
  intros P. unfold read_sul. destruct (read (raw_stream r) p 80); [|exact I].
  eapply ends_bind with (P := fun _ => True); [destruct (_ =? _)%nat; [exact I|apply ends_log]|]. intros _ _. apply ends_ret. split; [lia|reflexivity].
Qed.
Lemma ends_eof st r p : raw_peof r = true ->
  ends (logical_eof esc st r p) (fun '(e, st') => if e then di_end st' = true else st' = st /\ exists b, read (raw_stream r) p 1 = Some b /\ b <> []).
Proof.
  intros PE. unfold logical_eof. destruct (read (raw_stream r) p 1) as [[|]|] eqn:E; rewrite ?PE.
  - apply ends_ret. reflexivity.
  - apply ends_ret. split; [reflexivity|]. eexists. split; [reflexivity|discriminate].
  - eapply ends_bind; [apply ends_log|]. intros _ _. apply ends_ret. reflexivity.
Qed.

Lemma vrl_in s p l q : 0 <= p -> findvrl esc s p = (l, Ok q) -> p <= q /\ q + 4 <= len (s_data s).
Proof.
  intros P F. apply findvrl_spec in F; [|exact P].
  assert (X : forall n k, occurs_at [xff; x01] (window (s_data s) p n) k -> p + Z.of_nat k + 2 <= len (s_data s)).
  { intros n k (a & b & E & L). apply (f_equal (@length _)) in E. unfold window in E. rewrite firstn_length, skipn_length, !app_length in E.
    cbn [length] in E. unfold len. lia. }
  destruct F as [(_ & -> & _ & O & _)|(_ & _ & Q & _ & O & _)]; apply X in O; lia.
Qed.

Lemma ends_round st : 0 <= di_next st ->
  ends (round st) (fun st' => di_end st' = true \/ di_next st < di_next st' /\ di_next st < len file).
Proof.
  intros N. unfold load_round, open_plain.
  eapply ends_bind; [apply ends_eof; reflexivity|]. intros [e st1] H1. destruct e; [apply ends_ret; auto|]. destruct H1 as [-> (b & RB & BN)].
  assert (NL : di_next st < len file).
  { destruct (Z.lt_ge_cases (di_next st) (len file)) as [X|X]; [exact X|exfalso]. unfold plain_raw, read in RB. cbn [raw_stream s_data s_hard] in RB.
    unfold len in X. rewrite (@skipn_all2 byte (Z.to_nat (di_next st)) file) in RB by lia. rewrite skipn_nil, firstn_nil in RB.
    injection RB as RB. apply BN. symmetry. exact RB. }
  eapply ends_bind; [apply ends_find_sul|]. intros [fnd p] P.
  eapply ends_bind with (P := fun '(st', p') => 0 <= p' /\ di_next st' = di_next st).
  { destruct fnd; [apply ends_read_sul; exact P|]. apply ends_ret. auto. }
  intros [st2 p2] [P2 N2].
  eapply ends_bind; [apply ends_eof; reflexivity|]. intros [e st3] H3. destruct e; [apply ends_ret; auto|]. destruct H3 as [-> _].
  eapply ends_bind with (P := fun vs => exists q ps br, p2 <= q /\ ps <> [] /\
     vs = mk_rp66 (mk_stream (concat ps) br) (fun n => di_next st + (q + visible_tell ps n))).
  { unfold apply_rp66_protocol.
    destruct (search_ends esc (raw_stream (plain_raw file (di_next st))) p2 true) as [_ [l [F|[q F]]]]; rewrite F; [exact I|].
    apply vrl_in in F as [PQ QL]; [|exact P2]. cbn [bind].
    destruct (plain_rp66 (plain_raw file (di_next st)) q) as [vs|] eqn:V; [|exact I]. cbn [ret]. unfold ends. cbn [snd].
    unfold plain_rp66 in V. cbn [plain_raw raw_stream s_data raw_ptell] in *.
    set (data := skipn (Z.to_nat q) (skipn (Z.to_nat (di_next st)) file)) in *.
    assert (data <> []). { intros D. apply (f_equal (@length _)) in D. unfold data in D. rewrite skipn_length in D. cbn [length] in D. unfold len in QL. lia. }
    destruct (visible_records (S (length data)) data) as [ps br] eqn:VR. exists q, ps, br.
    split; [exact PQ|]. destruct ps as [|p0 ps].
    - exfalso. destruct br; [discriminate|]. cbn [visible_records] in VR. destruct data as [|a [|b1 [|c [|d rest]]]]; try congruence.
      destruct (_ || _); [congruence|]. destruct (_ <? _)%nat; [congruence|]. destruct (visible_records _ _). congruence.
    - split; [discriminate|]. destruct br; congruence. }
  intros vs (q & ps & br & PQ & PN & ->). unfold parse_logical_file. cbn [vs_stream vs_ptell].
  eapply ends_bind; [apply (ends_at esc (mk_stream (concat ps) br) (S (S (length (concat ps))))); cbn [s_data]; auto; try lia; try constructor; [unfold len; lia|congruence]|].
  intros [[o stop] eof] (EX & IM & S0 & SB).
  eapply ends_bind; [apply ends_extract; exact EX|]. intros recs _.
  eapply ends_bind; [apply ends_sets|]. intros sets _.
  eapply ends_bind; [apply ends_fdata; exact IM|]. intros fd _. apply ends_ret.
  cbn [with_file di_end di_next with_next]. destruct (broken o) eqn:BR; [|left; reflexivity]. right. split; [|exact NL].
  pose proof (visible_tell_ge ps stop S0) as VG. specialize (SB eq_refl). destruct ps as [|p0 ps]; [congruence|].
  destruct eof; [lia|]. specialize (SB eq_refl). lia.
Qed.

Lemma ends_loop fuel : forall st, 0 <= di_next st -> len file - di_next st + 1 < Z.of_nat fuel -> (1 < fuel)%nat ->
  ends (loop fuel st) (fun _ => True).
Proof.
  induction fuel as [|fuel IH]; intros st N F F1; [lia|]. cbn [load_loop]. destruct (di_end st); [exact I|].
  eapply ends_bind; [apply ends_round; exact N|]. intros st' [E|[P L]].
  - destruct fuel; [lia|]. cbn [load_loop]. rewrite E. exact I.
  - apply IH; lia.
Qed.
End plain.

(** ** Loading plain files *)
Definition plain_start (file : bytes) : Prop :=
  exists tm, read_tapemark file 0 = Ok tm /\ valid_tapemark tm = false.

Lemma start_by b0 b1 b2 b3 rest : 8 <= len rest -> b2z b0 + b2z b1 + b2z b2 + b2z b3 > 1 ->
  plain_start (b0 :: b1 :: b2 :: b3 :: rest).
Proof.
  intros L B. unfold plain_start, read_tapemark.
  destruct rest as [|r0 [|r1 [|r2 [|r3 [|r4 [|r5 [|r6 [|r7 rest]]]]]]]]; try (exfalso; vm_compute in L; congruence).
  exists (mk_tapemark (le [b0; b1; b2; b3]) (le [r0; r1; r2; r3]) (le [r4; r5; r6; r7])). split; [reflexivity|]. unfold valid_tapemark. cbn [tm_type tm_prev tm_next].
  assert (T : negb (le [b0; b1; b2; b3] =? 0) && negb (le [b0; b1; b2; b3] =? 1) = true).
  { cbn [le]. pose proof (b2z_range b0). pose proof (b2z_range b1). pose proof (b2z_range b2). pose proof (b2z_range b3).
    apply andb_true_iff. split; apply negb_true_iff; lia. }
  rewrite T. reflexivity.
Qed.

Lemma start_label lab rest : storage_label lab -> plain_start (lab ++ rest).
Proof.
  intros (seq & r & -> & LS & LR & P). destruct seq as [|s0 [|s1 [|s2 [|s3 [|]]]]]; try discriminate LS.
  rewrite <- !app_assoc. cbn [app]. apply start_by.
  - assert (len r = 65) by (unfold len; lia). rewrite !len_app. pose proof (len_nonneg rest).
    pose proof (len_nonneg (text "V1.00")). pose proof (len_nonneg (text "RECORD")). lia.
  - inversion P as [|? ? P0 Q]; subst. pose proof (b2z_range s1). pose proof (b2z_range s2). pose proof (b2z_range s3). lia.
Qed.

Lemma start_files fs : Forall wf_file fs -> fs <> [] -> plain_start (enc_files fs).
Proof.
  intros W NE. destruct fs as [|f t]; [congruence|]. inversion W as [|? ? Hf Ht]; subst. destruct Hf as (_ & _ & _ & _ & _ & L15 & _).
  unfold enc_files. cbn [map concat]. unfold enc_file in *. destruct (wf_visible f) as [|v vs]; [cbn in L15; lia|].
  cbn [map concat] in *. rewrite !len_app, enc_visible_len in L15. unfold enc_visible at 1. rewrite <- !app_assoc. cbn [app]. apply start_by.
  - rewrite !len_app. pose proof (len_nonneg (concat (map enc_file t))). unfold enc_file in *. lia.
  - change (b2z xff) with 255. change (b2z x01) with 1. pose proof (b2z_range (z2b ((4 + len v) / 256))). pose proof (b2z_range (z2b (4 + len v))). lia.
Qed.

Lemma load_plain esc ot tr fuel file : plain_start file ->
  load esc ot tr fuel file = load_loop esc false (fun o => Some (plain_raw file o)) plain_rp66 fuel new_indexer.
Proof. intros (tm & R & V). unfold load. rewrite R, V. reflexivity. Qed.

Lemma load_course esc ot tr file log fs : plain_start file ->
  course false (fun o => Some (plain_raw file o)) plain_rp66 0 None true log fs -> quiet esc log ->
  exists st, (forall fuel, len file + 1 < Z.of_nat fuel -> load esc ot tr fuel file = (log, Ok st)) /\ Forall2 file_reads fs (di_files st).
Proof.
  intros PS C Q. destruct (course_loads esc false _ _ _ _ _ _ _ C Q [] ltac:(discriminate) eq_refl) as (f0 & st & L & more & DF & F).
  exists st. split.
  - intros fuel HF. rewrite load_plain by exact PS.
    pose proof (ends_loop esc file fuel new_indexer) as E. cbn [new_indexer di_next] in E. specialize (E ltac:(lia) ltac:(lia) ltac:(pose proof (len_nonneg file); lia)).
    rewrite <- (L (fuel + f0)%nat) by lia. symmetry. apply loop_more; [reflexivity|]. unfold ends in E.
    change {| di_files := []; di_sul := None; di_next := 0; di_end := false |} with new_indexer. intros X. rewrite X in E. exact E.
  - rewrite DF. exact F.
Qed.

Lemma load_ends esc ot tr file fuel l : plain_start file -> len file + 1 < Z.of_nat fuel -> load esc ot tr fuel file <> (l, Fuel).
Proof.
  intros PS HF X. rewrite load_plain in X by exact PS.
  pose proof (ends_loop esc file fuel new_indexer) as E. cbn [new_indexer di_next] in E. specialize (E ltac:(lia) ltac:(lia) ltac:(pose proof (len_nonneg file); lia)).
  unfold ends in E. rewrite X in E. exact E.
Qed.

Lemma file_list_loaded sul fs : Forall wf_file fs -> forall base pos xs, Forall2 file_reads (file_list fs sul base pos) xs -> Forall2 (loaded sul) fs xs.
Proof.
  induction 1 as [|f t Hf Ht IH]; intros base pos xs H; cbn [file_list] in H; inversion H as [|? x ? xs' H1 H2]; subst; constructor.
  - destruct H1 as (E1 & E2 & S & X). split; [exact E2|]. split; [|split; [exact S|exact X]].
    rewrite E1. exists (concat (flat_map wf_visible t)). cbn [plain_vs vs_stream s_data flat_map]. rewrite concat_app.
    destruct Hf as (_ & _ & _ & -> & _). reflexivity.
  - eapply IH. exact H2.
Qed.

Lemma starts_plain_ok file : starts_plain file -> plain_start file.
Proof.
  intros (t0 & t1 & t2 & t3 & p0 & p1 & p2 & p3 & n0 & n1 & n2 & n3 & rest & -> & N). cbv zeta in N.
  exists (mk_tapemark (le [t0; t1; t2; t3]) (le [p0; p1; p2; p3]) (le [n0; n1; n2; n3])). split; [reflexivity|].
  unfold valid_tapemark. cbn [tm_type tm_prev tm_next le].
  destruct (_ && _) eqn:T; [reflexivity|]. destruct (_ <=? _) eqn:L; [reflexivity|]. exfalso. apply N.
  apply andb_false_iff in T. rewrite !negb_false_iff in T. lia.
Qed.

Lemma load_raises esc ot tr file log fs : plain_start file ->
  course false (fun o => Some (plain_raw file o)) plain_rp66 0 None true (log ++ [CRITICAL]) fs -> quiet esc log -> esc CRITICAL = true ->
  forall fuel, len file + 1 < Z.of_nat fuel -> load esc ot tr fuel file = (log ++ [CRITICAL], Exn).
Proof.
  intros PS C Q EC fuel HF. destruct (course_raises esc false _ _ _ _ _ _ _ C Q EC [] ltac:(discriminate) eq_refl) as (f0 & L).
  rewrite load_plain by exact PS.
  pose proof (ends_loop esc file fuel new_indexer) as E. cbn [new_indexer di_next] in E. specialize (E ltac:(lia) ltac:(lia) ltac:(pose proof (len_nonneg file); lia)).
  rewrite <- (L (fuel + f0)%nat) by lia. symmetry. apply loop_more; [reflexivity|]. unfold ends in E.
  change {| di_files := []; di_sul := None; di_next := 0; di_end := false |} with new_indexer. intros X. rewrite X in E. exact E.
Qed.
