(** Proofs for C80: loading any plain file with a handler that never raises. *)
From Verif Require Import Bytes BytesProofs Stream DlisTypes SpecTypes TypesProofs DlisCore SpecCore DlisIo SpecIo IoProofs IoProofs2
  DlisRecords SpecRecords RecordsProofs3 Tapemark Lfp SpecDlisLoad DlisLoadProofs DlisLoadProofs2 DlisLoadProofs4 SpecDlisSurvey.
From Verif Require DlisLoad.
Import DlisLoad (findoffsets_at_loop, findoffsets_at, extract_records, lf_stream, lf_sets, lf_fdata, lf_sul,
  indexer, mk_indexer, new_indexer, di_files, di_sul, di_next, di_end, with_sul, with_next, with_file, ended, logical_eof, find_sul, read_sul,
  apply_rp66_protocol, parse_logical_file, load_round, load_loop, load).
Local Open Scope Z_scope.

(** ** No exceptions *)

(** the call ends normally with [P], or reads outside its memory *)
Definition safe {A} (m : io A) (P : A -> Prop) : Prop :=
  match snd m with Ok x => P x | UB => True | Fuel => True | Exn => False end.
Lemma safe_bind {A B} (m : io A) (k : A -> io B) P Q : safe m P -> (forall x, P x -> safe (k x) Q) -> safe (let* x := m in k x) Q.
Proof.
  unfold safe. destruct m as [l [x| | |]]; cbn [bind snd]; intros H K; try exact H.
  specialize (K x H). destruct (k x) as [l' r]. exact K.
Qed.
Lemma safe_ret {A} (x : A) (P : A -> Prop) : P x -> safe (ret x) P.
Proof. auto. Qed.
Lemma safe_log s : safe (log never s) (fun _ => True).
Proof. exact I. Qed.
Lemma safe_logs {A} (l : list severity) (m : io A) P : safe m P -> safe (let* _ := (l, Ok tt) in m) P.
Proof. intros H. eapply safe_bind with (P := fun _ => True); [exact I|auto]. Qed.

Lemma safe_extract s tells : safe (extract_records never s tells) (fun recs => (length recs <= length tells)%nat /\
  forall t l rec, In t tells -> extract never s t = (l, Ok rec) -> rec_data rec <> [] -> In (isencrypted rec, rec_data rec) recs).
Proof.
  induction tells as [|t tells IH]; [apply safe_ret; split; [auto|intros ? ? ? []]|]. cbn [extract_records].
  destruct (extract never s t) as [l [rec| | |]] eqn:E; try exact I.
  - apply safe_logs. eapply safe_bind; [exact IH|]. intros rest [R Q]. apply safe_ret. cbv beta in *. split.
    + destruct (_ =? 0)%nat; cbn [length]; lia.
    + intros t' l' rec' [<-|I] X N.
      * rewrite E in X. injection X as _ <-. destruct (rec_data rec); [congruence|]. left. reflexivity.
      * specialize (Q t' l' rec' I X N). destruct (_ =? 0)%nat; [exact Q|right; exact Q].
  - apply safe_logs. eapply safe_bind; [apply safe_log|]. intros _ _.
    unfold safe in *. destruct (snd (extract_records never s tells)) as [rest| | |]; auto. destruct IH as [R Q]. cbn [length]. split; [lia|].
    intros t' l' rec' [<-|I] X N; [congruence|eauto].
Qed.
Lemma safe_sets recs : safe (parse_sets never recs) (fun sets => (length sets <= length recs)%nat /\
  forall data s, In (false, data) recs -> new_set data = Ok s -> In s sets).
Proof.
  induction recs as [|[enc data] recs IH]; [apply safe_ret; split; [auto|intros ? ? []]|]. cbn [parse_sets].
  assert (W : enc = true \/ new_set data = Exn -> safe (parse_sets never recs) (fun sets => (length sets <= length ((enc, data) :: recs))%nat /\
    forall data' s, In (false, data') ((enc, data) :: recs) -> new_set data' = Ok s -> In s sets)).
  { intros D. unfold safe in *. destruct (snd (parse_sets never recs)) as [sets| | |]; auto. destruct IH as [R Q]. cbn [length]. split; [lia|].
    intros d s [X|X] N; [|eauto]. injection X as -> ->. destruct D; congruence. }
  destruct enc; [auto|]. destruct (new_set data) as [s0| | |] eqn:N; try exact I.
  - eapply safe_bind; [exact IH|]. intros rest [R Q]. apply safe_ret. cbv beta in *. cbn [length]. split; [lia|].
    intros d s [X|X] Y; [injection X as <-; left; congruence|right; eauto].
  - eapply safe_bind; [apply safe_log|]. intros _ _. auto.
Qed.

Lemma obname_origin xs n rest : dlis_obname xs = Some (n, rest) -> 0 <= ob_origin n.
Proof.
  unfold dlis_obname, dlis_origin. destruct (dlis_uvari xs) as [[o r1]|] eqn:U; [|discriminate]. cbn [obind].
  destruct (dlis_ushort r1) as [[c r2]|]; [|discriminate]. cbn [obind]. destruct (dlis_ident r2) as [[i r3]|]; [|discriminate]. intros [= <- _].
  cbn [ob_origin]. apply uvari_read_spec in U as (e & _ & R). apply uvari_value in R. lia.
Qed.
Lemma index_push_in k t xs k' t' : In t' (index_get k' (index_push k t xs)) -> t' = t \/ In t' (index_get k' xs).
Proof. rewrite index_get_push. intros I. apply in_app_or in I as [I|I]; [auto|]. destruct (bytes_eqb k' k); cbn in I; intuition. Qed.
Lemma index_push_keeps k t xs k' t' : In t' (index_get k' xs) -> In t' (index_get k' (index_push k t xs)).
Proof. rewrite index_get_push. intros I. apply in_or_app. auto. Qed.
Lemma safe_one s t xs : safe (findfdata never s [t] xs) (fun ys => ys = xs \/ exists k, ys = index_push k t xs).
Proof.
  cbn [findfdata].
  assert (W : safe (ret xs) (fun ys => ys = xs \/ exists k, ys = index_push k t xs)) by (left; reflexivity).
  destruct (extract_n never s t 262) as [l [rec| | |]] eqn:E; try exact I.
  - apply safe_logs. destruct (isencrypted rec); [exact W|]. destruct (_ && _); [exact W|]. destruct (_ =? _)%nat; [exact W|].
    destruct (dlis_obname _) as [[name rest]|] eqn:O; [|eapply safe_bind; [apply safe_log|]; intros _ _; exact W].
    apply obname_origin in O. destruct (obname_fingerprint _ name) as [| |k] eqn:F; [|exact I|right; eauto].
    exfalso. unfold obname_fingerprint, dlis_object_fingerprint_size, dlis_object_fingerprint in F.
    replace (ob_origin name <? 0) with false in F by lia.
    destruct (rec_type rec =? 0); cbn [length text] in F;
    (replace (Z.of_nat (length (ob_id name)) <? 0) with false in F by lia); cbn -[to_string Z.add Z.gtb repeat] in F; destruct (_ >? _) in F; discriminate.
  - apply safe_logs. eapply safe_bind; [apply safe_log|]. intros _ _. exact W.
Qed.
Lemma safe_fdata s tells : forall xs, safe (findfdata never s tells xs) (fun idx =>
  (forall k t, In t (index_get k idx) -> In t tells \/ In t (index_get k xs)) /\
  (forall k t, In t (index_get k xs) -> In t (index_get k idx)) /\
  (forall t x k, In t tells -> data_record (s_data s) t (Some x) -> owner_key x k -> In t (index_get k idx))).
Proof.
  induction tells as [|t tells IH]; intros xs; [apply safe_ret; repeat split; auto; intros ? ? ? []|].
  change (t :: tells) with ([t] ++ tells) at 1. rewrite findfdata_app. pose proof (safe_one s t xs) as S1.
  destruct (findfdata never s [t] xs) as [l [ys| | |]] eqn:E; try exact S1. unfold safe in S1. cbn [snd] in S1.
  assert (Y3 : forall x k, data_record (s_data s) t (Some x) -> owner_key x k -> In t (index_get k ys)).
  { intros x k D O. destruct s as [d h]. cbn [s_data] in D. destruct (findfdata_step never d h t (Some x) [] xs D) as (xs' & F & k' & O' & ->).
    rewrite E in F. cbn [findfdata ret] in F. injection F as _ ->.
    assert (k' = k). { destruct x as [[[? ?] ?] ?]. unfold owner_key in *. congruence. } subst k'.
    rewrite index_get_push, bytes_eqb_refl. apply in_or_app. right. left. reflexivity. }
  eapply safe_bind with (P := fun z => z = ys); [reflexivity|]. intros z ->. specialize (IH ys).
  unfold safe in *. destruct (snd (findfdata never s tells ys)) as [idx| | |]; auto. destruct IH as (P & K & Q).
  split; [|split].
  - intros k u U. destruct (P k u U) as [X|X]; [left; right; exact X|]. destruct S1 as [->|[k0 ->]]; [auto|].
    apply index_push_in in X as [->|X]; [left; left; reflexivity|auto].
  - intros k u U. apply K. destruct S1 as [->|[k0 ->]]; [exact U|apply index_push_keeps; exact U].
  - intros u x k [<-|U] D O; [apply K; eapply Y3; eassumption|eapply Q; eassumption].
Qed.

(** ** One round *)
Lemma label_total st r : s_hard (raw_stream r) = false -> di_sul st <> Some [] ->
  exists x l, label r (expects (di_sul st) (length (di_files st) =? 0)%nat) x l /\
    find_sul never st r = (l, Ok (match x with Some q => (true, q) | None => (false, 0) end)).
Proof.
  intros H NE. set (ex := expects (di_sul st) (length (di_files st) =? 0)%nat).
  assert (L : exists x l, label r ex x l).
  { destruct (search_ends never (raw_stream r) 0 ex) as [(l & [F|[q F]]) _].
    - assert (N : ~ (within r 15 /\ first_occurrence (text "RECORD") (window (raw_data r) 0 15) 9)).
      { intros [W O]. assert (X : findsul never (raw_stream r) 0 ex = ([], Ok 0)).
        { apply findsul_spec; [lia|]. left. apply within_readable in W. auto. }
        congruence. }
      destruct ex eqn:EX; [|exists None, []; apply lb_none; auto]. exists None, [MINOR]. apply lb_missing; auto.
      intros q Q [W O]. assert (X : findsul never (raw_stream r) 0 true = ([MINOR], Ok q)).
      { apply findsul_spec; [lia|]. right. apply within_readable in W. rewrite Z.sub_0_r. auto 10. }
      congruence.
    - destruct (findsul_no never r ex l q F) as [[W O]|(EX & Q & W & O)].
      + eexists. eexists. apply lb_first; assumption.
      + eexists. eexists. apply lb_late with (q := q); assumption. }
  destruct L as (x & l & L). exists x, l. split; [exact L|]. assert (QU : quiet never l) by (intros s _; reflexivity).
  destruct x as [q|]; [eapply find_sul_some|eapply find_sul_none]; eauto.
Qed.

Lemma visible_total r p : 0 <= p ->
  (exists q l, visible_start r p q l /\ findvrl never (raw_stream r) p = (l, Ok q)) \/
  ((forall q l, ~ visible_start r p q l) /\ exists l, findvrl never (raw_stream r) p = (l, Exn)).
Proof.
  intros P. destruct (search_ends never (raw_stream r) p true) as [_ (l & [F|[q F]])].
  - right. split; [|eauto]. intros q l' V. apply (visible_ok never) in V; [congruence|exact P|intros s _; reflexivity].
  - left. exists q, l. split; [|exact F]. apply findvrl_spec in F; [|exact P].
    destruct F as [(-> & -> & R & O)|(-> & _ & Q & R & O)]; [apply vs_here|apply vs_late]; auto.
Qed.

Lemma occurs_two (data : bytes) q n : 0 <= q -> occurs_at [xff; x01] (window data q n) 2 ->
  exists l0 l1 rest, skipn (Z.to_nat q) data = l0 :: l1 :: xff :: x01 :: rest.
Proof.
  intros Q (a & b & E & L). unfold window in E. destruct a as [|l0 [|l1 [|]]]; try discriminate L.
  rewrite <- (firstn_skipn (Z.to_nat n) (skipn (Z.to_nat q) data)), E. exists l0, l1. eexists. cbn [app]. reflexivity.
Qed.
Lemma visible_bytes r p q l : 0 <= p -> visible_start r p q l ->
  p <= q /\ exists l0 l1 rest, skipn (Z.to_nat q) (raw_data r) = l0 :: l1 :: xff :: x01 :: rest.
Proof.
  intros P V. inversion V as [W O|q' PQ W O]; subst.
  - split; [lia|]. eapply occurs_two; [exact P|apply O].
  - split; [lia|]. destruct O as [O _]. destruct O as (a & b & E & L). unfold window in E.
    assert (S : skipn (Z.to_nat p) (raw_data r) = a ++ [xff; x01] ++ b ++ skipn (Z.to_nat 200) (skipn (Z.to_nat p) (raw_data r))).
    { rewrite <- (firstn_skipn (Z.to_nat 200) (skipn (Z.to_nat p) (raw_data r))) at 1. rewrite E, <- !app_assoc. reflexivity. }
    assert (Y : skipn (Z.to_nat q) (raw_data r) = skipn (Z.to_nat (q - p)) (skipn (Z.to_nat p) (raw_data r))).
    { rewrite skipn_skipn. f_equal. lia. }
    rewrite Y, S. set (rest := b ++ _). clearbody rest. rewrite skipn_app.
    replace (Z.to_nat (q - p) - length a)%nat with 0%nat by lia. cbn [skipn].
    assert (LA : length (skipn (Z.to_nat (q - p)) a) = 2%nat) by (rewrite skipn_length; lia).
    destruct (skipn (Z.to_nat (q - p)) a) as [|l0 [|l1 [|]]]; try discriminate LA. exists l0, l1, rest. reflexivity.
Qed.
Lemma rp66_total r q l p : 0 <= p -> visible_start r p q l -> plain_rp66 r q = None ->
  exists l0 l1 rest, skipn (Z.to_nat q) (raw_data r) = l0 :: l1 :: xff :: x01 :: rest /\ 256 * b2z l0 + b2z l1 < 4.
Proof.
  intros P V N. apply visible_bytes in V as (_ & l0 & l1 & rest & E); [|exact P]. exists l0, l1, rest. split; [exact E|].
  unfold plain_rp66, raw_data in *. rewrite E in N. cbn [visible_records] in N.
  change (b2z xff =? 255) with true in N. change (b2z x01 =? 1) with true in N. cbn [andb negb orb] in N.
  destruct (_ <? 4) eqn:X; [lia|]. destruct (_ <? _)%nat; [discriminate|]. destruct (visible_records _ _). discriminate.
Qed.

Lemma starts_length recs : length (starts_where (fun b => b) recs) = length (filter snd recs).
Proof. unfold starts_where. apply map_length. Qed.
Lemma starts_implicit recs t : In t (starts_where negb recs) -> In (t, false) recs.
Proof.
  unfold starts_where. rewrite in_map_iff. intros ([t' e] & <- & I). apply filter_In in I as [I B]. destruct e; [discriminate|exact I].
Qed.
Lemma records_stop data hard seen p stop recs : records_at data hard seen p stop recs -> p <= stop.
Proof. induction 1 as [|? ? ? ? ? ? R ? IH]; [lia|]. apply record_at_lt in R. lia. Qed.

Lemma meta_extract s t w : len (s_data s) < 2 ^ 63 -> meta_record (s_data s) t w ->
  exists l rec, extract never s t = (l, Ok rec) /\ rec_data rec <> [] /\ isencrypted rec = false /\ enc_set (rec_data rec) w /\ wf_set w.
Proof.
  intros L (g & r & ds & (pre & post & E & T & C & F & D) & B & ES & W). destruct s as [d h]. cbn [s_data] in *. subst d t.
  assert (LR : len (enc_record (g :: r)) < 2 ^ 63).
  { rewrite !len_app in L. pose proof (len_nonneg pre). pose proof (len_nonneg post). lia. }
  destruct (holds_extract never h pre (g :: r) post (Meta w) C F LR (h_meta g r ds w B D ES W)) as (rec & X & [[_ N]|[(_ & _ & N)|(N & I & w' & Q & ES' & W')]]);
  try discriminate N. injection Q as <-. exists [], rec. auto.
Qed.

(** what is made of the records of a logical file *)
Lemma parse_total st vs : exists recs stop,
  records_at (s_data (vs_stream vs)) (s_hard (vs_stream vs)) false 0 stop recs /\
  ((clean_end (s_data (vs_stream vs)) (s_hard (vs_stream vs)) (existsb snd recs) stop /\
    safe (parse_logical_file never false st vs) (fun st' => exists f, outlined (di_sul st, vs, recs) f /\
      st' = with_file (with_next st (vs_ptell vs stop - (if len (s_data (vs_stream vs)) <=? stop then 0 else 4))) f)) \/
   (~ clean_end (s_data (vs_stream vs)) (s_hard (vs_stream vs)) (existsb snd recs) stop /\
    (forall r e, ~ record_at (s_data (vs_stream vs)) (s_hard (vs_stream vs)) (existsb snd recs) stop r e) /\
    safe (parse_logical_file never false st vs) (fun st' => exists n f, outlined (di_sul st, vs, recs) f /\
      st' = with_file (with_next (ended st) n) f))).
Proof.
  destruct (findoffsets_total never (vs_stream vs)) as (recs & stop & RS & IE). exists recs, stop. split; [exact RS|].
  assert (K : forall sul tells ex im,
    ex = starts_where (fun b => b) recs -> im = starts_where negb recs -> tells = vs_stream vs ->
    safe (let* rs := extract_records never tells ex in let* sets := parse_sets never rs in
          let* fdata := findfdata never tells im [] in ret (sets, fdata))
      (fun '(sets, fdata) => outlined (sul, vs, recs) (DlisLoad.mk_file vs sets fdata sul))).
  { intros sul s ex im -> -> ->. eapply safe_bind; [apply safe_extract|]. intros rs [R RQ]. eapply safe_bind; [apply safe_sets|]. intros sets [S SQ].
    eapply safe_bind; [apply safe_fdata|]. intros idx (I1 & _ & I2). apply safe_ret. unfold outlined. cbn [lf_stream lf_sul lf_sets lf_fdata].
    cbv beta in *. rewrite starts_length in R. split; [reflexivity|]. split; [reflexivity|]. split; [lia|]. split; [|split].
    - intros L t w T M. destruct (meta_extract (vs_stream vs) t w L M) as (l & rec & X & E1 & E2 & ES & W).
      destruct (new_set_reads w _ W ES) as (s & N & SR). exists s. split; [|exact SR].
      apply SQ with (data := rec_data rec); [|exact N]. rewrite <- E2. apply RQ with (t := t) (l := l); [|exact X|exact E1].
      unfold starts_where. apply in_map_iff. exists (t, true). split; [reflexivity|]. apply filter_In. auto.
    - intros k t H. apply I1 in H as [H|[]]. apply starts_implicit. exact H.
    - intros t ty o c i k T D K. apply I2 with (x := (ty, o, c, i)); [|exact D|exact K].
      unfold starts_where. apply in_map_iff. exists (t, false). split; [reflexivity|]. apply filter_In. auto. }
  assert (G : forall (st1 : indexer) n ofs sul, explicits ofs = starts_where (fun b => b) recs -> implicits ofs = starts_where negb recs ->
    safe (let* rs := extract_records never (vs_stream vs) (explicits ofs) in let* sets := parse_sets never rs in
          let* fdata := findfdata never (vs_stream vs) (implicits ofs) [] in ret (with_file (with_next st1 n) (DlisLoad.mk_file vs sets fdata sul)))
      (fun st' => exists f, outlined (sul, vs, recs) f /\ st' = with_file (with_next st1 n) f)).
  { intros st1 n ofs sul E1 E2. specialize (K sul _ _ _ E1 E2 eq_refl).
    destruct (extract_records never (vs_stream vs) (explicits ofs)) as [l1 [rs| | |]]; try exact K. cbn [bind] in *.
    destruct (parse_sets never rs) as [l2 [sets| | |]]; try exact K. cbn [bind] in *.
    destruct (findfdata never (vs_stream vs) (implicits ofs) []) as [l3 [fd| | |]]; try exact K. cbn [bind ret] in *.
    unfold safe in *. cbn [snd] in *. eexists. split; [exact K|reflexivity]. }
  destruct IE as [[C E]|(NC & NR & E)]; [left|right].
  - split; [exact C|]. unfold parse_logical_file. destruct (vs_stream vs) as [d h] eqn:VS. cbn [s_data s_hard] in *.
    rewrite (findoffsets_at_clean never d h stop recs); [|apply records_stop in RS; lia|exact RS|exact C]. cbn [bind broken].
    unfold safe. specialize (G st (if len d <=? stop then vs_ptell vs stop else vs_ptell vs stop - 4) (mk_offsets (starts_where (fun b => b) recs) (starts_where negb recs) []) (di_sul st) eq_refl eq_refl).
    cbn [explicits implicits] in *. destruct (len d <=? stop); cbn [bind snd] in *.
    + rewrite Z.sub_0_r. destruct (bind _ _) as [l [x| | |]]; exact G.
    + destruct (bind _ _) as [l [x| | |]]; exact G.
  - split; [exact NC|]. split; [exact NR|]. pose proof (findoffsets_at_agrees never (vs_stream vs)) as A. rewrite E in A.
    unfold forget in A. unfold parse_logical_file. destruct (findoffsets_at never (vs_stream vs)) as [l [[[ofs stop'] eof]| | |]]; try discriminate A.
    cbn [bind ret fst] in A. injection A as _ A. subst ofs. cbn [bind broken].
    set (n := if eof then _ else _). clearbody n.
    specialize (G (ended st) n (mk_offsets (starts_where (fun b => b) recs) (starts_where negb recs) [stop]) (di_sul st) eq_refl eq_refl).
    unfold safe in *. cbn [explicits implicits ended di_sul] in *. destruct (bind _ _) as [l' [x| | |]]; try exact G. cbn [snd] in *. destruct G as (f & O & ->). eauto.
Qed.

(** ** The loop *)
Section plain.
Variable file : bytes.
Local Notation round := (load_round never false (fun o => Some (plain_raw file o)) plain_rp66).
Local Notation loop := (load_loop never false (fun o => Some (plain_raw file o)) plain_rp66).

Definition surveyed (st : indexer) (m : io indexer) : Prop :=
  let first := (length (di_files st) =? 0)%nat in
  match snd m with
  | Ok st' => exists fs more, survey file (di_next st) (di_sul st) first fs Returns /\
      di_files st' = di_files st ++ more /\ Forall2 outlined fs more
  | Exn => exists fs, survey file (di_next st) (di_sul st) first fs Raises
  | _ => True
  end.

Lemma read_plain_at r p : s_hard (raw_stream r) = false -> 0 <= p ->
  exists b, read (raw_stream r) p 1 = Some b /\ (b = [] <-> len (raw_data r) <= p).
Proof.
  intros H P. exists (firstn 1 (skipn (Z.to_nat p) (s_data (raw_stream r)))). split.
  { unfold read. rewrite H. change (1 =? 0) with false. change (1 <? 0) with false. replace (p <? 0) with false by lia. cbn [orb]. destruct (_ =? _)%nat; reflexivity. }
  unfold raw_data, len.
  split; [intros X; apply (f_equal (@length _)) in X; rewrite firstn_length, skipn_length in X; cbn [length] in X; lia|].
  intros X. apply length_zero_iff_nil. rewrite firstn_length, skipn_length. lia.
Qed.

(** one round, from a state that has not ended *)
Lemma round_total st : di_sul st <> Some [] ->
  let first := (length (di_files st) =? 0)%nat in
  match snd (round st) with
  | Ok st' =>
      (di_end st' = true /\ exists fs more, survey file (di_next st) (di_sul st) first fs Returns /\
         di_files st' = di_files st ++ more /\ Forall2 outlined fs more) \/
      (di_end st' = di_end st /\ di_sul st' <> Some [] /\ exists x f, outlined x f /\ di_files st' = di_files st ++ [f] /\
         forall fs fin, survey file (di_next st') (di_sul st') false fs fin -> survey file (di_next st) (di_sul st) first (x :: fs) fin)
  | Exn => survey file (di_next st) (di_sul st) first [] Raises
  | _ => True
  end.
Proof.
  intros NE first. unfold load_round. set (r := plain_raw file (di_next st)). cbv beta.
  assert (H : s_hard (raw_stream r) = false) by reflexivity. assert (PE : raw_peof r = true) by reflexivity.
  assert (QU : forall l, quiet never l) by (intros l s _; reflexivity).
  assert (NILN : Forall2 outlined [] []) by constructor.
  unfold logical_eof at 1. destruct (read_plain_at r 0 H ltac:(lia)) as (b & RB & BN). rewrite RB, PE.
  destruct b as [|b0 b].
  { cbn. left. split; [reflexivity|]. exists [], []. split; [|rewrite app_nil_r; auto]. apply sv_end.
    fold r. apply length_zero_iff_nil. pose proof (proj1 BN eq_refl) as Z0. unfold len in Z0. lia. }
  cbn [bind ret]. clear RB BN b b0.
  assert (SN : forall m : io indexer, snd (let '(l', r0) := m in ([] ++ l', r0)) = snd m) by (intros [? ?]; reflexivity). rewrite SN. clear SN.
  assert (GO : forall sul' pos l, begins r (di_sul st) first sul' pos l ->
    match snd (let* (found, pos) := find_sul never st r in
               let* (st, pos) := (if found : bool then read_sul never st r pos else ret (st, pos)) in
               let* (eof, st) := logical_eof never st r pos in
               if eof : bool then ret st else let* vs := apply_rp66_protocol never plain_rp66 r pos in parse_logical_file never false st vs) with
    | Ok st' =>
      (di_end st' = true /\ exists fs more, survey file (di_next st) (di_sul st) first fs Returns /\
         di_files st' = di_files st ++ more /\ Forall2 outlined fs more) \/
      (di_end st' = di_end st /\ di_sul st' <> Some [] /\ exists x f, outlined x f /\ di_files st' = di_files st ++ [f] /\
         forall fs fin, survey file (di_next st') (di_sul st') false fs fin -> survey file (di_next st) (di_sul st) first (x :: fs) fin)
    | Exn => survey file (di_next st) (di_sul st) first [] Raises
    | _ => True
    end).
  { intros sul' pos l B. destruct (begins_ok never st r first sul' pos l NE eq_refl B (QU l)) as (fnd & p & FS & P0 & RS & NE').
    rewrite FS. cbn [bind]. rewrite RS. cbn [bind]. set (st1 := mk_indexer _ _ _ _).
    unfold logical_eof. destruct (read_plain_at r pos H P0) as (b & RB & BN). rewrite RB, PE. destruct b as [|b0 b].
    { cbn. left. split; [reflexivity|]. exists [], []. split; [|rewrite app_nil_r; auto].
      eapply sv_label_end; [exact B|]. apply Z.le_antisymm; [|apply BN; reflexivity].
      inversion B; subst; [assumption|apply len_nonneg]. }
    assert (PL : pos < len (raw_data r)).
    { destruct (Z.lt_ge_cases pos (len (raw_data r))) as [X|X]; [exact X|]. apply BN in X. discriminate. }
    cbn [bind ret]. clear RB BN b b0. unfold apply_rp66_protocol.
    destruct (visible_total r pos P0) as [(q & l' & V & F)|(NV & l' & F)]; rewrite F; cbn [bind].
    2:{ eapply sv_no_record; [exact B|exact PL|exact NV]. }
    destruct (plain_rp66 r q) as [vs|] eqn:VS; cbn [bind ret].
    2:{ destruct (rp66_total r q l' pos P0 V VS) as (l0 & l1 & rest & E & L4). eapply sv_bad_record; eassumption. }
    destruct (parse_total st1 vs) as (recs & stop & RA & [(CE & SF)|(NC & NR & SF)]); unfold safe in SF;
      destruct (parse_logical_file never false st1 vs) as [l'' [st'| | |]]; cbn [bind snd app] in *; try exact I; try tauto.
    - destruct SF as (f & O & ->). right. cbn. split; [reflexivity|]. split; [exact NE'|]. exists (sul', vs, recs), f. split; [exact O|]. split; [reflexivity|].
      intros fs fin SV. eapply sv_more; eassumption.
    - destruct SF as (n & f & O & ->). left. cbn. split; [reflexivity|]. exists [(sul', vs, recs)], [f].
      split; [eapply sv_broken; eassumption|]. split; [reflexivity|]. constructor; [exact O|constructor]. }
  destruct (label_total st r H NE) as (x & l & LB & FS).
  destruct x as [q|].
  - assert (Q0 : 0 <= q) by (inversion LB; lia).
    destruct (Z.le_gt_cases (q + 80) (len (raw_data r))) as [FIT|CUT].
    + exact (GO _ _ _ (bg_label r (di_sul st) first q l LB FIT)).
    + clear GO. rewrite FS. cbn [bind]. unfold read_sul, read.
      change (80 =? 0) with false. replace ((80 <? 0) || (q <? 0)) with false by lia. rewrite H.
      set (got := firstn (Z.to_nat 80) _).
      assert (LG : q + len got = Z.max q (len (raw_data r))).
      { unfold got, len, raw_data in *. rewrite firstn_length, skipn_length. lia. }
      assert (LG' : (length got =? Z.to_nat 80)%nat = false) by (apply Nat.eqb_neq; unfold len in *; lia).
      rewrite LG'. assert (LG2 : (length got =? 80)%nat = false) by exact LG'. rewrite LG2. cbn [bind ret log never].
      unfold logical_eof. fold (len got). destruct (read_plain_at r (q + len got) H ltac:(pose proof (len_nonneg got); lia)) as (b & RB & BN).
      replace (q + Z.of_nat (length got)) with (q + len got) by reflexivity. rewrite RB, PE.
      rewrite (proj2 BN) by lia. cbn. left. split; [reflexivity|]. exists [], []. split; [|rewrite app_nil_r; auto].
      eapply sv_label_cut; eassumption.
  - exact (GO _ _ _ (bg_none r (di_sul st) first l LB)).
Qed.

Lemma loop_total fuel : forall st, di_sul st <> Some [] -> di_end st = false -> surveyed st (loop fuel st).
Proof.
  induction fuel as [|fuel IH]; intros st NE ND; [exact I|]. cbn [load_loop]. rewrite ND.
  pose proof (round_total st NE) as R. cbv zeta in R. unfold surveyed.
  destruct (round st) as [l [st'| | |]]; cbn [bind snd] in *; try exact I; [|eauto].
  destruct R as [(E & R)|(E & NE' & x & f & O & D & SV)].
  - destruct fuel as [|fuel]; [exact I|]. cbn [load_loop]. rewrite E. cbn [bind ret snd app]. exact R.
  - rewrite ND in E. specialize (IH st' NE' E). unfold surveyed in IH.
    assert (F : (length (di_files st') =? 0)%nat = false) by (rewrite D, app_length; cbn [length]; apply Nat.eqb_neq; lia).
    rewrite F in IH. destruct (loop fuel st') as [l' [st''| | |]]; cbn [bind snd] in *; try exact I.
    + destruct IH as (fs & more & S & D' & A). exists (x :: fs), (f :: more). split; [apply SV; exact S|].
      split; [rewrite D', D, <- app_assoc; reflexivity|constructor; assumption].
    + destruct IH as (fs & S). exists (x :: fs). apply SV. exact S.
Qed.
End plain.

(** ** The survey of a file is unique *)
Lemma label_fun r ex x l x' l' : label r ex x l -> label r ex x' l' -> x = x' /\ l = l'.
Proof.
  intros A B. assert (QU : forall l, quiet never l) by (intros m s _; reflexivity).
  set (st := mk_indexer [] (if ex then None else Some [x00]) 0 false).
  assert (NE : di_sul st <> Some []) by (destruct ex; discriminate).
  assert (EX : expects (di_sul st) true = ex) by (destruct ex; reflexivity).
  rewrite <- EX in A, B.
  destruct x as [q|]; [pose proof (find_sul_some never st r true q l NE eq_refl A (QU l)) as E|pose proof (find_sul_none never st r true l NE eq_refl A (QU l)) as E];
  (destruct x' as [q'|]; [pose proof (find_sul_some never st r true q' l' NE eq_refl B (QU l')) as E'|pose proof (find_sul_none never st r true l' NE eq_refl B (QU l')) as E']);
  rewrite E in E'; split; congruence.
Qed.
Lemma begins_fun r sul first a p l a' p' l' : begins r sul first a p l -> begins r sul first a' p' l' -> a = a' /\ p = p'.
Proof.
  intros A B. inversion A as [q m L F|m L]; subst; inversion B as [q' m' L' F'|m' L']; subst;
  destruct (label_fun _ _ _ _ _ _ L L') as [E _]; try discriminate E; [injection E as <-|]; auto.
Qed.
Lemma begins_pos r sul first a p l : begins r sul first a p l -> 0 <= p.
Proof. intros A. inversion A as [q m L F|m L]; subst; [|lia]. inversion L; lia. Qed.
Lemma begins_cut r sul first a p l q m : begins r sul first a p l ->
  label r (first && match sul with Some _ => false | None => true end) (Some q) m -> len (raw_data r) < q + 80 -> False.
Proof.
  intros A B C. inversion A as [q' m' L F|m' L]; subst; destruct (label_fun _ _ _ _ _ _ L B) as [E _]; [injection E as <-; lia|discriminate].
Qed.
Lemma visible_fun r p q l q' l' : 0 <= p -> visible_start r p q l -> visible_start r p q' l' -> q = q'.
Proof.
  intros P A B. assert (QU : forall l, quiet never l) by (intros m s _; reflexivity).
  apply (visible_ok never) in A; auto. apply (visible_ok never) in B; auto. congruence.
Qed.
Lemma visible_lt r p q l : 0 <= p -> visible_start r p q l -> p < len (raw_data r).
Proof.
  intros P V. apply visible_bytes in V as (PQ & l0 & l1 & rest & E); [|exact P]. apply (f_equal (@length _)) in E.
  rewrite skipn_length in E. cbn [length] in E. unfold len. lia.
Qed.
Lemma bad_rp66 r q l0 l1 rest : skipn (Z.to_nat q) (raw_data r) = l0 :: l1 :: xff :: x01 :: rest -> 256 * b2z l0 + b2z l1 < 4 ->
  plain_rp66 r q = None.
Proof.
  intros E L. unfold plain_rp66, raw_data in *. rewrite E. cbn [visible_records].
  change (b2z xff =? 255) with true. change (b2z x01 =? 1) with true. replace (_ <? 4) with true by lia. reflexivity.
Qed.

Ltac same_file :=
  repeat match goal with
  | A : begins ?r ?s ?f _ _ _, B : begins ?r ?s ?f _ _ _ |- _ =>
      lazymatch A with B => fail | _ => destruct (begins_fun _ _ _ _ _ _ _ _ _ A B) as [? ?]; subst; clear A end
  end;
  match goal with
  | A : begins ?r ?s ?f _ ?p _ |- _ => pose proof (begins_pos _ _ _ _ _ _ A)
  | _ => idtac
  end;
  repeat match goal with
  | A : visible_start ?r ?p _ _, B : visible_start ?r ?p _ _ |- _ =>
      lazymatch A with B => fail | _ => pose proof (visible_fun _ _ _ _ _ _ ltac:(eassumption) A B); subst; clear A end
  end;
  try match goal with
  | A : visible_start ?r ?p _ _ |- _ => pose proof (visible_lt _ _ _ _ ltac:(eassumption) A)
  end;
  repeat match goal with
  | A : raw_data ?r = [] |- _ => apply (f_equal len) in A; rewrite len_nil in A
  end.

Lemma survey_fun file next sul first fs fin : survey file next sul first fs fin ->
  forall fs' fin', survey file next sul first fs' fin' -> fs = fs' /\ fin = fin'.
Proof.
  induction 1 as [next sul first E|next sul first s p l B E|next sul first q l L E|next sul first s p l B P N
    |next sul first s p l q l' l0 l1 rest B V E L
    |next sul first s p l q l' vs recs stop fs fin B V O RA CE SV IH|next sul first s p l q l' vs recs stop B V O RA NC NR];
  intros fs' fin' S';
  (inversion S' as [n1 s1 f1 E1|n1 s1 f1 a1 p1 m1 B1 E1|n1 s1 f1 q1 m1 L1 E1|n1 s1 f1 a1 p1 m1 B1 P1 N1
    |n1 s1 f1 a1 p1 m1 q1 m1' k0 k1 rest1 B1 V1 E1 L1
    |n1 s1 f1 a1 p1 m1 q1 m1' vs1 recs1 stop1 fs1 fin1 B1 V1 O1 RA1 CE1 SV1|n1 s1 f1 a1 p1 m1 q1 m1' vs1 recs1 stop1 B1 V1 O1 RA1 NC1 NR1]; subst);
  try (split; reflexivity);
  try (exfalso; solve [eapply begins_cut; eassumption]);
  same_file;
  try (exfalso; lia);
  try (exfalso; match goal with N : forall q l, ~ visible_start _ _ q l |- _ => eapply N; eassumption end);
  try (exfalso; match goal with E : skipn _ _ = _, O : plain_rp66 _ _ = Some _ |- _ => rewrite (bad_rp66 _ _ _ _ _ E) in O by assumption; discriminate end).
  - rewrite O in O1. injection O1 as <-.
    destruct (records_at_fun _ _ _ _ _ _ RA _ _ RA1) as [-> ->]; [apply clean_no_record; assumption|apply clean_no_record; assumption|].
    destruct (IH _ _ SV1) as [-> ->]. auto.
  - rewrite O in O1. injection O1 as <-.
    destruct (records_at_fun _ _ _ _ _ _ RA _ _ RA1) as [-> ->]; [apply clean_no_record; assumption|assumption|]. contradiction.
  - rewrite O in O1. injection O1 as <-.
    destruct (records_at_fun _ _ _ _ _ _ RA _ _ RA1) as [-> ->]; [assumption|apply clean_no_record; assumption|]. contradiction.
  - rewrite O in O1. injection O1 as <-.
    destruct (records_at_fun _ _ _ _ _ _ RA _ _ RA1) as [-> ->]; [assumption|assumption|]. auto.
Qed.
