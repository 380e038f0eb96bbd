(** Proofs for C62: loading DLIS files, one logical file at a time. *)
From Verif Require Import Bytes BytesProofs Stream DlisTypes SpecTypes DlisCore SpecCore DlisIo SpecIo IoProofs IoProofs2
  DlisRecords SpecRecords RecordsProofs RecordsProofs2 RecordsProofs3 Lfp SpecDlisLoad.
From Verif Require DlisLoad.
Import DlisLoad (findoffsets_at_loop, findoffsets_at, extract_records, mk_file, lf_stream, lf_sets, lf_fdata, lf_sul,
  indexer, mk_indexer, new_indexer, di_files, di_sul, di_next, di_end, with_sul, with_next, with_file, ended, logical_eof, find_sul, read_sul,
  apply_rp66_protocol, parse_logical_file, load_round, load_loop, load).
Local Open Scope Z_scope.

(** ** Indexing with the final position *)
Definition forget (m : io (stream_offsets * Z * bool)) : io stream_offsets := let* r := m in ret (fst (fst r)).

Lemma forget_handle esc (o : stream_offsets) lrs (b : bool) :
  forget (let* _ := log esc CRITICAL in ret (o, lrs, b)) = (let* _ := log esc CRITICAL in ret o).
Proof. unfold log. destruct (esc CRITICAL); reflexivity. Qed.

Lemma at_agrees fuel : forall esc s lr lrs hs ex im,
  forget (findoffsets_at_loop fuel esc s lr lrs hs ex im) = findoffsets_loop fuel esc s lr lrs hs ex im.
Proof.
  induction fuel as [|fuel IH]; intros; [reflexivity|]. cbn [findoffsets_at_loop findoffsets_loop].
  destruct (read s lrs 4) as [[|b0 h]|]; [destruct hs; [apply forget_handle|reflexivity]| |apply forget_handle].
  destruct (dlis_lrsh (b0 :: h)) as [[[l a] t]|]; [|apply forget_handle]. cbv zeta.
  destruct (l <? 4); [apply forget_handle|].
  destruct (_ && negb (length ex =? 0)%nat); [destruct hs; [apply forget_handle|reflexivity]|].
  destruct (read s (lrs + l - 1) 1); [|apply forget_handle].
  destruct (has a SEGATTR_SUCCSEG); [apply IH|]. destruct (has a SEGATTR_EXFMTLR); apply IH.
Qed.

Lemma findoffsets_at_agrees esc s : forget (findoffsets_at esc s) = findoffsets esc s.
Proof. apply at_agrees. Qed.

Lemma at_step fuel esc s lr lrs hs ex im l a t :
  segment_at (s_data s) (s_hard s) (negb (length ex =? 0)%nat) lrs l a t ->
  findoffsets_at_loop (S fuel) esc s lr lrs hs ex im =
  if Z.testbit a 5 then findoffsets_at_loop fuel esc s lr (lrs + l) true ex im
  else if Z.testbit a 7 then findoffsets_at_loop fuel esc s (lrs + l) (lrs + l) false (ex ++ [lr]) im
  else findoffsets_at_loop fuel esc s (lrs + l) (lrs + l) false ex (im ++ [lr]).
Proof.
  intros (H & L4 & HD & NF). pose proof (header_bounds _ _ _ _ _ H) as HB.
  destruct (read_at_header s lrs l a t H) as (h & R & NE & LR).
  cbn [findoffsets_at_loop]. rewrite R, LR. destruct h as [|b0 h]; [congruence|]. cbv zeta.
  destruct (has_bits a) as (_ & _ & _ & _ & -> & -> & ->).
  replace (l <? 4) with false by lia.
  change (negb (Z.testbit a 6) && Z.testbit a 7 && (t =? 0)) with (file_header_bits a t).
  replace (file_header_bits a t && negb (length ex =? 0)%nat) with false.
  2:{ symmetry. destruct (file_header_bits a t) eqn:FB; [|reflexivity]. destruct (negb (length ex =? 0)%nat) eqn:SE; [|reflexivity].
      exfalso. apply NF. split; [reflexivity|]. apply file_header_bits_spec. exact FB. }
  destruct (read s (lrs + l - 1) 1) as [b|] eqn:R1.
  - destruct (Z.testbit a 5), (Z.testbit a 7); reflexivity.
  - exfalso. apply read_None in R1; [|lia|lia]. destruct R1 as (SH & _ & R1). specialize (HD SH). lia.
Qed.

Lemma at_record data hard seen p q e : record_at data hard seen p q e ->
  forall esc lr hs ex im fuel, seen = negb (length ex =? 0)%nat ->
  (0 < fuel)%nat -> len data - p < Z.of_nat fuel ->
  exists fuel', (0 < fuel')%nat /\ len data - q < Z.of_nat fuel' /\
    findoffsets_at_loop fuel esc (mk_stream data hard) lr p hs ex im =
    findoffsets_at_loop fuel' esc (mk_stream data hard) q q false
      (ex ++ if e then [lr] else []) (im ++ if e then [] else [lr]).
Proof.
  induction 1 as [p l a t SG T5|p l a t q e SG T5 RA IH]; intros esc lr hs ex im fuel SE F0 HF.
  - destruct fuel as [|fuel]; [lia|]. destruct SG as (H & L4 & SG). pose proof (header_bounds _ _ _ _ _ H) as HB.
    exists fuel. split; [lia|]. split; [lia|].
    rewrite (at_step fuel esc (mk_stream data hard) lr p hs ex im l a t), T5.
    + destruct (Z.testbit a 7); rewrite app_nil_r; reflexivity.
    + cbn [s_data s_hard]. rewrite <- SE. split; [exact H|]. split; [exact L4|exact SG].
  - destruct fuel as [|fuel]; [lia|]. pose proof SG as SG'. destruct SG' as (H & L4 & _).
    pose proof (header_bounds _ _ _ _ _ H) as HB.
    destruct (IH esc lr true ex im fuel SE) as (fuel' & F1 & F2 & E); [lia|lia|].
    exists fuel'. split; [exact F1|]. split; [exact F2|]. rewrite <- E.
    rewrite (at_step fuel esc (mk_stream data hard) lr p hs ex im l a t), T5; [reflexivity|].
    cbn [s_data s_hard]. rewrite <- SE. exact SG.
Qed.

Lemma app_seen {A} (ex x : list A) : negb (length (ex ++ x) =? 0)%nat = negb (length ex =? 0)%nat || negb (length x =? 0)%nat.
Proof. rewrite app_length. destruct (length ex), (length x); reflexivity. Qed.

Lemma at_records data hard seen p stop recs : records_at data hard seen p stop recs ->
  forall esc ex im fuel, seen = negb (length ex =? 0)%nat ->
  (0 < fuel)%nat -> len data - p < Z.of_nat fuel ->
  exists fuel', (0 < fuel')%nat /\
    findoffsets_at_loop fuel esc (mk_stream data hard) p p false ex im =
    findoffsets_at_loop fuel' esc (mk_stream data hard) stop stop false
      (ex ++ starts_where (fun b => b) recs) (im ++ starts_where negb recs).
Proof.
  induction 1 as [seen p|seen p q e r l RA RS IH]; intros esc ex im fuel SE F0 HF.
  - exists fuel. split; [exact F0|]. cbn. rewrite !app_nil_r. reflexivity.
  - destruct (at_record _ _ _ _ _ _ RA esc p false ex im fuel SE F0 HF) as (f1 & F1 & HF1 & E1).
    destruct (IH esc (ex ++ if e then [p] else []) (im ++ if e then [] else [p]) f1) as (f2 & F2 & E2); [|lia|lia|].
    { rewrite app_seen, SE. destruct e; reflexivity. }
    exists f2. split; [exact F2|]. rewrite E1, E2, <- !app_assoc. unfold starts_where. cbn [filter snd].
    destruct e; reflexivity.
Qed.

Lemma existsb_starts recs : existsb snd recs = negb (length (starts_where (fun b => b) recs) =? 0)%nat.
Proof. induction recs as [|[p e] t IH]; [reflexivity|]. unfold starts_where in *. cbn [existsb filter snd]. destruct e; [reflexivity|exact IH]. Qed.

Lemma findoffsets_at_clean esc data hard stop recs : 0 <= stop ->
  records_at data hard false 0 stop recs -> clean_end data hard (existsb snd recs) stop ->
  findoffsets_at esc (mk_stream data hard) =
  ([], Ok (mk_offsets (starts_where (fun b => b) recs) (starts_where negb recs) [], stop, len data <=? stop)).
Proof.
  intros S0 RS C. unfold findoffsets_at.
  destruct (at_records _ _ _ _ _ _ RS esc [] [] (S (S (length data)))) as (fuel & F & E); [reflexivity|lia|unfold len; lia|].
  cbn [s_data]. rewrite E. clear E. destruct fuel as [|fuel]; [lia|]. cbn [app findoffsets_at_loop].
  destruct C as [[-> L]|(SE & l & a & t & H & L4 & FB)].
  - replace (read (mk_stream data false) stop 4) with (Some (@nil byte)).
    + replace (len data <=? stop) with true by lia. reflexivity.
    + unfold read. cbn [s_data s_hard]. unfold len in L. rewrite skipn_all2 by lia. replace (stop <? 0) with false by lia. reflexivity.
  - destruct (read_at_header (mk_stream data hard) stop l a t H) as (h & -> & NE & ->).
    destruct h as [|b0 h]; [congruence|]. cbv zeta. replace (l <? 4) with false by lia.
    destruct (has_bits a) as (_ & _ & _ & _ & H5 & H6 & H7). rewrite ?H5, ?H6, ?H7.
    change (negb (Z.testbit a 6) && Z.testbit a 7 && (t =? 0)) with (file_header_bits a t).
    apply file_header_bits_spec in FB. rewrite FB, <- existsb_starts, SE. cbn [andb].
    pose proof (header_bounds _ _ _ _ _ H) as HB. replace (len data <=? stop) with false by lia. reflexivity.
Qed.

(** what follows the records of a well formed logical file decides *)
Lemma at_complete esc hard recs tail : logical_file false recs ->
  (tail = [] /\ hard = false) \/
  (exists g rest, tail = enc_segment g ++ rest /\ seg_fits g /\ file_header_seg g /\ existsb fst recs = true) ->
  findoffsets_at esc (mk_stream (enc_records recs ++ tail) hard) =
  ([], Ok (mk_offsets (offsets_where (fun e => e) 0 recs) (offsets_where negb 0 recs) [],
           len (enc_records recs), match tail with [] => true | _ => false end)).
Proof.
  intros LF T. rewrite <- !marks_where.
  rewrite (findoffsets_at_clean esc (enc_records recs ++ tail) hard (len (enc_records recs)) (marks 0 recs)).
  - f_equal. f_equal. f_equal. rewrite len_app. destruct tail as [|b t]; [rewrite len_nil; lia|rewrite len_cons; pose proof (len_nonneg t); lia].
  - apply len_nonneg.
  - exact (records_ok hard recs false [] tail LF).
  - rewrite marks_seen. destruct T as [[-> ->]|(g & rest & -> & F & (P & X & Ty) & SE)].
    + left. rewrite app_nil_r. split; [reflexivity | lia].
    + right. split; [exact SE|]. exists (4 + len (g_payload g)), (b2z (g_attrs g)), (b2z (g_type g)).
      split; [|split; [pose proof (len_nonneg (g_payload g)); lia|]].
      * rewrite <- (firstn_skipn 4 (enc_segment g)), <- app_assoc. apply seg_header. exact F.
      * split; [exact P|]. split; [exact X|]. rewrite Ty. reflexivity.
Qed.

Lemma at_damaged esc hard recs tail : logical_file false recs ->
  ~ clean_end (enc_records recs ++ tail) hard (existsb fst recs) (len (enc_records recs)) ->
  (forall q e, ~ record_at (enc_records recs ++ tail) hard (existsb fst recs) (len (enc_records recs)) q e) ->
  exists stop eof,
  findoffsets_at esc (mk_stream (enc_records recs ++ tail) hard) =
  ([CRITICAL], if esc CRITICAL then Exn else Ok (mk_offsets (offsets_where (fun e => e) 0 recs) (offsets_where negb 0 recs) [len (enc_records recs)], stop, eof)).
Proof.
  intros LF NC NR.
  destruct (findoffsets_by esc (mk_stream (enc_records recs ++ tail) hard) (marks 0 recs) (len (enc_records recs))) as [_ H].
  { exact (records_ok hard recs false [] tail LF). }
  rewrite marks_seen, !marks_where in H. specialize (H NC NR).
  rewrite <- findoffsets_at_agrees in H. unfold forget in H.
  destruct (findoffsets_at esc _) as [l [[[o stop] eof]| | |]]; cbn [bind ret fst] in H.
  - rewrite app_nil_r in H. exists stop, eof. destruct (esc CRITICAL); congruence.
  - exists 0, false. destruct (esc CRITICAL); congruence.
  - destruct (esc CRITICAL); congruence.
  - destruct (esc CRITICAL); congruence.
Qed.

(** ** Reading the records *)
Lemma holds_extract esc hard pre segs post c : chained segs -> Forall seg_fits segs -> len (enc_record segs) < 2 ^ 63 ->
  holds (true, segs) c ->
  exists rec, extract esc (mk_stream (pre ++ enc_record segs ++ post) hard) (len pre) = ([], Ok rec) /\
  ((rec_data rec = [] /\ c = Skipped) \/
   (rec_data rec <> [] /\ isencrypted rec = true /\ c = Skipped) \/
   (rec_data rec <> [] /\ isencrypted rec = false /\
    exists w, c = Meta w /\ enc_set (rec_data rec) w /\ wf_set w)).
Proof.
  intros C F L H.
  assert (X : forall ds, record_data segs ds 0 -> exists g t, segs = g :: t /\
     extract esc (mk_stream (pre ++ enc_record segs ++ post) hard) (len pre) =
     ([], Ok (mk_record (b2z (g_type g)) (Z.land (b2z (g_attrs g)) 0x90) true ds))).
  { intros ds D. destruct (extract_complete esc hard pre segs post ds 0 C F D L) as (g & t & E & ->).
    exists g, t. split; [exact E|]. unfold warned. destruct (esc MINOR); reflexivity. }
  inversion H as [g t ds w B D ES W|g t ds B D|sg D|]; subst.
  - destruct (X ds D) as (g' & t' & [= <- <-] & ->). eexists. split; [reflexivity|]. right. right.
    cbn [rec_data]. unfold isencrypted. cbn [rec_attributes]. rewrite bits_90. split; [|split; [exact B|exists w; auto]].
    destruct ES as (d & et & en & em & eo & -> & _). discriminate.
  - destruct (X ds D) as (g' & t' & [= <- <-] & ->). eexists. split; [reflexivity|].
    cbn [rec_data]. unfold isencrypted. cbn [rec_attributes]. rewrite bits_90.
    destruct ds; [left; auto|]. right. left. split; [discriminate|]. auto.
  - destruct (X [] D) as (g' & t' & E & ->). eexists. split; [reflexivity|]. left. auto.
Qed.

Lemma new_set_reads w e : wf_set w -> enc_set e w -> exists s, new_set e = Ok s /\ set_reads w s.
Proof.
  intros Hw He.
  destruct (set_read w e [] Hw He (or_introl eq_refl)) as (s & s' & xs & H1 & H2 & H3 & H4 & H5 & H6 & H7 & H8 & H9 & H10).
  rewrite app_nil_r in H1, H10. exists s. split; [exact H1|]. split; [exact H2|]. exists s'. subst xs. auto 10.
Qed.

Lemma sets_read esc hard recs : forall seen cs pre tail, logical_file seen recs -> Forall2 holds recs cs ->
  len (enc_records recs) < 2 ^ 63 ->
  exists rs sets,
    extract_records esc (mk_stream (pre ++ enc_records recs ++ tail) hard) (offsets_where (fun e => e) (len pre) recs) = ([], Ok rs) /\
    parse_sets esc rs = ([], Ok sets) /\ Forall2 set_reads (metadata cs) sets.
Proof.
  induction recs as [|[e segs] recs IH]; intros seen cs pre tail LF H L; inversion H as [|? c ? cs' Hc Hcs]; subst.
  - exists [], []. cbn. split; [reflexivity|]. split; [reflexivity|constructor].
  - destruct LF as ((C & F & _) & _ & LF). rewrite enc_records_cons, len_app in L. rewrite enc_records_cons.
    pose proof (len_nonneg (enc_record segs)). pose proof (len_nonneg (enc_records recs)).
    destruct (IH (seen || e) cs' (pre ++ enc_record segs) tail LF Hcs) as (rs & sets & E & P & S); [lia|].
    rewrite len_app, <- !app_assoc in E. cbn [offsets_where]. rewrite <- app_assoc.
    destruct e; cbn [app].
    + destruct (holds_extract esc hard pre segs (enc_records recs ++ tail) c C F) as (rec & X & K); [lia|exact Hc|].
      cbn [extract_records]. rewrite X, E. cbn [bind ret app]. unfold metadata. cbn [flat_map].
      destruct K as [(D & ->)|[(D & I & ->)|(D & I & w & -> & ES & W)]].
      * rewrite D. cbn [length Nat.eqb app]. exists rs, sets. auto.
      * destruct (rec_data rec) as [|b0 ds] eqn:RD; [congruence|]. cbn [length Nat.eqb app]. exists ((isencrypted rec, b0 :: ds) :: rs), sets.
        cbn [parse_sets]. rewrite I. auto.
      * destruct (rec_data rec) as [|b0 ds] eqn:RD; [congruence|]. cbn [length Nat.eqb app].
        destruct (new_set_reads w _ W ES) as (s & NS & SR). exists ((isencrypted rec, b0 :: ds) :: rs), (s :: sets).
        cbn [parse_sets]. rewrite I, NS, P. cbn [bind ret app].
        split; [reflexivity|]. split; [reflexivity|]. constructor; [exact SR|exact S].
    + exists rs, sets. split; [exact E|]. split; [exact P|]. inversion Hc; subst. exact S.
Qed.

Lemma data_record_shift pre segs post o : data_record (enc_record segs) 0 o ->
  data_record (pre ++ enc_record segs ++ post) (len pre) o.
Proof.
  assert (R : forall g t ds, record_in (enc_record segs) 0 (g :: t) ds ->
     record_in (pre ++ enc_record segs ++ post) (len pre) (g :: t) ds).
  { intros g t ds (p0 & q0 & E & L0 & H). exists (pre ++ p0), (q0 ++ post). split.
    - rewrite E, <- !app_assoc. reflexivity.
    - rewrite len_app, L0. split; [lia|exact H]. }
  intros H. inversion H as [g t ds e rest o0 c i ty RI|g t ds RI]; subst.
  - eapply dr_owned; [apply R; exact RI|eassumption|eassumption|reflexivity|eassumption].
  - eapply dr_other; [apply R; exact RI|assumption].
Qed.

Lemma data_read recs : forall cs pre tail, Forall2 holds recs cs ->
  exists ws, Forall2 (data_record (pre ++ enc_records recs ++ tail)) (offsets_where negb (len pre) recs) ws /\
    combine (offsets_where negb (len pre) recs) ws = data_at (len pre) recs cs /\ ws = map snd (data_at (len pre) recs cs).
Proof.
  induction recs as [|[e segs] recs IH]; intros cs pre tail H; inversion H as [|? c ? cs' Hc Hcs]; subst.
  - exists []. cbn. repeat split; constructor.
  - destruct (IH cs' (pre ++ enc_record segs) tail Hcs) as (ws & F & E & M).
    rewrite len_app, <- !app_assoc in F. rewrite len_app in E, M. rewrite enc_records_cons, <- app_assoc.
    cbn [offsets_where data_at]. destruct e; cbn [negb app].
    + assert (D : match c with Data o => [(len pre, o)] | _ => [] end = []) by (inversion Hc; reflexivity).
      rewrite D. exists ws. auto.
    + inversion Hc as [| | |? o D]; subst. exists (o :: map snd (data_at (len pre + len (enc_record segs)) recs cs')).
      split; [constructor; [apply data_record_shift; exact D|exact F]|].
      cbn [combine app map snd]. rewrite E. auto.
Qed.

Lemma index_read esc hard recs cs tail : Forall2 holds recs cs ->
  exists idx, findfdata esc (mk_stream (enc_records recs ++ tail) hard) (offsets_where negb 0 recs) [] = ([], Ok idx) /\
    index_reads (data_at 0 recs cs) idx.
Proof.
  intros H. destruct (data_read recs cs [] tail H) as (ws & F & E & M). rewrite len_nil in *. cbn [app] in F.
  destruct (findfdata_spec_acc esc _ hard _ _ F []) as (idx & X & G1 & G2). exists idx. split; [exact X|]. split.
  - intros ty o c i k T O K. rewrite (G1 (ty, o, c, i) k T O K), E. reflexivity.
  - intros k D. destruct (G2 k D) as (x & I & K). destruct x as [[[ty o] c] i]. exists ty, o, c, i. rewrite <- M. auto.
Qed.

(** ** One logical file *)
Section one.
Variables (esc : severity -> bool) (tif : bool).

Lemma parse_file st vs recs tail cs : s_data (vs_stream vs) = enc_records recs ++ tail -> len (s_data (vs_stream vs)) < 2 ^ 63 ->
  logical_file false recs -> Forall2 holds recs cs ->
  (forall next', ending tif vs recs tail next' ->
   exists f, parse_logical_file esc tif st vs = ([], Ok (with_file (with_next st next') f)) /\ file_reads (di_sul st, vs, recs, cs) f) /\
  (damaged vs recs tail ->
   (esc CRITICAL = false -> exists next' f, parse_logical_file esc tif st vs =
     ([CRITICAL], Ok (with_file (with_next (ended st) next') f)) /\ file_reads (di_sul st, vs, recs, cs) f) /\
   (esc CRITICAL = true -> parse_logical_file esc tif st vs = ([CRITICAL], Exn))).
Proof.
  intros E L LF H. destruct vs as [[data hard] tell]. cbn [vs_stream s_data s_hard vs_ptell] in *. subst data.
  rewrite len_app in L. pose proof (len_nonneg tail).
  destruct (sets_read esc hard recs false cs [] tail LF H) as (rs & sets & X & P & S); [lia|]. cbn [app] in X. rewrite len_nil in X.
  destruct (index_read esc hard recs cs tail H) as (idx & FD & IR).
  unfold parse_logical_file. cbn [vs_stream vs_ptell]. split.
  - intros next' EN. eexists. rewrite (at_complete esc hard recs tail LF).
    + cbn [bind ret explicits implicits broken]. rewrite X. cbn [bind ret]. rewrite P. cbn [bind ret]. rewrite FD. cbn [bind ret app].
      split; [f_equal; f_equal; f_equal; f_equal|split; [reflexivity|split; [reflexivity|split; [exact S|exact IR]]]].
      inversion EN as [-> HH|g rest -> SF FH SE]; subst; cbn [vs_ptell]; [reflexivity|].
      cbn [enc_segment app]. destruct tif; lia.
    + inversion EN as [-> HH|g rest -> SF FH SE]; subst; [left; auto|right; exists g, rest; auto].
  - intros [NC NR]. cbn [vs_stream s_hard] in *.
    destruct (at_damaged esc hard recs tail LF NC NR) as (stop & eof & ->). split; intros EC; rewrite EC; [|reflexivity].
    do 2 eexists. cbn [bind ret explicits implicits broken]. rewrite X. cbn [bind ret]. rewrite P. cbn [bind ret]. rewrite FD. cbn [bind ret app].
    split; [reflexivity|]. split; [reflexivity|split; [reflexivity|split; [exact S|exact IR]]].
Qed.
End one.
