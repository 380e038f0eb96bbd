(** C14 (stream level) and C18-C22: locating, extracting and indexing records. *)
From Verif Require Import Bytes Stream DlisTypes SpecTypes DlisCore SpecCore DlisIo SpecIo IoProofs IoProofs2.
Local Open Scope Z_scope.

(** ** C14 (stream level) *)
(** The label is found in silence iff it starts at the current position; further
    on (1700 bytes) only when expected, at its first occurrence and with a MINOR
    message.  "RECORD" is preceded by the 9 other bytes of the label. *)
Theorem C14_open_at_label :
  forall esc s p expected l q, 0 <= p ->
  findsul esc s p expected = (l, Ok q) <->
  (l = [] /\ q = p /\ (s_hard s = false \/ p + 15 <= len (s_data s)) /\
   first_occurrence (text "RECORD") (window (s_data s) p 15) 9) \/
  (l = [MINOR] /\ esc MINOR = false /\ expected = true /\ p < q /\
   (s_hard s = false \/ p + 1700 <= len (s_data s)) /\
   first_occurrence (text "RECORD") (window (s_data s) p 1700) (Z.to_nat (q - p + 9))).
Proof. exact findsul_spec. Qed.
Print Assumptions C14_open_at_label.

Theorem C14_open_at_visible_record :
  forall esc s p l q, 0 <= p ->
  findvrl esc s p = (l, Ok q) <->
  (l = [] /\ q = p /\ (s_hard s = false \/ p + 4 <= len (s_data s)) /\
   first_occurrence [xff; x01] (window (s_data s) p 4) 2) \/
  (l = [MINOR] /\ esc MINOR = false /\ p < q /\
   (s_hard s = false \/ p + 200 <= len (s_data s)) /\
   first_occurrence [xff; x01] (window (s_data s) p 200) (Z.to_nat (q - p + 2))).
Proof. exact findvrl_spec. Qed.
Print Assumptions C14_open_at_visible_record.

(** in all other cases an exception is raised *)
Theorem C14_open_ends :
  forall esc s p expected,
  (exists l, findsul esc s p expected = (l, Exn) \/ exists q, findsul esc s p expected = (l, Ok q)) /\
  (exists l, findvrl esc s p = (l, Exn) \/ exists q, findvrl esc s p = (l, Ok q)).
Proof. exact search_ends. Qed.
Print Assumptions C14_open_ends.

Example C14_open_example :
  let label := text "   1V1.00RECORD 8192" in
  findsul (fun _ => false) (mk_stream label false) 0 false = ([], Ok 0) /\
  findsul (fun _ => false) (mk_stream (text "junk" ++ label) false) 0 true = ([MINOR], Ok 4) /\
  findsul (fun _ => false) (mk_stream (text "junk" ++ label) false) 0 false = ([], Exn) /\
  findvrl (fun _ => false) (mk_stream [x00; x00; x20; x00; xff; x01] false) 0 = ([MINOR], Ok 2).
Proof. vm_compute. repeat split. Qed.

(** ** C18: extraction *)
(** What a producer wrote comes back, whatever surrounds it.  [n] counts segments
    whose trailer is announced to cover the segment header too: each gives a MINOR
    message, which the user may have turned into an exception. *)
Theorem C18_roundtrip :
  forall esc hard pre segs post ds n,
  chained segs -> Forall seg_fits segs -> record_data segs ds n -> len (enc_record segs) < 2 ^ 63 ->
  exists g t, segs = g :: t /\
  extract esc (mk_stream (pre ++ enc_record segs ++ post) hard) (len pre) =
    if esc MINOR
    then match n with
         | O => ([], Ok (mk_record (b2z (g_type g)) (Z.land (b2z (g_attrs g)) 0x90) true ds))
         | S _ => ([MINOR], Exn)
         end
    else (repeat MINOR n, Ok (mk_record (b2z (g_type g)) (Z.land (b2z (g_attrs g)) 0x90) true ds)).
Proof. exact extract_complete. Qed.
Print Assumptions C18_roundtrip.

(** Conversely, on any stream, whatever is returned stems from a chain of segments
    stored at that offset; when pad counts lie inside their segments the data are
    exactly what RP66 defines. *)
Theorem C18_sound :
  forall esc s tell l r,
  0 <= tell -> len (s_data s) < 2 ^ 63 -> extract esc s tell = (l, Ok r) ->
  exists g t pre post ks,
    s_data s = pre ++ enc_record (g :: t) ++ post /\ len pre = tell /\
    chained (g :: t) /\ Forall seg_fits (g :: t) /\
    Forall2 keeps (g :: t) ks /\ rec_data r = concat ks /\
    rec_type r = b2z (g_type g) /\ rec_attributes r = Z.land (b2z (g_attrs g)) 0x90 /\
    (Forall trailer_inside (g :: t) -> exists n, record_data (g :: t) (rec_data r) n /\ l = repeat MINOR n).
Proof.
  intros esc s tell l r Ht HL E. unfold extract, extract_n in E.
  apply extract_sound_loop in E as (segs & pre & post & ks & E & Lp & C & F & K & D & _ & (g & t & -> & T & A) & R);
    [|exact Ht| | ].
  - rewrite app_nil_l in D. exists g, t, pre, post, ks. cbv zeta in T, A. cbn [fst snd] in T, A. rewrite D. auto 10.
  - change (2 ^ 63) with 9223372036854775808 in *. lia.
  - exact Ht.
Qed.
Print Assumptions C18_sound.

(** The loop ends, and memory outside the record is only ever touched for a
    segment that is too short to hold its own pad count. *)
Theorem C18_terminates :
  forall esc s tell limit l, 0 <= tell -> extract_n esc s tell limit <> (l, Fuel).
Proof. exact extract_n_fuel. Qed.
Print Assumptions C18_terminates.

Theorem C18_in_bounds :
  forall esc s tell limit l, 0 <= tell -> extract_n esc s tell limit = (l, UB) ->
  exists pre g post, s_data s = pre ++ enc_segment g ++ post /\ tell <= len pre /\ seg_fits g /\ ~ trailer_inside g.
Proof. exact (fun esc s tell limit l H => extract_loop_UB _ esc s tell limit [] None l H). Qed.
Print Assumptions C18_in_bounds.

(** two segments: padding (2 bytes) with checksum, then plain *)
Definition C18_segs : list segment :=
  [mk_seg xa5 x03 (text "abc" ++ [x00; x02] ++ text "cs"); mk_seg xc0 x03 (text "def")].
Example C18_example :
  chained C18_segs /\ Forall seg_fits C18_segs /\ record_data C18_segs (text "abcdef") 0 /\
  extract (fun _ => false) (mk_stream (text "xx" ++ enc_record C18_segs ++ text "yy") false) 2 =
    ([], Ok (mk_record 3 0x80 true (text "abcdef"))).
Proof.
  split; [vm_compute; auto|]. split; [repeat constructor|]. split; [|vm_compute; reflexivity].
  apply (rd_cons _ _ (text "abc") false (text "def") 0).
  - apply (pd_trailer _ (text "abc") [x00; x02] (text "cs")); [reflexivity|reflexivity|].
    exists (text "abc" ++ [x00]), x02. split; reflexivity.
  - apply (rd_cons _ _ (text "def") false [] 0); [|constructor].
    apply (pd_trailer _ (text "def") [] []); reflexivity.
Qed.

(** ** C19: reading a prefix *)
Theorem C19_prefix :
  forall esc s tell n l r,
  0 <= tell -> 0 <= n -> len (s_data s) < 2 ^ 63 -> extract esc s tell = (l, Ok r) ->
  exists l1 l2, l = l1 ++ l2 /\
  extract_n esc s tell n =
    (l1, Ok (mk_record (rec_type r) (rec_attributes r) (rec_consistent r) (firstn (Z.to_nat n) (rec_data r)))).
Proof.
  intros esc s tell n l r Ht Hn HL E. unfold extract, extract_n in *.
  apply (extract_limit_loop _ _ _ _ _ n) in E; [exact E | exact Ht | | exact Ht | exact Hn].
  change (2 ^ 63) with 9223372036854775808 in *. lia.
Qed.
Print Assumptions C19_prefix.

Example C19_example :
  let s := mk_stream (enc_record C18_segs) false in
  extract (fun _ => false) s 0 = ([], Ok (mk_record 3 0x80 true (text "abcdef"))) /\
  extract_n (fun _ => false) s 0 2 = ([], Ok (mk_record 3 0x80 true (text "ab"))) /\
  extract_n (fun _ => false) s 0 5 = ([], Ok (mk_record 3 0x80 true (text "abcde"))).
Proof. vm_compute. repeat split. Qed.

(** ** C20: indexing *)
Theorem C20_index :
  forall esc hard recs tail,
  logical_file false recs ->
  (tail = [] /\ hard = false) \/
  (exists g rest, tail = enc_segment g ++ rest /\ seg_fits g /\ file_header_seg g /\ existsb fst recs = true) ->
  findoffsets esc (mk_stream (enc_records recs ++ tail) hard) =
  ([], Ok (mk_offsets (offsets_where (fun e => e) 0 recs) (offsets_where negb 0 recs) [])).
Proof. exact index_complete. Qed.
Print Assumptions C20_index.

(** what is indexed on an arbitrary stream: a maximal run of records from the
    start; complaint iff it does not end cleanly *)
Theorem C20_any_stream :
  forall esc s,
  exists recs stop,
    records_at (s_data s) (s_hard s) false 0 stop recs /\
    let ex := starts_where (fun e => e) recs in
    let im := starts_where negb recs in
    let seen := existsb snd recs in
    ((clean_end (s_data s) (s_hard s) seen stop /\
      findoffsets esc s = ([], Ok (mk_offsets ex im []))) \/
     (~ clean_end (s_data s) (s_hard s) seen stop /\
      (forall q e, ~ record_at (s_data s) (s_hard s) seen stop q e) /\
      findoffsets esc s = ([CRITICAL], if esc CRITICAL then Exn else Ok (mk_offsets ex im [stop])))).
Proof. exact findoffsets_total. Qed.
Print Assumptions C20_any_stream.

Definition fhlr : list segment := [mk_seg x80 x00 (text "header")].
Definition iflr (d : bytes) : list segment := [mk_seg x20 x00 d; mk_seg x40 x00 (text "!")].
Example C20_example :
  let recs := [(true, fhlr); (false, iflr (text "one")); (false, iflr [])] in
  logical_file false recs /\
  findoffsets (fun _ => false) (mk_stream (enc_records recs ++ enc_record fhlr ++ text "rest") true) =
    ([], Ok (mk_offsets [0] [10; 22] [])).
Proof.
  split; [|vm_compute; reflexivity].
  unfold logical_file, wf_record, fhlr, iflr, file_header, file_header_seg. cbn [tl chained].
  repeat (first [split | constructor | discriminate | intros]); try reflexivity.
  all: intros (H1 & H2 & H3); try discriminate H2; try discriminate H1.
Qed.

(** ** C21: truncation *)
(** cut inside a record by a medium that reports it (a truncated visible record
    or tape block): everything before is indexed, the incomplete record and
    nothing else is reported as broken *)
Theorem C21_truncated_partial :
  forall esc before after e segs g k,
  let r := segs ++ [g] in
  let file := enc_records (before ++ (e, r) :: after) in
  let start := len (enc_records before) in
  logical_file false (before ++ (e, r) :: after) ->
  start <= k < start + len (enc_record r) ->
  findoffsets esc (mk_stream (firstn (Z.to_nat k) file) true) =
  ([CRITICAL], if esc CRITICAL then Exn
     else Ok (mk_offsets (offsets_where (fun e => e) 0 before) (offsets_where negb 0 before) [start])).
Proof. exact index_cut_hard. Qed.
Print Assumptions C21_truncated_partial.

(** cut where the medium just ends *)
Theorem C21_short :
  forall esc before after e segs g k,
  let r := segs ++ [g] in
  let file := enc_records (before ++ (e, r) :: after) in
  let start := len (enc_records before) in
  logical_file false (before ++ (e, r) :: after) ->
  start <= k < start + len (enc_record r) ->
  findoffsets esc (mk_stream (firstn (Z.to_nat k) file) false) =
  if k =? start (* nothing of r is left *)
  then ([], Ok (mk_offsets (offsets_where (fun e => e) 0 before) (offsets_where negb 0 before) []))
  else if start + len (enc_record segs) + 4 <=? k (* only the last payload is incomplete *)
  then ([], Ok (mk_offsets (offsets_where (fun e => e) 0 (before ++ [(e, r)]))
                           (offsets_where negb 0 (before ++ [(e, r)])) []))
  else ([CRITICAL], if esc CRITICAL then Exn
     else Ok (mk_offsets (offsets_where (fun e => e) 0 before) (offsets_where negb 0 before) [start])).
Proof. exact index_cut_soft. Qed.
Print Assumptions C21_short.

(** so a record cut in its last payload is indexed although it cannot be read *)
Theorem C21_incomplete_indexed_refuted :
  exists recs k,
  logical_file false recs /\ 0 <= k < len (enc_records recs) /\
  let s := mk_stream (firstn (Z.to_nat k) (enc_records recs)) false in
  findoffsets (fun _ => false) s = ([], Ok (mk_offsets [0] [] [])) /\
  extract (fun _ => false) s 0 = ([], Exn).
Proof.
  exists [(true, fhlr)], 7. split.
  - cbn. unfold wf_record, fhlr. repeat split; repeat constructor; discriminate.
  - vm_compute. repeat split; discriminate.
Qed.
Print Assumptions C21_incomplete_indexed_refuted.

Example C21_example :
  let recs := [(true, fhlr); (false, iflr (text "one"))] in
  let s k := firstn k (enc_records recs) in
  findoffsets (fun _ => false) (mk_stream (s 18%nat) true) = ([CRITICAL], Ok (mk_offsets [0] [] [10])) /\
  findoffsets (fun _ => false) (mk_stream (s 17%nat) false) = ([CRITICAL], Ok (mk_offsets [0] [] [10])).
Proof. vm_compute. split; reflexivity. Qed.

(** ** C22: attributing data records *)
Theorem C22_index :
  forall esc data hard tells owners,
  Forall2 (data_record data) tells owners ->
  exists idx,
    findfdata esc (mk_stream data hard) tells [] = ([], Ok idx) /\
    (forall ty o c i k,
       ty = text "FRAME" \/ ty = text "NO-FORMAT" -> 0 <= o < 2 ^ 31 ->
       py_fingerprint ty i o c = FpOk k ->
       index_get k idx = offsets_of (ty, o, c, i) (combine tells owners)) /\
    (forall k, index_get k idx <> [] ->
       exists ty o c i, In (Some (ty, o, c, i)) owners /\ py_fingerprint ty i o c = FpOk k).
Proof.
  intros esc data hard tells owners H.
  destruct (findfdata_spec_acc esc data hard tells owners H []) as (idx & E & G1 & G2).
  exists idx. split; [exact E|]. split.
  - intros ty o c i k T O K. exact (G1 (ty, o, c, i) k T O K).
  - intros k N. destruct (G2 k N) as ([[[ty o] c] i] & I & K). exists ty, o, c, i. split; [exact I | exact K].
Qed.
Print Assumptions C22_index.

(** a damaged record costs a CRITICAL message and nothing else *)
Theorem C22_damaged_skipped :
  forall esc s t1 bad t2 l1 l2 lb xs idx,
  findfdata esc s t1 [] = (l1, Ok xs) -> findfdata esc s t2 xs = (l2, Ok idx) ->
  (extract_n esc s bad 262 = (lb, Exn) \/
   exists r, extract_n esc s bad 262 = (lb, Ok r) /\ isencrypted r = false /\ (rec_type r = 0 \/ rec_type r = 1) /\
     rec_data r <> [] /\ (forall e rest o c i, rec_data r = e ++ rest -> ~ rp66_obname e o c i)) ->
  findfdata esc s (t1 ++ t2) [] = (l1 ++ l2, Ok idx) /\
  findfdata esc s (t1 ++ bad :: t2) [] =
    if esc CRITICAL then (l1 ++ lb ++ [CRITICAL], Exn) else (l1 ++ lb ++ [CRITICAL] ++ l2, Ok idx).
Proof. exact findfdata_damaged. Qed.
Print Assumptions C22_damaged_skipped.

Definition C22_rec (ty : byte) (nm : bytes) : list segment :=
  [mk_seg x00 ty ([x02; x00; z2b (len nm)] ++ nm ++ text "samples")].
Definition C22_data : bytes :=
  enc_record (C22_rec x00 (text "A")) ++ enc_record (C22_rec x00 (text "B")) ++
  enc_record (C22_rec x02 (text "A")) ++ enc_record (C22_rec x00 (text "A")).
Example C22_example :
  data_record C22_data 0 (Some (text "FRAME", 2, 0, text "A")) /\
  (exists idx, findfdata (fun _ => false) (mk_stream C22_data false) [0; 15; 30; 45] [] = ([], Ok idx) /\
   index_get (text "T.FRAME-I.A-O.2-C.0") idx = [0; 45] /\
   index_get (text "T.FRAME-I.B-O.2-C.0") idx = [15]).
Proof.
  split.
  - eapply (dr_owned _ _ (mk_seg x00 x00 ([x02; x00; x01] ++ text "A" ++ text "samples")) [] _ [x02; x00; x01; "A"%byte] (text "samples")); [|reflexivity|left; split; reflexivity|reflexivity|].
    + exists [], (skipn 15 C22_data). split; [reflexivity|]. split; [reflexivity|]. split; [reflexivity|].
      split; [repeat constructor|].
      apply (rd_cons _ _ ([x02; x00; x01] ++ text "A" ++ text "samples") false [] 0); [|constructor].
      apply (pd_trailer _ ([x02; x00; x01] ++ text "A" ++ text "samples") [] []); reflexivity.
    + apply (obname_enc [x02] 2 x00 [x01; "A"%byte] (text "A")); [apply (uvari_1 x02); reflexivity | apply (ident_enc x01 (text "A")); reflexivity].
  - eexists. vm_compute. repeat split.
Qed.
