(** C28-C32: curve data.  See SpecFdata.v for what a row is. *)
From Verif Require Import Bytes BytesProofs DlisTypes SpecTypes TypesProofs DlisCore Stream DlisIo SpecIo
  DlisRecords SpecRecords PyBase DlisFdata SpecFdata FdataProofs FdataProofs2 FdataProofs3.
Local Open Scope Z_scope.

Definition quiet : severity -> bool := fun _ => false.
(** a file with the given records, each in one segment of type 0 *)
Definition file_of (recs : list bytes) : bytes := enc_record (map (mk_seg x00 x00) recs).
Definition nothing_after : Z -> bytes := fun _ => [].
(** object name 1.0.F *)
Definition F_name : bytes := [x01; x00; x01; "F"%byte].
Lemma F_is_name : rp66_obname F_name 1 0 (text "F").
Proof. apply (obname_enc [x01] 1 x00 [x01; "F"%byte]); [apply (uvari_1 x01); reflexivity | constructor; reflexivity]. Qed.

(** ** C28: one row per frame, in recorded order *)

(** The arrays of two lists of records are those of the lists one after the other:
    every record contributes its own rows, independently of how full the array is. *)
Theorem C28_append :
  forall esc s after pre fmt post n ts1 ts2,
  row_width fmt n ->
  read_fdata esc s after pre fmt post n (ts1 ++ ts2) =
  (let* (k1, r1) := read_fdata esc s after pre fmt post n ts1 in
   let* (k2, r2) := read_fdata esc s after pre fmt post n ts2 in ret (k1 ++ k2, r1 + r2)).
Proof. exact (fun esc s after pre fmt post n ts1 ts2 => read_fdata_app n fmt esc s after pre post ts1 ts2). Qed.
Print Assumptions C28_append.

(** Well-formed records give exactly their rows, in order. *)
Theorem C28_rows :
  forall esc data hard after pre fmt post n tells kss,
  row_width fmt n -> pre ++ fmt ++ post <> [] -> len data < 2 ^ 63 ->
  Forall2 (frame_record_in data pre fmt post) tells kss ->
  read_fdata esc (mk_stream data hard) after pre fmt post n tells =
  ([], Ok (concat (concat kss), Z.of_nat (length (concat kss)))).
Proof. exact read_ok. Qed.
Print Assumptions C28_rows.

(** Reading ends, whatever the records hold. *)
Theorem C28_terminates :
  forall esc s after pre fmt post n tells l,
  row_width fmt n -> pre ++ fmt ++ post <> [] -> Forall (Z.le 0) tells ->
  read_fdata esc s after pre fmt post n tells <> (l, Fuel).
Proof. exact read_terminates. Qed.
Print Assumptions C28_terminates.

(** two records with two and three rows: a USHORT and a SNORM *)
Definition C28_r1 : bytes := F_name ++ [x01; x00; x02; x03; xff; xfe].
Definition C28_r2 : bytes := F_name ++ [x05; x00; x06; x07; x00; x08; x09; x00; x0a].
Definition raw (l : bytes) : list cell := map Raw l.
Definition C28_k1 := [raw [x01; x02; x00]; raw [x03; xfe; xff]].
Definition C28_k2 := [raw [x05; x06; x00]; raw [x07; x08; x00]; raw [x09; x0a; x00]].
Lemma ushort_sample b : sample "u" [b] (raw [b]).
Proof.
  exists 15, (VNum (b2z b)). split; [split; [lia | reflexivity]|]. split; [constructor|].
  apply (im_num 15 1 _ [b]); [cbn; tauto|]. split; [reflexivity|]. cbn [le]. pose proof (b2z_range b).
  change (256 ^ Z.of_nat 1) with 256. rewrite Z.mod_small by lia. lia.
Qed.
Lemma snorm_sample b0 b1 z : twos_complement 16 (u16 b0 b1) z -> z mod 65536 = u16 b0 b1 ->
  sample "D" [b0; b1] (raw [b1; b0]).
Proof.
  intros T E. exists 13, (VNum z). split; [split; [lia | reflexivity]|]. split; [constructor; exact T|].
  apply (im_num 13 2 _ [b1; b0]); [cbn; tauto|]. split; [reflexivity|].
  change (256 ^ Z.of_nat 2) with 65536. rewrite E. unfold u16. cbn [le]. lia.
Qed.
Lemma uD_row a b0 b1 z : twos_complement 16 (u16 b0 b1) z -> z mod 65536 = u16 b0 b1 ->
  row (text "uD") [a; b0; b1] (raw [a; b1; b0]).
Proof.
  intros T E. apply (row_cons "u" [a] (raw [a]) (text "D") [b0; b1] (raw [b1; b0])); [apply ushort_sample|].
  apply (row_cons "D" [b0; b1] (raw [b1; b0]) [] [] []); [exact (snorm_sample _ _ _ T E) | constructor].
Qed.
Lemma uD_rows a b0 b1 z es ks : twos_complement 16 (u16 b0 b1) z -> z mod 65536 = u16 b0 b1 ->
  rows [] (text "uD") [] es ks -> rows [] (text "uD") [] (a :: b0 :: b1 :: es) (raw [a; b1; b0] :: ks).
Proof.
  intros T E R. apply (rows_cons [] (text "uD") [] [] [a; b0; b1] [] _ es ks); [constructor | exact (uD_row _ _ _ _ T E) | constructor | exact R].
Qed.
Lemma F_record pre fmt post es ks : rows pre fmt post es ks -> frame_record pre fmt post (F_name ++ es) ks.
Proof. intros R. exists F_name, 1, 0, (text "F"), es. split; [reflexivity|]. split; [exact F_is_name | exact R]. Qed.
Lemma one_segment before ds behind : 4 + len ds < 65536 ->
  plain_record (before ++ enc_segment (mk_seg x00 x00 ds) ++ behind) (len before) ds.
Proof.
  intros L. exists (mk_seg x00 x00 ds), []. split; [|reflexivity]. exists before, behind.
  split; [unfold enc_record; cbn [map concat]; rewrite app_nil_r; reflexivity|].
  split; [reflexivity|]. split; [reflexivity|]. split; [constructor; [exact L | constructor]|].
  rewrite <- (app_nil_r ds) at 2. apply (rd_cons _ _ ds false [] 0); [|constructor].
  pose proof (pd_trailer 0 ds [] [] eq_refl eq_refl) as P. cbn [app] in P. rewrite app_nil_r in P. apply P. reflexivity.
Qed.
Ltac tc := split; [split; [apply Z.leb_le; reflexivity | apply Z.ltb_lt; reflexivity] | reflexivity].
Lemma uD_width : row_width (text "uD") 3.
Proof.
  apply (rw_cons "u" 1 (text "D") 2); [exists 14%nat; split; reflexivity|].
  apply (rw_cons "D" 2 [] 0); [exists 12%nat; split; reflexivity | constructor].
Qed.
Lemma C28_rows1 : rows [] (text "uD") [] [x01; x00; x02; x03; xff; xfe] C28_k1.
Proof. apply (uD_rows _ _ _ 2); [tc|reflexivity|]. apply (uD_rows _ _ _ (-2)); [tc|reflexivity|]. constructor. Qed.
Lemma C28_rows2 : rows [] (text "uD") [] [x05; x00; x06; x07; x00; x08; x09; x00; x0a] C28_k2.
Proof.
  apply (uD_rows _ _ _ 6); [tc|reflexivity|]. apply (uD_rows _ _ _ 8); [tc|reflexivity|].
  apply (uD_rows _ _ _ 10); [tc|reflexivity|]. constructor.
Qed.
Definition C28_data : bytes := file_of [C28_r1; C28_r2].
Lemma C28_in : Forall2 (frame_record_in C28_data [] (text "uD") []) [0; 14] [C28_k1; C28_k2].
Proof.
  constructor; [|constructor; [|constructor]].
  - exists C28_r1. split; [apply (one_segment [] C28_r1 (enc_segment (mk_seg x00 x00 C28_r2))); reflexivity|].
    apply F_record, C28_rows1.
  - exists C28_r2. split; [apply (one_segment (enc_segment (mk_seg x00 x00 C28_r1)) C28_r2 []); reflexivity|].
    apply F_record, C28_rows2.
Qed.
Example C28_example :
  row_width (text "uD") 3 /\
  Forall2 (frame_record_in C28_data [] (text "uD") []) [0; 14] [C28_k1; C28_k2] /\
  read_fdata quiet (mk_stream C28_data false) nothing_after [] (text "uD") [] 3 [0; 14] =
    ([], Ok (raw [x01; x02; x00; x03; xfe; xff; x05; x06; x00; x07; x08; x00; x09; x0a; x00], 5)).
Proof. split; [exact uD_width|]. split; [exact C28_in|]. vm_compute. reflexivity. Qed.

(** ** C29: damage *)

(** A record that ends in a row that cannot be completed, between any other
    records: its own complete rows and all others are there, and one message. *)
Theorem C29_damaged_partial :
  forall esc data hard after fmt n ts1 tell ts2 ds ks l1 k1 r1 l2 k2 r2,
  row_width fmt n -> len data < 2 ^ 63 ->
  plain_record data tell ds -> broken_record fmt ds ks -> (16 <= length (after tell))%nat ->
  read_fdata esc (mk_stream data hard) after [] fmt [] n ts1 = (l1, Ok (k1, r1)) ->
  read_fdata esc (mk_stream data hard) after [] fmt [] n ts2 = (l2, Ok (k2, r2)) ->
  read_fdata esc (mk_stream data hard) after [] fmt [] n (ts1 ++ tell :: ts2) =
  if esc CRITICAL then (l1 ++ [CRITICAL], Exn)
  else (l1 ++ CRITICAL :: l2, Ok (k1 ++ concat ks ++ k2, r1 + (Z.of_nat (length ks) + r2))).
Proof.
  intros esc data hard after fmt n ts1 tell ts2 ds ks l1 k1 r1 l2 k2 r2 W L P B A E1 E2.
  rewrite (C28_append _ _ _ _ _ _ _ _ _ W), E1. change (tell :: ts2) with ([tell] ++ ts2).
  rewrite (C28_append _ _ _ _ _ _ _ _ _ W), (read_broken _ _ _ _ _ _ _ _ _ W L P B A), E2.
  destruct (esc CRITICAL); cbn [bind ret app]; rewrite ?app_nil_r; reflexivity.
Qed.
Print Assumptions C29_damaged_partial.

(** A record that cannot be read at all, or is encrypted, costs a message and
    nothing else. *)
Theorem C29_unreadable :
  forall esc s after pre fmt post n ts1 tell ts2 lb l1 k1 r1 l2 k2 r2,
  row_width fmt n ->
  extract esc s tell = (lb, Exn) \/
    (exists rec, extract esc s tell = (lb, Ok rec) /\ isencrypted rec = true) ->
  read_fdata esc s after pre fmt post n ts1 = (l1, Ok (k1, r1)) ->
  read_fdata esc s after pre fmt post n ts2 = (l2, Ok (k2, r2)) ->
  read_fdata esc s after pre fmt post n (ts1 ++ tell :: ts2) =
  if esc CRITICAL then (l1 ++ lb ++ [CRITICAL], Exn)
  else (l1 ++ lb ++ CRITICAL :: l2, Ok (k1 ++ k2, r1 + r2)).
Proof.
  intros esc s after pre fmt post n ts1 tell ts2 lb l1 k1 r1 l2 k2 r2 W D E1 E2.
  rewrite (C28_append _ _ _ _ _ _ _ _ _ W), E1. change (tell :: ts2) with ([tell] ++ ts2).
  rewrite (C28_append _ _ _ _ _ _ _ _ _ W), E2.
  assert (E : read_fdata esc s after pre fmt post n [tell] =
    if esc CRITICAL then (lb ++ [CRITICAL], Exn) else (lb ++ [CRITICAL], Ok ([], 0))).
  { destruct D as [D|(rec & D & I)]; [exact (read_unreadable _ _ _ _ _ _ _ _ _ W D) | exact (read_encrypted _ _ _ _ _ _ _ _ _ _ W D I)]. }
  rewrite E. destruct (esc CRITICAL); cbn [bind ret app]; rewrite ?app_nil_r, <- ?app_assoc; reflexivity.
Qed.
Print Assumptions C29_unreadable.

(** Unless escalated, no damage of any kind makes the call raise. *)
Theorem C29_no_exception :
  forall esc s after pre fmt post n tells l,
  row_width fmt n -> esc CRITICAL = false ->
  read_fdata esc s after pre fmt post n tells <> (l, Exn).
Proof. exact read_no_exn. Qed.
Print Assumptions C29_no_exception.

(** the second row of this record lacks its last byte *)
Definition C29_bad : bytes := F_name ++ [x01; x00; x02; x03; xff].
Definition C29_data : bytes := file_of [C28_r1; C29_bad; C28_r2].
Definition zeros_after : Z -> bytes := fun _ => repeat x00 16.
Lemma C29_broken : broken_record (text "uD") C29_bad [raw [x01; x02; x00]].
Proof.
  exists F_name, 1, 0, (text "F"), [x01; x00; x02], [x03; xff].
  split; [reflexivity|]. split; [exact F_is_name|].
  split; [apply (uD_rows _ _ _ 2); [tc|reflexivity|constructor]|]. split; [|discriminate].
  apply (br_later "u" [x03] (raw [x03]) (text "D") [xff]); [apply ushort_sample|].
  apply (br_cut 13 "D" (VNum (-256)) [xff] [x00] []); [split; [lia | reflexivity] | cbn; tauto | | discriminate].
  constructor. tc.
Qed.
Example C29_example :
  plain_record C29_data 14 C29_bad /\ broken_record (text "uD") C29_bad [raw [x01; x02; x00]] /\
  read_fdata quiet (mk_stream C29_data false) zeros_after [] (text "uD") [] 3 [0; 14; 27] =
    ([CRITICAL], Ok (raw [x01; x02; x00; x03; xfe; xff;
                          x01; x02; x00;
                          x05; x06; x00; x07; x08; x00; x09; x0a; x00], 6)).
Proof.
  split; [apply (one_segment (enc_segment (mk_seg x00 x00 C28_r1)) C29_bad (enc_segment (mk_seg x00 x00 C28_r2))); reflexivity|].
  split; [exact C29_broken|]. vm_compute. reflexivity.
Qed.

(** Whatever a record holds: the rows of the array are exactly the rows at the
    start of its data.  Either the data is used up, or what is left does not start
    with a row and there is one message.  No row is invented or lost. *)
Theorem C29_exact :
  forall esc data hard after pre fmt post n tell en o c i body l k r,
  row_width fmt n -> len data < 2 ^ 63 ->
  plain_record data tell (en ++ body) -> rp66_obname en o c i ->
  read_fdata esc (mk_stream data hard) after pre fmt post n [tell] = (l, Ok (k, r)) ->
  exists es t ks, body = es ++ t /\ rows pre fmt post es ks /\ k = concat ks /\ r = Z.of_nat (length ks) /\
    (t = [] /\ l = [] \/
     t <> [] /\ l = [CRITICAL] /\
     forall e1 e2 e3 k t', skipped pre e1 -> row fmt e2 k -> skipped post e3 -> t <> (e1 ++ e2 ++ e3) ++ t').
Proof. exact read_exact. Qed.
Print Assumptions C29_exact.

(** a text cut short: the row is dropped, whatever memory lies behind the record *)
Example C29_exact_example :
  read_fdata quiet (mk_stream (file_of [F_name ++ [x01; "a"%byte; x03; "b"%byte]]) false) (fun _ => text "XX")
    [] (text "s") [] 1020 [0] = ([CRITICAL], Ok (ident_cells (text "a"), 1)).
Proof. vm_compute. reflexivity. Qed.

(** But memory behind the record is read before that is noticed: text columns
    have no bounds check of their own. *)
Theorem C29_in_bounds_refuted :
  exists data ds fmt n tell,
  row_width fmt n /\ plain_record data tell ds /\
  read_fdata quiet (mk_stream data false) nothing_after [] fmt [] n [tell] = ([], UB).
Proof.
  exists (file_of [F_name ++ [x03; "a"%byte]]), (F_name ++ [x03; "a"%byte]), (text "s"), 1020, 0.
  split; [apply (rw_cons "s" 1020 [] 0); [exists 18%nat; split; reflexivity | constructor]|].
  split; [apply (one_segment [] _ []); reflexivity|]. vm_compute. reflexivity.
Qed.
Print Assumptions C29_in_bounds_refuted.

(** ** C30: columns *)
Theorem C30_projection_partial :
  forall esc data hard after pre fmt post a n m tells kss,
  row_width pre a -> row_width fmt n -> row_width (pre ++ fmt ++ post) m ->
  pre ++ fmt ++ post <> [] -> len data < 2 ^ 63 ->
  Forall2 (frame_record_in data [] (pre ++ fmt ++ post) []) tells kss ->
  let rows := concat kss in
  read_fdata esc (mk_stream data hard) after [] (pre ++ fmt ++ post) [] m tells =
    ([], Ok (concat rows, Z.of_nat (length rows))) /\
  read_fdata esc (mk_stream data hard) after pre fmt post n tells =
    ([], Ok (concat (map (columns a n) rows), Z.of_nat (length rows))).
Proof. exact read_project. Qed.
Print Assumptions C30_projection_partial.

Example C30_example :
  row_width (text "u") 1 /\ row_width (text "D") 2 /\ row_width (text "u" ++ text "D" ++ []) 3 /\
  Forall2 (frame_record_in C28_data [] (text "u" ++ text "D" ++ []) []) [0; 14] [C28_k1; C28_k2] /\
  read_fdata quiet (mk_stream C28_data false) nothing_after (text "u") (text "D") [] 2 [0; 14] =
    ([], Ok (raw [x02; x00; xfe; xff; x06; x00; x08; x00; x0a; x00], 5)).
Proof.
  split; [apply (rw_cons "u" 1 [] 0); [exists 14%nat; split; reflexivity | constructor]|].
  split; [apply (rw_cons "D" 2 [] 0); [exists 12%nat; split; reflexivity | constructor]|].
  split; [exact uD_width|]. split; [exact C28_in|]. vm_compute. reflexivity.
Qed.

(** On damaged records the two disagree even on the number of rows: a date that
    does not exist ends the record only when its column is wanted. *)
Theorem C30_damaged_refuted :
  exists data ds after pre fmt post n m tell,
  row_width fmt n /\ row_width (pre ++ fmt ++ post) m /\ plain_record data tell ds /\
  read_fdata quiet (mk_stream data false) after [] (pre ++ fmt ++ post) [] m [tell] = ([CRITICAL], Ok ([], 0)) /\
  read_fdata quiet (mk_stream data false) after pre fmt post n [tell] = ([], Ok (raw [x07; x08], 2)).
Proof.
  pose (date := fun m => [x00; m; x01; x00; x00; x00; x00; x00]).
  exists (file_of [F_name ++ [x07] ++ date x00 ++ [x08] ++ date x01]), (F_name ++ [x07] ++ date x00 ++ [x08] ++ date x01), nothing_after,
         [], (text "u"), (text "j"), 1, 9, 0.
  split; [apply (rw_cons "u" 1 [] 0); [exists 14%nat; split; reflexivity | constructor]|].
  split; [apply (rw_cons "u" 1 (text "j") 8); [exists 14%nat; split; reflexivity |
          apply (rw_cons "j" 8 [] 0); [exists 20%nat; split; reflexivity | constructor]]|].
  split; [apply (one_segment [] _ []); reflexivity|]. split; [vm_compute; reflexivity|]. vm_compute. reflexivity.
Qed.
Print Assumptions C30_damaged_refuted.

(** ** C31: text samples *)

(** ASCII text comes out as its characters, padded to 255. *)
Theorem C31_text_partial :
  forall esc data hard after c tell en o cp i e s w,
  In c [("s"%byte); ("Q"%byte)] -> len data < 2 ^ 63 ->
  plain_record data tell (en ++ e) -> rp66_obname en o cp i -> rp66_ident e s ->
  Forall (fun b => b2z b < 128) s ->
  code_units (map b2z s ++ repeat 0 (255 - length s)) w ->
  read_fdata esc (mk_stream data hard) after [] [c] [] 1020 [tell] = ([], Ok (map Raw w, 1)).
Proof. exact text_read. Qed.
Print Assumptions C31_text_partial.

(** What other bytes become: 0xFFFFFF00 is added, which is no code point. *)
Theorem C31_refuted :
  exists data tell e s,
  plain_record data tell (F_name ++ e) /\ rp66_ident e s /\ s = [xe9] /\
  forall w k, code_units (map b2z s ++ repeat 0 (255 - length s)) w ->
  read_fdata quiet (mk_stream data false) nothing_after [] (text "s") [] 1020 [tell] = ([], Ok (k, 1)) ->
  k <> map Raw w /\ firstn 4 k = raw [xe9; xff; xff; xff].
Proof.
  exists (file_of [F_name ++ [x01; xe9]]), 0, [x01; xe9], [xe9].
  split; [apply (one_segment [] _ []); reflexivity|]. split; [constructor; reflexivity|]. split; [reflexivity|].
  intros w k C E. apply code_units_spec in C as ->.
  assert (K : k = ident_cells [xe9]).
  { assert (R : read_fdata quiet (mk_stream (file_of [F_name ++ [x01; xe9]]) false) nothing_after [] (text "s") [] 1020 [0]
                = ([], Ok (ident_cells [xe9], 1))) by (vm_compute; reflexivity). congruence. }
  rewrite K. split; [vm_compute; discriminate | reflexivity].
Qed.
Print Assumptions C31_refuted.

Example C31_example :
  exists w, code_units (map b2z (text "abc") ++ repeat 0 (255 - 3)) w /\
  read_fdata quiet (mk_stream (file_of [F_name ++ [x03] ++ text "abc"]) false) nothing_after [] (text "Q") [] 1020 [0]
  = ([], Ok (map Raw w, 1)) /\ firstn 12 w = ["a"; x00; x00; x00; "b"; x00; x00; x00; "c"; x00; x00; x00]%byte.
Proof.
  eexists. split; [apply code_units_spec; reflexivity|]. split; vm_compute; reflexivity.
Qed.

(** ** C32: no-format data *)
Theorem C32_payloads :
  forall esc data hard tells ds,
  len data < 2 ^ 63 ->
  Forall2 (fun tell d => exists segs en o c i, record_in data tell segs (en ++ d) /\ rp66_obname en o c i) tells ds ->
  read_noform esc (mk_stream data hard) tells = ([], Ok (concat ds)).
Proof. exact noform_ok. Qed.
Print Assumptions C32_payloads.

Theorem C32_append :
  forall esc s ts1 ts2,
  read_noform esc s (ts1 ++ ts2) =
  (let* d1 := read_noform esc s ts1 in let* d2 := read_noform esc s ts2 in ret (d1 ++ d2)).
Proof. exact noform_app. Qed.
Print Assumptions C32_append.

Theorem C32_unreadable :
  forall esc s tell lb, extract esc s tell = (lb, Exn) ->
  read_noform esc s [tell] = if esc CRITICAL then (lb ++ [CRITICAL], Exn) else (lb ++ [CRITICAL], Ok []).
Proof. exact noform_unreadable. Qed.
Print Assumptions C32_unreadable.

Example C32_example :
  read_noform quiet (mk_stream (file_of [F_name ++ text "abc"; F_name ++ text "de"]) false) [0; 11] =
  ([], Ok (text "abcde")).
Proof. vm_compute. reflexivity. Qed.
