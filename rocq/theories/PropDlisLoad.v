(** C62 and the DLIS part of C61: dlisio.dlis.load. *)
From Verif Require Import Bytes BytesProofs Stream DlisTypes DlisCore DlisIo DlisRecords Tapemark Lfp
  SpecTypes SpecCore SpecIo SpecRecords SpecDlisLoad IoProofs IoProofs2 DlisLoadProofs DlisLoadProofs2 DlisLoadProofs3 DlisLoadProofs4.
From Verif Require DlisLoad.
Import DlisLoad (load, load_loop, indexer, di_files, di_sul, di_next, di_end, new_indexer, lf_sul, lf_sets, lf_fdata, lf_stream).
Local Open Scope Z_scope.

(** ** C62 *)

(** A plain file that is a storage unit label and then logical files, each made of
    visible records of its own: loading gives exactly these logical files, in order,
    without a message; each with the label, its own metadata and its own index. *)
Theorem C62_labelled : forall esc ot tr lab fs,
  storage_label lab -> Forall wf_file fs -> len (lab ++ enc_files fs) < 2 ^ 63 ->
  exists st,
    (forall fuel, len (lab ++ enc_files fs) + 1 < Z.of_nat fuel -> load esc ot tr fuel (lab ++ enc_files fs) = ([], Ok st)) /\
    Forall2 (loaded (Some lab)) fs (di_files st).
Proof.
  intros esc ot tr lab fs L W B.
  destruct (load_course esc ot tr _ _ _ (start_label lab (enc_files fs) L)
              (labelled_course _ B lab fs L W eq_refl)) as (st & H & F); [intros s []|].
  exists st. split; [exact H|]. eapply file_list_loaded; eassumption.
Qed.
Print Assumptions C62_labelled.

(** Without a label there is one MINOR message and the same logical files, unless
    something in the first 1700 bytes looks like a label. *)
Theorem C62_unlabelled : forall esc ot tr fs,
  esc MINOR = false -> fs <> [] -> Forall wf_file fs -> len (enc_files fs) < 2 ^ 63 ->
  (forall k, ~ occurs_at (text "RECORD") (firstn 1700 (enc_files fs)) k) ->
  exists st,
    (forall fuel, len (enc_files fs) + 1 < Z.of_nat fuel -> load esc ot tr fuel (enc_files fs) = ([MINOR], Ok st)) /\
    Forall2 (loaded None) fs (di_files st).
Proof.
  intros esc ot tr fs Q NE W B NR.
  destruct (load_course esc ot tr _ _ _ (start_files fs W NE)
              (unlabelled_course _ B fs NE W eq_refl NR)) as (st & H & F).
  { intros s [<-|[]]. exact Q. }
  exists st. split; [exact H|]. eapply file_list_loaded; eassumption.
Qed.
Print Assumptions C62_unlabelled.

(** Any protocol (tape images too), any number of file marks, labels that come late
    or again, a damaged end: loading follows the course of the file. *)
Theorem C62_course : forall esc tif open_stream open_rp66 log fs,
  course tif open_stream open_rp66 0 None true log fs -> quiet esc log ->
  exists fuel0 st,
    (forall fuel, (fuel0 <= fuel)%nat -> load_loop esc tif open_stream open_rp66 fuel new_indexer = (log, Ok st)) /\
    Forall2 file_reads fs (di_files st).
Proof.
  intros esc tif os orp log fs C Q.
  destruct (course_loads esc tif _ _ _ _ _ _ _ C Q [] ltac:(discriminate) eq_refl) as (f0 & st & L & more & E & F).
  exists f0, st. split; [exact L|]. rewrite E. exact F.
Qed.
Print Assumptions C62_course.

(** A plain file, whatever it holds and however the handler is set: loading ends. *)
Theorem C62_ends : forall esc ot tr file fuel l,
  starts_plain file -> len file + 1 < Z.of_nat fuel -> load esc ot tr fuel file <> (l, Fuel).
Proof. intros esc ot tr file fuel l P. apply load_ends. apply starts_plain_ok. exact P. Qed.
Print Assumptions C62_ends.

(** ** C61, DLIS *)

(** A problem in the records of a plain file.  If the action for CRITICAL does not raise,
    load returns what was found before the problem; if it does, load raises. *)
Theorem C61_dlis : forall esc ot tr file log fs,
  starts_plain file -> course false (fun o => Some (plain_raw file o)) plain_rp66 0 None true (log ++ [CRITICAL]) fs ->
  quiet esc log ->
  (esc CRITICAL = false ->
   exists st, (forall fuel, len file + 1 < Z.of_nat fuel -> load esc ot tr fuel file = (log ++ [CRITICAL], Ok st)) /\
     Forall2 file_reads fs (di_files st)) /\
  (esc CRITICAL = true ->
   forall fuel, len file + 1 < Z.of_nat fuel -> load esc ot tr fuel file = (log ++ [CRITICAL], Exn)).
Proof.
  intros esc ot tr file log fs P C Q. apply starts_plain_ok in P. split; intros EC.
  - eapply load_course; [exact P|exact C|]. intros s I. apply in_app_iff in I as [I|[<-|[]]]; [apply Q; exact I|exact EC].
  - apply load_raises with (fs := fs); assumption.
Qed.
Print Assumptions C61_dlis.

(** ** A concrete file *)

Definition header_set : wset :=
  mk_wset Normal (text "FILE-HEADER") None [mk_tattr (text "ID") false (mk_chars None (Some 20) None None)]
    [mk_wobject 1 0 (text "0") [Given (mk_chars None None None (Some [VText (text "x")]))]].
Definition header_bytes : bytes :=
  [xf0; x0b] ++ text "FILE-HEADER" ++ [x34; x02] ++ text "ID" ++ [x14]
  ++ [x70; x01; x00; x01] ++ text "0" ++ [x21; x01] ++ text "x".
Definition header_rec : bool * list segment := (true, [mk_seg x80 x00 header_bytes]).
Definition frame_rec (nm : bytes) : bool * list segment :=
  (false, [mk_seg x00 x00 ([x02; x00; z2b (len nm)] ++ nm ++ text "samples")]).
(** a logical file of one header and two rows, cut into two visible records inside
    the header *)
Definition example_wfile (nm : bytes) : wfile :=
  let recs := [header_rec; frame_rec nm; frame_rec nm] in
  let o := Some (text "FRAME", 2, 0, nm) in
  mk_wfile recs [Meta header_set; Data o; Data o]
    [firstn 20 (enc_records recs); skipn 20 (enc_records recs)].
Definition example_label : bytes := text "   1V1.00RECORD 8192" ++ repeat " "%byte 60.

Ltac ident_ := apply ident_enc; reflexivity.
Ltac chars_ ec er eu ev := exists ec, er, eu, ev; split; [reflexivity|].

Lemma header_enc : enc_set header_bytes header_set /\ wf_set header_set.
Proof.
  split; [|split; [|discriminate]].
  2: { cbn [ws_tmpl header_set map ta_label]. repeat constructor; cbn [In]; intuition discriminate. }
  exists xf0, (x0b :: text "FILE-HEADER"), [], (([x34; x02] ++ text "ID" ++ [x14]) ++ []),
    (([x70; x01; x00; x01] ++ text "0" ++ [x21; x01] ++ text "x") ++ []).
  split; [reflexivity|]. split; [exists 0; split; [lia|reflexivity]|]. split; [ident_|]. split; [reflexivity|].
  assert (U : forall b, b2z b < 128 -> rp66_uvari [b] (b2z b)) by (intros; apply uvari_1; assumption).
  split.
  - apply el_cons; [|apply el_nil]. exists x34, (x02 :: text "ID"), [x14]. split; [reflexivity|]. split; [reflexivity|]. split; [ident_|].
    chars_ (@nil byte) [x14] (@nil byte) (@nil byte). split; [reflexivity|].
    split; [exists x14; repeat split; try reflexivity; discriminate|]. split; reflexivity.
  - apply el_cons; [|apply el_nil]. exists x70, ([x01; x00; x01] ++ text "0"), ([x21; x01] ++ text "x").
    split; [reflexivity|]. split; [cbn; lia|].
    split. { apply (obname_enc [x01] 1 x00 [x01; "0"%byte] (text "0")); [apply (U x01); reflexivity|]. ident_. }
    apply (comps_given _ _ x21 (x01 :: text "x") _ []); [reflexivity|reflexivity| |apply comps_end].
    chars_ (@nil byte) (@nil byte) (@nil byte) (x01 :: text "x"). do 3 (split; [reflexivity|]).
    split; [reflexivity|]. apply (vs_cons _ (x01 :: text "x") _ [] []); [|constructor].
    apply v_ascii. apply (ascii_enc [x01] (text "x")). apply (U x01). reflexivity.
Qed.

Lemma one_seg a t p ds :
  payload_data (b2z a) p ds false -> record_data [mk_seg a t p] ds 0.
Proof. intros P. rewrite <- (app_nil_r ds). apply (rd_cons (mk_seg a t p) [] ds false [] 0); [exact P|constructor]. Qed.

Lemma header_holds : holds header_rec (Meta header_set).
Proof.
  destruct header_enc as [E W]. apply (h_meta (mk_seg x80 x00 header_bytes) [] header_bytes); [reflexivity| |exact E|exact W].
  apply one_seg. rewrite <- (app_nil_r header_bytes) at 1. apply (pd_trailer _ header_bytes [] []); reflexivity.
Qed.
Lemma frame_holds : holds (frame_rec (text "A")) (Data (Some (text "FRAME", 2, 0, text "A"))).
Proof.
  apply h_data.
  eapply (dr_owned _ _ (mk_seg x00 x00 ([x02; x00; x01] ++ text "A" ++ text "samples")) [] _ [x02; x00; x01; "A"%byte] (text "samples")); [|reflexivity|left; split; reflexivity|reflexivity|].
  - exists [], []. split; [reflexivity|]. split; [reflexivity|]. split; [reflexivity|]. split; [repeat constructor|].
    apply one_seg. apply (pd_trailer _ ([x02; x00; x01] ++ text "A" ++ text "samples") [] []); reflexivity.
  - apply (obname_enc [x02] 2 x00 [x01; "A"%byte] (text "A")); [apply (uvari_1 x02); reflexivity | apply (ident_enc x01 (text "A")); reflexivity].
Qed.
Lemma example_records : logical_file false [header_rec; frame_rec (text "A"); frame_rec (text "A")].
Proof.
  cbn [logical_file header_rec frame_rec orb].
  repeat match goal with
  | |- _ /\ _ => split
  | |- wf_record _ _ => split; [reflexivity|]; split; [repeat constructor|]; split; repeat constructor
  | |- _ -> ~ _ => intros X
  | |- True => exact I
  end; try discriminate; intros (_ & X' & _); discriminate X'.
Qed.

Example C62_example :
  storage_label example_label /\ wf_file (example_wfile (text "A")) /\
  exists st, load (fun _ => true) (fun _ _ => None) (fun _ _ => None) 500
               (example_label ++ enc_files [example_wfile (text "A"); example_wfile (text "A")]) = ([], Ok st) /\
    map (fun f => map os_type (lf_sets f)) (di_files st) = [[text "FILE-HEADER"]; [text "FILE-HEADER"]] /\
    map (fun f => index_get (text "T.FRAME-I.A-O.2-C.0") (lf_fdata f)) (di_files st) = [[30; 45]; [30; 45]].
Proof.
  split; [|split].
  - exists (text "   1"), (text " 8192" ++ repeat " "%byte 60). repeat split. repeat constructor; vm_compute; discriminate.
  - split; [exists [mk_seg x80 x00 header_bytes]; eexists; split; [reflexivity|repeat split; reflexivity]|].
    split; [exact example_records|]. split. { exact (Forall2_cons _ _ header_holds (Forall2_cons _ _ frame_holds (Forall2_cons _ _ frame_holds (Forall2_nil _)))). }
    split; [reflexivity|]. split. { repeat constructor; vm_compute; try reflexivity; discriminate. }
    split; vm_compute; discriminate.
  - eexists. vm_compute. repeat split.
Qed.

(** the second logical file is cut off inside its last row: load returns both
    logical files, the second without the row, or raises *)
Definition cut_file : bytes :=
  let f := example_label ++ enc_files [example_wfile (text "A"); example_wfile (text "A")] in
  firstn (length f - 5) f.
Example C61_dlis_example :
  exists st, load (fun _ => false) (fun _ _ => None) (fun _ _ => None) 500 cut_file = ([CRITICAL], Ok st) /\
    load (fun s => match s with CRITICAL => true | _ => false end) (fun _ _ => None) (fun _ _ => None) 500 cut_file
      = ([CRITICAL], Exn) /\
    map (fun f => index_get (text "T.FRAME-I.A-O.2-C.0") (lf_fdata f)) (di_files st) = [[30; 45]; [30]].
Proof. eexists. vm_compute. repeat split. Qed.

Lemma occurs_here needle hay j : occurs_at needle hay j -> firstn (length needle) (skipn j hay) = needle.
Proof. intros (pre & post & -> & <-). rewrite skipn_app, skipn_all, Nat.sub_diag. cbn [skipn app]. rewrite firstn_app, firstn_all, Nat.sub_diag. cbn [firstn]. apply app_nil_r. Qed.

(** and the hypotheses of [C61_dlis] can be met *)
Definition cut_one : bytes :=
  let f := example_label ++ enc_files [example_wfile (text "A")] in firstn (length f - 5) f.
Example C61_dlis_course :
  starts_plain cut_one /\
  exists fs, course false (fun o => Some (plain_raw cut_one o)) plain_rp66 0 None true ([] ++ [CRITICAL]) fs.
Proof.
  split.
  - do 13 eexists. split; [reflexivity|]. vm_compute. intuition discriminate.
  - eexists. change [CRITICAL] with ([] ++ [] ++ [CRITICAL]).
    eapply (co_broken _ _ _ _ _ _ _ (Some example_label) 80 [] 80 [] _ [header_rec; frame_rec (text "A")] _ [Meta header_set; Data (Some (text "FRAME", 2, 0, text "A"))]).
    + reflexivity.
    + change (Some example_label) with (Some (window (raw_data (plain_raw cut_one 0)) 0 80)). change 80 with (0 + 80) at 2.
      apply bg_label; [|vm_compute; discriminate].
      apply (lb_first _ true); [left; reflexivity|]. split; [eexists (text "   1V1.00"), _; split; reflexivity|].
      intros j J. apply occurs_here in J. do 9 (destruct j as [|j]; [discriminate J|]). lia.
    + reflexivity.
    + apply vs_here; [left; reflexivity|]. split; [eexists [x00; x18], _; split; reflexivity|].
      intros j J. apply occurs_here in J. do 2 (destruct j as [|j]; [discriminate J|]). lia.
    + reflexivity.
    + cbn [vs_stream s_data]. instantiate (1 := firstn 10 (enc_records [frame_rec (text "A")])). vm_compute. reflexivity.
    + reflexivity.
    + pose proof example_records as (H1 & H2 & H3 & H4 & _). repeat split; try assumption; apply H1 || apply H3.
    + exact (Forall2_cons _ _ header_holds (Forall2_cons _ _ frame_holds (Forall2_nil _))).
    + assert (HD : header_at (enc_records [header_rec; frame_rec (text "A")] ++ firstn 10 (enc_records [frame_rec (text "A")])) 45 15 0 0).
      { exists (enc_records [header_rec; frame_rec (text "A")]), (skipn 4 (firstn 10 (enc_records [frame_rec (text "A")]))), x00, x0f, x00, x00.
        repeat split. }
      split.
      * intros [[X _]|(_ & l & a & t & X & _ & _ & Y & _)]; [discriminate X|].
        destruct (header_inj _ _ _ _ _ _ _ _ X HD) as (_ & -> & _). discriminate Y.
      * assert (NS : forall ln a t, ~ segment_at (enc_records [header_rec; frame_rec (text "A")] ++ firstn 10 (enc_records [frame_rec (text "A")])) true true 45 ln a t).
        { intros ln a t (X & _ & Y & _). destruct (header_inj _ _ _ _ _ _ _ _ X HD) as (-> & _).
          specialize (Y eq_refl). vm_compute in Y. apply Y. reflexivity. }
        intros q e R. inversion R; subst; eapply NS; eassumption.
Qed.

(** "Each reported problem triggers the user's action" does not mean that a raising
    action always ends the call: the exception is taken for damage of the record and
    reported again as CRITICAL.  Here the action for MINOR raises and the one for
    CRITICAL does not: load returns, and the record that had deserved a MINOR
    message is gone. *)
Definition overlong_rec : list segment :=
  [mk_seg xa1 x03 [x00; x00; x00; x08]; mk_seg xc0 x03 header_bytes].
Definition overlong_file : bytes :=
  example_label ++ enc_visible (enc_records [header_rec; (true, overlong_rec)]).
Theorem C61_dlis_refuted :
  record_data overlong_rec header_bytes 1 /\
  exists st st',
    load (fun s => match s with MINOR => true | _ => false end) (fun _ _ => None) (fun _ _ => None) 500 overlong_file
      = ([MINOR; CRITICAL], Ok st) /\
    load (fun _ => false) (fun _ _ => None) (fun _ _ => None) 500 overlong_file = ([MINOR], Ok st') /\
    map (fun f => length (lf_sets f)) (di_files st) = [1%nat] /\
    map (fun f => length (lf_sets f)) (di_files st') = [2%nat].
Proof.
  split.
  - apply (rd_cons (mk_seg xa1 x03 [x00; x00; x00; x08]) [mk_seg xc0 x03 header_bytes] [] true header_bytes 0).
    + apply (pd_overlong _ [x00; x00; x00] x08 []); reflexivity.
    + apply one_seg. rewrite <- (app_nil_r header_bytes) at 1. apply (pd_trailer _ header_bytes [] []); reflexivity.
  - eexists. eexists. vm_compute. repeat split.
Qed.
Print Assumptions C61_dlis_refuted.
