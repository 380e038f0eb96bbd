(** C86: damage in a DLIS file does not reach back. *)
From Verif Require Import Bytes BytesProofs Stream DlisTypes DlisCore DlisIo DlisRecords Tapemark Lfp
  SpecTypes SpecCore SpecIo SpecRecords SpecDlisLoad IoProofs IoProofs2 DlisLoadProofs DlisLoadProofs2 DlisLoadProofs3 DlisLoadProofs4
  SpecDlisSurvey DlisSurveyProofs SpecDlisPrefix DlisPrefixProofs PropDlisLoad.
From Verif Require DlisLoad.
Import DlisLoad (load, load_loop, indexer, di_files, di_sul, di_next, di_end, new_indexer, lf_sul, lf_sets, lf_fdata, lf_stream).
Local Open Scope Z_scope.

(** Whatever follows: a plain file of a storage unit label, any number of whole logical
    files, and the beginning of one more.  If load returns at all, under any error handler,
    the whole files are there as if nothing else was in the file, and the next logical file
    has at least the records that are known, in front of all others. *)
Theorem C86_before : forall esc ot tr lab fs b recs cs fuel l st,
  storage_label lab -> Forall wf_file fs -> begun b recs cs -> len (lab ++ enc_files fs ++ b) < 2 ^ 63 ->
  load esc ot tr fuel (lab ++ enc_files fs ++ b) = (l, Ok st) ->
  exists xs x more, di_files st = xs ++ x :: more /\ Forall2 (loaded (Some lab)) fs xs /\ lf_sul x = Some lab /\ front recs cs x.
Proof.
  intros esc ot tr lab fs b recs cs fuel l st L W BG SM LP.
  rewrite load_plain in LP by (apply start_label; exact L).
  destruct (files_lead _ SM fs b recs cs BG [] lab None true (Some lab) [] W eq_refl (label_begins _ lab (enc_files fs ++ b) L eq_refl))
    as (xs & n & s & bf & l1 & l2 & vs & LD & SA & EL & ST & _).
  symmetry in EL. apply app_eq_nil in EL as [-> ->].
  destruct (leads_front esc false _ _ _ _ _ _ _ _ _ LD ST (fun _ I => match I with end) _ _ _ LP) as (_ & ys & y & more & E & F & FR).
  exists ys, y, more. split; [exact E|]. split; [eapply seen_loaded; eassumption|]. destruct FR as (_ & S & FR). auto.
Qed.
Print Assumptions C86_before.

(** Any protocol, tape images too, and any labels and file marks in between *)
Theorem C86_device : forall esc tif open_stream open_rp66 log fs n s b l1 x fuel l st,
  leads tif open_stream open_rp66 0 None true log fs n s b -> starts_at open_stream open_rp66 n s b l1 x -> quiet esc (log ++ l1) ->
  load_loop esc tif open_stream open_rp66 fuel new_indexer = (l, Ok st) ->
  (exists l2, l = log ++ l1 ++ l2) /\
  exists ys y more, di_files st = ys ++ y :: more /\ Forall2 file_reads fs ys /\ front_reads x y.
Proof. intros. eapply leads_front; eassumption. Qed.
Print Assumptions C86_device.

(** A file that is cut off anywhere behind the first records of a logical file: with an error
    handler that never raises, load raises nothing.  It returns (or reads outside its memory,
    see C80) the logical files before, as they are, and the one that is cut, with the records
    that are whole. *)
Theorem C86_cut : forall ot tr lab fs f gs m r1 r2 part fuel,
  storage_label lab -> Forall wf_file (fs ++ f :: gs) -> len (lab ++ enc_files (fs ++ f :: gs)) < 2 ^ 63 ->
  wf_recs f = r1 ++ r2 -> r1 <> [] -> kept (wf_visible f) m = enc_records r1 ++ part -> (m <= length (enc_file f))%nat ->
  let file := firstn (80 + length (enc_files fs) + m) (lab ++ enc_files (fs ++ f :: gs)) in
  len file + 1 < Z.of_nat fuel ->
  let result := snd (load never ot tr fuel file) in
  result = UB \/
  exists st xs x, result = Ok st /\ di_files st = xs ++ [x] /\ Forall2 (loaded (Some lab)) fs xs /\
    lf_sul x = Some lab /\ front r1 (firstn (length r1) (wf_contents f)) x.
Proof.
  intros ot tr lab fs f gs m r1 r2 part fuel L W SM ER NE EK M file HF result.
  apply Forall_app in W as [Wf W]. apply Forall_cons_iff in W as [Hf _].
  assert (L80 : length lab = 80%nat). { destruct L as (seq & rest & -> & LS & LR & _). rewrite !app_length, LS, LR. reflexivity. }
  assert (EF : file = lab ++ enc_files fs ++ firstn m (enc_file f)).
  { unfold file, enc_files. rewrite map_app, concat_app. cbn [map concat]. rewrite firstn_app, L80, (firstn_all2 lab) by lia. f_equal.
    rewrite firstn_app, firstn_all2 by lia. f_equal. rewrite firstn_app.
    replace (80 + length (concat (map enc_file fs)) + m - 80 - length (concat (map enc_file fs)))%nat with m by lia.
    replace (m - length (enc_file f))%nat with 0%nat by lia. rewrite firstn_O, app_nil_r. reflexivity. }
  pose proof Hf as ((segs & t & EH & FH) & LF & HO & EV & VF & L15 & NL).
  assert (BG : begun (firstn m (enc_file f)) r1 (firstn (length r1) (wf_contents f))).
  { destruct r1 as [|x r1]; [congruence|]. rewrite EH in ER. injection ER as <- ER. split; [exists segs, r1; auto|].
    rewrite EH, ER in LF, HO. change ((true, segs) :: r1 ++ r2) with (((true, segs) :: r1) ++ r2) in LF, HO. split; [|split].
    - clear -LF. revert LF. generalize false. induction ((true, segs) :: r1) as [|[e r] u IH]; intros sn H; [exact I|]. destruct H as (A & B & C). split; [exact A|]. split; [exact B|]. apply IH. exact C.
    - clear -HO. apply Forall2_app_inv_l in HO as (c1 & c2 & H1 & H2 & ->). rewrite (Forall2_len _ _ _ H1), firstn_app, Nat.sub_diag, firstn_all, firstn_O, app_nil_r. exact H1.
    - split; [exists part; rewrite <- EK; apply kept_carried; exact VF|].
      destruct (Nat.le_gt_cases 15 m) as [G|G].
      + intros X. apply NL. rewrite <- X, <- (firstn_skipn m (enc_file f)) at 1. rewrite skipn_app, firstn_app, skipn_length, firstn_length. unfold len in L15.
        replace (6 - (Nat.min m (length (enc_file f)) - 9))%nat with 0%nat by lia. rewrite firstn_O, app_nil_r. reflexivity.
      + intros X. apply (f_equal (@length _)) in X. rewrite firstn_length, skipn_length, firstn_length in X. cbn [text length String.length] in X.
        change (length (text "RECORD")) with 6%nat in X. lia. }
  assert (SM' : len file < 2 ^ 63). { unfold file, len in *. rewrite firstn_length. lia. }
  assert (PS : plain_start file) by (rewrite EF; apply start_label; exact L).
  pose proof (load_ends never ot tr file fuel (fst (load never ot tr fuel file)) PS HF) as NF.
  unfold result in *. rewrite load_plain in * by exact PS. clear result.
  destruct (files_lead file SM' fs (firstn m (enc_file f)) r1 _ BG [] lab None true (Some lab) [] Wf EF (label_begins _ lab _ L EF))
    as (xs & n & s & bf & l1 & l2 & vs & LD & SA & EL & ST & pre & mid & EP & -> & B & V & O).
  symmetry in EL. apply app_eq_nil in EL as [-> ->].
  destruct (leads_loads never false _ _ _ _ _ _ _ _ _ _ LD (fun _ I => match I with end) [] ltac:(discriminate) eq_refl) as (k & ys & LK & F & NS & BS).
  cbn [app] in LK, BS.
  pose proof (loop_total file fuel {| DlisLoad.di_files := ys; DlisLoad.di_sul := s; DlisLoad.di_next := len pre; DlisLoad.di_end := false |} NS eq_refl) as T.
  unfold surveyed in T. cbn [di_files di_sul di_next] in T.
  assert (LL : load_loop never false (fun o => Some (plain_raw file o)) plain_rp66 fuel new_indexer =
    load_loop never false (fun o => Some (plain_raw file o)) plain_rp66 fuel {| DlisLoad.di_files := ys; DlisLoad.di_sul := s; DlisLoad.di_next := len pre; DlisLoad.di_end := false |}).
  { rewrite <- (loop_more never false _ _ fuel _ _ k eq_refl).
    - rewrite Nat.add_comm. change new_indexer with (DlisLoad.mk_indexer [] None 0 false). rewrite LK. cbn [bind app].
      match goal with |- (let '(_, _) := ?x in _) = _ => destruct x; reflexivity end.
    - intros X. apply NF. rewrite <- X. destruct (load_loop _ _ _ _ _ new_indexer). reflexivity. }
  destruct (load_loop never false (fun o => Some (plain_raw file o)) plain_rp66 fuel new_indexer) as [l [st| | |]] eqn:LP; cbn [fst snd] in *.
  - right. rewrite <- LL in T. cbn [snd] in T. destruct T as (fs' & more & SV & D & OT).
    rewrite <- BS in SV. destruct (cut_ends _ f m pre mid s bf _ _ vs fs' Returns Hf EP B V O SV) as (_ & x' & ->).
    inversion OT as [|? y ? more' _ OT']; subst. inversion OT'; subst.
    destruct (leads_front never false _ _ _ _ _ _ _ _ _ LD ST (fun _ I => match I with end) _ _ _ LP) as (_ & ys' & y' & more & E & F' & FR).
    rewrite D in E. apply Forall2_len in F as LF1. apply Forall2_len in F' as LF2.
    apply app_eq_len in E as [<- E]; [|congruence]. injection E as <- <-.
    exists st, ys, y. split; [reflexivity|]. split; [exact D|]. split; [eapply seen_loaded; eassumption|]. destruct FR as (_ & S & FR). auto.
  - exfalso. rewrite <- LL in T. cbn [snd] in T. destruct T as (fs' & SV). rewrite <- BS in SV.
    destruct (cut_ends _ f m pre mid s bf _ _ vs fs' Raises Hf EP B V O SV) as (X & _). discriminate X.
  - left. reflexivity.
  - exfalso. apply NF. reflexivity.
Qed.
Print Assumptions C86_cut.

(** ** Examples *)

Definition ex_files : list wfile := [example_wfile (text "A"); example_wfile (text "A")].
Definition ex_front : list (bool * list segment) := [header_rec; frame_rec (text "A")].
Definition ex_holds : list content := [Meta header_set; Data (Some (text "FRAME", 2, 0, text "A"))].

(** a logical file whose second row is overwritten: 65535 bytes are announced where it was *)
Definition ex_damage : bytes :=
  enc_visible (firstn 20 (enc_records ex_front)) ++ enc_visible (skipn 20 (enc_records ex_front) ++ [xff; xff; x00; x00; x07; x07]) ++ [x00; x01; x02].
Lemma front_records : logical_file false ex_front.
Proof. pose proof example_records as (H1 & H2 & H3 & H4 & _). repeat split; try assumption; apply H1 || apply H3. Qed.
Example C86_hypotheses :
  storage_label example_label /\ Forall wf_file ex_files /\ begun ex_damage ex_front ex_holds /\
  exists st, load (fun _ => false) (fun _ _ => None) (fun _ _ => None) 500 (example_label ++ enc_files ex_files ++ ex_damage) = ([CRITICAL], Ok st) /\
    map (fun f => map os_type (lf_sets f)) (di_files st) = [[text "FILE-HEADER"]; [text "FILE-HEADER"]; [text "FILE-HEADER"]] /\
    map (fun f => index_get (text "T.FRAME-I.A-O.2-C.0") (lf_fdata f)) (di_files st) = [[30; 45]; [30; 45]; [30]].
Proof.
  destruct C62_example as (L & W & _). split; [exact L|]. split; [exact (Forall_cons _ W (Forall_cons _ W (Forall_nil _)))|]. split; [|eexists; vm_compute; repeat split].
  split; [exists [mk_seg x80 x00 header_bytes]; eexists; split; [reflexivity|repeat split; reflexivity]|].
  split; [exact front_records|]. split; [exact (Forall2_cons _ _ header_holds (Forall2_cons _ _ frame_holds (Forall2_nil _)))|].
  split; [|vm_compute; discriminate]. exists [xff; xff; x00; x00; x07; x07].
  change (enc_records ex_front ++ [xff; xff; x00; x00; x07; x07]) with
    (firstn 20 (enc_records ex_front) ++ (skipn 20 (enc_records ex_front) ++ [xff; xff; x00; x00; x07; x07]) ++ []).
  unfold ex_damage. apply cr_record; [split; vm_compute; [reflexivity|discriminate]|].
  apply cr_record; [split; vm_compute; [reflexivity|discriminate]|]. apply cr_rest.
Qed.

(** the file of C61, cut off inside the last row *)
Example C86_cut_example :
  Forall wf_file ([example_wfile (text "A")] ++ example_wfile (text "A") :: []) /\
  wf_recs (example_wfile (text "A")) = ex_front ++ [frame_rec (text "A")] /\ ex_front <> [] /\
  kept (wf_visible (example_wfile (text "A"))) 63 = enc_records ex_front ++ firstn 10 (enc_records [frame_rec (text "A")]) /\
  (63 <= length (enc_file (example_wfile (text "A"))))%nat /\
  let file := firstn (80 + length (enc_files [example_wfile (text "A")]) + 63) (example_label ++ enc_files ex_files) in
  exists st, load (fun _ => false) (fun _ _ => None) (fun _ _ => None) 500 file = ([CRITICAL], Ok st) /\
    map (fun f => index_get (text "T.FRAME-I.A-O.2-C.0") (lf_fdata f)) (di_files st) = [[30; 45]; [30]].
Proof.
  destruct C62_example as (_ & W & _). split; [exact (Forall_cons _ W (Forall_cons _ W (Forall_nil _)))|]. split; [reflexivity|]. split; [discriminate|].
  split; [vm_compute; reflexivity|]. split; [vm_compute; lia|]. eexists. vm_compute. repeat split.
Qed.
