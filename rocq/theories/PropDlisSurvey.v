(** C80: loading any plain file with an error handler that never raises. *)
From Verif Require Import Bytes BytesProofs Stream DlisTypes DlisCore SpecCore DlisIo DlisRecords SpecIo Lfp IoProofs IoProofs2
  SpecDlisLoad DlisLoadProofs DlisLoadProofs2 DlisLoadProofs4 PropDlisLoad SpecDlisSurvey DlisSurveyProofs.
From Verif Require DlisLoad.
Import DlisLoad (load, new_indexer, di_files, di_sul, lf_sul, lf_sets, lf_fdata, lf_stream, find_sul).
Local Open Scope Z_scope.

(** Every plain file has a survey.  Loading returns the logical files of the survey, or
    raises if the survey says so; or it has read outside its memory. *)
Theorem C80_any : forall ot tr file fuel,
  starts_plain file -> len file + 1 < Z.of_nat fuel ->
  let result := snd (load never ot tr fuel file) in
  (exists fs st, survey file 0 None true fs Returns /\ result = Ok st /\ Forall2 outlined fs (di_files st)) \/
  (exists fs, survey file 0 None true fs Raises /\ result = Exn) \/
  result = UB.
Proof.
  intros ot tr file fuel SP HF result. apply starts_plain_ok in SP.
  pose proof (load_ends never ot tr file fuel (fst (load never ot tr fuel file)) SP HF) as NF.
  pose proof (loop_total file fuel new_indexer ltac:(discriminate) eq_refl) as T. unfold surveyed in T.
  unfold result in *. rewrite load_plain in * by exact SP.
  destruct (DlisLoad.load_loop _ _ _ _ _ _) as [l [st| | |]]; cbn [fst snd] in *; [|right; left; destruct T as (fs & S); eauto|auto|congruence].
  left. destruct T as (fs & more & S & D & F). exists fs, st. cbn [new_indexer di_files app] in D. subst more. auto.
Qed.
Print Assumptions C80_any.

(** and has only one *)
Theorem C80_determined : forall file fs fin fs' fin',
  survey file 0 None true fs fin -> survey file 0 None true fs' fin' -> fs = fs' /\ fin = fin'.
Proof. intros file fs fin fs' fin' S S'. exact (survey_fun _ _ _ _ _ _ S _ _ S'). Qed.
Print Assumptions C80_determined.

(** hence the survey decides *)
Theorem C80_decides : forall ot tr file fuel fs fin,
  starts_plain file -> len file + 1 < Z.of_nat fuel -> survey file 0 None true fs fin ->
  let result := snd (load never ot tr fuel file) in
  result = UB \/
  match fin with
  | Returns => exists st, result = Ok st /\ Forall2 outlined fs (di_files st)
  | Raises => result = Exn
  end.
Proof.
  intros ot tr file fuel fs fin SP HF S. cbv zeta.
  destruct (C80_any ot tr file fuel SP HF) as [(fs' & st & S' & R & F)|[(fs' & S' & R)|R]]; [| |auto];
  destruct (C80_determined _ _ _ _ _ S S') as [-> ->]; right; eauto.
Qed.
Print Assumptions C80_decides.

(** ** Examples *)

(** a label alone, and one that is cut off *)
Example C80_label_only :
  starts_plain example_label /\ survey example_label 0 None true [] Returns /\
  exists st, load never (fun _ _ => None) (fun _ _ => None) 100 example_label = ([], Ok st) /\ di_files st = [].
Proof.
  split; [|split].
  - do 13 eexists. split; [reflexivity|]. vm_compute. intuition discriminate.
  - eapply (sv_label_end _ _ _ _ _ 80); [|reflexivity]. change 80 with (0 + 80). apply bg_label; [|vm_compute; discriminate].
    apply (lb_first _ true); [left; reflexivity|]. split; [eexists (text "   1V1.00"), _; split; reflexivity|].
    intros j J. apply occurs_here in J. do 9 (destruct j as [|j]; [discriminate J|]). lia.
  - eexists. split; vm_compute; reflexivity.
Qed.
Example C80_cut_example :
  exists st, load never (fun _ _ => None) (fun _ _ => None) 100 (firstn 40 example_label) = ([MAJOR], Ok st) /\ di_files st = [].
Proof. eexists. split; vm_compute; reflexivity. Qed.

(** Two logical files that share a visible record: the second FILE-HEADER is found inside
    it, nothing that follows looks like a visible record, and load raises.  The first
    logical file is lost, although nothing is wrong with it. *)
Definition shared_file : bytes :=
  enc_visible (enc_records [header_rec; frame_rec (text "A"); header_rec; frame_rec (text "A")]).
Lemma none_begins (r : raw) (first : bool) l : s_hard (raw_stream r) = false ->
  find_sul never (DlisLoad.mk_indexer (if first then [] else [DlisLoad.mk_file (mk_rp66 (raw_stream r) (raw_ptell r)) [] [] None]) None 0 false) r = (l, Ok (false, 0)) ->
  begins r None first None 0 l.
Proof.
  intros H. set (st := DlisLoad.mk_indexer _ None 0 false). intros F.
  assert (NE : di_sul st <> Some []) by discriminate.
  destruct (label_total st r H NE) as (x & l' & L & F'). rewrite F in F'.
  destruct x as [q|]; [discriminate|]. injection F' as <-. apply bg_none. destruct first; exact L.
Qed.
Theorem C80_lost_refuted :
  starts_plain shared_file /\
  (exists vs, survey shared_file 0 None true [(None, vs, [(0, true); (30, false)])] Raises) /\
  snd (load never (fun _ _ => None) (fun _ _ => None) 500 shared_file) = Exn /\
  let alone := enc_visible (enc_records [header_rec; frame_rec (text "A")]) in
  exists st, load never (fun _ _ => None) (fun _ _ => None) 500 alone = ([MINOR], Ok st) /\
    map (fun f => map os_type (lf_sets f)) (di_files st) = [[text "FILE-HEADER"]].
Proof.
  split; [do 13 eexists; split; [reflexivity|]; vm_compute; intuition discriminate|].
  split; [|split; [vm_compute; reflexivity|eexists; split; vm_compute; reflexivity]].
  set (recs := [header_rec; frame_rec (text "A")]).
  pose proof example_records as (H1 & H2 & H3 & H4 & _).
  assert (LF : logical_file false recs) by (repeat split; try assumption; apply H1 || apply H3).
  eexists. eapply (sv_more _ _ _ _ None 0 [MINOR] 0 [] _ _ 45).
  - apply none_begins; [reflexivity|vm_compute; reflexivity].
  - apply vs_here; [left; reflexivity|]. split; [eexists [x00; x5e], _; split; reflexivity|].
    intros j J. apply occurs_here in J. do 2 (destruct j as [|j]; [discriminate J|]). lia.
  - vm_compute. reflexivity.
  - exact (records_ok false recs false [] (enc_records recs) LF).
  - right. split; [reflexivity|]. exists 30, 128, 0. split; [|repeat split; vm_compute; congruence].
    exists (enc_records recs), (skipn 4 (enc_records recs)), x00, x1e, x80, x00. repeat split.
  - change (_ - _) with 45. eapply (sv_no_record _ _ _ _ None 0 []).
    + apply none_begins; [reflexivity|vm_compute; reflexivity].
    + reflexivity.
    + intros q l V. apply (visible_ok never) in V; [|lia|intros s _; reflexivity]. vm_compute in V. discriminate.
Qed.
Print Assumptions C80_lost_refuted.

(** An explicit record of two bytes whose set type is longer: memory outside the record is read. *)
Definition overread_file : bytes :=
  enc_visible (enc_records [header_rec; (true, [mk_seg x80 x03 [xf0; x05; x41]])]).
Theorem C80_outside_refuted :
  starts_plain overread_file /\ snd (load never (fun _ _ => None) (fun _ _ => None) 500 overread_file) = UB.
Proof.
  split; [do 13 eexists; split; [reflexivity|]; vm_compute; intuition discriminate|]. vm_compute. reflexivity.
Qed.
Print Assumptions C80_outside_refuted.
