(** C87: DLIS files that end too early. *)
From Verif Require Import Bytes BytesProofs Stream PyBase DlisTypes DlisCore SpecTypes SpecCore DlisIo SpecIo IoProofs DlisRecords SpecRecords DlisFdata SpecFdata Tapemark Lfp
  CommonPy DlisStore SpecDlisStore DlisStoreProofs6 DlisSchema DlisObject SpecDlisObject
  SpecDlisLoad DlisLoadProofs3 DlisLoadProofs4 DlisFrame SpecDlisFrame DlisCurves SpecDlisCurves DlisCurvesProofs4 DlisCurvesProofs5 SpecDlisPrefix DlisPrefixProofs SpecDlisCut DlisCutProofs.
From Verif Require DlisLoad PropDlisLoad.
From Verif Require Import PropDlisStore PropDlisObject PropDlisFrame DlisCurvesExample PropDlisCurves.
Import DlisLoad (load, di_files, lf_sets, lf_fdata, lf_stream).
Local Open Scope Z_scope.

(** ** C65: other files than those of C65_loaded *)

(** Without a label: the same, after one MINOR message (as in C62_unlabelled) *)
Theorem C65_unlabelled : forall esc ot tr fs,
  esc MINOR = false -> fs <> [] -> Forall wf_file fs -> len (enc_files fs) < 2 ^ 63 ->
  (forall k, ~ occurs_at (text "RECORD") (firstn 1700 (enc_files fs)) k) ->
  exists st,
    (forall fuel, len (enc_files fs) + 1 < Z.of_nat fuel -> load esc ot tr fuel (enc_files fs) = ([MINOR], Ok st)) /\
    Forall2 (fun f x => consists_of None (wf_recs f) (wf_contents f) x) fs (di_files st).
Proof.
  intros esc ot tr fs Q NE W SM NR.
  pose proof (unlabelled_course _ SM fs NE W eq_refl NR) as CO.
  destruct (load_course esc ot tr _ _ _ (start_files fs W NE) CO) as (st & LD & F); [intros s [<-|[]]; exact Q|].
  exists st. split; [exact LD|].
  pose proof (file_list_loaded _ _ W _ _ _ F) as FL. pose proof (course_bounded _ _ _ _ _ _ _ _ CO) as B.
  assert (BIG : exists n, len (enc_files fs) + 1 < Z.of_nat n) by (exists (Z.to_nat (len (enc_files fs) + 2)); pose proof (len_nonneg (enc_files fs)); lia).
  destruct BIG as (n & BIG). specialize (LD n BIG) as LN.
  assert (SO : files_sound st) by (apply (load_sound esc ot tr n (enc_files fs)); rewrite LN; reflexivity).
  assert (SZ : Forall (fun x => len (s_data (vs_stream (lf_stream x))) < 2 ^ 63) (di_files st)).
  { clear - F B. induction F as [|[[[s vs] recs] cs] y xs ys (F1 & _) F IH]; constructor; apply Forall_cons_iff in B as [B1 B]; [rewrite F1; apply B1|exact (IH B)]. }
  clear - FL SO SZ W. unfold files_sound in SO. induction FL as [|f x fs xs (D1 & D2 & D3 & D4) FL IH]; constructor;
    apply Forall_cons_iff in W as [(_ & W1 & W2 & _) W]; apply Forall_cons_iff in SO as [[S1 S2] SO]; apply Forall_cons_iff in SZ as [SZ1 SZ]; [|exact (IH W SO SZ)].
  unfold consists_of, data_of. pose proof (reads_parsable _ _ D3). auto 15.
Qed.
Print Assumptions C65_unlabelled.

(** Any protocol, tape images too, and whatever course the file takes (C62_course) *)
Theorem C65_course : forall esc tif open_stream open_rp66 log fs,
  course tif open_stream open_rp66 0 None true log fs -> SpecDlisLoad.quiet esc log ->
  exists fuel0 st,
    (forall fuel, (fuel0 <= fuel)%nat -> DlisLoad.load_loop esc tif open_stream open_rp66 fuel DlisLoad.new_indexer = (log, Ok st)) /\
    Forall2 (fun x y => let '(sul, _, recs, cs) := x in consists_of sul recs cs y) fs (di_files st).
Proof.
  intros esc tif os orp log fs C Q.
  destruct (PropDlisLoad.C62_course esc tif os orp log fs C Q) as (f0 & st & LD & F). exists f0, st. split; [exact LD|].
  eapply (made_sound st fs (di_files st) []); [|rewrite app_nil_r; reflexivity|eapply course_bounded; exact C|exact F].
  eapply (loop_sound esc tif os orp f0 DlisLoad.new_indexer); [constructor|]. rewrite LD by lia. reflexivity.
Qed.
Print Assumptions C65_course.

(** ** Damage of any kind *)

(** A label, whole logical files, and the beginning of one more, in front of anything: if load
    returns at all, the whole files are there and consist of the records that were written.
    So what is known about queries and curves holds for them, as if the rest was not there. *)
Theorem C87_before : forall esc ot tr lab fs b recs cs fuel l st,
  storage_label lab -> Forall wf_file fs -> begun b recs cs -> len (lab ++ enc_files fs ++ b) < 2 ^ 63 ->
  load esc ot tr fuel (lab ++ enc_files fs ++ b) = (l, Ok st) ->
  exists xs x more, di_files st = xs ++ x :: more /\
    Forall2 (fun f x => consists_of (Some lab) (wf_recs f) (wf_contents f) x) fs xs /\ front recs cs x.
Proof.
  intros esc ot tr lab fs b recs cs fuel l st L W BG SM LP. pose proof LP as LP0.
  rewrite load_plain in LP by (apply start_label; exact L).
  destruct (files_lead _ SM fs b recs cs BG [] lab None true (Some lab) [] W eq_refl (label_begins _ lab (enc_files fs ++ b) L eq_refl))
    as (xs & n & s & bf & l1 & l2 & vs & LD & SA & EL & ST & _).
  symmetry in EL. apply app_eq_nil in EL as [-> ->].
  destruct (leads_front esc false _ _ _ _ _ _ _ _ _ LD ST (fun _ I => match I with end) _ _ _ LP) as (_ & ys & y & more & E & F & FR).
  exists ys, y, more. split; [exact E|]. split; [|exact (proj2 (proj2 FR))].
  eapply made_as; [exact SA|]. eapply made_of; [exact LP0|exact E|eapply leads_bounded; exact LD|exact F].
Qed.
Print Assumptions C87_before.

(** ** Files that end too early *)

(** The file ends inside a logical file, behind its first record.  Load reports one critical
    problem.  If the handler raises, so does load.  If not, it returns the logical files before
    and the one that is cut, which consists of exactly those records that are whole.
    The full statement is about every place where the file may end; it is false for some
    between two visible records (C87_missed_refuted). *)
Theorem C87_cut_partial : forall esc ot tr lab fs f gs m r1 segs part,
  storage_label lab -> Forall wf_file (fs ++ f :: gs) -> (m <= length (enc_file f))%nat -> cut f m r1 segs part -> noticed f m segs part ->
  let file := firstn (80 + length (enc_files fs) + m) (lab ++ enc_files (fs ++ f :: gs)) in
  len file < 2 ^ 63 ->
  (esc CRITICAL = true -> forall fuel, len file + 1 < Z.of_nat fuel -> load esc ot tr fuel file = ([CRITICAL], Exn)) /\
  (esc CRITICAL = false -> exists st xs x,
     (forall fuel, len file + 1 < Z.of_nat fuel -> load esc ot tr fuel file = ([CRITICAL], Ok st)) /\ di_files st = xs ++ [x] /\
     Forall2 (fun f x => consists_of (Some lab) (wf_recs f) (wf_contents f) x) fs xs /\
     consists_of (Some lab) r1 (firstn (length r1) (wf_contents f)) x).
Proof.
  intros esc ot tr lab fs f gs m r1 segs part L W M CU NO file SM.
  destruct (cut_course lab fs f gs m r1 segs part L W M SM CU NO) as (PS & xs & vs & SA & CO). fold file in PS, CO. clearbody file.
  split; intros EC.
  - exact (load_raises esc ot tr file [] _ PS CO (fun _ I => match I with end) EC).
  - destruct (load_course esc ot tr file _ _ PS CO) as (st & LD & F); [intros s [<-|[]]; exact EC|].
    apply Forall2_app_inv_l in F as (ys & y1 & FY & F1 & E). inversion F1 as [|? y ? z FR F0]; subst. inversion F0; subst.
    exists st, ys, y. split; [exact LD|]. split; [exact E|].
    pose proof (course_bounded _ _ _ _ _ _ _ _ CO) as B.
    assert (BIG : exists n, len file + 1 < Z.of_nat n) by (exists (Z.to_nat (len file + 2)); pose proof (len_nonneg file); lia).
    destruct BIG as (n & BIG). specialize (LD n BIG) as LN.
    assert (EN : di_files st = (ys ++ [y]) ++ []) by (rewrite app_nil_r; exact E).
    pose proof (Forall2_app FY (Forall2_cons _ _ FR (Forall2_nil _))) as FA.
    pose proof (made_of _ _ _ _ _ _ _ _ _ _ LN EN B FA) as MA.
    apply Forall2_app_inv_l in MA as (ys' & z' & MA & MB & E'). inversion MB as [|? y' ? ? MC MD]; subst. inversion MD; subst.
    apply app_inj_tail in E' as [<- <-]. split; [|exact MC]. eapply made_as; [exact SA|exact MA].
Qed.
Print Assumptions C87_cut_partial.

(** If the file ends between two visible records where also a record ends, nothing is
    missing as far as anyone can tell: no problem, and the records that are there. *)
Theorem C87_between : forall esc ot tr lab fs f gs m ps qs r1 r2,
  storage_label lab -> Forall wf_file (fs ++ f :: gs) -> wf_visible f = ps ++ qs -> m = length (concat (map enc_visible ps)) -> (15 <= m)%nat ->
  wf_recs f = r1 ++ r2 -> r1 <> [] -> concat ps = enc_records r1 ->
  let file := firstn (80 + length (enc_files fs) + m) (lab ++ enc_files (fs ++ f :: gs)) in
  len file < 2 ^ 63 ->
  exists st xs x,
    (forall fuel, len file + 1 < Z.of_nat fuel -> load esc ot tr fuel file = ([], Ok st)) /\ di_files st = xs ++ [x] /\
    Forall2 (fun f x => consists_of (Some lab) (wf_recs f) (wf_contents f) x) fs xs /\
    consists_of (Some lab) r1 (firstn (length r1) (wf_contents f)) x.
Proof.
  intros esc ot tr lab fs f gs m ps qs r1 r2 L W EV EM M15 ER NE EC file SM.
  apply Forall_app in W as [Wf W]. apply Forall_cons_iff in W as [Hf _].
  assert (L80 : length lab = 80%nat). { destruct L as (seq & rest & -> & LS & LR & _). rewrite !app_length, LS, LR. reflexivity. }
  assert (EE : enc_file f = concat (map enc_visible ps) ++ concat (map enc_visible qs)) by (unfold enc_file; rewrite EV, map_app, concat_app; reflexivity).
  assert (M : (m <= length (enc_file f))%nat) by (rewrite EE, app_length; lia).
  pose proof (cut_file lab fs f gs m L80 M) as EF. fold file in EF. clearbody file.
  set (f' := mk_wfile r1 (firstn (length r1) (wf_contents f)) ps).
  assert (EF' : firstn m (enc_file f) = enc_file f') by (rewrite EE, EM, firstn_app, firstn_all, Nat.sub_diag, firstn_O, app_nil_r; reflexivity).
  assert (W' : wf_file f').
  { destruct Hf as ((segs & t & EH & FH) & LF & HO & _ & VF & L15 & NL). rewrite ER in LF, HO. rewrite EV in VF. apply Forall_app in VF as [VF _].
    split. { destruct r1 as [|x r1]; [congruence|]. rewrite ER in EH. injection EH as -> EH. exists segs, r1. auto. }
    split; [eapply logical_front; exact LF|]. split; [eapply firstn_holds; exact HO|]. split; [exact EC|]. split; [exact VF|].
    split. { rewrite <- EF'. unfold len. rewrite firstn_length. lia. }
    rewrite <- EF'. intros X. apply NL. rewrite <- X, <- (firstn_skipn m (enc_file f)) at 1. rewrite skipn_app, firstn_app, skipn_length, firstn_length.
    replace (6 - (Nat.min m (length (enc_file f)) - 9))%nat with 0%nat by lia. rewrite firstn_O, app_nil_r. reflexivity. }
  rewrite EF', <- (app_nil_r (enc_file f')) in EF. change (enc_file f' ++ []) with (enc_files [f']) in EF.
  unfold enc_files in EF. rewrite <- concat_app, <- map_app in EF. fold (enc_files (fs ++ [f'])) in EF. rewrite EF in *.
  destruct (labelled_well esc ot tr lab (fs ++ [f']) L) as (st & LD & F); [apply Forall_app; auto|exact SM|].
  apply Forall2_app_inv_l in F as (ys & y1 & FY & F1 & E). inversion F1 as [|? y ? z FR F0]; subst. inversion F0; subst.
  assert (G : forall g y, wf_file g -> loaded_well (Some lab) g y -> consists_of (Some lab) (wf_recs g) (wf_contents g) y).
  { intros g y' (_ & W1 & W2 & _) ((U & T & S & X) & A & P & I & Z). unfold consists_of, data_of. auto 15. }
  exists st, ys, y. split; [exact LD|]. split; [exact E|]. split; [|exact (G f' y W' FR)].
  clear - FY Wf G. induction FY; constructor; apply Forall_cons_iff in Wf as [? ?]; auto.
Qed.
Print Assumptions C87_between.

(** ** Examples *)

(** the file of C65 with one more row, long enough for 60 frames *)
Definition long_row : bool * list segment := data_record_of x00 (name_of (text "F")) (concat (repeat [x02; x08; x00; x03; x00; x04] 60)).
Definition long_recs : list (bool * list segment) := firstn 7 (file_records (text "F")) ++ [long_row].
(** [k]: where, in the records, the first visible record ends *)
Definition long_file (k : nat) : wfile :=
  mk_wfile long_recs (firstn 8 (file_contents (text "F"))) [firstn k (enc_records long_recs); skipn k (enc_records long_recs)].
Definition whole_recs : list (bool * list segment) := firstn 7 (file_records (text "F")).
Definition cut_at : nat := Eval vm_compute in (length (enc_records whole_recs) + 300)%nat.
Lemma long_ok k : In k [60%nat; cut_at] -> wf_file (long_file k).
Proof.
  pose proof file_F as (A & B & C & _). intros I. split; [destruct A as (segs & t & E & H); injection E as E1 E2; exists segs, (firstn 6 t ++ [long_row]); rewrite <- E2; split; [rewrite <- E1; reflexivity|exact H]|].
  assert (HR : holds long_row (Data (Some (text "FRAME", 1, 0, text "F")))).
  { data_ plain_. }
  split; [|split].
  - change (wf_recs (long_file k)) with long_recs. unfold long_recs. cbn [firstn app file_records]. cbn [SpecIo.logical_file wfile_of wf_recs file_records orb set_record data_record_of long_row];
    repeat match goal with |- wf_record _ _ => split; [reflexivity|]; split; [constructor; [vm_compute; reflexivity|constructor]|]; split; repeat constructor | |- _ /\ _ => split | |- True => exact Logic.I end;
    intros X; try discriminate X; intros (_ & X1 & X2); first [discriminate X1|discriminate X2].
  - apply (Forall2_app (l1 := whole_recs) (l1' := firstn 7 (file_contents (text "F")))); [|constructor; [exact HR|constructor]].
    change (firstn (length whole_recs) (file_contents (text "F"))) with (firstn 7 (file_contents (text "F"))).
    exact (firstn_holds whole_recs (skipn 7 (file_records (text "F"))) (file_contents (text "F")) C).
  - split; [cbn [wf_visible long_file concat]; rewrite app_nil_r; apply firstn_skipn|].
    destruct I as [<-|[<-|[]]]; (split; [repeat constructor; vm_compute; try reflexivity; discriminate|split; vm_compute; discriminate]).
Qed.

Definition default_esc (s : severity) : bool := match s with CRITICAL => true | _ => false end.
Definition curves_in (esc : severity -> bool) (file : bytes) : option (io (list field * list cell * Z)) :=
  match load esc (fun _ _ => None) (fun _ _ => None) 2000 file with
  | (_, Ok st) => match di_files st with
      | [x] => Some (snd (curves dec1 enc1 esc order1 32 default_label (after dec1 enc1 esc order1 (lf_sets x) []) (vs_stream (lf_stream x)) after_0 (lf_fdata x) (promote dec1 F_frame) true))
      | _ => None end
  | _ => None end.

(** cut inside the second visible record *)
Definition ex_cut : nat := Eval vm_compute in (length (enc_records whole_recs) + 8 + 300)%nat.
Example C87_cut_example :
  storage_label label_bytes /\ Forall wf_file ([] ++ long_file 60 :: []) /\ (ex_cut <= length (enc_file (long_file 60)))%nat /\
  cut (long_file 60) ex_cut whole_recs (snd long_row) (firstn 300 (enc_record (snd long_row))) /\
  noticed (long_file 60) ex_cut (snd long_row) (firstn 300 (enc_record (snd long_row))) /\
  let file := firstn (80 + length (enc_files []) + ex_cut) (label_bytes ++ enc_files ([] ++ long_file 60 :: [])) in
  (exists st, load (fun _ => false) (fun _ _ => None) (fun _ _ => None) 2000 file = ([CRITICAL], Ok st)) /\
  exists d, curves_in (fun _ => false) file = Some ([], Ok (d, concat (hd [] rows_of), 1)).
Proof.
  split; [exact label_is|]. split; [exact (Forall_cons _ (long_ok 60 ltac:(left; reflexivity)) (Forall_nil _))|]. split; [apply Nat.leb_le; vm_compute; reflexivity|].
  split. { split; [exists false, []; reflexivity|]. split; [discriminate|]. split; [vm_compute; reflexivity|]. apply Nat.ltb_lt. vm_compute. reflexivity. }
  split. { left. intros (a & b & E & M). destruct a as [|p0 [|p1 [|p2 a]]]; try discriminate E; [| |injection E as <- <- E].
    - apply (f_equal (Nat.eqb 0)) in M. vm_compute in M. discriminate M.
    - injection E as <- _. apply (f_equal (Nat.eqb ex_cut)) in M. vm_compute in M. discriminate M.
    - apply (f_equal (Nat.eqb ex_cut)) in M. vm_compute in M. discriminate M. }
  split; [eexists; vm_compute; reflexivity|eexists; vm_compute; reflexivity].
Qed.

(** *** Finding: a file that ends between two visible records, inside the last segment of a
    data record.  With the default handler load says nothing, and lists the row that is not
    there; then all rows of the frame are lost, as curves raises. *)
Theorem C87_missed_refuted : exists lab f m r1 segs part,
  storage_label lab /\ wf_file f /\ (m < length (enc_file f))%nat /\ cut f m r1 segs part /\ part <> [] /\
  let file := firstn (80 + m) (lab ++ enc_files [f]) in
  (exists st x k, load default_esc (fun _ _ => None) (fun _ _ => None) 2000 file = ([], Ok st) /\ di_files st = [x] /\
     py_fingerprint (text "FRAME") (text "F") 1 0 = FpOk k /\
     length (index_get k (lf_fdata x)) = 2%nat /\ length (offsets_of (text "FRAME", 1, 0, text "F") (data_at 0 r1 (firstn (length r1) (wf_contents f)))) = 1%nat) /\
  curves_in default_esc file = Some ([CRITICAL], Exn).
Proof.
  exists label_bytes, (long_file cut_at), (length (concat (map enc_visible (firstn 1 (wf_visible (long_file cut_at)))))), whole_recs, (snd long_row), (firstn 300 (enc_record (snd long_row))).
  split; [exact label_is|]. split; [exact (long_ok cut_at ltac:(right; left; reflexivity))|]. split; [apply Nat.ltb_lt; vm_compute; reflexivity|].
  split. { split; [exists false, []; reflexivity|]. split; [discriminate|]. split; [vm_compute; reflexivity|]. apply Nat.ltb_lt. vm_compute. reflexivity. }
  split; [discriminate|]. split; [|vm_compute; reflexivity]. eexists _, _, _. split; [vm_compute; reflexivity|]. split; [reflexivity|]. split; [vm_compute; reflexivity|]. split; vm_compute; reflexivity.
Qed.
Print Assumptions C87_missed_refuted.
