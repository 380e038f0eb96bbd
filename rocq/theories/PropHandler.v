(** C84: the error handler decides where a call ends, and nothing else. *)
From Verif Require Import Bytes Stream DlisTypes DlisCore SpecCore DlisIo DlisRecords SpecIo Lfp PyBase CommonPy DlisFdata DlisStore DlisSchema DlisObject
  DlisFrame Dimensional DlisCurves DlisClasses DlisDescribe SpecDlisLoad PropDlisLoad SpecDlisSurvey PropDlisSurvey SpecHandler HandlerProofs HandlerProofs2 HandlerProofs3.
From Verif Require DlisLoad LisLoad LisIo PropLisLoad.
Import DlisLoad (load, di_files, lf_sets).
Local Open Scope Z_scope.

Lemma cut_of esc ok {A} (m0 m : io A) : follow esc ok nothing m0 m -> ok -> cut_short esc m0 m.
Proof.
  intros [(H & E) | (before & p & F & H)] O; [ left; split; [ exact H|now injection E as ->]|right].
  destruct (H O) as (more & E & [-> | (_ & [])]). exists before, p. split; [ exact F|exact E].
Qed.
Lemma cut_in esc {S A} (x0 x : S * io A) : follows esc True nothing x0 x -> cut_short_in esc x0 x.
Proof.
  intros [H | (before & p & F & H)]; [ now left|right].
  destruct (H I) as (more & E & [-> | (_ & [])]). exists before, p. split; [ exact F|exact E].
Qed.
Lemma reported_in esc {S A} (x0 x : S * io A) : follows esc (monotone esc) reported x0 x -> (esc MINOR = true -> esc CRITICAL = true) ->
  cut_short_reported_in esc x0 x.
Proof.
  intros [H | (before & p & F & H)] O; [ now left; left|].
  destruct (H O) as (more & E & [-> | (-> & ->)]); [ left; right; exists before, p|right; exists before]; now split.
Qed.
Lemma same_of esc ok echo {S A} (x0 x : S * io A) : follows esc ok echo x0 x -> accepts esc (fst (snd x0)) -> x = x0.
Proof. intros [(_ & E) | (before & p & F & _)] H; [ exact E|]. now destruct (first_not esc _ _ _ F). Qed.

(** ** Loading *)

(** dlis.load, of any file and with any device for tape images: if the handler raises for
    none of the problems, the result does not depend on it.  If it raises, and not for
    minor problems, loading ends with the first problem for which it does. *)
Theorem C84_dlis_load : forall esc open_tif tif_rp66 fuel file,
  let quiet := load never open_tif tif_rp66 fuel file in
  let strict := load esc open_tif tif_rp66 fuel file in
  (accepts esc (fst quiet) -> strict = quiet) /\ (esc MINOR = false -> cut_short esc quiet strict).
Proof.
  intros esc ot tr fuel file quiet strict. pose proof (dlis_load_follows esc ot tr fuel file) as F. split.
  - intros A. pose proof (same_of _ _ _ _ _ F A) as E. now injection E.
  - exact (cut_of _ _ _ _ F).
Qed.
Print Assumptions C84_dlis_load.

(** lis.load, with any handler *)
Theorem C84_lis_load : forall esc open_tif tif_stopped fuel file,
  cut_short esc (LisLoad.load never open_tif tif_stopped fuel file) (LisLoad.load esc open_tif tif_stopped fuel file).
Proof. intros. exact (cut_of _ True _ _ (lis_load_follows esc True nothing _ _ _ _) I). Qed.
Print Assumptions C84_lis_load.

(** If loading returns under a handler, it returns the same under any that raises for
    less. *)
Theorem C84_laxer : forall esc laxer,
  (forall p, laxer p = true -> esc p = true) ->
  (forall open_tif tif_rp66 fuel file l st, esc MINOR = false ->
     load esc open_tif tif_rp66 fuel file = (l, Ok st) -> load laxer open_tif tif_rp66 fuel file = (l, Ok st)) /\
  (forall open_tif tif_stopped fuel file l st,
     LisLoad.load esc open_tif tif_stopped fuel file = (l, Ok st) -> LisLoad.load laxer open_tif tif_stopped fuel file = (l, Ok st)).
Proof.
  intros esc laxer L.
  assert (W : forall l, accepts esc l -> accepts laxer l).
  { intros l A p I. specialize (A p I). destruct (laxer p) eqn:E; [|reflexivity]. rewrite (L p E) in A. discriminate A. }
  split.
  - intros ot tr fuel file l st M E. destruct (C84_dlis_load esc ot tr fuel file) as (_ & C).
    destruct (C M) as [(A & E') | (before & p & _ & E')]; [|congruence].
    rewrite (proj1 (C84_dlis_load laxer ot tr fuel file) (W _ A)). congruence.
  - intros ot ts fuel file l st E. destruct (C84_lis_load esc ot ts fuel file) as [(A & E') | (before & p & _ & E')]; [|congruence].
    destruct (C84_lis_load laxer ot ts fuel file) as [(_ & E2) | (before & p & F & _)]; [ congruence|].
    now destruct (first_not laxer _ _ _ F (W _ A)).
Qed.
Print Assumptions C84_laxer.

(** Any plain DLIS file: loading raises for a problem, or returns the logical files of the
    survey (C80), or raises if the survey says so. *)
Theorem C84_plain : forall esc ot tr file fuel fs fin,
  esc MINOR = false -> starts_plain file -> len file + 1 < Z.of_nat fuel -> survey file 0 None true fs fin ->
  let strict := load esc ot tr fuel file in
  (exists before p, accepts esc before /\ esc p = true /\ strict = (before ++ [p], Exn)) \/
  accepts esc (fst strict) /\
  (snd strict = UB \/
   match fin with
   | Returns => exists st, snd strict = Ok st /\ Forall2 outlined fs (di_files st)
   | Raises => snd strict = Exn
   end).
Proof.
  intros esc ot tr file fuel fs fin M SP HF S strict.
  destruct (proj2 (C84_dlis_load esc ot tr fuel file) M) as [(A & E) | (before & p & (A & P & _) & E)].
  - right. unfold strict. rewrite E. split; [ exact A|]. exact (C80_decides ot tr file fuel fs fin SP HF S).
  - left. exists before, p. auto.
Qed.
Print Assumptions C84_plain.

(** ** Metadata *)

(** Queries, from any state of the store and with any handler: objects, their attributes,
    links, listings and descriptions. *)
Theorem C84_queries : forall esc dec enc set_order maxdims st,
  (forall type name matcher, cut_short_in esc (store_find dec enc never set_order st type name matcher) (store_find dec enc esc set_order st type name matcher)) /\
  (forall type name origin copynr, cut_short_in esc (lf_object dec enc never set_order st type name origin copynr) (lf_object dec enc esc set_order st type name origin copynr)) /\
  cut_short_in esc (fileheader dec enc never set_order st) (fileheader dec enc esc set_order st) /\
  (forall sc o key, cut_short_in esc (getitem dec enc never set_order st sc o key) (getitem dec enc esc set_order st sc o key)) /\
  (forall sc o key zoned single, cut_short_in esc (sampled maxdims dec enc never set_order st sc o key zoned single) (sampled maxdims dec enc esc set_order st sc o key zoned single)) /\
  (forall sc o, cut_short_in esc (snd (group_objects dec enc never set_order st sc o)) (snd (group_objects dec enc esc set_order st sc o))) /\
  (forall o, cut_short_in esc (channel_frame dec enc never set_order st o) (channel_frame dec enc esc set_order st o)) /\
  (forall frame, cut_short_in esc (frame_index dec enc never set_order st frame) (frame_index dec enc esc set_order st frame)) /\
  cut_short_in esc (unknowns dec enc never set_order st) (unknowns dec enc esc set_order st) /\
  cut_short_in esc (load_all dec enc never set_order st) (load_all dec enc esc set_order st) /\
  (forall x exclude, cut_short_in esc (describe maxdims dec enc never set_order st x exclude) (describe maxdims dec enc esc set_order st x exclude)) /\
  cut_short_in esc (describe_file dec enc never set_order st) (describe_file dec enc esc set_order st) /\
  (forall sts, cut_short_in esc (describe_physical dec enc never set_order sts) (describe_physical dec enc esc set_order sts)).
Proof.
  intros. repeat split; intros; apply cut_in.
  - apply store_find_follows.
  - apply lf_object_follows.
  - apply fileheader_follows.
  - apply getitem_follows.
  - apply sampled_follows.
  - apply group_objects_follows.
  - apply channel_frame_follows.
  - apply frame_index_follows.
  - apply unknowns_follows.
  - apply load_all_follows.
  - apply describe_follows.
  - apply describe_file_follows.
  - apply describe_physical_follows.
Qed.
Print Assumptions C84_queries.

(** ** Data *)

(** Curves and unformatted data.  The handler is one that raises for critical problems if
    it raises for minor ones: the exception of a minor problem is caught, and reported as
    a critical problem. *)
Theorem C84_curves : forall esc dec enc set_order maxdims fmtlabel st s after idx,
  let follows {A} (quiet strict : store * io A) :=
    (accepts esc (fst (snd quiet)) -> strict = quiet) /\
    ((esc MINOR = true -> esc CRITICAL = true) -> cut_short_reported_in esc quiet strict) in
  (forall frame strict, follows (curves dec enc never set_order maxdims fmtlabel st s after idx frame strict)
                                (curves dec enc esc set_order maxdims fmtlabel st s after idx frame strict)) /\
  (forall self, follows (channel_curves dec enc never set_order maxdims fmtlabel st s after idx self)
                        (channel_curves dec enc esc set_order maxdims fmtlabel st s after idx self)) /\
  (forall self, follows (st, noformat_data dec enc never s idx self) (st, noformat_data dec enc esc s idx self)).
Proof.
  intros. assert (W : forall A (x0 x : store * io A), HandlerProofs.follows esc (monotone esc) reported x0 x -> follows A x0 x).
  { intros A x0 x F. split; [ exact (same_of _ _ _ _ _ F)|exact (reported_in _ _ _ F)]. }
  repeat split; apply W.
  all: first [ apply curves_follows|apply channel_curves_follows|apply (proj1 (follow_iff esc _ _ st _ _)), noformat_follows].
Qed.
Print Assumptions C84_curves.

(** ** Examples *)

(** no label, which is a minor problem, and a record without a length, which is critical *)
Definition damaged_file : bytes := enc_visible (enc_records [header_rec] ++ [x00; x00; x80; x00]).
Example C84_dlis_example :
  by_default MINOR = false /\ starts_plain damaged_file /\
  (exists st, load never (fun _ _ => None) (fun _ _ => None) 500 damaged_file = ([MINOR; CRITICAL], Ok st) /\
     map (fun f => map os_type (lf_sets f)) (di_files st) = [[text "FILE-HEADER"]]) /\
  first_raising by_default [MINOR; CRITICAL] [MINOR] CRITICAL /\
  load by_default (fun _ _ => None) (fun _ _ => None) 500 damaged_file = ([MINOR; CRITICAL], Exn) /\
  load (fun _ => true) (fun _ _ => None) (fun _ _ => None) 500 damaged_file = ([MINOR], Exn).
Proof.
  split; [ reflexivity|]. split; [ do 13 eexists; split; [ reflexivity|]; vm_compute; intuition discriminate|].
  split; [ eexists; split; vm_compute; reflexivity|]. split; [|split; vm_compute; reflexivity].
  split; [ intros p [<- | []]; reflexivity|]. split; [ reflexivity|now exists []].
Qed.
Example C84_lis_example :
  let file := PropLisLoad.C61_bytes in
  let load esc := LisLoad.load esc PropLisLoad.never_tif LisLoad.plain_stopped (length file + 2) file in
  (exists st, load never = ([CRITICAL], Ok st) /\ length (LisLoad.fi_files st) = 1%nat) /\ load by_default = ([CRITICAL], Exn).
Proof. split; [ eexists; split; vm_compute; reflexivity|vm_compute; reflexivity]. Qed.
(** unformatted data of two records, the first with padding that is too long: the handler
    that raises for everything hears of it twice *)
Definition padded_rec : list segment := [mk_seg x21 x01 [x00; x00; x00; x08]; mk_seg x40 x01 ([x02; x00; x01] ++ text "Nab")].
Example C84_noformat_example :
  let s := mk_stream (enc_records [(false, padded_rec); frame_rec (text "N")]) false in
  read_noform never s [0; 18] = ([MINOR], Ok (text "absamples")) /\ read_noform (fun _ => true) s [0; 18] = ([MINOR; CRITICAL], Exn).
Proof. split; vm_compute; reflexivity. Qed.

(** ** Limits *)

(** A handler that raises for minor problems only loses a record (C61_dlis_refuted): the
    problem is reported, the exception is caught, and load returns without the record. *)
Theorem C84_minor_refuted :
  let esc p := match p with MINOR => true | _ => false end in
  let quiet := load never (fun _ _ => None) (fun _ _ => None) 500 overlong_file in
  let strict := load esc (fun _ _ => None) (fun _ _ => None) 500 overlong_file in
  ~ cut_short esc quiet strict /\ ~ cut_short_reported esc quiet strict /\
  exists st st', strict = ([MINOR; CRITICAL], Ok st) /\ quiet = ([MINOR], Ok st') /\
    map (fun f => length (lf_sets f)) (di_files st) = [1%nat] /\ map (fun f => length (lf_sets f)) (di_files st') = [2%nat].
Proof.
  intros esc quiet strict. destruct C61_dlis_refuted as (_ & st & st' & E & E' & N & N').
  change (strict = ([MINOR; CRITICAL], Ok st)) in E. change (quiet = ([MINOR], Ok st')) in E'.
  assert (C : ~ cut_short esc quiet strict).
  { rewrite E, E'. intros [(A & _) | (before & p & _ & X)]; [|discriminate X]. discriminate (A MINOR (or_introl eq_refl)). }
  split; [ exact C|]. split; [|exists st, st'; auto].
  intros [X | (before & _ & X)]; [ exact (C X)|]. rewrite E in X. discriminate X.
Qed.
Print Assumptions C84_minor_refuted.

(** Nor does a handler that raises for everything always end the call: load catches the
    exception for a label between logical files, and goes on as if there were none.  Here
    the second logical file starts with a set the type of which looks like a label:
    with a handler that never raises its first bytes are taken for a label, and load
    raises as there is no visible record behind; with one that always raises, load
    reports a minor problem and returns. *)
Definition label_like : bool * list segment :=
  (true, [mk_seg x80 x00 ([xf0; "R"%byte] ++ text "ECORD" ++ repeat "X"%byte 77)]).
Definition label_like_file : bytes :=
  example_label ++ enc_visible (enc_records [header_rec]) ++ enc_visible (enc_records [label_like]).
Theorem C84_label_refuted :
  let quiet := load never (fun _ _ => None) (fun _ _ => None) 500 label_like_file in
  let strict := load (fun _ => true) (fun _ _ => None) (fun _ _ => None) 500 label_like_file in
  snd quiet = Exn /\ exists st, strict = ([MINOR], Ok st) /\ length (di_files st) = 2%nat.
Proof. split; [ vm_compute; reflexivity|]. eexists. split; vm_compute; reflexivity. Qed.
Print Assumptions C84_label_refuted.
