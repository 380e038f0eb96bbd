(** Independent specification for C82: what the queries of a file give, in terms of the
    sets and objects that were written.  The parts are those of C23 (what an object
    component means) and C37 (what a value turns into). *)
From Verif Require Import Bytes Stream SpecIo PyBase DlisTypes DlisRecords SpecRecords CommonPy DlisStore SpecDlisStore DlisSchema DlisObject SpecDlisObject SpecDlisLoad.
From Verif Require DlisLoad SpecDlisCut.
Import SpecDlisCut (carries).
Local Open Scope Z_scope.

(** ** Files *)

(** [sets] are those of the [i]-th logical file that load makes of [file], in which [f] was
    written (or is what is left of it, see [carries]) *)
Definition opened (esc : severity -> bool) (file : bytes) (i : nat) (f : wfile) (sets : list object_set) : Prop :=
  carries esc file i f /\
  exists ot tr fuel l st x,
    len file + 1 < Z.of_nat fuel /\ DlisLoad.load esc ot tr fuel file = (l, Ok st) /\
    nth_error (DlisLoad.di_files st) i = Some x /\ sets = DlisLoad.lf_sets x.

(** ** Objects *)

(** the objects that were written, with their sets, in the order of the file *)
Definition written (f : wfile) : list (wset * wobject) :=
  flat_map (fun w => map (pair w) (ws_objects w)) (metadata (wf_contents f)).
(** what is read for one of them *)
Definition read_from (p : wset * wobject) (x : object) : Prop := reads_as (fst p) (snd p) x.

(** [r] are the members of [l] with a property, in the same order *)
Inductive picked {A} (P : A -> Prop) : list A -> list A -> Prop :=
  | picked_end : picked P [] []
  | picked_one x l r : P x -> picked P l r -> picked P (x :: l) (x :: r)
  | picked_not x l r : ~ P x -> picked P l r -> picked P (x :: l) r.

Section meta.
Variable dec : bytes -> pystr.
Variable enc : pystr -> bytes.
Variable esc : severity -> bool.

(** it has this type and name, and this origin and copy number if they are given *)
Definition bears (t name : pystr) (origin copynr : option Z) (p : wset * wobject) : Prop :=
  dec (ws_type (fst p)) = t /\ dec (wo_id (snd p)) = name /\
  (forall z, origin = Some z -> wo_origin (snd p) = z) /\ (forall z, copynr = Some z -> wo_copy (snd p) = z).
(** the one that does: no other does, or all that do are the same, and it is the first *)
Definition the_written (f : wfile) (t name : pystr) (origin copynr : option Z) (p : wset * wobject) : Prop :=
  exists a b, written f = a ++ p :: b /\ bears t name origin copynr p /\
    (forall q, In q a -> ~ bears t name origin copynr q) /\
    ((forall q, In q b -> ~ bears t name origin copynr q) \/
     (forall q x y, q = p \/ In q b -> bears t name origin copynr q -> read_from q x -> read_from p y -> same_object x y)).

(** ** Attributes *)

(** the values an object has for a label, their type, and what is wrong with them *)
Inductive has (p : wset * wobject) (label : bytes) : Z -> list value -> list problem -> Prop :=
  | has_not attrs c : object_reads (ws_tmpl (fst p)) (wo_comps (snd p)) attrs -> ~ In label (map at_label attrs) -> has p label c [] []
  | has_no_value attrs c a : object_reads (ws_tmpl (fst p)) (wo_comps (snd p)) attrs ->
      In a attrs -> at_label a = label -> at_value a = Mono -> has p label c [] (at_log a)
  | has_values attrs c vs a : object_reads (ws_tmpl (fst p)) (wo_comps (snd p)) attrs ->
      In a attrs -> at_label a = label -> at_value a = Vec c vs -> has p label c vs (at_log a).

(** what a value is in Python *)
Inductive means (f : wfile) (l : option link) (c : Z) : value -> pyval -> Prop :=
  | means_number z : means f l c (VNum z) (PNumber c z)
  | means_numbers zs : means f l c (VNums zs) (PNumbers c zs)
  | means_text s u v : dec s = Str u -> trimmed u v -> means f l c (VText s) (PText (Str v))
  | means_bytes s b : dec s = Raw b -> means f l c (VText s) (PText (Raw b))
  | means_time t d : to_pydatetime t = Some d -> means f l c (VTime t) (PTime d)
  | means_object v t n p x : refers dec l v t n -> the_written f t (dec (ob_id n)) (Some (ob_origin n)) (Some (ob_copy n)) p ->
      read_from p x -> means f l c v (PObject (promote dec x))
  | means_none v : l <> None -> a_reference v = true ->
      (forall t n p, refers dec l v t n -> ~ the_written f t (dec (ob_id n)) (Some (ob_origin n)) (Some (ob_copy n)) p) -> means f l c v PNone
  | means_name n : l = None -> means f l c (VName n) (PName n)
  | means_ref n : l = None -> means f l c (VRef n) (PRef n)
  | means_attr n : l = None -> means f l c (VAttr n) (PAttr n).

(** ** When nothing raises *)

(** the types of the sets survive the way to C++ and back, and are not empty *)
Definition typed (f : wfile) : Prop :=
  forall w, In w (metadata (wf_contents f)) -> kept dec enc (dec (ws_type w)) /\ enc (dec (ws_type w)) <> [].
(** a handler that, like the default one, raises for critical problems at most *)
Definition lenient : Prop := forall s, s <> CRITICAL -> esc s = false.
(** problems that are not escalated *)
Definition tolerated (lg : list problem) : Prop := forall p, In p lg -> esc (severity_of p) = false.
(** a date exists; the name of an object that is referred to is not empty, and it and the
    type survive the way to C++ and back *)
Definition legible (l : option link) (v : value) : Prop :=
  (forall t, v = VTime t -> to_pydatetime t <> None) /\
  (forall t n, refers dec l v t n -> kept dec enc t /\ kept dec enc (dec (ob_id n)) /\ dec (ob_id n) <> Str [] /\ dec (ob_id n) <> Raw []).
End meta.
