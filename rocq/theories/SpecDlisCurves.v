(** Independent specification for C65-C68: which rows of a logical file are those of a
    frame, and how the frame's channels are described in the file. *)
From Verif Require Import Bytes Stream PyBase DlisTypes DlisCore SpecTypes SpecCore DlisIo SpecIo DlisRecords SpecRecords DlisFdata SpecFdata CommonPy DlisStore SpecDlisStore
  DlisObject SpecDlisObject SpecDlisLoad DlisFrame SpecDlisFrame SpecDimensional.
Local Open Scope Z_scope.

(** the fingerprint of an object; there is none if the type is empty (C16) *)
Definition printed (ty id : bytes) (o c : Z) (k : bytes) : Prop :=
  ty <> [] /\ exists so sc, is_numeral so o /\ is_numeral sc c /\
    k = text "T." ++ ty ++ text "-I." ++ id ++ text "-O." ++ so ++ text "-C." ++ sc.

(** an index as it is made: every key once, and never without records *)
Definition index_sound (idx : fdata_index) : Prop :=
  NoDup (map fst idx) /\ Forall (fun e => snd e <> []) idx.

Section curves.
Variable dec : bytes -> pystr.
Variable enc : pystr -> bytes.
Variable esc : severity -> bool.
Variable sets : list object_set.

(** the fingerprint as Python shows it: type and name are decoded first *)
Definition shown (o : object) (fp : pystr) : Prop :=
  exists k, printed (enc (dec (obj_type o))) (enc (dec (ob_id (obj_name o)))) (ob_origin (obj_name o)) (ob_copy (obj_name o)) k /\ dec k = fp.

(** The records of the object can be told from those of others: decoding its name and
    its fingerprint amounts to the same, and no other object that has records has a
    fingerprint that reads the same. *)
Definition recognised (ty : bytes) (o : object) (owners : list (option owner)) : Prop :=
  exists k, printed ty (ob_id (obj_name o)) (ob_origin (obj_name o)) (ob_copy (obj_name o)) k /\ shown o (dec k) /\
    forall ty' o' c' i' k', In (Some (ty', o', c', i')) owners -> printed ty' i' o' c' k' -> dec k' = dec k -> k' = k.
(** who the records of the object belong to *)
Definition owned (ty : bytes) (o : object) : owner := (ty, ob_origin (obj_name o), ob_copy (obj_name o), ob_id (obj_name o)).

(** ** Channels *)

(** what a channel says about its samples: the representation code is the first value
    of its attribute, the dimension is recorded in reverse order *)
Definition described (o : object) (c : column) : Prop :=
  dec (ob_id (obj_name o)) = Str (cl_name c) /\ shown o (Str (cl_fp c)) /\
  ob_origin (obj_name o) = cl_origin c /\ ob_copy (obj_name o) = cl_copy c /\
  calm dec enc esc o (obj_log o) /\
  (exists rc more lg, stored enc o (lit (text "REPRESENTATION-CODE")) rc (map VNum (cl_reprc c :: more)) lg /\
     In rc integer_codes /\ calm dec enc esc o lg) /\
  (exists rc lg, stored enc o (lit (text "DIMENSION")) rc (map VNum (rev (cl_dim c))) lg /\
     In rc integer_codes /\ calm dec enc esc o lg).
(** a frame lists the names of its channels, each of which is the name of a channel *)
Definition has_channels (f : object) (chs : list object) : Prop :=
  calm dec enc esc f (obj_log f) /\
  exists rc ns lg, stored enc f (lit (text "CHANNELS")) rc (map VName ns) lg /\ calm dec enc esc f lg /\
    Forall2 (fun n ch => kept dec enc (dec (ob_id n)) /\ truthy (dec (ob_id n)) = true /\ the_object dec sets (lit (text "CHANNEL")) n ch) ns chs /\
    kept dec enc (lit (text "CHANNEL")) /\ selected_raises dec esc (pystr_eqb (lit (text "CHANNEL"))) sets = false.
End curves.

(** ** Records *)

(** [recorded own P recs cs xs]: the records of a logical file and what they hold; [xs]
    is what [P] says the data of the records of [own] are, in the order of the file.
    Records of others may hold anything. *)
Inductive recorded {A} (own : owner) (P : bytes -> list A -> Prop) : list (bool * list segment) -> list content -> list A -> Prop :=
  | rec_nil : recorded own P [] [] []
  | rec_own e g t ds en o c i es xs recs cs rest :
      record_data (g :: t) ds 0 -> seg_bit 4 g = false -> ds = en ++ es -> rp66_obname en o c i -> P es xs ->
      recorded own P recs cs rest -> recorded own P ((e, g :: t) :: recs) (Data (Some own) :: cs) (xs ++ rest)
  | rec_other r c recs cs rest :
      c <> Data (Some own) -> recorded own P recs cs rest -> recorded own P (r :: recs) (c :: cs) rest.

(** the stream and the index of a logical file: the records, with what they hold, are at
    the start of the stream, and the index is that of these records (C62) *)
Definition data_of (recs : list (bool * list segment)) (cs : list content) (s : stream) (idx : fdata_index) : Prop :=
  SpecIo.logical_file false recs /\ Forall2 holds recs cs /\ (exists tail, s_data s = enc_records recs ++ tail) /\ len (s_data s) < 2 ^ 63 /\
  index_reads (data_at 0 recs cs) idx /\ index_sound idx.
(** the objects of the logical file *)
Definition object_of (sets : list object_set) (o : object) : Prop := exists s, In s sets /\ In o (objects_in s).
