(** Specification for C72 and C73: what the records of a LIS79 logical file are
    parsed to, and which data records belong to a format specification. *)
From Verif Require Import Bytes SpecTypes SpecIo SpecLisIo LisProtocol SpecLisProtocol LisIo LisPy LisFile.
Local Open Scope Z_scope.

(** the record [r] of [data] has the contents [ds] *)
Definition contents (off : Z) (data : bytes) (r : Z * Z * Z) (ds : bytes) : Prop :=
  exists padded e, at_pos data (start_of r) e /\ gap off (start_of r) [] (firstn 4 e) /\
    lis_record padded off (start_of r) (type_of r) ds e.

(** ** Parsed records *)

(** type, size and position as an index entry *)
Definition entry (r : Z * Z * Z) : record_info := mk_info (type_of r) (snd (fst r)) (start_of r).

(** what a record with contents [ds] says (C48-C50) *)
Inductive parsed_as (r : Z * Z * Z) (ds : bytes) : parsed -> Prop :=
| pa_format es sps : type_of r = 64 -> dfsr_bytes ds es sps -> parsed_as r ds (Format (entry r) (mk_dfsr es sps))
| pa_information bs cs : In (type_of r) [32; 34; 39] -> ds = concat bs -> Forall2 component_bytes bs cs ->
    parsed_as r ds (Information (entry r) cs)
| pa_file_header x : type_of r = 128 -> file_layout ds x -> parsed_as r ds (FileHeader x)
| pa_file_trailer x : type_of r = 129 -> file_layout ds x -> parsed_as r ds (FileTrailer x)
| pa_tape_header x : type_of r = 130 -> reel_tape_layout ds x -> parsed_as r ds (TapeHeader x)
| pa_tape_trailer x : type_of r = 131 -> reel_tape_layout ds x -> parsed_as r ds (TapeTrailer x)
| pa_reel_header x : type_of r = 132 -> reel_tape_layout ds x -> parsed_as r ds (ReelHeader x)
| pa_reel_trailer x : type_of r = 133 -> reel_tape_layout ds x -> parsed_as r ds (ReelTrailer x)
| pa_text : In (type_of r) [224; 225; 227; 232] -> parsed_as r ds (Text (type_of r) ds).
(** the types of records that can be parsed *)
Definition parsable : list Z := [32; 34; 39; 64; 128; 129; 130; 131; 132; 133; 224; 225; 227; 232].

(** the records of a type that is not a data type, with their contents *)
Inductive of_type (type : Z) : list (Z * Z * Z) -> list bytes -> list (Z * Z * Z) -> list bytes -> Prop :=
| ot_nil : of_type type [] [] [] []
| ot_take r rs ds dss rs' dss' : type_of r = type -> ~ is_data type -> of_type type rs dss rs' dss' ->
    of_type type (r :: rs) (ds :: dss) (r :: rs') (ds :: dss')
| ot_drop r rs ds dss rs' dss' : type_of r <> type \/ is_data type -> of_type type rs dss rs' dss' ->
    of_type type (r :: rs) (ds :: dss) rs' dss'.

(** ** Data records *)

(** the contents of the data records *)
Inductive data_contents : list (Z * Z * Z) -> list bytes -> list bytes -> Prop :=
| dc_nil : data_contents [] [] []
| dc_take r rs ds dss datas : is_data (type_of r) -> data_contents rs dss datas ->
    data_contents (r :: rs) (ds :: dss) (ds :: datas)
| dc_drop r rs ds dss datas : ~ is_data (type_of r) -> data_contents rs dss datas ->
    data_contents (r :: rs) (ds :: dss) datas.
(** [part rs a r b]: among the records [rs] the format specification [r] comes after
    [a] and is followed by [b], up to the next one or the end *)
Inductive part (rs a : list (Z * Z * Z)) (r : Z * Z * Z) (b : list (Z * Z * Z)) : Prop :=
| part_of rest : rs = a ++ r :: b ++ rest -> type_of r = 64 -> (forall x, In x b -> type_of x <> 64) ->
    (rest = [] \/ exists n t, rest = n :: t /\ type_of n = 64) -> part rs a r b.
(** how many format specifications there are *)
Definition formats (rs : list (Z * Z * Z)) : nat := length (filter (fun r => type_of r =? 64) rs).
