(** Independent specification for C83: what is loaded of a LIS79 file whatever
    its bytes are. *)
From Verif Require Import Bytes SpecTypes SpecIo SpecLisIo SpecLisLoad.
Local Open Scope Z_scope.

(** [so_far data pos secs part]: from [pos] on, [data] begins with these reel and
    tape headers and trailers, logical files and lone logical EOFs and then with
    the records [part] of a logical file.  Nothing is said about what follows:
    it can be the rest of a good file, or anything else.  If there are records in
    [part], one of them is no data record. *)
Inductive so_far (data : bytes) : Z -> list section -> list (Z * Z * Z) -> Prop :=
| sf_rest pos rs last :
    records_at 0 data pos rs last -> inside (map type_of rs) ->
    rs = [] \/ has_explicit (map type_of rs) -> so_far data pos [] rs
| sf_delimiter pos type ds last secs part :
    record_at data pos type ds last -> is_delimiter type ->
    so_far data last secs part -> so_far data pos (Delimiter type ds :: secs) part
| sf_eof pos ds last secs part :
    record_at data pos 137 ds last ->
    so_far data last secs part -> so_far data pos secs part
| sf_closed pos rs c last secs part :
    records_at 0 data pos (rs ++ [c]) last -> inside (map type_of rs) -> is_closing (type_of c) ->
    (type_of c = 137 -> has_explicit (map type_of rs)) ->
    so_far data last secs part -> so_far data pos (File (rs ++ [c]) :: secs) part
| sf_open pos rs last secs part :
    records_at 0 data pos rs last -> inside (map type_of rs) -> has_explicit (map type_of rs) ->
    starts_new data last -> so_far data last secs part -> so_far data pos (File rs :: secs) part.

(** all records of all logical files, in order *)
Definition all_records (secs : list section) : list (Z * Z * Z) :=
  flat_map (fun s => match s with File rs => rs | Delimiter _ _ => [] end) secs.

(** the file has such a record: at its start there is a header without
    predecessor and the type, a known one *)
Definition stored (data : bytes) (r : Z * Z * Z) : Prop :=
  exists l a h t x, phys_header l a h /\ predecessor a = false /\ at_pos data (start_of r) (h ++ [t; x]) /\
    b2z t = type_of r /\ In (type_of r) record_types /\ 6 <= snd (fst r) /\ l <= snd (fst r).

(** a logical file with a closing record *)
Definition closed (rs : list (Z * Z * Z)) : Prop := exists a c, rs = a ++ [c] /\ is_closing (type_of c).
