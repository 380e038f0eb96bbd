(** Model of lib/src/tapemark.cpp: recognising tape images. *)
From Verif Require Import Bytes Stream.
Local Open Scope Z_scope.

(** tapemark.hpp 22-28 *)
Record tapemark := mk_tapemark { tm_type : Z; tm_prev : Z; tm_next : Z }.

(** tapemark.cpp 18-35: three little-endian 32-bit numbers, on a little-endian
    host (the other branch reverses them first) *)
Definition parse_tapemark (xs : bytes) : tapemark :=
  mk_tapemark (le (firstn 4 xs)) (le (firstn 4 (skipn 4 xs))) (le (firstn 4 (skipn 8 xs))).

(** tapemark.cpp 11-16 *)
Definition valid_tapemark (tm : tapemark) : bool :=
  if negb (tm_type tm =? 0) && negb (tm_type tm =? 1) then false
  else if tm_next tm <=? tm_prev tm then false
  else true.

(** tapemark.cpp 37-54: from position [pos] of the physical file.  A plain file
    has no hard end; both kinds of short reads throw. *)
Definition read_tapemark (file : bytes) (pos : Z) : res tapemark :=
  match read (mk_stream file false) pos 12 with
  | Some got => if Z.of_nat (length got) <? 12 then Exn else Ok (parse_tapemark got)
  | None => Exn
  end.
