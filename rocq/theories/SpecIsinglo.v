(** Independent specification for C81: what the writer of IBM floats has to do. *)
From Coq Require Import ZArith List.
Import ListNotations.
Local Open Scope Z_scope.

(** a single-precision word: sign, biased exponent, fraction *)
Definition ieee_word (s : bool) (e f : Z) : Z := (if s then 2 ^ 31 else 0) + e * 2 ^ 23 + f.
Definition ieee_fields (e f : Z) : Prop := 0 <= e < 256 /\ 0 <= f < 2 ^ 23.

(** An IBM fraction has 24 bits, of which the first three may be zero, as exponents
    count hexadecimal digits.  So a single with its 24 significant bits loses this many: *)
Definition lost_bits (e : Z) : Z := (2 - e) mod 4.

(** the IBM word with this sign, exponent and fraction *)
Definition ibm_parts (s : bool) (E F : Z) : Z := (if s then 2 ^ 31 else 0) + E * 2 ^ 24 + F.
