(** Independent specification of the RP66 (Appendix B) data types, written with
    plain arithmetic from the standard.  It does not use any definition of the
    model. *)
From Verif Require Import Bytes.
Local Open Scope Z_scope.

(** the encodings of a UVARI: bytes and value *)
Inductive rp66_uvari : bytes -> Z -> Prop :=
| uvari_1 b0 :
    b2z b0 < 128 -> rp66_uvari [b0] (b2z b0)
| uvari_2 b0 b1 :
    128 <= b2z b0 < 192 ->
    rp66_uvari [b0; b1] ((b2z b0 - 128) * 256 + b2z b1)
| uvari_4 b0 b1 b2 b3 :
    192 <= b2z b0 ->
    rp66_uvari [b0; b1; b2; b3]
      ((b2z b0 - 192) * 16777216 + b2z b1 * 65536 + b2z b2 * 256 + b2z b3).

(** a byte string of length [n <= 255] preceded by its length in one byte *)
Inductive rp66_ident : bytes -> bytes -> Prop :=
| ident_enc l s : b2z l = Z.of_nat (length s) -> rp66_ident (l :: s) s.

(** a byte string preceded by its length as UVARI *)
Inductive rp66_ascii : bytes -> bytes -> Prop :=
| ascii_enc e s : rp66_uvari e (Z.of_nat (length s)) -> rp66_ascii (e ++ s) s.

(** origin, copy number, identifier *)
Inductive rp66_obname : bytes -> Z -> Z -> bytes -> Prop :=
| obname_enc eo o c ei i :
    rp66_uvari eo o -> rp66_ident ei i ->
    rp66_obname (eo ++ c :: ei) o (b2z c) i.

Inductive rp66_objref : bytes -> bytes -> Z -> Z -> bytes -> Prop :=
| objref_enc et t en o c i :
    rp66_ident et t -> rp66_obname en o c i ->
    rp66_objref (et ++ en) t o c i.

Inductive rp66_attref : bytes -> bytes -> Z -> Z -> bytes -> bytes -> Prop :=
| attref_enc et t en o c i el l :
    rp66_ident et t -> rp66_obname en o c i -> rp66_ident el l ->
    rp66_attref (et ++ en ++ el) t o c i l.

(** [v] is the two's complement reading of the unsigned [n]-bit number [u] *)
Definition twos_complement (n : Z) (u v : Z) : Prop :=
  - 2 ^ (n - 1) <= v < 2 ^ (n - 1) /\ (u - v) mod 2 ^ n = 0.

(** big-endian unsigned reading of 2 and 4 bytes *)
Definition u16 (b0 b1 : byte) : Z := b2z b0 * 256 + b2z b1.
Definition u32be (b0 b1 b2 b3 : byte) : Z :=
  b2z b0 * 16777216 + b2z b1 * 65536 + b2z b2 * 256 + b2z b3.
Definition u64be (b0 b1 b2 b3 b4 b5 b6 b7 : byte) : Z :=
  u32be b0 b1 b2 b3 * 4294967296 + u32be b4 b5 b6 b7.

(** [reader] consumes exactly the first [n] bytes, and refuses exactly the
    inputs that are shorter *)
Definition consumes {A} (reader : bytes -> option (A * bytes)) (n : Z) (xs : bytes) : Prop :=
  0 < n /\
  (n <= Z.of_nat (length xs) -> exists v, reader xs = Some (v, skipn (Z.to_nat n) xs)) /\
  (Z.of_nat (length xs) < n -> reader xs = None).
