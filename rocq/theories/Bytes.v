(** Bytes, big-endian numbers and two's complement.  Nothing here models
    dlisio code; these are the data domains shared by model and specification. *)
From Coq Require Export List ZArith Lia Bool Arith.
From Coq Require Export Init.Byte.
From Coq Require Import Strings.Byte.
From Coq Require Export ZifyBool ZifyNat ZifyN.
Export ListNotations.
Local Open Scope Z_scope.

Notation bytes := (list byte).

(** unsigned value of a byte, 0..255 *)
Definition b2z (b : byte) : Z := Z.of_N (Byte.to_N b).

(** the byte with value [z mod 256] *)
Definition z2b (z : Z) : byte :=
  match Byte.of_N (Z.to_N (z mod 256)) with
  | Some b => b
  | None => x00
  end.

(** big-endian unsigned number *)
Fixpoint be_acc (acc : Z) (bs : bytes) : Z :=
  match bs with
  | [] => acc
  | b :: t => be_acc (acc * 256 + b2z b) t
  end.
Definition be (bs : bytes) : Z := be_acc 0 bs.

(** little-endian unsigned number *)
Fixpoint le (bs : bytes) : Z :=
  match bs with
  | [] => 0
  | b :: t => b2z b + 256 * le t
  end.

(** the n-byte big-endian representation of [z mod 256^n] *)
Fixpoint enc_be (n : nat) (z : Z) : bytes :=
  match n with
  | O => []
  | S k => z2b (z / 256 ^ Z.of_nat k) :: enc_be k z
  end.

Fixpoint enc_le (n : nat) (z : Z) : bytes :=
  match n with
  | O => []
  | S k => z2b z :: enc_le k (z / 256)
  end.

(** two's complement reading of an unsigned [bits]-bit number *)
Definition signed (bits : Z) (u : Z) : Z :=
  if u <? 2 ^ (bits - 1) then u else u - 2 ^ bits.

(** the unsigned number representing [z] modulo 2^bits (C's conversion to an
    unsigned type) *)
Definition unsigned (bits : Z) (z : Z) : Z := z mod 2 ^ bits.

(** read [n] bytes: [None] when fewer are available (in C++ this would be an
    out-of-bounds read) *)
Fixpoint take (n : nat) (xs : bytes) : option (bytes * bytes) :=
  match n with
  | O => Some ([], xs)
  | S k =>
      match xs with
      | [] => None
      | x :: t =>
          match take k t with
          | Some (a, r) => Some (x :: a, r)
          | None => None
          end
      end
  end.

Definition beqb (a b : byte) : bool := Byte.eqb a b.

Fixpoint bytes_eqb (a b : bytes) : bool :=
  match a, b with
  | [], [] => true
  | x :: s, y :: t => beqb x y && bytes_eqb s t
  | _, _ => false
  end.

(** ASCII text as bytes: [text "abc"] *)
Inductive txt := Txt (l : bytes).
Definition txt_bytes (t : txt) : bytes := match t with Txt l => l end.
Declare Scope txt_scope.
Delimit Scope txt_scope with txt.
String Notation txt Txt txt_bytes : txt_scope.
Definition text (t : txt) : bytes := txt_bytes t.
Arguments text t%txt_scope.

(** option/result sequencing *)
Definition obind {A B} (m : option A) (f : A -> option B) : option B :=
  match m with Some a => f a | None => None end.
Notation "'do' x <- m ; k" := (obind m (fun x => k))
  (at level 200, x pattern, m at level 100, k at level 200).
