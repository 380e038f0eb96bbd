(** Independent specification for C11-C17: what RP66 says about the label,
    headers, descriptors, trailers, and what the format characters mean. *)
From Verif Require Import Bytes DlisCore.
Local Open Scope Z_scope.

(** *** numbers in the storage unit label *)
Definition digit_char (b : byte) : Prop := 48 <= b2z b <= 57.
Definition space_char (b : byte) : Prop := b2z b = 32 \/ 9 <= b2z b <= 13.

(** value of a string of decimal digits, most significant first *)
Fixpoint decimal_value (ds : bytes) : Z :=
  match ds with
  | [] => 0
  | d :: t => (b2z d - 48) * 10 ^ Z.of_nat (length t) + decimal_value t
  end.

(** a number field: blanks, digits, blanks, and possibly a NUL that ends the
    field early *)
Inductive sul_number : bytes -> Z -> Prop :=
  | sul_number_intro pre ds post tail :
      Forall space_char pre -> ds <> [] -> Forall digit_char ds -> Forall space_char post ->
      (tail = [] \/ exists t, tail = x00 :: t) ->
      sul_number (pre ++ ds ++ post ++ tail) (decimal_value ds).

(** "VN.mm" *)
Definition revision_text (rev : bytes) (major minor : Z) : Prop :=
  exists n m1 m2, rev = "V"%byte :: n :: "."%byte :: m1 :: m2 :: [] /\
    digit_char n /\ digit_char m1 /\ digit_char m2 /\
    major = b2z n - 48 /\ minor = 10 * (b2z m1 - 48) + (b2z m2 - 48).

(** [s] is the C string at the front of [buf] *)
Definition c_string_of (buf s : bytes) : Prop :=
  ~ In x00 s /\ exists tail, buf = s ++ tail /\ (tail = [] \/ exists t, tail = x00 :: t).

(** *** occurrences *)
Definition occurs_at (needle hay : bytes) (k : nat) : Prop :=
  exists pre post, hay = pre ++ needle ++ post /\ length pre = k.
Definition first_occurrence (needle hay : bytes) (k : nat) : Prop :=
  occurs_at needle hay k /\ forall j, occurs_at needle hay j -> (k <= j)%nat.

(** *** decimal numerals as printed by std::to_string for non-negative values *)
Definition is_numeral (s : bytes) (n : Z) : Prop :=
  s <> [] /\ Forall digit_char s /\ decimal_value s = n /\
  (forall d t, s = d :: t -> t <> [] -> b2z d <> 48).

(** *** memory layout of unpacked values (little-endian host) *)
Inductive item := Int (size : nat) (v : Z) | Text (s : bytes).
(** [out] is the concatenation of the items: integers (and float bit patterns)
    little-endian in [size] bytes, text as a 4 byte length followed by the
    characters *)
Inductive layout : list item -> bytes -> Prop :=
  | layout_nil : layout [] []
  | layout_int n v w its out :
      length w = n -> le w = v mod 256 ^ Z.of_nat n -> layout its out ->
      layout (Int n v :: its) (w ++ out)
  | layout_text s w its out :
      length w = 4%nat -> le w = Z.of_nat (length s) mod 256 ^ 4 -> layout its out ->
      layout (Text s :: its) (w ++ s ++ out).

(** *** attribute and descriptor bits *)
(** the value reported for flag [k] (bit k, weight 2^k): the weight when set,
    0 otherwise *)
Definition bit_value (attrs k : Z) : Z := if Z.testbit attrs k then 2 ^ k else 0.

(** bytes taken by the checksum (bit 2) and the trailing length (bit 1) *)
Definition tail_size (a : Z) : Z :=
  (if Z.testbit a 2 then 2 else 0) + (if Z.testbit a 1 then 2 else 0).

(** *** format characters *)
(** the format characters whose encoding has a fixed size: (character, bytes on
    disk, bytes in memory) *)
Definition fixed_chars : list (byte * (Z * Z)) :=
  [("r", (2, 4)); ("f", (4, 4)); ("b", (8, 8)); ("B", (12, 12)); ("x", (4, 4)); ("V", (4, 4));
   ("F", (8, 8)); ("z", (16, 16)); ("Z", (24, 24)); ("c", (8, 8)); ("C", (16, 16)); ("d", (1, 1));
   ("D", (2, 2)); ("l", (4, 4)); ("u", (1, 1)); ("U", (2, 2)); ("L", (4, 4)); ("j", (8, 32));
   ("q", (1, 1))]%byte.
(** variable size on disk, 4 bytes in memory *)
Definition uvari_chars : bytes := text "iJ".
(** variable size on disk and in memory *)
Definition text_chars : bytes := text "sSoOAQ".

(** total size of a string of fixed-size characters *)
Inductive fixed_size : bytes -> Z -> Z -> Prop :=
  | fixed_nil : fixed_size [] 0 0
  | fixed_cons c s d f s' d' :
      In (c, (s, d)) fixed_chars -> fixed_size f s' d' -> fixed_size (c :: f) (s + s') (d + d').
(** total memory size of a string without text characters *)
Inductive mem_size : bytes -> Z -> Prop :=
  | mem_nil : mem_size [] 0
  | mem_fixed c s d f d' : In (c, (s, d)) fixed_chars -> mem_size f d' -> mem_size (c :: f) (d + d')
  | mem_uvari c f d' : In c uvari_chars -> mem_size f d' -> mem_size (c :: f) (4 + d').
Definition valid_char (c : byte) : Prop :=
  (exists sd, In (c, sd) fixed_chars) \/ In c uvari_chars \/ In c text_chars.

(** [unpacks_as c src r]: with [r = Some (its, rest)], unpacking [c] from [src]
    writes exactly [its] and leaves [rest]; with [None] the source is too short *)
Definition unpacks_as (c : byte) (src : bytes) (r : option (list item * bytes)) : Prop :=
  match r with
  | Some (its, rest) =>
      exists out, dlis_packf [c] src = PackOk out /\ layout its out /\
        dlis_packflen [c] src =
          LenOk (Z.of_nat (length src) - Z.of_nat (length rest)) (Z.of_nat (length out))
  | None => dlis_packf [c] src = PackOob /\ dlis_packflen [c] src = LenOob
  end.
