(** Specification of LIS79 samples: their size in the file and the native value. *)
From Verif Require Import Bytes DlisTypes SpecTypes SpecFdata LisTypes.
Local Open Scope Z_scope.

(** representation code, format character, size in the file, size in the array
    (LIS79 appendix B and the numpy types i1 i2 i4 f4 f4 f4 f4 u1) *)
Definition lis_formats : list (Z * byte * nat * nat) :=
  [(56%Z, "s"%byte, 1, 1); (79%Z, "i"%byte, 2, 2); (73%Z, "l"%byte, 4, 4); (49%Z, "e"%byte, 2, 4);
   (68%Z, "f"%byte, 4, 4); (50%Z, "r"%byte, 4, 4); (70%Z, "p"%byte, 4, 4); (66%Z, "b"%byte, 1, 1)]%nat.
Definition lis_format (c : byte) (n m : nat) : Prop := exists rc, In (rc, c, n, m) lis_formats.

(** [lis_native c e w]: the sample [e] of format [c] is [w] in the array.  What
    number a float sample is, is the subject of C40 and C41. *)
Inductive lis_native : byte -> bytes -> bytes -> Prop :=
| ln_i8 b z w : twos_complement 8 (b2z b) z -> number 1 z w -> lis_native "s" [b] w
| ln_i16 b0 b1 z w : twos_complement 16 (u16 b0 b1) z -> number 2 z w -> lis_native "i" [b0; b1] w
| ln_i32 b0 b1 b2 b3 z w : twos_complement 32 (u32be b0 b1 b2 b3) z -> number 4 z w ->
    lis_native "l" [b0; b1; b2; b3] w
| ln_byte b : lis_native "b" [b] [b]
| ln_f16 e v w : lis_f16 e = Some (v, []) -> number 4 v w -> lis_native "e" e w
| ln_f32 e v w : lis_f32 e = Some (v, []) -> number 4 v w -> lis_native "f" e w
| ln_f32low e v w : lis_f32low e = Some (v, []) -> number 4 v w -> lis_native "r" e w
| ln_f32fix e v w : lis_f32fix e = Some (v, []) -> number 4 v w -> lis_native "p" e w.
(** consecutive samples *)
Inductive lis_natives : bytes -> bytes -> bytes -> Prop :=
| lns_nil : lis_natives [] [] []
| lns_cons c e w f e' w' : lis_native c e w -> lis_natives f e' w' ->
    lis_natives (c :: f) (e ++ e') (w ++ w').
