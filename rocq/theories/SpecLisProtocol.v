(** Independent specification for C48-C50: how LIS79 lays out format specification,
    information, file, reel, tape and text records. *)
From Verif Require Import Bytes SpecTypes SpecIo LisTypes LisProtocol.
Local Open Scope Z_scope.

(** ** Values *)

(** the representation codes and their sizes; 0: variable (LIS79 appendix B) *)
Definition lis_code_sizes : list (Z * Z) :=
  [(56, 1); (79, 2); (73, 4); (49, 2); (68, 4); (50, 4); (70, 4); (65, 0); (66, 1); (77, 0)].

(** [e] is a value of representation code [rc].  What number a float is, is the
    subject of C40 and C41. *)
Inductive value_bytes : Z -> bytes -> lvalue -> Prop :=
| vb_i8 b z : twos_complement 8 (b2z b) z -> value_bytes 56 [b] (LI8 z)
| vb_i16 b0 b1 z : twos_complement 16 (u16 b0 b1) z -> value_bytes 79 [b0; b1] (LI16 z)
| vb_i32 b0 b1 b2 b3 z : twos_complement 32 (u32be b0 b1 b2 b3) z -> value_bytes 73 [b0; b1; b2; b3] (LI32 z)
| vb_f16 e v : lis_f16 e = Some (v, []) -> value_bytes 49 e (LF16 v)
| vb_f32 e v : lis_f32 e = Some (v, []) -> value_bytes 68 e (LF32 v)
| vb_f32low e v : lis_f32low e = Some (v, []) -> value_bytes 50 e (LF32low v)
| vb_f32fix e v : lis_f32fix e = Some (v, []) -> value_bytes 70 e (LF32fix v)
| vb_byte b : value_bytes 66 [b] (LByte (b2z b))
| vb_string e : e <> [] -> value_bytes 65 e (LString e)
| vb_mask e : e <> [] -> value_bytes 77 e (LMask e).
(** a value of [size] bytes; no value if [size] is 0 *)
Inductive sized_value : Z -> Z -> bytes -> lvalue -> Prop :=
| sv_none rc n : In (rc, n) lis_code_sizes -> sized_value rc 0 [] LNone
| sv_some rc e v : value_bytes rc e v -> sized_value rc (len e) e v.

(** ** Format specifications *)

(** entry block: type, size, representation code, value *)
Inductive entry_bytes : bytes -> entry_block -> Prop :=
| en t s r e v : b2z t <= 16 -> sized_value (b2z r) (b2z s) e v ->
    entry_bytes (t :: s :: r :: e) (mk_entry (b2z t) (b2z s) (b2z r) v).
(** entries up to and including the first of type 0, the terminator *)
Inductive entries_bytes : bytes -> list entry_block -> Prop :=
| es_last b e : entry_bytes b e -> eb_type e = 0 -> entries_bytes b [e]
| es_more b e b' es : entry_bytes b e -> eb_type e <> 0 -> entries_bytes b' es -> entries_bytes (b ++ b') (e :: es).

(** the value is the number 1 (0x3F800000 is 1.0 in single precision) *)
Definition is_one (v : lvalue) : Prop :=
  In v [LI8 1; LI16 1; LI32 1; LByte 1; LF16 0x3F800000; LF32 0x3F800000; LF32low 0x3F800000; LF32fix 0x3F800000].
(** the blocks are of subtype 1 if an entry of type 16 says so *)
Definition subtype1 (es : list entry_block) : Prop := exists e, In e es /\ eb_type e = 16 /\ is_one (eb_value e).

(** a specification block of 40 bytes *)
Inductive block_bytes : bool -> bytes -> spec_block -> Prop :=
| bb0 mnemonic service order units lt ct cc am f0 f1 s0 s1 p0 p1 level samples reprc tail filenr size :
    length mnemonic = 4%nat -> length service = 6%nat -> length order = 8%nat -> length units = 4%nat -> length tail = 5%nat ->
    twos_complement 16 (u16 f0 f1) filenr -> twos_complement 16 (u16 s0 s1) size ->
    block_bytes false
      (mnemonic ++ service ++ order ++ units ++ [lt; ct; cc; am] ++ [f0; f1] ++ [s0; s1] ++ [p0; p1; level; samples; reprc] ++ tail)
      (mk_spec mnemonic service order units filenr size (b2z samples) (b2z reprc)
         (Sub0 (b2z lt) (b2z ct) (b2z cc) (b2z am) (b2z level)))
| bb1 mnemonic service order units a0 a1 a2 a3 f0 f1 s0 s1 p0 p1 p2 samples reprc indicators filenr size codes :
    length mnemonic = 4%nat -> length service = 6%nat -> length order = 8%nat -> length units = 4%nat -> length indicators = 5%nat ->
    twos_complement 16 (u16 f0 f1) filenr -> twos_complement 16 (u16 s0 s1) size -> twos_complement 32 (u32be a0 a1 a2 a3) codes ->
    block_bytes true
      (mnemonic ++ service ++ order ++ units ++ [a0; a1; a2; a3] ++ [f0; f1] ++ [s0; s1] ++ [p0; p1; p2; samples; reprc] ++ indicators)
      (mk_spec mnemonic service order units filenr size (b2z samples) (b2z reprc) (Sub1 codes indicators)).

(** a format specification record *)
Definition dfsr_bytes (data : bytes) (es : list entry_block) (sps : list spec_block) : Prop :=
  exists eb bs sub, data = eb ++ concat bs /\ entries_bytes eb es /\
    (sub = true <-> subtype1 es) /\ Forall2 (block_bytes sub) bs sps.

(** ** Information records *)
Inductive component_bytes : bytes -> component_block -> Prop :=
| cb t r s c mnemonic units e v :
    In (b2z t) [0; 69; 73] -> length mnemonic = 4%nat -> length units = 4%nat -> sized_value (b2z r) (b2z s) e v ->
    component_bytes ([t; r; s; c] ++ mnemonic ++ units ++ e)
      (mk_component (b2z t) (b2z r) (b2z s) (b2z c) mnemonic units v).

(** ** File, reel and tape records *)
Definition file_layout (data : bytes) (r : file_record) : Prop :=
  exists g1 g2 g3 g4 rest,
    data = fr_file_name r ++ g1 ++ fr_service_sublvl_name r ++ fr_version_number r ++ fr_date_of_generation r ++ g2 ++
           fr_max_pr_length r ++ g3 ++ fr_file_type r ++ g4 ++ fr_name r ++ rest /\
    map (@length byte) [fr_file_name r; g1; fr_service_sublvl_name r; fr_version_number r; fr_date_of_generation r; g2;
                        fr_max_pr_length r; g3; fr_file_type r; g4; fr_name r] = [10; 2; 6; 8; 8; 1; 5; 2; 2; 2; 10]%nat.
Definition reel_tape_layout (data : bytes) (r : reel_tape_record) : Prop :=
  exists g1 g2 g3 g4 g5 g6 rest,
    data = rt_service_name r ++ g1 ++ rt_date r ++ g2 ++ rt_origin_of_data r ++ g3 ++ rt_name r ++ g4 ++
           rt_continuation_number r ++ g5 ++ rt_other r ++ g6 ++ rt_comment r ++ rest /\
    map (@length byte) [rt_service_name r; g1; rt_date r; g2; rt_origin_of_data r; g3; rt_name r; g4;
                        rt_continuation_number r; g5; rt_other r; g6; rt_comment r] = [6; 6; 8; 2; 4; 2; 8; 2; 2; 2; 8; 2; 74]%nat.
