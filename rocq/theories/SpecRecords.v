(** Specification of explicitly formatted logical records (RP66 v1, 3.2): what a
    writer writes and what a reader of the standard makes of it.

    Only the data types of the model are used (values, attributes, objects), no
    function of the reader; the three converted float formats refer to their
    readers, which C06, C07 and C08 specify. *)
From Verif Require Import Bytes DlisTypes SpecTypes DlisRecords.
Local Open Scope Z_scope.

(** ** Elements *)

Inductive ieee_single : bytes -> Z -> Prop :=
| single_enc b0 b1 b2 b3 : ieee_single [b0; b1; b2; b3] (u32be b0 b1 b2 b3).
Inductive ieee_double : bytes -> Z -> Prop :=
| double_enc b0 b1 b2 b3 b4 b5 b6 b7 :
    ieee_double [b0; b1; b2; b3; b4; b5; b6; b7] (u64be b0 b1 b2 b3 b4 b5 b6 b7).

(** [rp66_value reprc e v]: the bytes [e] are the element [v] in the
    representation code [reprc] (Appendix B) *)
Inductive rp66_value : Z -> bytes -> value -> Prop :=
| v_fshort e z : length e = 2%nat -> dlis_fshort e = Some (z, []) -> rp66_value 1 e (VNum z)
| v_fsingl e z : ieee_single e z -> rp66_value 2 e (VNum z)
| v_fsing1 e f v a : ieee_single e v -> ieee_single f a -> rp66_value 3 (e ++ f) (VNums [v; a])
| v_fsing2 e f g v a b : ieee_single e v -> ieee_single f a -> ieee_single g b ->
    rp66_value 4 (e ++ f ++ g) (VNums [v; a; b])
| v_isingl e z : length e = 4%nat -> dlis_isingl e = Some (z, []) -> rp66_value 5 e (VNum z)
| v_vsingl e z : length e = 4%nat -> dlis_vsingl e = Some (z, []) -> rp66_value 6 e (VNum z)
| v_fdoubl e z : ieee_double e z -> rp66_value 7 e (VNum z)
| v_fdoub1 e f v a : ieee_double e v -> ieee_double f a -> rp66_value 8 (e ++ f) (VNums [v; a])
| v_fdoub2 e f g v a b : ieee_double e v -> ieee_double f a -> ieee_double g b ->
    rp66_value 9 (e ++ f ++ g) (VNums [v; a; b])
| v_csingl e f r i : ieee_single e r -> ieee_single f i -> rp66_value 10 (e ++ f) (VNums [r; i])
| v_cdoubl e f r i : ieee_double e r -> ieee_double f i -> rp66_value 11 (e ++ f) (VNums [r; i])
| v_sshort b z : twos_complement 8 (b2z b) z -> rp66_value 12 [b] (VNum z)
| v_snorm b0 b1 z : twos_complement 16 (u16 b0 b1) z -> rp66_value 13 [b0; b1] (VNum z)
| v_slong b0 b1 b2 b3 z : twos_complement 32 (u32be b0 b1 b2 b3) z ->
    rp66_value 14 [b0; b1; b2; b3] (VNum z)
| v_ushort b : rp66_value 15 [b] (VNum (b2z b))
| v_unorm b0 b1 : rp66_value 16 [b0; b1] (VNum (u16 b0 b1))
| v_ulong b0 b1 b2 b3 : rp66_value 17 [b0; b1; b2; b3] (VNum (u32be b0 b1 b2 b3))
| v_uvari e z : rp66_uvari e z -> rp66_value 18 e (VNum z)
| v_ident e s : rp66_ident e s -> rp66_value 19 e (VText s)
| v_ascii e s : rp66_ascii e s -> rp66_value 20 e (VText s)
| v_dtime y tzm d h mn s m0 m1 :
    rp66_value 21 [y; tzm; d; h; mn; s; m0; m1]
      (VTime (mk_dtime (b2z y) (b2z tzm / 16) (b2z tzm mod 16) (b2z d) (b2z h) (b2z mn) (b2z s)
                       (u16 m0 m1)))
| v_origin e z : rp66_uvari e z -> rp66_value 22 e (VNum z)
| v_obname e o c i : rp66_obname e o c i -> rp66_value 23 e (VName (mk_obname o c i))
| v_objref e t o c i : rp66_objref e t o c i ->
    rp66_value 24 e (VRef (mk_objref t (mk_obname o c i)))
| v_attref e t o c i l : rp66_attref e t o c i l ->
    rp66_value 25 e (VAttr (mk_attref t (mk_obname o c i) l))
| v_status b : rp66_value 26 [b] (VNum (b2z b))
| v_units e s : rp66_ident e s -> rp66_value 27 e (VText s).

(** consecutive elements *)
Inductive rp66_values (reprc : Z) : bytes -> list value -> Prop :=
| vs_nil : rp66_values reprc [] []
| vs_cons e v f vs : rp66_value reprc e v -> rp66_values reprc f vs ->
    rp66_values reprc (e ++ f) (v :: vs).

(** the default element of a type: zero, or the empty string *)
Inductive zero_value : Z -> value -> Prop :=
| z_num rc : In rc [1; 2; 5; 6; 7; 12; 13; 14; 15; 16; 17; 18; 22; 26] -> zero_value rc (VNum 0)
| z_num2 rc : In rc [3; 8; 10; 11] -> zero_value rc (VNums [0; 0])
| z_num3 rc : In rc [4; 9] -> zero_value rc (VNums [0; 0; 0])
| z_text rc : In rc [19; 20; 27] -> zero_value rc (VText [])
| z_time : zero_value 21 (VTime (mk_dtime 0 0 0 0 0 0 0 0))
| z_name : zero_value 23 (VName (mk_obname 0 0 []))
| z_ref : zero_value 24 (VRef (mk_objref [] (mk_obname 0 0 [])))
| z_attr : zero_value 25 (VAttr (mk_attref [] (mk_obname 0 0 []) [])).

(** ** What is written *)

(** the characteristics a component may carry besides the label; [None] = the
    bit in the descriptor is off and the characteristic takes its default *)
Record chars := mk_chars {
  c_count : option Z; c_reprc : option Z; c_units : option bytes; c_value : option (list value) }.

(** a template attribute *)
Record tattr := mk_tattr { ta_label : bytes; ta_invariant : bool; ta_chars : chars }.
(** an attribute component of an object *)
Inductive comp := Absent | Given (c : chars).
Record wobject := mk_wobject { wo_origin : Z; wo_copy : Z; wo_id : bytes; wo_comps : list comp }.
Inductive set_kind := Normal | Replacement | Redundant.
Record wset := mk_wset {
  ws_kind : set_kind; ws_type : bytes; ws_name : option bytes;
  ws_tmpl : list tattr; ws_objects : list wobject }.

Definition or_else {A} (o : option A) (d : A) : A := match o with Some x => x | None => d end.
Definition bit (b : bool) (v : Z) : Z := if b then v else 0.
Definition given {A} (o : option A) : bool := match o with Some _ => true | None => false end.

(** the descriptor bits of the characteristics, 3.2.2.1 figure 3-4 *)
Definition char_bits (c : chars) : Z :=
  bit (given (c_count c)) 8 + bit (given (c_reprc c)) 4
  + bit (given (c_units c)) 2 + bit (given (c_value c)) 1.

Definition optional {A} (enc : bytes -> A -> Prop) (e : bytes) (o : option A) : Prop :=
  match o with Some x => enc e x | None => e = [] end.

(** count, representation code, units and value, in this order; a count of zero
    means there are no elements.  [n] and [rc] are the defaults. *)
Definition enc_chars (n rc : Z) (e : bytes) (c : chars) : Prop :=
  exists ec er eu ev,
    e = ec ++ er ++ eu ++ ev /\
    optional rp66_uvari ec (c_count c) /\
    optional (fun e z => exists b, e = [b] /\ b2z b = z /\ 1 <= z <= 27) er (c_reprc c) /\
    optional rp66_ident eu (c_units c) /\
    optional (fun e vs => Z.of_nat (length vs) = or_else (c_count c) n /\
                          rp66_values (or_else (c_reprc c) rc) e vs) ev (c_value c).

(** a template attribute: default count 1, default type IDENT (3.2.2.1) *)
Definition enc_tattr (e : bytes) (t : tattr) : Prop :=
  exists d el ec,
    e = d :: el ++ ec /\
    b2z d = (if ta_invariant t then 64 else 32) + 16 + char_bits (ta_chars t) /\
    rp66_ident el (ta_label t) /\
    enc_chars 1 19 ec (ta_chars t).

(** the components of an object follow the non-invariant template attributes in
    order; trailing ones may be left out *)
Inductive enc_comps : list tattr -> bytes -> list comp -> Prop :=
| comps_end ts : enc_comps ts [] []
| comps_invariant t ts e cs :
    ta_invariant t = true -> enc_comps ts e cs -> enc_comps (t :: ts) e cs
| comps_absent t ts d e cs :
    ta_invariant t = false -> b2z d < 32 -> enc_comps ts e cs ->
    enc_comps (t :: ts) (d :: e) (Absent :: cs)
| comps_given t ts d ec c e cs :
    ta_invariant t = false ->
    b2z d = 32 + char_bits c ->
    enc_chars (or_else (c_count (ta_chars t)) 1) (or_else (c_reprc (ta_chars t)) 19) ec c ->
    enc_comps ts e cs ->
    enc_comps (t :: ts) (d :: ec ++ e) (Given c :: cs).

Definition enc_object (ts : list tattr) (e : bytes) (o : wobject) : Prop :=
  exists d en ec,
    e = d :: en ++ ec /\
    112 <= b2z d < 128 /\
    rp66_obname en (wo_origin o) (wo_copy o) (wo_id o) /\
    enc_comps ts ec (wo_comps o).

(** a sequence of things written one after the other *)
Inductive enc_list {A} (enc : bytes -> A -> Prop) : bytes -> list A -> Prop :=
| el_nil : enc_list enc [] []
| el_cons e x f xs : enc e x -> enc_list enc f xs -> enc_list enc (e ++ f) (x :: xs).

Definition kind_bits (k : set_kind) : Z :=
  match k with Normal => 224 | Replacement => 192 | Redundant => 160 end.

Definition enc_set (e : bytes) (w : wset) : Prop :=
  exists d et en em eo,
    e = d :: et ++ en ++ em ++ eo /\
    (exists reserved, 0 <= reserved < 8 /\
       b2z d = kind_bits (ws_kind w) + 16 + bit (given (ws_name w)) 8 + reserved) /\
    rp66_ident et (ws_type w) /\
    optional rp66_ident en (ws_name w) /\
    enc_list enc_tattr em (ws_tmpl w) /\
    enc_list (enc_object (ws_tmpl w)) eo (ws_objects w).

(** template labels are distinct (3.2.2.2), and a set has a template *)
Definition wf_set (w : wset) : Prop :=
  NoDup (map ta_label (ws_tmpl w)) /\ (ws_objects w = [] -> ws_tmpl w <> []).

(** ** What it means *)

(** the attribute given by the template *)
Definition template_attribute (t : tattr) : attribute :=
  let c := ta_chars t in
  let n := or_else (c_count c) 1 in
  let rc := or_else (c_reprc c) 19 in
  mk_attr (ta_label t) n rc (or_else (c_units c) [])
    (match c_value c with
     | Some vs => if n =? 0 then Mono else Vec rc vs
     | None => Mono
     end)
    (ta_invariant t) [].

(** how an attribute of an object gets its value when the template attribute is
    [t] and the object's component carries [c] *)
Inductive value_rule (t : attribute) (c : chars) : values -> list problem -> Prop :=
| r_none :
    (* a count of zero: no value *)
    or_else (c_count c) (at_count t) = 0 -> value_rule t c Mono []
| r_given vs :
    (* the object's own value *)
    or_else (c_count c) (at_count t) <> 0 -> c_value c = Some vs ->
    value_rule t c (Vec (or_else (c_reprc c) (at_reprc t)) vs) []
| r_inherited vs :
    (* the template's value *)
    or_else (c_count c) (at_count t) <> 0 -> c_value c = None ->
    or_else (c_reprc c) (at_reprc t) = at_reprc t ->
    at_value t = Vec (at_reprc t) vs ->
    Z.of_nat (length vs) = or_else (c_count c) (at_count t) ->
    value_rule t c (at_value t) []
| r_defaulted z :
    (* no value anywhere: the type's default *)
    or_else (c_count c) (at_count t) <> 0 -> c_value c = None ->
    or_else (c_reprc c) (at_reprc t) = at_reprc t ->
    at_value t = Mono -> zero_value (at_reprc t) z ->
    value_rule t c
      (Vec (at_reprc t) (repeat z (Z.to_nat (or_else (c_count c) (at_count t))))) []
| r_changed rc z :
    (* the type is changed without giving a value: the default of the new type *)
    or_else (c_count c) (at_count t) <> 0 -> c_value c = None ->
    c_reprc c = Some rc -> rc <> at_reprc t -> zero_value rc z ->
    value_rule t c (Vec rc (repeat z (Z.to_nat (or_else (c_count c) (at_count t)))))
      [P_reprc_changed]
| r_shrunk vs :
    (* the count is lowered without giving a value: the first elements *)
    or_else (c_count c) (at_count t) <> 0 -> c_value c = None ->
    or_else (c_reprc c) (at_reprc t) = at_reprc t ->
    at_value t = Vec (at_reprc t) vs ->
    or_else (c_count c) (at_count t) < Z.of_nat (length vs) ->
    value_rule t c
      (Vec (at_reprc t) (firstn (Z.to_nat (or_else (c_count c) (at_count t))) vs))
      [P_value_shrunk]
| r_enlarged vs z :
    (* the count is raised without giving a value: the log says that the value is
       left as in the template, but it is replaced (see C25) *)
    or_else (c_count c) (at_count t) <> 0 -> c_value c = None ->
    or_else (c_reprc c) (at_reprc t) = at_reprc t ->
    at_value t = Vec (at_reprc t) vs ->
    Z.of_nat (length vs) < or_else (c_count c) (at_count t) ->
    zero_value (at_reprc t) z ->
    value_rule t c
      (Vec (at_reprc t) (repeat z (Z.to_nat (or_else (c_count c) (at_count t)))))
      [P_value_left].

Definition overrides (t : attribute) (c : chars) (a : attribute) : Prop :=
  at_label a = at_label t /\
  at_count a = or_else (c_count c) (at_count t) /\
  at_reprc a = or_else (c_reprc c) (at_reprc t) /\
  at_units a = or_else (c_units c) (at_units t) /\
  at_invariant a = false /\
  value_rule t c (at_value a) (at_log a).

(** the attributes of an object: one per template attribute, in template order,
    except those marked absent *)
Inductive object_reads : list tattr -> list comp -> list attribute -> Prop :=
| o_end ts : object_reads ts [] (map template_attribute ts)
| o_invariant t ts cs r :
    ta_invariant t = true -> object_reads ts cs r ->
    object_reads (t :: ts) cs (template_attribute t :: r)
| o_absent t ts cs r :
    ta_invariant t = false -> object_reads ts cs r ->
    object_reads (t :: ts) (Absent :: cs) r
| o_given t ts c cs a r :
    ta_invariant t = false ->
    overrides (template_attribute t) c a ->
    object_reads ts cs r ->
    object_reads (t :: ts) (Given c :: cs) (a :: r).

(** the object is flagged exactly when one of its attributes is *)
Definition reads_as (w : wset) (o : wobject) (x : object) : Prop :=
  obj_name x = mk_obname (wo_origin o) (wo_copy o) (wo_id o) /\
  obj_type x = ws_type w /\
  object_reads (ws_tmpl w) (wo_comps o) (obj_attrs x) /\
  obj_log x = (if forallb (fun a => match at_log a with [] => true | _ => false end) (obj_attrs x)
               then [] else [P_attribute_violation]).

Definition kind_log (k : set_kind) : list problem :=
  match k with
  | Normal => [] | Replacement => [P_replacement_set] | Redundant => [P_redundant_set]
  end.

(** ** Attribute maps *)

(** operations on the attributes of an object *)
Inductive map_op := OpSet (a : attribute) | OpRemove (a : attribute).
Definition op_label (o : map_op) : bytes :=
  match o with OpSet a => at_label a | OpRemove a => at_label a end.
(** the last operation with this label decides what a lookup finds *)
Inductive looks_up (k : bytes) (ops : list map_op) : option attribute -> Prop :=
| lk_set before a after :
    ops = before ++ OpSet a :: after -> at_label a = k ->
    (forall o, In o after -> op_label o <> k) -> looks_up k ops (Some a)
| lk_removed before a after :
    ops = before ++ OpRemove a :: after -> at_label a = k ->
    (forall o, In o after -> op_label o <> k) -> looks_up k ops None
| lk_never :
    (forall o, In o ops -> op_label o <> k) -> looks_up k ops None.

(** ** Announced values (C25) *)

(** [t] is the attribute before a value is supplied (the template's value, the
    object's count and type), [v] the value afterwards: [v] is what the message
    says *)
Definition announces (p : problem) (t : attribute) (v : values) : Prop :=
  match p with
  | P_value_left | P_undefined_default => v = at_value t
  | P_value_shrunk =>
      exists rc vs, at_value t = Vec rc vs /\ v = Vec rc (firstn (Z.to_nat (at_count t)) vs)
  | P_reprc_changed =>
      exists z, zero_value (at_reprc t) z /\
                v = Vec (at_reprc t) (repeat z (Z.to_nat (at_count t)))
  | _ => True
  end.
