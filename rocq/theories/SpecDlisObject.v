(** Independent specification for C37 and C39: what an attribute stands for, and which
    frame a channel belongs to. *)
From Coq Require Import Permutation.
From Verif Require Import Bytes Stream PyBase DlisTypes DlisRecords CommonPy DlisStore SpecDlisStore DlisSchema DlisObject.
Local Open Scope Z_scope.

(** ** Text without the white space around it *)
Definition white : list Z :=
  [9; 10; 11; 12; 13; 28; 29; 30; 31; 32; 133; 160; 5760; 8192; 8193; 8194; 8195; 8196; 8197; 8198; 8199; 8200; 8201;
   8202; 8232; 8233; 8239; 8287; 12288].
Definition trimmed (u v : list Z) : Prop :=
  exists a b, u = a ++ v ++ b /\ Forall (fun c => In c white) a /\ Forall (fun c => In c white) b /\
    (forall c t, v = c :: t -> ~ In c white) /\ (forall t c, v = t ++ [c] -> ~ In c white).

(** ** False values: the zeros, the empty text, None *)
Inductive is_false : pyval -> Prop :=
  | false_number c z : same_number c z 0 -> is_false (PNumber c z)
  | false_complex c zs : c = 10 \/ c = 11 -> Forall (fun z => same_number c z 0) zs -> is_false (PNumbers c zs)
  | false_str : is_false (PText (Str []))
  | false_bytes : is_false (PText (Raw []))
  | false_none : is_false PNone.

(** ** The shape of what an attribute gives, by its rule *)
Inductive shaped : rule -> list pyval -> result -> Prop :=
  | no_scalar : shaped Scalar [] RNone
  | a_scalar v vs : shaped Scalar (v :: vs) (ROne v)
  | no_boolean : shaped Boolean [] RNone
  | a_boolean v vs b : (b = false <-> is_false v) -> shaped Boolean (v :: vs) (RBool b)
  | a_vector vs : shaped Vector vs (RMany vs)
  | a_reverse vs ws : length ws = length vs ->
      (forall i, (i < length vs)%nat -> nth_error ws i = nth_error vs (length vs - 1 - i)) -> shaped Reverse vs (RMany ws).

(** the rule of a class for an attribute; a vector if there is none *)
Definition rule_for (sc : schema) (key : pystr) (r : rule) : Prop :=
  In (key, r) (sc_attributes sc) \/ ~ In key (map fst (sc_attributes sc)) /\ r = Vector.
(** whether and how it links to other objects *)
Definition link_for (sc : schema) (key : pystr) (l : option link) : Prop :=
  match l with Some x => In (key, x) (sc_linkage sc) | None => ~ In key (map fst (sc_linkage sc)) end.
(** a class mentions every attribute once *)
Definition a_schema (sc : schema) : Prop := NoDup (map fst (sc_attributes sc)) /\ NoDup (map fst (sc_linkage sc)).

Section object.
Variable dec : bytes -> pystr.
Variable enc : pystr -> bytes.
Variable esc : severity -> bool.

(** the values of the attribute with a label, of which there are none if it is absent
    or has no value; and what is wrong with it *)
Inductive stored (o : object) (key : pystr) : Z -> list value -> list problem -> Prop :=
  | stored_absent c : ~ In (enc key) (map at_label (obj_attrs o)) -> stored o key c [] []
  | stored_none c a : In a (obj_attrs o) -> at_label a = enc key -> at_value a = Mono -> stored o key c [] (at_log a)
  | stored_values a c vs : In a (obj_attrs o) -> at_label a = enc key -> at_value a = Vec c vs -> stored o key c vs (at_log a).

(** ** References *)

(** type and name of the object a value refers to *)
Inductive refers : option link -> value -> pystr -> obname -> Prop :=
  | by_name t n : refers (Some (ToName t)) (VName n) t n
  | by_ref t n : refers (Some ToRef) (VRef (mk_objref t n)) (dec t) n.
Definition a_reference (v : value) : bool := match v with VName _ | VRef _ | VAttr _ => true | _ => false end.

Variable sets : list object_set.
(** the object of that type and name: the only one, or the first of several that are
    the same *)
Definition the_object (t : pystr) (n : obname) (o : object) : Prop :=
  exists rest, candidates dec t (dec (ob_id n)) (Some (ob_origin n)) (Some (ob_copy n)) sets = o :: rest /\
    (rest = [] \/ forall y, In y (o :: rest) -> same_object y o).

(** ** What a value turns into *)
Inductive turns (l : option link) (c : Z) : value -> pyval -> Prop :=
  | turn_number z : turns l c (VNum z) (PNumber c z)
  | turn_numbers zs : turns l c (VNums zs) (PNumbers c zs)
  | turn_text s u v : dec s = Str u -> trimmed u v -> turns l c (VText s) (PText (Str v))
  | turn_bytes s b : dec s = Raw b -> turns l c (VText s) (PText (Raw b))
  | turn_time t d : to_pydatetime t = Some d -> turns l c (VTime t) (PTime d)
  | turn_found v t n o : refers l v t n -> the_object t n o -> turns l c v (PObject (promote dec o))
  | turn_missing v : l <> None -> a_reference v = true ->
      (forall t n o, refers l v t n -> ~ the_object t n o) -> turns l c v PNone
  | turn_name n : l = None -> turns l c (VName n) (PName n)
  | turn_ref n : l = None -> turns l c (VRef n) (PRef n)
  | turn_attr n : l = None -> turns l c (VAttr n) (PAttr n).

(** ** When reading does not raise *)

(** problems of an object that are not escalated.  They are reported along with the
    object's type, which must not be empty. *)
Definition calm (o : object) (lg : list problem) : Prop :=
  lg = [] \/ enc (dec (obj_type o)) <> [] /\ forall p, In p lg -> esc (severity_of p) = false.
(** dates exist; references are to types without escalated problems and, as C36
    requires, have names that are not empty *)
Definition readable (l : option link) (v : value) : Prop :=
  (forall t, v = VTime t -> to_pydatetime t <> None) /\
  (forall t n, refers l v t n ->
     kept dec enc t /\ kept dec enc (dec (ob_id n)) /\ truthy (dec (ob_id n)) = true /\
     selected_raises dec esc (pystr_eqb t) sets = false).

(** ** Frames *)

(** the names of the channels a frame lists *)
Definition listed (f : object) : list obname :=
  flat_map (fun a => if bytes_eqb (at_label a) (enc (lit (text "CHANNELS")))
                     then match at_value a with
                          | Vec _ vs => flat_map (fun v => match v with VName n => [n] | _ => [] end) vs
                          | Mono => []
                          end
                     else []) (obj_attrs f).
(** the list of channels can be read, and every reference resolves *)
Definition frame_ok (f : object) : Prop :=
  calm f (obj_log f) /\
  forall a, In a (obj_attrs f) -> at_label a = enc (lit (text "CHANNELS")) ->
    calm f (at_log a) /\
    forall c vs v, at_value a = Vec c vs -> In v vs ->
      exists n o, v = VName n /\ kept dec enc (dec (ob_id n)) /\ truthy (dec (ob_id n)) = true /\
        selected_raises dec esc (pystr_eqb (lit (text "CHANNEL"))) sets = false /\
        the_object (lit (text "CHANNEL")) n o.

(** the only one of some frames, where frames that are the same count as one *)
Definition the_only (fs : list object) (f : object) : Prop :=
  exists rest, Permutation (f :: rest) fs /\ forall y, In y rest -> same_object f y.

(** ** Attributes a class does not know *)
Definition unknown_label (sc : schema) (a : attribute) : Prop := ~ In (dec (at_label a)) (map fst (sc_attributes sc)).
(** an attribute with a list of values, with dates that exist *)
Definition has_values (a : attribute) : Prop :=
  exists c vs, at_value a = Vec c vs /\ forall t, In (VTime t) vs -> to_pydatetime t <> None.
End object.
