(** Model of describe: basicobject.py 283-352, utils/describe.py, describe_attr of the
    classes of metadata objects, and the descriptions of logical and physical files
    (file.py).  What is modelled is what is written, in order: titles, headings, and
    captions with values and units.  Widths, indents and blank lines are modelled in
    DlisLayout; the textual form of values is not modelled. *)
From Verif Require Import Bytes Stream PyBase DlisTypes DlisCore DlisRecords CommonPy DlisStore DlisSchema DlisObject DlisFrame Dimensional DlisCurves DlisClasses.
Local Open Scope Z_scope.

(** ** What is written *)

(** describe.py 102-128, an element of a list: the name of an object, or str(x) *)
Inductive written := AName (s : pystr) | AsText (v : pyval).
(** a value in a dict that describe_dict writes *)
Inductive shown :=
  | SResult (r : result)                          (* what an attribute gives *)
  | SArray (a : nd)                               (* what sampling gives *)
  | SNames (l : list written)                     (* what replist gives *)
  | SFormat (template : bytes) (l : list result)  (* template.format(...) *)
  | SInt (n : Z).
(** a caption, the value, and units if it is an object_attribute (describe.py 159) *)
Definition entry : Type := (pystr * (shown * option pystr))%type.
Inductive piece :=
  | Title (s : pystr)       (* describe_header, lvl 1 *)
  | Section (s : pystr)     (* describe_header, lvl 2 *)
  | Entry (caption : pystr) (v : shown) (units : option pystr)
  | Line (v : shown).       (* describe_text, describe_array without a caption *)

(** describe.py 24-45; 'r' has no effect *)
Record options := mk_options { x_empty : bool; x_attr : bool; x_head : bool; x_inv : bool; x_stash : bool; x_units : bool }.
Definition parseoptions (fmt : list Z) : options :=
  let has (c : byte) := existsb (Z.eqb (b2z c)) fmt in
  mk_options (has "e"%byte) (has "a"%byte) (has "h"%byte) (has "i"%byte) (has "s"%byte) (has "u"%byte).

(** describe.py 56-61, [not entry and entry != 0] *)
Definition blank (v : pyval) : bool := match v with PText s => negb (truthy s) | PNone => true | _ => false end.
(** the same for an element of np.array(value), where text has lost the NUL characters at
    its end.  Elements that are tuples become rows, the numbers of which are not blank. *)
Definition blank_np (v : pyval) : bool :=
  match v with
  | PText (Str u) => match np_str u with [] => true | _ => false end
  | PText (Raw u) => match np_bytes u with [] => true | _ => false end
  | PNone => true
  | _ => false
  end.
Definition blank_written (w : written) : bool :=
  match w with
  | AName s => blank_np (PText s)
  | AsText (PText (Str u)) => blank_np (PText (Str u))
  | AsText _ => false
  end.
(** .flatten() *)
Fixpoint blank_nd (a : nd) : bool := match a with Item v => blank v | Arr l => forallb blank_nd l end.
Definition blank_shown (v : shown) : bool :=
  match v with
  | SResult RNone => true
  | SResult (ROne v) => blank v
  | SResult (RMany l) => forallb blank_np l
  | SResult (RBool _) => false
  | SArray a => blank_nd a
  | SNames l => forallb blank_written l
  | SFormat _ _ => false
  | SInt _ => false
  end.
(** describe.py 47-65 *)
Definition remove_empties (d : list entry) : list entry := filter (fun e => negb (blank_shown (fst (snd e)))) d.

(** np.array of str and bytes (see Dimensional.np_array): an exception *)
Definition mixed_text (l : list pyval) : bool :=
  existsb (fun v => match v with PText (Str _) => true | _ => false end) l
  && existsb (fun v => match v with PText (Raw _) => true | _ => false end) l.
Definition as_value (w : written) : pyval := match w with AName s => PText s | AsText _ => PText (Str []) end.
Definition unprintable (v : shown) : bool :=
  match v with SResult (RMany l) => mixed_text l | SNames l => mixed_text (map as_value l) | _ => false end.

(** bytes.strip *)
Definition is_space_byte (b : byte) : bool := ((9 <=? b2z b) && (b2z b <=? 13)) || (b2z b =? 32).
Fixpoint lstrip_bytes (u : bytes) : bytes := match u with [] => [] | c :: t => if is_space_byte c then lstrip_bytes t else u end.
Definition strip_text (s : pystr) : pystr :=
  match s with Str u => Str (strip u) | Raw u => Raw (rev (lstrip_bytes (rev (lstrip_bytes u)))) end.
(** describe.py 228-233 and 255 *)
Definition written_units (ex : options) (units : option pystr) : option pystr :=
  match units with
  | Some u => if x_units ex then None else if truthy (strip_text u) then Some (strip_text u) else None
  | None => None
  end.
(** describe.py 216-242.  np.array is called for each list, with or without
    remove_empties; ljust of a caption that is a bytes gives a bytes, which ''.join
    refuses. *)
Definition describe_dict (ex : options) (d : list entry) : io (list piece) :=
  if existsb (fun e => unprintable (fst (snd e))) d then fail
  else
    let d := if x_empty ex then remove_empties d else d in
    if existsb (fun e => match fst e with Raw _ => true | Str _ => false end) d then fail
    else ret (map (fun e => Entry (fst e) (fst (snd e)) (written_units ex (snd (snd e)))) d).
(** describe.py 263-280, without writeempty *)
Definition describe_array (v : shown) : io (list piece) :=
  match v with
  | SResult (RMany []) | SNames [] => ret []
  | _ => if unprintable v then fail else ret [Line v]
  end.

(** describe.py 102-128, for mode 'name'.  list(x) of an object calls x[0], which is a
    KeyError; list of a str has its characters, of a bytes its numbers; list of anything
    else that is not a list is a TypeError, for which x is given back.  A tuple (FSING1
    and the like) becomes a list of its numbers. *)
Definition replist_one (dec : bytes -> pystr) (x : pyval) : written :=
  match x with PObject o => AName (po_name dec o) | _ => AsText x end.
Definition replist (dec : bytes -> pystr) (r : result) : io shown :=
  match r with
  | RMany l => ret (SNames (map (replist_one dec) l))
  | ROne (PObject _) => fail
  | ROne (PText (Str u)) => ret (SNames (map (fun c => AsText (PText (Str [c]))) u))
  | ROne (PText (Raw u)) => ret (SNames (map (fun b => AsText (PNumber 15 (b2z b))) u))
  | ROne (PNumbers c zs) => if is_tuple (PNumbers c zs) then ret (SNames (map (fun z => AsText (PNumber c z)) zs)) else ret (SResult r)
  | _ => ret (SResult r)
  end.

(** ** What the classes write *)

(** the value of a row of a dict *)
Inductive expr :=
  | Get (label : bytes)                    (* self.x, for the attribute with the label *)
  | NamesOf (label : bytes)                (* utils.replist(self.x, 'name') *)
  | Joined (template a b : bytes)          (* template.format(self.x, self.y) *)
  | LengthOf (label : bytes)               (* len(self.x) *)
  | Objects.                               (* self.objects, of groups *)
(** what describe_attributes is handed for a caption *)
Inductive handed :=
  | Label (label : bytes)
  | Value (label : bytes)                  (* self.x *)
  | SampleCount.                           (* measurement.py 270-274 *)
(** a statement of describe_attr *)
Inductive step :=
  | Description (label : bytes)                          (* describe_description(buf, self.x, ...) *)
  | Attributes (rows : list (bytes * handed))            (* describe_attributes *)
  | Dict (rows : list (bytes * expr))                    (* describe_dict *)
  | Samples (dims : option bytes) (valuekey : bytes) (extras : list (bytes * bytes)) (single : bool)
                                                         (* describe_sampled_attrs; dims None is [1] *)
  | Heading (text : bytes)                               (* describe_header, lvl 2 *)
  | TextOf (label : bytes)                               (* describe_array(buf, self.x, ...) *)
  | Coordinates                                          (* wellref.py 136 *)
  | Channels.                                            (* frame.py 498-525 *)

Local Notation "k '~>' v" := (text k, v) (at level 70, only parsing).
Local Notation "k '~L>' v" := (text k, Label (text v)) (at level 70, only parsing).
Local Notation "k '~G>' v" := (text k, Get (text v)) (at level 70, only parsing).
Local Notation "k '~N>' v" := (text k, NamesOf (text v)) (at level 70, only parsing).

(** axis.py 65-71 *)
Definition axis_steps : list step :=
  [ Attributes [ "Description" ~L> "AXIS-ID"; "Spacing" ~L> "SPACING"; "Coordinates" ~L> "COORDINATES" ] ].
(** calibration.py 103-112 *)
Definition calibration_steps : list step :=
  [ Dict [ "Computational method" ~G> "METHOD"; "Calibrated channels" ~N> "CALIBRATED-CHANNELS";
           "Uncalibrated channels" ~N> "UNCALIBRATED-CHANNELS"; "Coefficients" ~N> "COEFFICIENTS";
           "Measurements" ~N> "MEASUREMENTS"; "Parameters" ~N> "PARAMETERS" ] ].
(** channel.py 268-279 *)
Definition channel_steps : list step :=
  [ Description (text "LONG-NAME");
    Attributes [ "Physical unit of sample" ~L> "UNITS"; "Sample dimensions" ~L> "DIMENSION"; "Axis" ~L> "AXIS";
                 "Maximum sample dimensions" ~L> "ELEMENT-LIMIT"; "Property indicators" ~L> "PROPERTIES"; "Source" ~L> "SOURCE" ] ].
(** coefficient.py 87-109 *)
Definition coefficient_steps : list step :=
  [ Dict [ "Coefficient type" ~G> "LABEL"; "Number of value(s)" ~> LengthOf (text "COEFFICIENTS") ];
    Samples None (text "COEFFICIENTS")
      [ "Reference value(s)" ~> text "REFERENCES"; "Minus Tolerance(s)" ~> text "PLUS-TOLERANCES";
        "Plus Tolerance(s)" ~> text "MINUS-TOLERANCES" ] false ].
(** comment.py 39-40 *)
Definition comment_steps : list step := [ TextOf (text "TEXT") ].
(** computation.py 170-190 *)
Definition computation_steps : list step :=
  [ Description (text "LONG-NAME");
    Attributes [ "Sample dimensions" ~L> "DIMENSION"; "Axis labels" ~L> "AXIS"; "Zones" ~L> "ZONES";
                 "Property indicators" ~L> "PROPERTIES"; "Source object" ~L> "SOURCE" ];
    Samples (Some (text "DIMENSION")) (text "VALUES") [] true ].
(** equipment.py 205-237 *)
Definition equipment_steps : list step :=
  [ Attributes [ "Trademark name" ~L> "TRADEMARK-NAME"; "Generic type" ~L> "TYPE"; "Operational status" ~L> "STATUS";
                 "Serial number" ~L> "SERIAL-NUMBER"; "Location" ~L> "LOCATION" ];
    Attributes [ "Height" ~L> "HEIGHT"; "Length" ~L> "LENGTH"; "Diameter (min)" ~L> "MINIMUM-DIAMETER";
                 "Diameter (max)" ~L> "MAXIMUM-DIAMETER"; "Volume" ~L> "VOLUME"; "Weight" ~L> "WEIGHT" ];
    Attributes [ "Minimum borehole size" ~L> "HOLE-SIZE"; "Max pressure" ~L> "PRESSURE"; "Max temperature" ~L> "TEMPERATURE" ];
    Attributes [ "Vertical depth" ~L> "VERTICAL-DEPTH"; "Radial drift " ~L> "RADIAL-DRIFT"; "Angular drift" ~L> "ANGULAR-DRIFT" ] ].
(** fileheader.py 84-89 *)
Definition fileheader_steps : list step :=
  [ Dict [ "Description" ~G> "ID"; "Position in storage set" ~G> "SEQUENCE-NUMBER" ] ].
(** frame.py 498-525 *)
Definition frame_steps : list step := [ Channels ].
(** group.py 86-92 *)
Definition group_steps : list step :=
  [ Dict [ "Description" ~G> "DESCRIPTION"; "Object list" ~> Objects; "Group list" ~G> "GROUP-LIST" ] ].
(** longname.py 189-207 *)
Definition longname_steps : list step :=
  [ Dict [ "General modifier" ~G> "GENERAL-MODIFIER"; "Quantity" ~G> "QUANTITY"; "Quantity modifier" ~G> "QUANTITY-MODIFIER";
           "Altered form" ~G> "ALTERED-FORM"; "Entity" ~G> "ENTITY"; "Entity modifier" ~G> "ENTITY-MODIFIER";
           "Entity number" ~G> "ENTITY-NUMBER"; "Entity part" ~G> "ENTITY-PART"; "Entity part number" ~G> "ENTITY-PART-NUMBER";
           "Generic source" ~G> "GENERIC-SOURCE"; "Source part" ~G> "SOURCE-PART"; "Source part number" ~G> "SOURCE-PART-NUMBER";
           "Conditions" ~G> "CONDITIONS"; "Standard symbol" ~G> "STANDARD-SYMBOL"; "Private symbol" ~G> "PRIVATE-SYMBOL" ] ].
(** measurement.py 254-298.  remove_empties in line 278 sees labels and a number, none of
    which is empty. *)
Definition measurement_steps : list step :=
  [ Heading (text "Metadata");
    Attributes [ "Type of measurement" ~L> "TYPE"; "Calibration standard" ~L> "STANDARD"; "Phase in job sequence" ~L> "PHASE";
                 "Start time of acquisition" ~L> "BEGIN-TIME"; "Duration time" ~L> "DURATION"; "Data source" ~L> "MEASUREMENT-SOURCE" ];
    Heading (text "Samples");
    Attributes [ "Dimensions" ~L> "DIMENSION"; "Axis labels" ~L> "AXIS"; "Number of values" ~> SampleCount;
                 "Samples used to compute std/max-dev" ~L> "SAMPLE-COUNT" ];
    Samples (Some (text "DIMENSION")) (text "MEASUREMENT")
      [ "Reference" ~> text "REFERENCE"; "Minus Tolerance" ~> text "MINUS-TOLERANCE"; "Plus Tolerance" ~> text "PLUS-TOLERANCE";
        "Std deviation" ~> text "STANDARD-DEVIATION"; "Max deviation" ~> text "MAXIMUM-DEVIATION" ] true ].
(** message.py 103-114 *)
Definition message_steps : list step :=
  [ Attributes [ "Message type" ~L> "TYPE"; "Time of recording" ~L> "TIME"; "Borehole drift" ~L> "BOREHOLE-DRIFT";
                 "Vertical depth" ~L> "VERTICAL-DEPTH"; "Radial drift" ~L> "RADIAL-DRIFT"; "Angular drift" ~L> "ANGULAR-DRIFT" ];
    TextOf (text "TEXT") ].
(** noformat.py 54-59 *)
Definition noformat_steps : list step :=
  [ Attributes [ "Consumer name" ~L> "CONSUMER-NAME"; "Description" ~L> "DESCRIPTION" ] ].
(** origin.py 246-275 *)
Definition origin_steps : list step :=
  [ Dict [ "Logical file ID" ~G> "FILE-ID";
           "File set name and number" ~> Joined (text "{} / {}") (text "FILE-SET-NAME") (text "FILE-SET-NUMBER");
           "File number and type" ~> Joined (text "{} / {}") (text "FILE-NUMBER") (text "FILE-TYPE") ];
    Dict [ "Field" ~G> "FIELD-NAME"; "Well (id/name)" ~> Joined (text "{} / {}") (text "WELL-ID") (text "WELL-NAME");
           "Produced by (code/name)" ~> Joined (text "{} / {}") (text "PRODUCER-CODE") (text "PRODUCER-NAME");
           "Produced for" ~G> "COMPANY"; "Order number" ~G> "ORDER-NUMBER"; "Run number" ~G> "RUN-NUMBER";
           "Descent number" ~G> "DESCENT-NUMBER"; "Created" ~G> "CREATION-TIME" ];
    Dict [ "Created by" ~> Joined (text "{}, (version: {})") (text "PRODUCT") (text "VERSION");
           "Other programs/services" ~G> "PROGRAMS" ] ].
(** parameter.py 144-163 *)
Definition parameter_steps : list step :=
  [ Description (text "LONG-NAME");
    Attributes [ "Sample dimensions" ~L> "DIMENSION"; "Axis labels" ~L> "AXIS"; "Zones" ~L> "ZONES" ];
    Samples (Some (text "DIMENSION")) (text "VALUES") [] true ].
(** path.py 168-187 *)
Definition path_steps : list step :=
  [ Dict [ "Frame" ~G> "FRAME-TYPE"; "Well reference point" ~G> "WELL-REFERENCE-POINT"; "Value Channel(s)" ~N> "VALUE" ];
    Attributes [ "Borehole depth" ~L> "BOREHOLE-DEPTH"; "Vertical depth" ~L> "VERTICAL-DEPTH"; "Radial drift" ~L> "RADIAL-DRIFT";
                 "Angular drift" ~L> "ANGULAR-DRIFT" ];
    Attributes [ "Time" ~L> "TIME"; "Depth offset" ~L> "DEPTH-OFFSET"; "Measure point offset" ~L> "MEASURE-POINT-OFFSET";
                 "Tool zero offset" ~L> "TOOL-ZERO-OFFSET" ] ].
(** process.py 157-177 *)
Definition process_steps : list step :=
  [ Description (text "DESCRIPTION");
    Dict [ "Trademark name" ~G> "TRADEMARK-NAME"; "Status" ~G> "STATUS"; "Version" ~G> "VERSION"; "Comments" ~G> "COMMENTS" ];
    Dict [ "Properties" ~G> "PROPERTIES"; "Parameters" ~N> "PARAMETERS" ];
    Dict [ "Input Channels" ~N> "INPUT-CHANNELS"; "Output Channels" ~N> "OUTPUT-CHANNELS";
           "Input Computations" ~N> "INPUT-COMPUTATIONS"; "Output computations" ~N> "OUTPUT-COMPUTATIONS" ] ].
(** splice.py 86-92 *)
Definition splice_steps : list step :=
  [ Dict [ "Zones" ~N> "ZONES"; "Output Channel" ~N> "OUTPUT-CHANNEL"; "Input Channels" ~N> "INPUT-CHANNELS" ] ].
(** tool.py 110-128 *)
Definition tool_steps : list step :=
  [ Dict [ "Description" ~G> "DESCRIPTION"; "Trademark name" ~G> "TRADEMARK-NAME"; "Generic name" ~G> "GENERIC-NAME"; "Status" ~G> "STATUS" ];
    Dict [ "Channels" ~N> "CHANNELS"; "Parameters" ~N> "PARAMETERS"; "Parts" ~N> "PARTS" ] ].
(** wellref.py 123-136 *)
Definition wellref_steps : list step :=
  [ Attributes [ "Permanent datum" ~L> "PERMANENT-DATUM"; "Vertical zero" ~L> "VERTICAL-ZERO";
                 "Permanent datum elevation" ~L> "PERMANENT-DATUM-ELEVATION"; "Above permanent datum" ~L> "ABOVE-PERMANENT-DATUM";
                 "Magnetic declination" ~L> "MAGNETIC-DECLINATION" ];
    Heading (text "Coordinates"); Coordinates ].
(** zone.py 75-82 *)
Definition zone_steps : list step :=
  [ Attributes [ "Description" ~> Value (text "DESCRIPTION"); "Domain" ~L> "DOMAIN"; "Minimum" ~L> "MINIMUM"; "Maximum" ~L> "MAXIMUM" ] ].
(** file.py 308-331 *)
Definition all_steps : list (pystr * list step) :=
  [ (lit (text "AXIS"), axis_steps); (lit (text "FILE-HEADER"), fileheader_steps); (lit (text "ORIGIN"), origin_steps);
    (lit (text "LONG-NAME"), longname_steps); (lit (text "FRAME"), frame_steps); (lit (text "CHANNEL"), channel_steps);
    (lit (text "ZONE"), zone_steps); (lit (text "TOOL"), tool_steps); (lit (text "PARAMETER"), parameter_steps);
    (lit (text "EQUIPMENT"), equipment_steps); (lit (text "CALIBRATION-MEASUREMENT"), measurement_steps);
    (lit (text "CALIBRATION-COEFFICIENT"), coefficient_steps); (lit (text "CALIBRATION"), calibration_steps);
    (lit (text "COMPUTATION"), computation_steps); (lit (text "SPLICE"), splice_steps);
    (lit (text "WELL-REFERENCE"), wellref_steps); (lit (text "GROUP"), group_steps); (lit (text "PROCESS"), process_steps);
    (lit (text "PATH"), path_steps); (lit (text "MESSAGE"), message_steps); (lit (text "COMMENT"), comment_steps);
    (lit (text "NO-FORMAT"), noformat_steps) ].
(** basicobject.py 347-352: nothing for other types *)
Definition steps_of (x : pyobject) : list step :=
  match po_class x with
  | Some t => match dict_get t all_steps with Some s => s | None => [] end
  | None => []
  end.

Section describe.
Variable maxdims : nat.
Variable dec : bytes -> pystr.
Variable enc : pystr -> bytes.
Variable esc : severity -> bool.
Variable set_order : list pystr -> list pystr.

(** self[label], for a label the class or the object has *)
Definition item (x : pyobject) (key : pystr) (st : store) : store * io result :=
  let '(st, r) := getitem dec enc esc set_order st (schema_of x) (po_attic x) key in
  (st, let* v := r in match v with Some r => ret r | None => fail end).

(** the value of a row.  What describe does to a group is done to a copy of its tables;
    that group.objects changes them is modelled in DlisClasses. *)
Definition eval (x : pyobject) (e : expr) (st : store) : store * io shown :=
  match e with
  | Get l => chain (item x (lit l) st) (fun st r => (st, ret (SResult r)))
  | NamesOf l => chain (item x (lit l) st) (fun st r => (st, replist dec r))
  | Joined t a b =>
      chain (item x (lit a) st) (fun st ra => chain (item x (lit b) st) (fun st rb => (st, ret (SFormat t [ra; rb]))))
  | LengthOf l =>
      chain (item x (lit l) st) (fun st r => (st, match r with RMany l => ret (SInt (Z.of_nat (length l))) | _ => fail end))
  | Objects =>
      chain (snd (group_objects dec enc esc set_order st (schema_of x) (po_attic x))) (fun st r =>
        (st, match r with Some r => ret (SResult r) | None => fail end))
  end.
Fixpoint eval_rows (x : pyobject) (rows : list (bytes * expr)) (st : store) : store * io (list entry) :=
  match rows with
  | [] => (st, ret [])
  | (c, e) :: rows =>
      chain (eval x e st) (fun st v => chain (eval_rows x rows st) (fun st d => (st, ret ((lit c, (v, None)) :: d))))
  end.

(** ** describe_attributes *)

(** what stands for a caption in the dict: a text, or something that is no text *)
Inductive given := GText (s : pystr) | GOther (v : shown).
(** describe.py 201-212 *)
Definition retrieve (x : pyobject) (g : given) (st : store) : store * io (shown * option pystr) :=
  match g with
  | GOther v => (st, ret (v, None))
  | GText label =>
      if existsb (pystr_eqb label) (keys dec (po_attic x))
      then
        chain (item x label st) (fun st r =>
          (st, match attic_get enc (po_attic x) label with Some a => ret (SResult r, Some (dec (at_units a))) | None => fail end))
      else if existsb (fun e => pystr_eqb label (fst e)) (sc_attributes (schema_of x))
      then chain (item x label st) (fun st r => (st, ret (SResult r, None)))
      else (st, ret (SResult (ROne (PText label)), None))
  end.
Fixpoint retrieve_all (x : pyobject) (d : list (pystr * given)) (st : store) : store * io (list entry) :=
  match d with
  | [] => (st, ret [])
  | (c, g) :: d =>
      chain (retrieve x g st) (fun st v => chain (retrieve_all x d st) (fun st r => (st, ret ((c, v) :: r))))
  end.
Definition describe_attributes (ex : options) (x : pyobject) (d : list (pystr * given)) (st : store) : store * io (list piece) :=
  chain (retrieve_all x d st) (fun st d => (st, describe_dict ex d)).

(** ** describe_sampled_attrs *)

(** validshape and sampling: the array, a ValueError, or another exception.  [shape] None:
    the dimensions are no integers.  Simplified: then there is an exception that is no
    ValueError, whereas floats the product of which does not divide the number of values
    are a ValueError. *)
Inductive sampling_result := Sampled (a : nd) | WrongShape | Raised.
(** the exceptions of sampling: UnicodeDecodeError of np.array and the errors of np.dtype
    and np.ndarray are ValueErrors, but for too many dimensions in np.dtype, which is a
    TypeError, and array[0] of an array without items, which is an IndexError *)
Definition sampling_fails (data : list pyval) (shape : list Z) : sampling_result :=
  match np_array data with
  | None => WrongShape
  | Some (_, size) =>
      let inner := if shape_eqb shape [1] then [] else shape in
      if (maxdims <? length inner)%nat then Raised
      else
        match (do elem <- np_subsize maxdims size (elem_shape data); np_subsize maxdims elem inner) with
        | None => WrongShape
        | Some _ => if (maxdims <? 1 + length inner + length (elem_shape data))%nat then WrongShape else Raised
        end
  end.
Definition sample (data : option (list pyval)) (shape : option (list Z)) (single : bool) : sampling_result :=
  match shape with
  | None => match data with Some (_ :: _) => Raised | _ => Sampled (Arr []) end
  | Some shape =>
      match validshape data shape None with
      | None => WrongShape
      | Some shape =>
          match sampling maxdims data shape single, data with
          | Some (a, _), _ => Sampled a
          | None, Some data => sampling_fails data shape
          | None, None => Raised
          end
      end
  end.
(** the variables [value] and [units] of the function *)
Definition latest : Type := option (option (list pyval) * pystr).
(** describe.py 166-174 and 177-187: the dicts of valid and of invalid values.  Values
    that cannot be converted (a date that does not exist) are a ValueError as well: then
    the variables have what the last attribute left there, if anything. *)
Definition shown_raw (v : option (list pyval)) : shown := match v with Some l => SResult (RMany l) | None => SResult RNone end.
Definition describe_sampled (o : object) (shape : option (list Z)) (caption label : bytes) (single : bool)
    (acc : list entry * list entry * latest) : io (list entry * list entry * latest) :=
  let '(valids, invs, now) := acc in
  match attic_get enc o (lit label) with
  | None => ret acc
  | Some a =>
      match attribute_value dec a with
      | None =>
          match now with
          | Some (v, u) => ret (valids, invs ++ [(lit caption, (shown_raw v, Some u))], now)
          | None => fail
          end
      | Some value =>
          let units := dec (at_units a) in
          match sample value shape single with
          | Sampled arr => ret (valids ++ [(lit caption, (SArray arr, Some units))], invs, Some (value, units))
          | WrongShape => ret (valids, invs ++ [(lit caption, (shown_raw value, Some units))], Some (value, units))
          | Raised => fail
          end
      end
  end.
Fixpoint describe_sampled_all (o : object) (shape : option (list Z)) (extras : list (bytes * bytes)) (single : bool)
    (acc : list entry * list entry * latest) : io (list entry * list entry * latest) :=
  match extras with
  | [] => ret acc
  | (c, l) :: extras => let* acc := describe_sampled o shape c l single acc in describe_sampled_all o shape extras single acc
  end.
(** describe.py 161-194; the arrays of the first one are never single *)
Definition describe_sampled_attrs (ex : options) (o : object) (shape : option (list Z)) (valuekey : bytes)
    (extras : list (bytes * bytes)) (single : bool) : io (list piece) :=
  let* acc := describe_sampled o shape (text "Value(s)") valuekey false ([], [], None) in
  let* acc := describe_sampled_all o shape extras single acc in
  let '(valids, invs, _) := acc in
  let* p := describe_dict ex valids in
  if negb (x_inv ex) && match invs with [] => false | _ => true end
  then let* q := describe_dict ex invs in ret (p ++ Section (lit (text "Invalid dimensions")) :: q)
  else ret p.
(** self.dimension *)
Definition dims_shape (r : result) : option (list Z) := match r with RMany l => dims_of l | _ => None end.
(** measurement.py 270-274: len(self.samples), or 0 if that is a ValueError *)
Definition samplecount (x : pyobject) (st : store) : store * io Z :=
  match attic_get enc (po_attic x) (lit (text "MEASUREMENT")) with
  | None => (st, ret 0)
  | Some a =>
      match attribute_value dec a with
      | None => (st, ret 0)
      | Some data =>
          chain (item x (lit (text "DIMENSION")) st) (fun st r =>
            (st, match sample data (dims_shape r) false with
                 | Sampled (Arr l) => ret (Z.of_nat (length l))
                 | WrongShape => ret 0
                 | _ => fail
                 end))
      end
  end.
Fixpoint hand_over (x : pyobject) (rows : list (bytes * handed)) (st : store) : store * io (list (pystr * given)) :=
  match rows with
  | [] => (st, ret [])
  | (c, h) :: rows =>
      chain (match h with
             | Label l => (st, ret (GText (lit l)))
             | Value l => chain (item x (lit l) st) (fun st r => (st, ret match r with ROne (PText s) => GText s | _ => GOther (SResult r) end))
             | SampleCount => chain (samplecount x st) (fun st n => (st, ret (GOther (SInt n))))
             end) (fun st g =>
      chain (hand_over x rows st) (fun st d => (st, ret ((lit c, g) :: d))))
  end.

(** ** describe_attr *)

(** describe.py 144-157.  The description is a long name, the class of which is Longname
    as LONG-NAME is what it links to; anything else has no method describe. *)
Definition truth_of (r : result) : bool :=
  match r with RNone => false | ROne v => truth v | RMany l => match l with [] => false | _ => true end | RBool b => b end.
Definition describe_description (ex : options) (r : result) (st : store) : store * io (list piece) :=
  if negb (truth_of r) && x_empty ex then (st, ret [])
  else
    match r with
    | ROne (PObject ln) =>
        chain (match longname_steps with
               | [Dict rows] => chain (eval_rows ln rows st) (fun st d => (st, describe_dict (parseoptions (map b2z (text "hes"))) d))
               | _ => (st, fail)
               end) (fun st p => (st, ret (Section (lit (text "Description")) :: p)))
    | _ => (st, describe_dict ex [(lit (text "Description"), (SResult r, None))])
    end.
(** frame.py 498-525.  Simplified: self.channels is read once. *)
Definition describe_channels (ex : options) (x : pyobject) (st : store) : store * io (list piece) :=
  chain (frame_channels dec enc esc set_order st x) (fun st chs =>
    match chs with
    | [] => (st, ret [Line (SResult (ROne (PText (lit (text "Frame has no channels")))))])
    | ch :: _ =>
        chain (item x (lit (text "INDEX-TYPE")) st) (fun st index_type =>
        chain (match index_type with
               | RNone => (st, ret [Line (SResult (ROne (PText (lit
                   (text "There is no index channel, channels are indexed by samplenumber, i.e [1,2,3,..,n]")))))])
               | _ =>
                   match ch with
                   | PObject index =>
                       chain (item index (lit (text "UNITS")) st) (fun st units =>
                       chain (describe_attributes ex x
                         [ (lit (text "Description"), GText (lit (text "DESCRIPTION")));
                           (lit (text "Indexed by"), GText (lit (text "INDEX-TYPE")));
                           (lit (text "Index units"), match units with ROne (PText s) => GText s | _ => GOther (SResult units) end);
                           (lit (text "Index min"), GText (lit (text "INDEX-MIN")));
                           (lit (text "Index max"), GText (lit (text "INDEX-MAX")));
                           (lit (text "Direction"), GText (lit (text "DIRECTION")));
                           (lit (text "Constant spacing"), GText (lit (text "SPACING")));
                           (lit (text "Index channel"), GOther (SResult (ROne ch))) ] st) (fun st p =>
                         (st, ret (Section (lit (text "Channel indexing")) :: p))))
                   | _ => (st, fail)
                   end
               end) (fun st p =>
          (st, let* q := describe_array (SNames (map (replist_one dec) chs)) in
               ret (p ++ Section (lit (text "Channels")) :: q))))
    end).
Definition run (ex : options) (x : pyobject) (s : step) (st : store) : store * io (list piece) :=
  match s with
  | Description l => chain (item x (lit l) st) (fun st r => describe_description ex r st)
  | Attributes rows => chain (hand_over x rows st) (fun st d => describe_attributes ex x d st)
  | Dict rows => chain (eval_rows x rows st) (fun st d => (st, describe_dict ex d))
  | Samples None valuekey extras single => (st, describe_sampled_attrs ex (po_attic x) (Some [1]) valuekey extras single)
  | Samples (Some dims) valuekey extras single =>
      chain (item x (lit dims) st) (fun st r => (st, describe_sampled_attrs ex (po_attic x) (dims_shape r) valuekey extras single))
  | Heading t => (st, ret [Section (lit t)])
  | TextOf l => chain (item x (lit l) st) (fun st r => (st, describe_array (SResult r)))
  | Coordinates =>
      (st, let* d := wellref_coordinates dec enc (po_attic x) in
           describe_dict ex (map (fun e => (fst e, (SResult (ROne (snd e)), None))) d))
  | Channels => describe_channels ex x st
  end.
Fixpoint run_all (ex : options) (x : pyobject) (steps : list step) (st : store) : store * io (list piece) :=
  match steps with
  | [] => (st, ret [])
  | s :: steps => chain (run ex x s st) (fun st p => chain (run_all ex x steps st) (fun st q => (st, ret (p ++ q))))
  end.

(** ** BasicObject.describe *)

(** describe.py 16-22 *)
Definition headerinfo (o : object) : list entry :=
  [ (lit (text "name"), (SResult (ROne (PText (dec (ob_id (obj_name o))))), None));
    (lit (text "origin"), (SInt (ob_origin (obj_name o)), None));
    (lit (text "copy"), (SInt (ob_copy (obj_name o)), None)) ].
(** basicobject.py 339-343 *)
Definition describe_stash (ex : options) (x : pyobject) (st : store) : store * io (list piece) :=
  match stash dec enc (schema_of x) (po_attic x) with
  | None => (st, fail)
  | Some [] => (st, ret [])
  | Some d =>
      chain (describe_attributes ex x (map (fun e => (fst e, GText (fst e))) d) st) (fun st p =>
        (st, ret (Section (lit (text "Unknown attributes")) :: p)))
  end.
(** basicobject.py 283-345.  The title is the type, of which the capitalisation is not
    modelled. *)
Definition describe (st : store) (x : pyobject) (exclude : list Z) : store * io (list piece) :=
  let ex := parseoptions exclude in
  chain (if x_head ex then (st, ret [])
         else (st, let* p := describe_dict ex (headerinfo (po_attic x)) in ret (Title (dec (obj_type (po_attic x))) :: p))) (fun st p1 =>
  chain (if x_attr ex then (st, ret []) else run_all ex x (steps_of x) st) (fun st p2 =>
  chain (if x_stash ex then (st, ret []) else describe_stash ex x st) (fun st p3 =>
    (st, ret (p1 ++ p2 ++ p3))))).

(** ** Files *)

(** file.py 642-646: the types, known or not, with the number of objects of each *)
Fixpoint count_types (st : store) (ts : list pystr) (known unknown : list entry) : store * io (list entry * list entry) :=
  match ts with
  | [] => (st, ret (known, unknown))
  | t :: ts =>
      chain (store_find dec enc esc set_order st t None (Some exact)) (fun st objs =>
        let e := (t, (SInt (Z.of_nat (length objs)), None)) in
        if existsb (fun k => pystr_eqb (lit k) t) known_types
        then count_types st ts (known ++ [e]) unknown
        else count_types st ts known (unknown ++ [e]))
  end.
(** file.py 377-382: repr(self).  A file header that is None has no attribute id. *)
Definition file_repr (st : store) : store * io shown :=
  let named r := SFormat (text "LogicalFile({})") [r] in
  chain (fileheader dec enc esc set_order st) (fun st h =>
    match h with
    | None => (st, ret (named (ROne (PText (lit (text "Unknown"))))))
    | Some x => chain (item x (lit (text "ID")) st) (fun st r => (st, ret (named r)))
    end).
(** file.py 635-640 and 112-117 *)
Definition file_rows (st : store) : store * io (list piece) :=
  let count t st := chain (objects_of_type dec enc esc set_order st t) (fun st l => (st, ret (SInt (Z.of_nat (length l))))) in
  chain (file_repr st) (fun st name =>
  chain (count (text "FRAME") st) (fun st frames =>
  chain (count (text "CHANNEL") st) (fun st channels =>
    (st, describe_dict (parseoptions [])
           [ (lit (text "Description"), (name, None)); (lit (text "Frames"), (frames, None)); (lit (text "Channels"), (channels, None)) ])))).
(** file.py 614-656 *)
Definition describe_file (st : store) : store * io (list piece) :=
  chain (file_rows st) (fun st p0 =>
  chain (count_types st (types dec set_order st) [] []) (fun st (ku : list entry * list entry) =>
    let section (title : bytes) (d : list entry) :=
      match d with [] => ret [] | _ => let* p := describe_dict (parseoptions []) d in ret (Section (lit title) :: p) end in
    (st, let* p1 := section (text "Known objects") (fst ku) in
         let* p2 := section (text "Unknown objects") (snd ku) in
         ret (Title (lit (text "Logical File")) :: p0 ++ p1 ++ p2)))).

(** file.py 111-117: the logical files one after the other, with their stores *)
Fixpoint describe_each (sts : list store) : list store * io (list piece) :=
  match sts with
  | [] => ([], ret [])
  | st :: sts =>
      match file_rows st with
      | (st, (l, Ok p)) => let '(sts, (l', r)) := describe_each sts in (st :: sts, (l ++ l', let! q := r in Ok (p ++ q)))
      | (st, (l, Exn)) => (st :: sts, (l, Exn))
      | (st, (l, UB)) => (st :: sts, (l, UB))
      | (st, (l, Fuel)) => (st :: sts, (l, Fuel))
      end
  end.
(** file.py 99-118 *)
Definition describe_physical (sts : list store) : list store * io (list piece) :=
  match describe_dict (parseoptions []) [ (lit (text "Number of Logical Files"), (SInt (Z.of_nat (length sts)), None)) ] with
  | (l, Ok p) => let '(sts, (l', r)) := describe_each sts in (sts, (l ++ l', let! q := r in Ok (Title (lit (text "Physical File")) :: p ++ q)))
  | (l, Exn) => (sts, (l, Exn))
  | (l, UB) => (sts, (l, UB))
  | (l, Fuel) => (sts, (l, Fuel))
  end.
End describe.
