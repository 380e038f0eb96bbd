(** Independent specification for C69-C71: the standard object types, and what the
    documentation says about the properties of their classes. *)
From Verif Require Import Bytes Stream PyBase DlisTypes DlisRecords CommonPy DlisStore SpecDlisStore DlisSchema DlisObject SpecDlisObject SpecDlisCurves DlisClasses.
Local Open Scope Z_scope.

(** ** Types *)

(** the object types with a class of their own, each with the listing of the logical
    file that is for it; FILE-HEADER has a property that is not a list *)
Local Notation "k '~>' v" := (lit (text k), lit (text v)) (at level 70, only parsing).
Definition listed_types : list (pystr * pystr) :=
   [ "ORIGIN" ~> "origins"; "AXIS" ~> "axes"; "LONG-NAME" ~> "longnames"; "CHANNEL" ~> "channels"; "FRAME" ~> "frames";
     "ZONE" ~> "zones"; "PARAMETER" ~> "parameters"; "EQUIPMENT" ~> "equipments"; "TOOL" ~> "tools";
     "PROCESS" ~> "processes"; "COMPUTATION" ~> "computations"; "CALIBRATION-MEASUREMENT" ~> "measurements";
     "CALIBRATION-COEFFICIENT" ~> "coefficients"; "CALIBRATION" ~> "calibrations"; "GROUP" ~> "groups";
     "SPLICE" ~> "splices"; "PATH" ~> "paths"; "WELL-REFERENCE" ~> "wellrefs"; "MESSAGE" ~> "messages";
     "COMMENT" ~> "comments"; "NO-FORMAT" ~> "noformats" ].
Definition standard (t : pystr) : Prop := t = lit (text "FILE-HEADER") \/ In t (map fst listed_types).

Section listings.
Variable dec : bytes -> pystr.
Variable enc : pystr -> bytes.
Variable sets : list object_set.
(** the objects of a type *)
Definition of_type (t : pystr) (o : object) : Prop := exists s, In s sets /\ dec (os_type s) = t /\ In o (objects_in s).
(** What f.unknowns is: the types in the file that are not standard, each once, and for
    each the fingerprints of its objects, each once, with an object that has it. *)
Definition lists_unknowns (d : list (pystr * list (pystr * pyobject))) : Prop :=
  NoDup (map fst d) /\
  (forall t, In t (map fst d) <-> (exists s, In s sets /\ dec (os_type s) = t) /\ ~ standard t) /\
  (forall t e, In (t, e) d ->
     NoDup (map fst e) /\
     (forall fp, In fp (map fst e) <-> exists o, of_type t o /\ shown dec enc o fp) /\
     (forall fp x, In (fp, x) e -> po_class x = None /\ of_type t (po_attic x) /\ shown dec enc (po_attic x) fp)).
End listings.

(** ** Properties *)

(** how the values of an attribute are presented: the first one, all of them, all of them
    in reverse order (C's order of dimensions), or whether the first is true *)
Inductive reading := One | Many | Reversed | Truth.
Inductive presented : reading -> list pyval -> result -> Prop :=
  | no_one : presented One [] RNone
  | the_first v vs : presented One (v :: vs) (ROne v)
  | all_of vs : presented Many vs (RMany vs)
  | all_reversed vs ws : length ws = length vs ->
      (forall i, (i < length vs)%nat -> nth_error ws i = nth_error vs (length vs - 1 - i)) -> presented Reversed vs (RMany ws)
  | no_truth : presented Truth [] RNone
  | a_truth v vs b : (b = false <-> is_false v) -> presented Truth (v :: vs) (RBool b).

(** A documented property: its name, the name in RP66 V1, how the values are presented,
    and what the values link to. *)
Record documented := mk_doc { dc_name : pystr; dc_label : pystr; dc_reading : reading; dc_links : option link }.
Definition doc (name label : txt) r l := mk_doc (lit (text name)) (lit (text label)) r l.
Arguments doc (name label)%txt_scope r l.
Definition A (type : txt) : option link := Some (ToName (lit (text type))).
Arguments A type%txt_scope.
Definition Any_object : option link := Some ToRef.
Definition Nothing : option link := None.

(** From the doc strings of the classes.  Where these do not tell the type of the property
    it is that of RP66 V1, chapter 5, which restricts most attributes to one value and
    says what they may refer to.  The names of three properties are those of the code
    (see [misnamed]), and so is the label OUTPUT-CHANNEL, which is documented as
    OUTPUT-CHANNELS. *)
(** Axis *)
Definition axis_doc : list documented :=
   [ doc "axis_id" "AXIS-ID" One Nothing; doc "coordinates" "COORDINATES" Many Nothing;
     doc "spacing" "SPACING" One Nothing ].
(** Fileheader *)
Definition fileheader_doc : list documented :=
   [ doc "sequencenr" "SEQUENCE-NUMBER" One Nothing; doc "id" "ID" One Nothing ].
(** Origin *)
Definition origin_doc : list documented :=
   [ doc "file_id" "FILE-ID" One Nothing; doc "file_set_name" "FILE-SET-NAME" One Nothing;
     doc "file_set_nr" "FILE-SET-NUMBER" One Nothing; doc "file_nr" "FILE-NUMBER" One Nothing;
     doc "file_type" "FILE-TYPE" One Nothing; doc "product" "PRODUCT" One Nothing;
     doc "version" "VERSION" One Nothing; doc "programs" "PROGRAMS" Many Nothing;
     doc "creation_time" "CREATION-TIME" One Nothing; doc "order_nr" "ORDER-NUMBER" One Nothing;
     doc "descent_nr" "DESCENT-NUMBER" Many Nothing; doc "run_nr" "RUN-NUMBER" Many Nothing;
     doc "well_id" "WELL-ID" One Nothing; doc "well_name" "WELL-NAME" One Nothing;
     doc "field_name" "FIELD-NAME" One Nothing; doc "producer_code" "PRODUCER-CODE" One Nothing;
     doc "producer_name" "PRODUCER-NAME" One Nothing; doc "company" "COMPANY" One Nothing;
     doc "namespace_name" "NAME-SPACE-NAME" One Nothing;
     doc "namespace_version" "NAME-SPACE-VERSION" One Nothing ].
(** Longname *)
Definition longname_doc : list documented :=
   [ doc "modifier" "GENERAL-MODIFIER" Many Nothing; doc "quantity" "QUANTITY" One Nothing;
     doc "quantity_mod" "QUANTITY-MODIFIER" Many Nothing; doc "altered_form" "ALTERED-FORM" One Nothing;
     doc "entity" "ENTITY" One Nothing; doc "entity_mod" "ENTITY-MODIFIER" Many Nothing;
     doc "entity_nr" "ENTITY-NUMBER" One Nothing; doc "entity_part" "ENTITY-PART" One Nothing;
     doc "entity_part_nr" "ENTITY-PART-NUMBER" One Nothing;
     doc "generic_source" "GENERIC-SOURCE" One Nothing; doc "source_part" "SOURCE-PART" Many Nothing;
     doc "source_part_nr" "SOURCE-PART-NUMBER" Many Nothing; doc "conditions" "CONDITIONS" Many Nothing;
     doc "standard_symbol" "STANDARD-SYMBOL" One Nothing; doc "private_symbol" "PRIVATE-SYMBOL" One Nothing ].
(** Frame *)
Definition frame_doc : list documented :=
   [ doc "description" "DESCRIPTION" One Nothing; doc "channels" "CHANNELS" Many (A "CHANNEL");
     doc "index_type" "INDEX-TYPE" One Nothing; doc "direction" "DIRECTION" One Nothing;
     doc "spacing" "SPACING" One Nothing; doc "index_min" "INDEX-MIN" One Nothing;
     doc "index_max" "INDEX-MAX" One Nothing ].
(** Channel *)
Definition channel_doc : list documented :=
   [ doc "long_name" "LONG-NAME" One (A "LONG-NAME"); doc "reprc" "REPRESENTATION-CODE" One Nothing;
     doc "units" "UNITS" One Nothing; doc "properties" "PROPERTIES" Many Nothing;
     doc "dimension" "DIMENSION" Reversed Nothing; doc "axis" "AXIS" Reversed (A "AXIS");
     doc "element_limit" "ELEMENT-LIMIT" Reversed Nothing; doc "source" "SOURCE" One Any_object ].
(** Zone *)
Definition zone_doc : list documented :=
   [ doc "description" "DESCRIPTION" One Nothing; doc "domain" "DOMAIN" One Nothing;
     doc "maximum" "MAXIMUM" One Nothing; doc "minimum" "MINIMUM" One Nothing ].
(** Tool *)
Definition tool_doc : list documented :=
   [ doc "description" "DESCRIPTION" One Nothing; doc "trademark_name" "TRADEMARK-NAME" One Nothing;
     doc "generic_name" "GENERIC-NAME" One Nothing; doc "status" "STATUS" Truth Nothing;
     doc "parts" "PARTS" Many (A "EQUIPMENT"); doc "channels" "CHANNELS" Many (A "CHANNEL");
     doc "parameters" "PARAMETERS" Many (A "PARAMETER") ].
(** Parameter *)
Definition parameter_doc : list documented :=
   [ doc "long_name" "LONG-NAME" One (A "LONG-NAME"); doc "dimension" "DIMENSION" Reversed Nothing;
     doc "axis" "AXIS" Reversed (A "AXIS"); doc "zones" "ZONES" Many (A "ZONE") ].
(** Equipment *)
Definition equipment_doc : list documented :=
   [ doc "trademark_name" "TRADEMARK-NAME" One Nothing; doc "status" "STATUS" Truth Nothing;
     doc "generic_type" "TYPE" One Nothing; doc "serial_number" "SERIAL-NUMBER" One Nothing;
     doc "location" "LOCATION" One Nothing; doc "height" "HEIGHT" One Nothing;
     doc "length" "LENGTH" One Nothing; doc "diameter_min" "MINIMUM-DIAMETER" One Nothing;
     doc "diameter_max" "MAXIMUM-DIAMETER" One Nothing; doc "volume" "VOLUME" One Nothing;
     doc "weight" "WEIGHT" One Nothing; doc "hole_size" "HOLE-SIZE" One Nothing;
     doc "pressure" "PRESSURE" One Nothing; doc "temperature" "TEMPERATURE" One Nothing;
     doc "vertical_depth" "VERTICAL-DEPTH" One Nothing; doc "radial_drift" "RADIAL-DRIFT" One Nothing;
     doc "angular_drift" "ANGULAR-DRIFT" One Nothing ].
(** Measurement *)
Definition measurement_doc : list documented :=
   [ doc "phase" "PHASE" One Nothing; doc "source" "MEASUREMENT-SOURCE" One Any_object;
     doc "mtype" "TYPE" One Nothing; doc "dimension" "DIMENSION" Reversed Nothing;
     doc "axis" "AXIS" Reversed (A "AXIS"); doc "samplecount" "SAMPLE-COUNT" One Nothing;
     doc "begin_time" "BEGIN-TIME" One Nothing; doc "duration" "DURATION" One Nothing;
     doc "standard" "STANDARD" Many Nothing ].
(** Coefficient *)
Definition coefficient_doc : list documented :=
   [ doc "label" "LABEL" One Nothing; doc "coefficients" "COEFFICIENTS" Many Nothing;
     doc "references" "REFERENCES" Many Nothing; doc "plus_tolerance" "PLUS-TOLERANCES" Many Nothing;
     doc "minus_tolerance" "MINUS-TOLERANCES" Many Nothing ].
(** Calibration *)
Definition calibration_doc : list documented :=
   [ doc "method" "METHOD" One Nothing; doc "calibrated" "CALIBRATED-CHANNELS" Many (A "CHANNEL");
     doc "uncalibrated" "UNCALIBRATED-CHANNELS" Many (A "CHANNEL");
     doc "coefficients" "COEFFICIENTS" Many (A "CALIBRATION-COEFFICIENT");
     doc "measurements" "MEASUREMENTS" Many (A "CALIBRATION-MEASUREMENT");
     doc "parameters" "PARAMETERS" Many (A "PARAMETER") ].
(** Computation *)
Definition computation_doc : list documented :=
   [ doc "long_name" "LONG-NAME" One (A "LONG-NAME"); doc "properties" "PROPERTIES" Many Nothing;
     doc "dimension" "DIMENSION" Reversed Nothing; doc "axis" "AXIS" Reversed (A "AXIS");
     doc "zones" "ZONES" Many (A "ZONE"); doc "source" "SOURCE" One Any_object ].
(** Splice *)
Definition splice_doc : list documented :=
   [ doc "output_channel" "OUTPUT-CHANNEL" One (A "CHANNEL");
     doc "input_channels" "INPUT-CHANNELS" Many (A "CHANNEL"); doc "zones" "ZONES" Many (A "ZONE") ].
(** Wellref *)
Definition wellref_doc : list documented :=
   [ doc "permanent_datum" "PERMANENT-DATUM" One Nothing; doc "vertical_zero" "VERTICAL-ZERO" One Nothing;
     doc "permanent_datum_elevation" "PERMANENT-DATUM-ELEVATION" One Nothing;
     doc "above_permanent_datum" "ABOVE-PERMANENT-DATUM" One Nothing;
     doc "magnetic_declination" "MAGNETIC-DECLINATION" One Nothing ].
(** Group *)
Definition group_doc : list documented :=
   [ doc "description" "DESCRIPTION" One Nothing; doc "objecttype" "OBJECT-TYPE" One Nothing;
     doc "groups" "GROUP-LIST" Many (A "GROUP") ].
(** Process *)
Definition process_doc : list documented :=
   [ doc "description" "DESCRIPTION" One (A "LONG-NAME"); doc "trademark_name" "TRADEMARK-NAME" One Nothing;
     doc "version" "VERSION" One Nothing; doc "properties" "PROPERTIES" Many Nothing;
     doc "status" "STATUS" One Nothing; doc "input_channels" "INPUT-CHANNELS" Many (A "CHANNEL");
     doc "output_channels" "OUTPUT-CHANNELS" Many (A "CHANNEL");
     doc "input_computations" "INPUT-COMPUTATIONS" Many (A "COMPUTATION");
     doc "output_computations" "OUTPUT-COMPUTATIONS" Many (A "COMPUTATION");
     doc "parameters" "PARAMETERS" Many (A "PARAMETER"); doc "comments" "COMMENTS" Many Nothing ].
(** Path *)
Definition path_doc : list documented :=
   [ doc "frame" "FRAME-TYPE" One (A "FRAME");
     doc "well_reference_point" "WELL-REFERENCE-POINT" One (A "WELL-REFERENCE");
     doc "value" "VALUE" Many (A "CHANNEL"); doc "borehole_depth" "BOREHOLE-DEPTH" One (A "CHANNEL");
     doc "vertical_depth" "VERTICAL-DEPTH" One (A "CHANNEL");
     doc "radial_drift" "RADIAL-DRIFT" One (A "CHANNEL");
     doc "angular_drift" "ANGULAR-DRIFT" One (A "CHANNEL"); doc "time" "TIME" One (A "CHANNEL");
     doc "depth_offset" "DEPTH-OFFSET" One Nothing;
     doc "measure_point_offset" "MEASURE-POINT-OFFSET" One Nothing;
     doc "tool_zero_offset" "TOOL-ZERO-OFFSET" One Nothing ].
(** Message *)
Definition message_doc : list documented :=
   [ doc "message_type" "TYPE" One Nothing; doc "time" "TIME" One Nothing;
     doc "borehole_drift" "BOREHOLE-DRIFT" One Nothing; doc "vertical_depth" "VERTICAL-DEPTH" One Nothing;
     doc "radial_drift" "RADIAL-DRIFT" One Nothing; doc "angular_drift" "ANGULAR-DRIFT" One Nothing;
     doc "text" "TEXT" Many Nothing ].
(** Comment *)
Definition comment_doc : list documented :=
   [ doc "text" "TEXT" Many Nothing ].
(** Noformat *)
Definition noformat_doc : list documented :=
   [ doc "consumer_name" "CONSUMER-NAME" One Nothing; doc "description" "DESCRIPTION" One Nothing ].
Definition documentation : list (pystr * list documented) :=
   [ (lit (text "AXIS"), axis_doc); (lit (text "FILE-HEADER"), fileheader_doc);
     (lit (text "ORIGIN"), origin_doc); (lit (text "LONG-NAME"), longname_doc);
     (lit (text "FRAME"), frame_doc); (lit (text "CHANNEL"), channel_doc); (lit (text "ZONE"), zone_doc);
     (lit (text "TOOL"), tool_doc); (lit (text "PARAMETER"), parameter_doc);
     (lit (text "EQUIPMENT"), equipment_doc); (lit (text "CALIBRATION-MEASUREMENT"), measurement_doc);
     (lit (text "CALIBRATION-COEFFICIENT"), coefficient_doc); (lit (text "CALIBRATION"), calibration_doc);
     (lit (text "COMPUTATION"), computation_doc); (lit (text "SPLICE"), splice_doc);
     (lit (text "WELL-REFERENCE"), wellref_doc); (lit (text "GROUP"), group_doc);
     (lit (text "PROCESS"), process_doc); (lit (text "PATH"), path_doc); (lit (text "MESSAGE"), message_doc);
     (lit (text "COMMENT"), comment_doc); (lit (text "NO-FORMAT"), noformat_doc) ].
(** documented properties that do not exist *)
Definition misnamed : list (pystr * pystr) :=
   [ "GROUP" ~> "object_type"; "GROUP" ~> "object_list"; "GROUP" ~> "group_list"; "PATH" ~> "frame_type";
     "WELL-REFERENCE" ~> "coordinate" ].

(** ** Group.objects *)
Section group.
Variable dec : bytes -> pystr.
Variable enc : pystr -> bytes.
Variable esc : severity -> bool.
Variable set_order : list pystr -> list pystr.

(** the tables of an instance of Group after any uses of [objects] *)
Inductive tables (o : object) : schema -> Prop :=
  | fresh : tables o group_schema
  | used st sc : tables o sc -> tables o (fst (group_objects dec enc esc set_order st sc o)).

(** a text without the white space around it *)
Inductive text_of (s : bytes) : pystr -> Prop :=
  | str_of u v : dec s = Str u -> trimmed u v -> text_of s (Str v)
  | raw_of b : dec s = Raw b -> text_of s (Raw b).
(** what the members of a group link to: names are names of objects of the type in
    OBJECT-TYPE, other references name the type themselves *)
Inductive members_link (o : object) : list value -> option link -> Prop :=
  | by_type n vs c ty more lg t : stored enc o (lit (text "OBJECT-TYPE")) c (map VText (ty :: more)) lg -> calm dec enc esc o lg ->
      text_of ty t ->
      members_link o (VName n :: vs) (Some (ToName t))
  | by_themselves v vs : (forall n, v <> VName n) -> members_link o (v :: vs) (Some ToRef).
(** whether an attribute is present without a value *)
Definition valueless (o : object) (label : pystr) : Prop :=
  exists a, In a (obj_attrs o) /\ at_label a = enc label /\ at_value a = Mono.
End group.

(** ** Wellref.coordinates *)
Section coordinates.
Variable dec : bytes -> pystr.
Variable enc : pystr -> bytes.

(** values as they are, texts along with the white space around them *)
Inductive plainly (c : Z) : value -> pyval -> Prop :=
  | plain_number z : plainly c (VNum z) (PNumber c z)
  | plain_numbers zs : plainly c (VNums zs) (PNumbers c zs)
  | plain_text s : plainly c (VText s) (PText (dec s))
  | plain_time t d : to_pydatetime t = Some d -> plainly c (VTime t) (PTime d)
  | plain_name n : plainly c (VName n) (PName n)
  | plain_ref n : plainly c (VRef n) (PRef n)
  | plain_attr n : plainly c (VAttr n) (PAttr n).
(** the first value of an attribute, or [x] if there is no such attribute *)
Inductive first_or (o : object) (label : pystr) (x : pyval) : pyval -> Prop :=
  | it_is_absent : ~ In (enc label) (map at_label (obj_attrs o)) -> first_or o label x x
  | its_first a c v vs p ps : In a (obj_attrs o) -> at_label a = enc label -> at_value a = Vec c (v :: vs) ->
      Forall2 (plainly c) (v :: vs) (p :: ps) -> first_or o label x p.
(** the name and the value of the coordinate with a number *)
Definition coordinate (o : object) (number : txt) (k : pystr) (v : pyval) : Prop :=
  let label := (text "COORDINATE-" ++ text number)%list in
  first_or o (lit (label ++ text "-NAME")) (PText (lit label)) (PText k) /\
  first_or o (lit (label ++ text "-VALUE")) PNone v.
End coordinates.
Arguments coordinate dec enc o number%txt_scope k v.
