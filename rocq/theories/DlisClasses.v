(** Model of python/dlisio/dlis: the properties of the classes of metadata objects, and
    the listings of a logical file (file.py). *)
From Verif Require Import Bytes Stream PyBase DlisTypes DlisCore DlisRecords CommonPy DlisStore DlisSchema DlisObject DlisCurves.
Local Open Scope Z_scope.

(** ** Properties *)

(** The properties of each class whose body is [return self[label]], with the label.
    Generated by reading the class bodies; the order is that of the code.  Those with
    other bodies are modelled elsewhere: Channel.frame (DlisObject), Frame.index
    (DlisCurves), the properties with dimensions (Dimensional), and Group.objects,
    Wellref.coordinates and Frame.encrypted below. *)
Local Notation "k '~>' v" := (lit (text k), lit (text v)) (at level 70, only parsing).
(** axis.py 53-63 *)
Definition axis_properties : list (pystr * pystr) :=
   [ "axis_id" ~> "AXIS-ID"; "coordinates" ~> "COORDINATES"; "spacing" ~> "SPACING" ].
(** fileheader.py 76-82 *)
Definition fileheader_properties : list (pystr * pystr) :=
   [ "sequencenr" ~> "SEQUENCE-NUMBER"; "id" ~> "ID" ].
(** origin.py 166-244 *)
Definition origin_properties : list (pystr * pystr) :=
   [ "file_id" ~> "FILE-ID"; "file_set_name" ~> "FILE-SET-NAME"; "file_set_nr" ~> "FILE-SET-NUMBER";
     "file_nr" ~> "FILE-NUMBER"; "file_type" ~> "FILE-TYPE"; "product" ~> "PRODUCT"; "version" ~> "VERSION";
     "programs" ~> "PROGRAMS"; "creation_time" ~> "CREATION-TIME"; "order_nr" ~> "ORDER-NUMBER";
     "descent_nr" ~> "DESCENT-NUMBER"; "run_nr" ~> "RUN-NUMBER"; "well_id" ~> "WELL-ID";
     "well_name" ~> "WELL-NAME"; "field_name" ~> "FIELD-NAME"; "producer_code" ~> "PRODUCER-CODE";
     "producer_name" ~> "PRODUCER-NAME"; "company" ~> "COMPANY"; "namespace_name" ~> "NAME-SPACE-NAME";
     "namespace_version" ~> "NAME-SPACE-VERSION" ].
(** longname.py 129-187 *)
Definition longname_properties : list (pystr * pystr) :=
   [ "modifier" ~> "GENERAL-MODIFIER"; "quantity" ~> "QUANTITY"; "quantity_mod" ~> "QUANTITY-MODIFIER";
     "altered_form" ~> "ALTERED-FORM"; "entity" ~> "ENTITY"; "entity_mod" ~> "ENTITY-MODIFIER";
     "entity_nr" ~> "ENTITY-NUMBER"; "entity_part" ~> "ENTITY-PART";
     "entity_part_nr" ~> "ENTITY-PART-NUMBER"; "generic_source" ~> "GENERIC-SOURCE";
     "source_part" ~> "SOURCE-PART"; "source_part_nr" ~> "SOURCE-PART-NUMBER"; "conditions" ~> "CONDITIONS";
     "standard_symbol" ~> "STANDARD-SYMBOL"; "private_symbol" ~> "PRIVATE-SYMBOL" ].
(** frame.py 117-147 *)
Definition frame_properties : list (pystr * pystr) :=
   [ "description" ~> "DESCRIPTION"; "channels" ~> "CHANNELS"; "index_type" ~> "INDEX-TYPE";
     "direction" ~> "DIRECTION"; "spacing" ~> "SPACING"; "index_min" ~> "INDEX-MIN";
     "index_max" ~> "INDEX-MAX" ].
(** channel.py 138-168 *)
Definition channel_properties : list (pystr * pystr) :=
   [ "long_name" ~> "LONG-NAME"; "reprc" ~> "REPRESENTATION-CODE"; "units" ~> "UNITS";
     "properties" ~> "PROPERTIES"; "dimension" ~> "DIMENSION"; "axis" ~> "AXIS";
     "element_limit" ~> "ELEMENT-LIMIT"; "source" ~> "SOURCE" ].
(** zone.py 58-72 *)
Definition zone_properties : list (pystr * pystr) :=
   [ "description" ~> "DESCRIPTION"; "domain" ~> "DOMAIN"; "maximum" ~> "MAXIMUM"; "minimum" ~> "MINIMUM" ].
(** tool.py 82-108 *)
Definition tool_properties : list (pystr * pystr) :=
   [ "description" ~> "DESCRIPTION"; "trademark_name" ~> "TRADEMARK-NAME"; "generic_name" ~> "GENERIC-NAME";
     "status" ~> "STATUS"; "parts" ~> "PARTS"; "channels" ~> "CHANNELS"; "parameters" ~> "PARAMETERS" ].
(** parameter.py 73-87 *)
Definition parameter_properties : list (pystr * pystr) :=
   [ "long_name" ~> "LONG-NAME"; "dimension" ~> "DIMENSION"; "axis" ~> "AXIS"; "zones" ~> "ZONES" ].
(** equipment.py 137-203 *)
Definition equipment_properties : list (pystr * pystr) :=
   [ "trademark_name" ~> "TRADEMARK-NAME"; "status" ~> "STATUS"; "generic_type" ~> "TYPE";
     "serial_number" ~> "SERIAL-NUMBER"; "location" ~> "LOCATION"; "height" ~> "HEIGHT";
     "length" ~> "LENGTH"; "diameter_min" ~> "MINIMUM-DIAMETER"; "diameter_max" ~> "MAXIMUM-DIAMETER";
     "volume" ~> "VOLUME"; "weight" ~> "WEIGHT"; "hole_size" ~> "HOLE-SIZE"; "pressure" ~> "PRESSURE";
     "temperature" ~> "TEMPERATURE"; "vertical_depth" ~> "VERTICAL-DEPTH"; "radial_drift" ~> "RADIAL-DRIFT";
     "angular_drift" ~> "ANGULAR-DRIFT" ].
(** measurement.py 101-135 *)
Definition measurement_properties : list (pystr * pystr) :=
   [ "phase" ~> "PHASE"; "source" ~> "MEASUREMENT-SOURCE"; "mtype" ~> "TYPE"; "dimension" ~> "DIMENSION";
     "axis" ~> "AXIS"; "samplecount" ~> "SAMPLE-COUNT"; "begin_time" ~> "BEGIN-TIME";
     "duration" ~> "DURATION"; "standard" ~> "STANDARD" ].
(** coefficient.py 67-85 *)
Definition coefficient_properties : list (pystr * pystr) :=
   [ "label" ~> "LABEL"; "coefficients" ~> "COEFFICIENTS"; "references" ~> "REFERENCES";
     "plus_tolerance" ~> "PLUS-TOLERANCES"; "minus_tolerance" ~> "MINUS-TOLERANCES" ].
(** calibration.py 79-101 *)
Definition calibration_properties : list (pystr * pystr) :=
   [ "method" ~> "METHOD"; "calibrated" ~> "CALIBRATED-CHANNELS"; "uncalibrated" ~> "UNCALIBRATED-CHANNELS";
     "coefficients" ~> "COEFFICIENTS"; "measurements" ~> "MEASUREMENTS"; "parameters" ~> "PARAMETERS" ].
(** computation.py 91-113 *)
Definition computation_properties : list (pystr * pystr) :=
   [ "long_name" ~> "LONG-NAME"; "properties" ~> "PROPERTIES"; "dimension" ~> "DIMENSION"; "axis" ~> "AXIS";
     "zones" ~> "ZONES"; "source" ~> "SOURCE" ].
(** splice.py 74-84 *)
Definition splice_properties : list (pystr * pystr) :=
   [ "output_channel" ~> "OUTPUT-CHANNEL"; "input_channels" ~> "INPUT-CHANNELS"; "zones" ~> "ZONES" ].
(** wellref.py 82-100 *)
Definition wellref_properties : list (pystr * pystr) :=
   [ "permanent_datum" ~> "PERMANENT-DATUM"; "vertical_zero" ~> "VERTICAL-ZERO";
     "permanent_datum_elevation" ~> "PERMANENT-DATUM-ELEVATION";
     "above_permanent_datum" ~> "ABOVE-PERMANENT-DATUM"; "magnetic_declination" ~> "MAGNETIC-DECLINATION" ].
(** group.py 62-84 *)
Definition group_properties : list (pystr * pystr) :=
   [ "description" ~> "DESCRIPTION"; "objecttype" ~> "OBJECT-TYPE"; "groups" ~> "GROUP-LIST" ].
(** process.py 113-155 *)
Definition process_properties : list (pystr * pystr) :=
   [ "description" ~> "DESCRIPTION"; "trademark_name" ~> "TRADEMARK-NAME"; "version" ~> "VERSION";
     "properties" ~> "PROPERTIES"; "status" ~> "STATUS"; "input_channels" ~> "INPUT-CHANNELS";
     "output_channels" ~> "OUTPUT-CHANNELS"; "input_computations" ~> "INPUT-COMPUTATIONS";
     "output_computations" ~> "OUTPUT-COMPUTATIONS"; "parameters" ~> "PARAMETERS"; "comments" ~> "COMMENTS" ].
(** path.py 124-166 *)
Definition path_properties : list (pystr * pystr) :=
   [ "frame" ~> "FRAME-TYPE"; "well_reference_point" ~> "WELL-REFERENCE-POINT"; "value" ~> "VALUE";
     "borehole_depth" ~> "BOREHOLE-DEPTH"; "vertical_depth" ~> "VERTICAL-DEPTH";
     "radial_drift" ~> "RADIAL-DRIFT"; "angular_drift" ~> "ANGULAR-DRIFT"; "time" ~> "TIME";
     "depth_offset" ~> "DEPTH-OFFSET"; "measure_point_offset" ~> "MEASURE-POINT-OFFSET";
     "tool_zero_offset" ~> "TOOL-ZERO-OFFSET" ].
(** message.py 75-101 *)
Definition message_properties : list (pystr * pystr) :=
   [ "message_type" ~> "TYPE"; "time" ~> "TIME"; "borehole_drift" ~> "BOREHOLE-DRIFT";
     "vertical_depth" ~> "VERTICAL-DEPTH"; "radial_drift" ~> "RADIAL-DRIFT";
     "angular_drift" ~> "ANGULAR-DRIFT"; "text" ~> "TEXT" ].
(** comment.py 35-37 *)
Definition comment_properties : list (pystr * pystr) :=
   [ "text" ~> "TEXT" ].
(** noformat.py 46-52 *)
Definition noformat_properties : list (pystr * pystr) :=
   [ "consumer_name" ~> "CONSUMER-NAME"; "description" ~> "DESCRIPTION" ].
(** file.py 308-331 *)
Definition all_properties : list (pystr * list (pystr * pystr)) :=
   [ (lit (text "AXIS"), axis_properties); (lit (text "FILE-HEADER"), fileheader_properties);
     (lit (text "ORIGIN"), origin_properties); (lit (text "LONG-NAME"), longname_properties);
     (lit (text "FRAME"), frame_properties); (lit (text "CHANNEL"), channel_properties); (lit (text "ZONE"), zone_properties);
     (lit (text "TOOL"), tool_properties); (lit (text "PARAMETER"), parameter_properties);
     (lit (text "EQUIPMENT"), equipment_properties); (lit (text "CALIBRATION-MEASUREMENT"), measurement_properties);
     (lit (text "CALIBRATION-COEFFICIENT"), coefficient_properties); (lit (text "CALIBRATION"), calibration_properties);
     (lit (text "COMPUTATION"), computation_properties); (lit (text "SPLICE"), splice_properties);
     (lit (text "WELL-REFERENCE"), wellref_properties); (lit (text "GROUP"), group_properties);
     (lit (text "PROCESS"), process_properties); (lit (text "PATH"), path_properties);
     (lit (text "MESSAGE"), message_properties); (lit (text "COMMENT"), comment_properties);
     (lit (text "NO-FORMAT"), noformat_properties) ].

Section classes.
Variable dec : bytes -> pystr.
Variable enc : pystr -> bytes.
Variable esc : severity -> bool.
Variable set_order : list pystr -> list pystr.

(** x.name, for these properties.  None is the AttributeError. *)
Definition property (st : store) (x : pyobject) (name : pystr) : option (store * io (option result)) :=
  do class <- po_class x;
  do table <- dict_get class all_properties;
  do label <- dict_get name table;
  Some (getitem dec enc esc set_order st (schema_of x) (po_attic x) label).

(** frame.py 137-139 *)
Definition frame_encrypted (self : object) : bool := existsb (pystr_eqb (lit (text "ENCRYPTED"))) (keys dec self).

(** group.py 52-56 and 58-60: the tables of an instance, of which [objects] changes the link.
    The tables of the class stay as they are. *)
Definition linked_to (sc : schema) (t : pystr) : schema :=
  mk_schema (sc_attributes sc) (dict_put (lit (text "OBJECT-LIST")) (ToName t) (sc_linkage sc)).
(** group.py 70-80.  The tables of the instance come back as well.  An object type that is
    not a text is refused by the pool with a TypeError; that the link is changed even so
    is not modelled. *)
Definition group_objects (st : store) (sc : schema) (self : object) : schema * (store * io (option result)) :=
  match attic_get enc self (lit (text "OBJECT-LIST")) with
  | None => (sc, (st, ret (Some (RMany []))))
  | Some a =>
      match attribute_value dec a with
      | None | Some None => (sc, (st, fail))
      | Some (Some []) => (sc, (st, ret (Some (RMany []))))
      | Some (Some (PName _ :: _)) =>
          match getitem dec enc esc set_order st sc self (lit (text "OBJECT-TYPE")) with
          | (st, (l, Ok (Some (ROne (PText t))))) =>
              let sc := linked_to sc t in
              let '(st, (l', r)) := getitem dec enc esc set_order st sc self (lit (text "OBJECT-LIST")) in
              (sc, (st, (l ++ l', r)))
          | (st, (l, Ok _)) => (sc, (st, (l, Exn)))
          | (st, (l, Exn)) => (sc, (st, (l, Exn)))
          | (st, (l, UB)) => (sc, (st, (l, UB)))
          | (st, (l, Fuel)) => (sc, (st, (l, Fuel)))
          end
      | Some (Some _) => (sc, getitem dec enc esc set_order st sc self (lit (text "OBJECT-LIST")))
      end
  end.

(** wellref.py 110-118: self.attic[label].value[0].  [Ok None] is the KeyError, which is
    caught; the TypeError of None[0] and the IndexError of [][0] are not. *)
Definition first_value (self : object) (label : bytes) : io (option pyval) :=
  match attic_get enc self (lit label) with
  | None => ret None
  | Some a => match attribute_value dec a with Some (Some (v :: _)) => ret (Some v) | _ => fail end
  end.
(** wellref.py 102-121.  Simplified: a name that is not a text is an exception, whereas
    Python takes any value for a key. *)
Definition wellref_coordinates (self : object) : io (list (pystr * pyval)) :=
  let coordinate (name value custom_label : bytes) (d : list (pystr * pyval)) :=
    let* k := first_value self name in
    let* key := match k with None => ret (lit custom_label) | Some (PText t) => ret t | Some _ => fail end in
    let* v := first_value self value in
    ret (dict_put key (match v with Some v => v | None => PNone end) d) in
  let* d := coordinate (text "COORDINATE-1-NAME") (text "COORDINATE-1-VALUE") (text "COORDINATE-1") [] in
  let* d := coordinate (text "COORDINATE-2-NAME") (text "COORDINATE-2-VALUE") (text "COORDINATE-2") d in
  coordinate (text "COORDINATE-3-NAME") (text "COORDINATE-3-VALUE") (text "COORDINATE-3") d.

(** ** Listings *)

(** file.py 428-448 *)
Definition descriptors : list (pystr * pystr) :=
   [ "axes" ~> "AXIS"; "calibrations" ~> "CALIBRATION"; "channels" ~> "CHANNEL";
     "coefficients" ~> "CALIBRATION-COEFFICIENT"; "comments" ~> "COMMENT"; "computations" ~> "COMPUTATION";
     "equipments" ~> "EQUIPMENT"; "frames" ~> "FRAME"; "groups" ~> "GROUP"; "longnames" ~> "LONG-NAME";
     "measurements" ~> "CALIBRATION-MEASUREMENT"; "messages" ~> "MESSAGE"; "origins" ~> "ORIGIN";
     "parameters" ~> "PARAMETER"; "paths" ~> "PATH"; "processes" ~> "PROCESS"; "splices" ~> "SPLICE";
     "tools" ~> "TOOL"; "wellrefs" ~> "WELL-REFERENCE"; "zones" ~> "ZONE"; "noformats" ~> "NO-FORMAT" ].
(** file.py 400-407: f.name.  None is the AttributeError. *)
Definition listing_named (st : store) (name : pystr) : option (store * io (list pyobject)) :=
  do t <- dict_get name descriptors; Some (store_find dec enc esc set_order st t None (Some exact)).

(** file.py 476: {x.fingerprint : x for x in objects} *)
Fixpoint by_fingerprint (objects : list pyobject) (d : list (pystr * pyobject)) : io (list (pystr * pyobject)) :=
  match objects with
  | [] => ret d
  | x :: objects => let* fp := fingerprint dec enc (po_attic x) in by_fingerprint objects (dict_put fp x d)
  end.
(** file.py 473-476 *)
Fixpoint unknowns_loop (st : store) (ts : list pystr) (d : list (pystr * list (pystr * pyobject)))
    : store * io (list (pystr * list (pystr * pyobject))) :=
  match ts with
  | [] => (st, ret d)
  | t :: ts =>
      if existsb (fun k => pystr_eqb (lit k) t) known_types then unknowns_loop st ts d
      else
        chain (store_find dec enc esc set_order st t None (Some exact)) (fun st objects =>
        chain (st, by_fingerprint objects []) (fun st e => unknowns_loop st ts (dict_put t e d)))
  end.
(** file.py 450-478 *)
Definition unknowns (st : store) : store * io (list (pystr * list (pystr * pyobject))) :=
  unknowns_loop st (types dec set_order st) [].

(** file.py 356: whether the warning about UPDATE objects is given *)
Definition warns_of_updates (st : store) : bool := existsb (pystr_eqb (lit (text "UPDATE"))) (types dec set_order st).

(** file.py 658-660; Some tt if nothing was raised *)
Fixpoint load_loop (st : store) (ts : list pystr) : store * io unit :=
  match ts with
  | [] => (st, ret tt)
  | t :: ts => chain (store_find dec enc esc set_order st t None (Some exact)) (fun st _ => load_loop st ts)
  end.
Definition load_all (st : store) : store * io unit := load_loop st (types dec set_order st).
End classes.
