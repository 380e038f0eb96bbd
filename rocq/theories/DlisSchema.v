(** Model of python/dlisio/dlis: the classes of metadata objects, as tables of the
    attributes they know.  Generated by reading the class bodies; the order is that
    of the code. *)
From Verif Require Import Bytes CommonPy DlisStore.

(** utils/valuetypes.py 4-21 *)
Inductive rule := Boolean | Scalar | Vector | Reverse.
(** utils/linkage.py 6-14: a function that makes a type and a name of a value *)
Inductive link := ToName (type : pystr) | ToRef.

(** BasicObject.attributes and BasicObject.linkage of a class *)
Record schema := mk_schema { sc_attributes : list (pystr * rule); sc_linkage : list (pystr * link) }.
Local Notation "k '~>' v" := (lit (text k), v) (at level 70, only parsing).

(** unknown.py, basicobject.py 48 and 125 *)
Definition unknown_schema : schema := mk_schema [] [].

(** axis.py 44-48 *)
Definition axis_schema : schema := mk_schema
   [ "AXIS-ID" ~> Scalar; "COORDINATES" ~> Vector; "SPACING" ~> Scalar ]
   [].
(** fileheader.py 68-71 *)
Definition fileheader_schema : schema := mk_schema
   [ "SEQUENCE-NUMBER" ~> Scalar; "ID" ~> Scalar ]
   [].
(** origin.py 140-161 *)
Definition origin_schema : schema := mk_schema
   [ "FILE-ID" ~> Scalar; "FILE-SET-NAME" ~> Scalar; "FILE-SET-NUMBER" ~> Scalar; "FILE-NUMBER" ~> Scalar;
     "FILE-TYPE" ~> Scalar; "PRODUCT" ~> Scalar; "VERSION" ~> Scalar; "PROGRAMS" ~> Vector;
     "CREATION-TIME" ~> Scalar; "ORDER-NUMBER" ~> Scalar; "DESCENT-NUMBER" ~> Vector;
     "RUN-NUMBER" ~> Vector; "WELL-ID" ~> Scalar; "WELL-NAME" ~> Scalar; "FIELD-NAME" ~> Scalar;
     "PRODUCER-CODE" ~> Scalar; "PRODUCER-NAME" ~> Scalar; "COMPANY" ~> Scalar; "NAME-SPACE-NAME" ~> Scalar;
     "NAME-SPACE-VERSION" ~> Scalar ]
   [].
(** longname.py 108-124 *)
Definition longname_schema : schema := mk_schema
   [ "GENERAL-MODIFIER" ~> Vector; "QUANTITY" ~> Scalar; "QUANTITY-MODIFIER" ~> Vector;
     "ALTERED-FORM" ~> Scalar; "ENTITY" ~> Scalar; "ENTITY-MODIFIER" ~> Vector; "ENTITY-NUMBER" ~> Scalar;
     "ENTITY-PART" ~> Scalar; "ENTITY-PART-NUMBER" ~> Scalar; "GENERIC-SOURCE" ~> Scalar;
     "SOURCE-PART" ~> Vector; "SOURCE-PART-NUMBER" ~> Vector; "CONDITIONS" ~> Vector;
     "STANDARD-SYMBOL" ~> Scalar; "PRIVATE-SYMBOL" ~> Scalar ]
   [].
(** frame.py 94-103 and 105-107 *)
Definition frame_schema : schema := mk_schema
   [ "DESCRIPTION" ~> Scalar; "CHANNELS" ~> Vector; "INDEX-TYPE" ~> Scalar; "DIRECTION" ~> Scalar;
     "SPACING" ~> Scalar; "ENCRYPTED" ~> Boolean; "INDEX-MIN" ~> Scalar; "INDEX-MAX" ~> Scalar ]
   [ "CHANNELS" ~> ToName (lit (text "CHANNEL")) ].
(** channel.py 85-94 and 96-100 *)
Definition channel_schema : schema := mk_schema
   [ "LONG-NAME" ~> Scalar; "REPRESENTATION-CODE" ~> Scalar; "UNITS" ~> Scalar; "PROPERTIES" ~> Vector;
     "DIMENSION" ~> Reverse; "AXIS" ~> Reverse; "ELEMENT-LIMIT" ~> Reverse; "SOURCE" ~> Scalar ]
   [ "LONG-NAME" ~> ToName (lit (text "LONG-NAME")); "AXIS" ~> ToName (lit (text "AXIS")); "SOURCE" ~> ToRef ].
(** zone.py 47-52 *)
Definition zone_schema : schema := mk_schema
   [ "DESCRIPTION" ~> Scalar; "DOMAIN" ~> Scalar; "MAXIMUM" ~> Scalar; "MINIMUM" ~> Scalar ]
   [].
(** tool.py 63-71 and 73-77 *)
Definition tool_schema : schema := mk_schema
   [ "DESCRIPTION" ~> Scalar; "TRADEMARK-NAME" ~> Scalar; "GENERIC-NAME" ~> Scalar; "STATUS" ~> Boolean;
     "PARTS" ~> Vector; "CHANNELS" ~> Vector; "PARAMETERS" ~> Vector ]
   [ "PARTS" ~> ToName (lit (text "EQUIPMENT")); "CHANNELS" ~> ToName (lit (text "CHANNEL"));
     "PARAMETERS" ~> ToName (lit (text "PARAMETER")) ].
(** parameter.py 56-62 and 64-68 *)
Definition parameter_schema : schema := mk_schema
   [ "LONG-NAME" ~> Scalar; "DIMENSION" ~> Reverse; "AXIS" ~> Reverse; "ZONES" ~> Vector; "VALUES" ~> Vector ]
   [ "LONG-NAME" ~> ToName (lit (text "LONG-NAME")); "AXIS" ~> ToName (lit (text "AXIS"));
     "ZONES" ~> ToName (lit (text "ZONE")) ].
(** equipment.py 114-132 *)
Definition equipment_schema : schema := mk_schema
   [ "TRADEMARK-NAME" ~> Scalar; "STATUS" ~> Boolean; "TYPE" ~> Scalar; "SERIAL-NUMBER" ~> Scalar;
     "LOCATION" ~> Scalar; "HEIGHT" ~> Scalar; "LENGTH" ~> Scalar; "MINIMUM-DIAMETER" ~> Scalar;
     "MAXIMUM-DIAMETER" ~> Scalar; "VOLUME" ~> Scalar; "WEIGHT" ~> Scalar; "HOLE-SIZE" ~> Scalar;
     "PRESSURE" ~> Scalar; "TEMPERATURE" ~> Scalar; "VERTICAL-DEPTH" ~> Scalar; "RADIAL-DRIFT" ~> Scalar;
     "ANGULAR-DRIFT" ~> Scalar ]
   [].
(** measurement.py 75-91 and 93-96 *)
Definition measurement_schema : schema := mk_schema
   [ "PHASE" ~> Scalar; "MEASUREMENT-SOURCE" ~> Scalar; "TYPE" ~> Scalar; "DIMENSION" ~> Reverse;
     "AXIS" ~> Reverse; "MEASUREMENT" ~> Vector; "SAMPLE-COUNT" ~> Scalar; "MAXIMUM-DEVIATION" ~> Vector;
     "STANDARD-DEVIATION" ~> Vector; "BEGIN-TIME" ~> Scalar; "DURATION" ~> Scalar; "REFERENCE" ~> Vector;
     "STANDARD" ~> Vector; "PLUS-TOLERANCE" ~> Vector; "MINUS-TOLERANCE" ~> Vector ]
   [ "AXIS" ~> ToName (lit (text "AXIS")); "MEASUREMENT-SOURCE" ~> ToRef ].
(** coefficient.py 56-62 *)
Definition coefficient_schema : schema := mk_schema
   [ "LABEL" ~> Scalar; "COEFFICIENTS" ~> Vector; "REFERENCES" ~> Vector; "PLUS-TOLERANCES" ~> Vector;
     "MINUS-TOLERANCES" ~> Vector ]
   [].
(** calibration.py 59-66 and 68-74 *)
Definition calibration_schema : schema := mk_schema
   [ "METHOD" ~> Scalar; "CALIBRATED-CHANNELS" ~> Vector; "UNCALIBRATED-CHANNELS" ~> Vector;
     "COEFFICIENTS" ~> Vector; "MEASUREMENTS" ~> Vector; "PARAMETERS" ~> Vector ]
   [ "CALIBRATED-CHANNELS" ~> ToName (lit (text "CHANNEL"));
     "UNCALIBRATED-CHANNELS" ~> ToName (lit (text "CHANNEL"));
     "COEFFICIENTS" ~> ToName (lit (text "CALIBRATION-COEFFICIENT"));
     "MEASUREMENTS" ~> ToName (lit (text "CALIBRATION-MEASUREMENT"));
     "PARAMETERS" ~> ToName (lit (text "PARAMETER")) ].
(** computation.py 71-79 and 81-86 *)
Definition computation_schema : schema := mk_schema
   [ "LONG-NAME" ~> Scalar; "PROPERTIES" ~> Vector; "DIMENSION" ~> Reverse; "AXIS" ~> Reverse;
     "ZONES" ~> Vector; "SOURCE" ~> Scalar; "VALUES" ~> Vector ]
   [ "LONG-NAME" ~> ToName (lit (text "LONG-NAME")); "AXIS" ~> ToName (lit (text "AXIS"));
     "ZONES" ~> ToName (lit (text "ZONE")); "SOURCE" ~> ToRef ].
(** splice.py 59-63 and 65-69 *)
Definition splice_schema : schema := mk_schema
   [ "OUTPUT-CHANNEL" ~> Scalar; "INPUT-CHANNELS" ~> Vector; "ZONES" ~> Vector ]
   [ "OUTPUT-CHANNEL" ~> ToName (lit (text "CHANNEL")); "INPUT-CHANNELS" ~> ToName (lit (text "CHANNEL"));
     "ZONES" ~> ToName (lit (text "ZONE")) ].
(** wellref.py 64-76 *)
Definition wellref_schema : schema := mk_schema
   [ "PERMANENT-DATUM" ~> Scalar; "VERTICAL-ZERO" ~> Scalar; "PERMANENT-DATUM-ELEVATION" ~> Scalar;
     "ABOVE-PERMANENT-DATUM" ~> Scalar; "MAGNETIC-DECLINATION" ~> Scalar; "COORDINATE-1-NAME" ~> Scalar;
     "COORDINATE-1-VALUE" ~> Scalar; "COORDINATE-2-NAME" ~> Scalar; "COORDINATE-2-VALUE" ~> Scalar;
     "COORDINATE-3-NAME" ~> Scalar; "COORDINATE-3-VALUE" ~> Scalar ]
   [].
(** group.py 45-50 and 52-56 *)
Definition group_schema : schema := mk_schema
   [ "DESCRIPTION" ~> Scalar; "OBJECT-TYPE" ~> Scalar; "OBJECT-LIST" ~> Vector; "GROUP-LIST" ~> Vector ]
   [ "OBJECT-LIST" ~> ToRef; "GROUP-LIST" ~> ToName (lit (text "GROUP")) ].
(** process.py 87-99 and 101-108 *)
Definition process_schema : schema := mk_schema
   [ "DESCRIPTION" ~> Scalar; "TRADEMARK-NAME" ~> Scalar; "VERSION" ~> Scalar; "PROPERTIES" ~> Vector;
     "STATUS" ~> Scalar; "INPUT-CHANNELS" ~> Vector; "OUTPUT-CHANNELS" ~> Vector;
     "INPUT-COMPUTATIONS" ~> Vector; "OUTPUT-COMPUTATIONS" ~> Vector; "PARAMETERS" ~> Vector;
     "COMMENTS" ~> Vector ]
   [ "DESCRIPTION" ~> ToName (lit (text "LONG-NAME")); "INPUT-CHANNELS" ~> ToName (lit (text "CHANNEL"));
     "OUTPUT-CHANNELS" ~> ToName (lit (text "CHANNEL"));
     "INPUT-COMPUTATIONS" ~> ToName (lit (text "COMPUTATION"));
     "OUTPUT-COMPUTATIONS" ~> ToName (lit (text "COMPUTATION"));
     "PARAMETERS" ~> ToName (lit (text "PARAMETER")) ].
(** path.py 96-108 and 110-119 *)
Definition path_schema : schema := mk_schema
   [ "FRAME-TYPE" ~> Scalar; "WELL-REFERENCE-POINT" ~> Scalar; "VALUE" ~> Vector;
     "BOREHOLE-DEPTH" ~> Scalar; "VERTICAL-DEPTH" ~> Scalar; "RADIAL-DRIFT" ~> Scalar;
     "ANGULAR-DRIFT" ~> Scalar; "TIME" ~> Scalar; "DEPTH-OFFSET" ~> Scalar;
     "MEASURE-POINT-OFFSET" ~> Scalar; "TOOL-ZERO-OFFSET" ~> Scalar ]
   [ "BOREHOLE-DEPTH" ~> ToName (lit (text "CHANNEL")); "VERTICAL-DEPTH" ~> ToName (lit (text "CHANNEL"));
     "RADIAL-DRIFT" ~> ToName (lit (text "CHANNEL")); "ANGULAR-DRIFT" ~> ToName (lit (text "CHANNEL"));
     "TIME" ~> ToName (lit (text "CHANNEL")); "FRAME-TYPE" ~> ToName (lit (text "FRAME"));
     "WELL-REFERENCE-POINT" ~> ToName (lit (text "WELL-REFERENCE"));
     "VALUE" ~> ToName (lit (text "CHANNEL")) ].
(** message.py 62-70 *)
Definition message_schema : schema := mk_schema
   [ "TYPE" ~> Scalar; "TIME" ~> Scalar; "BOREHOLE-DRIFT" ~> Scalar; "VERTICAL-DEPTH" ~> Scalar;
     "RADIAL-DRIFT" ~> Scalar; "ANGULAR-DRIFT" ~> Scalar; "TEXT" ~> Vector ]
   [].
(** comment.py 30-30 *)
Definition comment_schema : schema := mk_schema
   [ "TEXT" ~> Vector ]
   [].
(** noformat.py 38-41 *)
Definition noformat_schema : schema := mk_schema
   [ "CONSUMER-NAME" ~> Scalar; "DESCRIPTION" ~> Scalar ]
   [].

(** file.py 308-331 *)
Definition schemas : list (pystr * schema) :=
   [ "AXIS" ~> axis_schema; "FILE-HEADER" ~> fileheader_schema; "ORIGIN" ~> origin_schema;
     "LONG-NAME" ~> longname_schema; "FRAME" ~> frame_schema; "CHANNEL" ~> channel_schema;
     "ZONE" ~> zone_schema; "TOOL" ~> tool_schema; "PARAMETER" ~> parameter_schema;
     "EQUIPMENT" ~> equipment_schema; "CALIBRATION-MEASUREMENT" ~> measurement_schema;
     "CALIBRATION-COEFFICIENT" ~> coefficient_schema; "CALIBRATION" ~> calibration_schema;
     "COMPUTATION" ~> computation_schema; "SPLICE" ~> splice_schema; "WELL-REFERENCE" ~> wellref_schema;
     "GROUP" ~> group_schema; "PROCESS" ~> process_schema; "PATH" ~> path_schema;
     "MESSAGE" ~> message_schema; "COMMENT" ~> comment_schema; "NO-FORMAT" ~> noformat_schema ].
(** the tables of the class of an object *)
Definition schema_of (o : pyobject) : schema :=
  match po_class o with
  | Some t => match dict_get t schemas with Some s => s | None => unknown_schema end
  | None => unknown_schema
  end.
