(** Independent specification for C74: what the description of an object says. *)
From Verif Require Import Bytes Stream PyBase DlisTypes DlisRecords CommonPy DlisStore SpecDlisStore DlisSchema DlisObject SpecDlisObject Dimensional SpecDimensional DlisClasses SpecDlisClasses DlisDescribe.
Local Open Scope Z_scope.

(** ** What the captions stand for *)

(** the value beside a caption *)
Inductive cell :=
  | Attr (label : bytes)              (* an attribute, with its unit *)
  | Val (label : bytes)               (* an attribute, without unit *)
  | Free (label : bytes)              (* an attribute without unit, of which the text is free *)
  | Names (label : bytes)             (* the names of the objects in an attribute *)
  | Pair (template a b : bytes)       (* two attributes in one line *)
  | Count (label : bytes)             (* the number of values of an attribute *)
  | Members                           (* the members of a group *)
  | Sample_count (dims label : bytes) (* the number of samples *).
(** a part of the description *)
Inductive block :=
  | Rows (rows : list (bytes * cell))
  | Titled (heading : bytes) (rows : list (bytes * cell))
  | Long_name (label : bytes)                 (* a text, or a description by an object of its own *)
  (* samples with dimensions, with other attributes of the same dimensions; each of these
     may have one sample only *)
  | Sampled_rows (dims : option bytes) (label : bytes) (extras : list (bytes * bytes)) (single : bool)
  | Text (label : bytes)                      (* just the text *)
  | Coordinate_rows
  | Frame_rows.

Local Notation "k '~>' v" := (text k, v) (at level 70, only parsing).
Local Notation "k '~A>' v" := (text k, Attr (text v)) (at level 70, only parsing).
Local Notation "k '~V>' v" := (text k, Val (text v)) (at level 70, only parsing).
Local Notation "k '~N>' v" := (text k, Names (text v)) (at level 70, only parsing).
Definition slash (a b : txt) : cell := Pair (text "{} / {}") (text a) (text b).
Arguments slash (a b)%txt_scope.

Definition longname_rows : list (bytes * cell) :=
  [ "General modifier" ~V> "GENERAL-MODIFIER"; "Quantity" ~V> "QUANTITY"; "Quantity modifier" ~V> "QUANTITY-MODIFIER";
    "Altered form" ~V> "ALTERED-FORM"; "Entity" ~V> "ENTITY"; "Entity modifier" ~V> "ENTITY-MODIFIER";
    "Entity number" ~V> "ENTITY-NUMBER"; "Entity part" ~V> "ENTITY-PART"; "Entity part number" ~V> "ENTITY-PART-NUMBER";
    "Generic source" ~V> "GENERIC-SOURCE"; "Source part" ~V> "SOURCE-PART"; "Source part number" ~V> "SOURCE-PART-NUMBER";
    "Conditions" ~V> "CONDITIONS"; "Standard symbol" ~V> "STANDARD-SYMBOL"; "Private symbol" ~V> "PRIVATE-SYMBOL" ].
(** the descriptions of the objects of each type *)
Definition summaries : list (pystr * list block) :=
  [ (lit (text "AXIS"), [ Rows [ "Description" ~A> "AXIS-ID"; "Spacing" ~A> "SPACING"; "Coordinates" ~A> "COORDINATES" ] ]);
    (lit (text "FILE-HEADER"), [ Rows [ "Description" ~V> "ID"; "Position in storage set" ~V> "SEQUENCE-NUMBER" ] ]);
    (lit (text "ORIGIN"),
       [ Rows [ "Logical file ID" ~V> "FILE-ID"; "File set name and number" ~> slash "FILE-SET-NAME" "FILE-SET-NUMBER";
                "File number and type" ~> slash "FILE-NUMBER" "FILE-TYPE" ];
         Rows [ "Field" ~V> "FIELD-NAME"; "Well (id/name)" ~> slash "WELL-ID" "WELL-NAME";
                "Produced by (code/name)" ~> slash "PRODUCER-CODE" "PRODUCER-NAME"; "Produced for" ~V> "COMPANY";
                "Order number" ~V> "ORDER-NUMBER"; "Run number" ~V> "RUN-NUMBER"; "Descent number" ~V> "DESCENT-NUMBER";
                "Created" ~V> "CREATION-TIME" ];
         Rows [ "Created by" ~> Pair (text "{}, (version: {})") (text "PRODUCT") (text "VERSION");
                "Other programs/services" ~V> "PROGRAMS" ] ]);
    (lit (text "LONG-NAME"), [ Rows longname_rows ]);
    (lit (text "FRAME"), [ Frame_rows ]);
    (lit (text "CHANNEL"),
       [ Long_name (text "LONG-NAME");
         Rows [ "Physical unit of sample" ~A> "UNITS"; "Sample dimensions" ~A> "DIMENSION"; "Axis" ~A> "AXIS";
                "Maximum sample dimensions" ~A> "ELEMENT-LIMIT"; "Property indicators" ~A> "PROPERTIES"; "Source" ~A> "SOURCE" ] ]);
    (lit (text "ZONE"),
       [ Rows [ "Description" ~> Free (text "DESCRIPTION"); "Domain" ~A> "DOMAIN"; "Minimum" ~A> "MINIMUM"; "Maximum" ~A> "MAXIMUM" ] ]);
    (lit (text "TOOL"),
       [ Rows [ "Description" ~V> "DESCRIPTION"; "Trademark name" ~V> "TRADEMARK-NAME"; "Generic name" ~V> "GENERIC-NAME"; "Status" ~V> "STATUS" ];
         Rows [ "Channels" ~N> "CHANNELS"; "Parameters" ~N> "PARAMETERS"; "Parts" ~N> "PARTS" ] ]);
    (lit (text "PARAMETER"),
       [ Long_name (text "LONG-NAME");
         Rows [ "Sample dimensions" ~A> "DIMENSION"; "Axis labels" ~A> "AXIS"; "Zones" ~A> "ZONES" ];
         Sampled_rows (Some (text "DIMENSION")) (text "VALUES") [] true ]);
    (lit (text "EQUIPMENT"),
       [ Rows [ "Trademark name" ~A> "TRADEMARK-NAME"; "Generic type" ~A> "TYPE"; "Operational status" ~A> "STATUS";
                "Serial number" ~A> "SERIAL-NUMBER"; "Location" ~A> "LOCATION" ];
         Rows [ "Height" ~A> "HEIGHT"; "Length" ~A> "LENGTH"; "Diameter (min)" ~A> "MINIMUM-DIAMETER";
                "Diameter (max)" ~A> "MAXIMUM-DIAMETER"; "Volume" ~A> "VOLUME"; "Weight" ~A> "WEIGHT" ];
         Rows [ "Minimum borehole size" ~A> "HOLE-SIZE"; "Max pressure" ~A> "PRESSURE"; "Max temperature" ~A> "TEMPERATURE" ];
         Rows [ "Vertical depth" ~A> "VERTICAL-DEPTH"; "Radial drift " ~A> "RADIAL-DRIFT"; "Angular drift" ~A> "ANGULAR-DRIFT" ] ]);
    (lit (text "CALIBRATION-MEASUREMENT"),
       [ Titled (text "Metadata")
           [ "Type of measurement" ~A> "TYPE"; "Calibration standard" ~A> "STANDARD"; "Phase in job sequence" ~A> "PHASE";
             "Start time of acquisition" ~A> "BEGIN-TIME"; "Duration time" ~A> "DURATION"; "Data source" ~A> "MEASUREMENT-SOURCE" ];
         Titled (text "Samples")
           [ "Dimensions" ~A> "DIMENSION"; "Axis labels" ~A> "AXIS"; "Number of values" ~> Sample_count (text "DIMENSION") (text "MEASUREMENT");
             "Samples used to compute std/max-dev" ~A> "SAMPLE-COUNT" ];
         Sampled_rows (Some (text "DIMENSION")) (text "MEASUREMENT")
           [ "Reference" ~> text "REFERENCE"; "Minus Tolerance" ~> text "MINUS-TOLERANCE"; "Plus Tolerance" ~> text "PLUS-TOLERANCE";
             "Std deviation" ~> text "STANDARD-DEVIATION"; "Max deviation" ~> text "MAXIMUM-DEVIATION" ] true ]);
    (lit (text "CALIBRATION-COEFFICIENT"),
       [ Rows [ "Coefficient type" ~V> "LABEL"; "Number of value(s)" ~> Count (text "COEFFICIENTS") ];
         Sampled_rows None (text "COEFFICIENTS")
           [ "Reference value(s)" ~> text "REFERENCES"; "Minus Tolerance(s)" ~> text "MINUS-TOLERANCES";
             "Plus Tolerance(s)" ~> text "PLUS-TOLERANCES" ] false ]);
    (lit (text "CALIBRATION"),
       [ Rows [ "Computational method" ~V> "METHOD"; "Calibrated channels" ~N> "CALIBRATED-CHANNELS";
                "Uncalibrated channels" ~N> "UNCALIBRATED-CHANNELS"; "Coefficients" ~N> "COEFFICIENTS";
                "Measurements" ~N> "MEASUREMENTS"; "Parameters" ~N> "PARAMETERS" ] ]);
    (lit (text "COMPUTATION"),
       [ Long_name (text "LONG-NAME");
         Rows [ "Sample dimensions" ~A> "DIMENSION"; "Axis labels" ~A> "AXIS"; "Zones" ~A> "ZONES";
                "Property indicators" ~A> "PROPERTIES"; "Source object" ~A> "SOURCE" ];
         Sampled_rows (Some (text "DIMENSION")) (text "VALUES") [] true ]);
    (lit (text "SPLICE"),
       [ Rows [ "Zones" ~N> "ZONES"; "Output Channel" ~N> "OUTPUT-CHANNEL"; "Input Channels" ~N> "INPUT-CHANNELS" ] ]);
    (lit (text "WELL-REFERENCE"),
       [ Rows [ "Permanent datum" ~A> "PERMANENT-DATUM"; "Vertical zero" ~A> "VERTICAL-ZERO";
                "Permanent datum elevation" ~A> "PERMANENT-DATUM-ELEVATION"; "Above permanent datum" ~A> "ABOVE-PERMANENT-DATUM";
                "Magnetic declination" ~A> "MAGNETIC-DECLINATION" ];
         Titled (text "Coordinates") []; Coordinate_rows ]);
    (lit (text "GROUP"),
       [ Rows [ "Description" ~V> "DESCRIPTION"; "Object list" ~> Members; "Group list" ~V> "GROUP-LIST" ] ]);
    (lit (text "PROCESS"),
       [ Long_name (text "DESCRIPTION");
         Rows [ "Trademark name" ~V> "TRADEMARK-NAME"; "Status" ~V> "STATUS"; "Version" ~V> "VERSION"; "Comments" ~V> "COMMENTS" ];
         Rows [ "Properties" ~V> "PROPERTIES"; "Parameters" ~N> "PARAMETERS" ];
         Rows [ "Input Channels" ~N> "INPUT-CHANNELS"; "Output Channels" ~N> "OUTPUT-CHANNELS";
                "Input Computations" ~N> "INPUT-COMPUTATIONS"; "Output computations" ~N> "OUTPUT-COMPUTATIONS" ] ]);
    (lit (text "PATH"),
       [ Rows [ "Frame" ~V> "FRAME-TYPE"; "Well reference point" ~V> "WELL-REFERENCE-POINT"; "Value Channel(s)" ~N> "VALUE" ];
         Rows [ "Borehole depth" ~A> "BOREHOLE-DEPTH"; "Vertical depth" ~A> "VERTICAL-DEPTH"; "Radial drift" ~A> "RADIAL-DRIFT";
                "Angular drift" ~A> "ANGULAR-DRIFT" ];
         Rows [ "Time" ~A> "TIME"; "Depth offset" ~A> "DEPTH-OFFSET"; "Measure point offset" ~A> "MEASURE-POINT-OFFSET";
                "Tool zero offset" ~A> "TOOL-ZERO-OFFSET" ] ]);
    (lit (text "MESSAGE"),
       [ Rows [ "Message type" ~A> "TYPE"; "Time of recording" ~A> "TIME"; "Borehole drift" ~A> "BOREHOLE-DRIFT";
                "Vertical depth" ~A> "VERTICAL-DEPTH"; "Radial drift" ~A> "RADIAL-DRIFT"; "Angular drift" ~A> "ANGULAR-DRIFT" ];
         Text (text "TEXT") ]);
    (lit (text "COMMENT"), [ Text (text "TEXT") ]);
    (lit (text "NO-FORMAT"), [ Rows [ "Consumer name" ~A> "CONSUMER-NAME"; "Description" ~A> "DESCRIPTION" ] ]) ].

(** ** Texts and values *)

(** a letter of the parameter exclude *)
Definition without (fmt : list Z) (c : byte) : Prop := In (b2z c) fmt.
(** [if_in c P Q] is P if the letter is given and Q otherwise *)
Definition if_in (fmt : list Z) (c : byte) (P Q : Prop) : Prop := without fmt c /\ P \/ ~ without fmt c /\ Q.
(** a text without the white space around it *)
Inductive bare : pystr -> pystr -> Prop :=
  | bare_str u v : trimmed u v -> bare (Str u) (Str v)
  | bare_bytes u v a b : u = a ++ v ++ b ->
      Forall (fun c => In c [x09; x0a; x0b; x0c; x0d; x20]) a -> Forall (fun c => In c [x09; x0a; x0b; x0c; x0d; x20]) b ->
      (forall c t, v = c :: t -> ~ In c [x09; x0a; x0b; x0c; x0d; x20]) ->
      (forall t c, v = t ++ [c] -> ~ In c [x09; x0a; x0b; x0c; x0d; x20]) -> bare (Raw u) (Raw v).
(** No value: None and the empty text.  Zero is a value. *)
Inductive no_value : pyval -> Prop :=
  | no_none : no_value PNone
  | no_str : no_value (PText (Str []))
  | no_bytes : no_value (PText (Raw [])).
(** In lists, text of NUL characters only is no value either. *)
Inductive no_element : pyval -> Prop :=
  | no_such v : no_value v -> no_element v
  | no_nuls n : no_element (PText (Str (repeat 0 n)))
  | no_nul_bytes n : no_element (PText (Raw (repeat x00 n))).
Inductive no_name : written -> Prop :=
  | no_object_name s : no_element (PText s) -> no_name (AName s)
  | no_text u : no_element (PText (Str u)) -> no_name (AsText (PText (Str u))).
Inductive nothing : shown -> Prop :=
  | nothing_none : nothing (SResult RNone)
  | nothing_one v : no_value v -> nothing (SResult (ROne v))
  | nothing_many l : Forall no_element l -> nothing (SResult (RMany l))
  | nothing_array a l : items_in a l -> Forall no_value l -> nothing (SArray a)
  | nothing_names l : Forall no_name l -> nothing (SNames l).

(** the units as they are written: without white space, if there is anything, and unless
    they are excluded *)
Inductive unit_written (fmt : list Z) : option pystr -> option pystr -> Prop :=
  | unit_excluded u : without fmt "u"%byte -> unit_written fmt u None
  | unit_none : unit_written fmt None None
  | unit_empty s t : bare s t -> truthy t = false -> unit_written fmt (Some s) None
  | unit_some s t : ~ without fmt "u"%byte -> bare s t -> truthy t = true -> unit_written fmt (Some s) (Some t).
(** rows as they are written: all of them, or those with a value if the others are
    excluded *)
Inductive rows_written (fmt : list Z) : list entry -> list piece -> Prop :=
  | rows_none : rows_written fmt [] []
  | row_kept c v u u' d ps : ~ (without fmt "e"%byte /\ nothing v) -> unit_written fmt u u' -> rows_written fmt d ps ->
      rows_written fmt ((c, (v, u)) :: d) (Entry c v u' :: ps)
  | row_dropped c v u d ps : without fmt "e"%byte -> nothing v -> rows_written fmt d ps -> rows_written fmt ((c, (v, u)) :: d) ps.

Section summary.
Variable maxdims : nat.
Variable dec : bytes -> pystr.
Variable enc : pystr -> bytes.
Variable esc : severity -> bool.
Variable sets : list object_set.

(** ** Attributes *)

(** what the attribute with a label gives (C37) *)
Definition gives (x : pyobject) (key : pystr) (r : result) : Prop :=
  exists rl l c vs lg xs, rule_for (schema_of x) key rl /\ link_for (schema_of x) key l /\ stored enc (po_attic x) key c vs lg /\
    Forall2 (turns dec sets l c) vs xs /\ shaped rl xs r.
(** a label of the class or of the object *)
Definition has_label (x : pyobject) (key : pystr) : Prop :=
  In key (map fst (sc_attributes (schema_of x))) \/ In key (map (fun a => dec (at_label a)) (obj_attrs (po_attic x))).
(** its unit, if the object has it *)
Inductive unit_of (x : pyobject) (key : pystr) : option pystr -> Prop :=
  | unit_absent : ~ In (enc key) (map at_label (obj_attrs (po_attic x))) -> unit_of x key None
  | unit_present a : In a (obj_attrs (po_attic x)) -> at_label a = enc key -> unit_of x key (Some (dec (at_units a))).
(** the values, as they are; none if there is no value *)
Inductive values_of (x : pyobject) (key : pystr) : list pyval -> Prop :=
  | values_none a : In a (obj_attrs (po_attic x)) -> at_label a = enc key -> at_value a = Mono -> values_of x key []
  | values_some a c vs data : In a (obj_attrs (po_attic x)) -> at_label a = enc key -> at_value a = Vec c vs ->
      Forall2 (stands dec c) vs data -> values_of x key data.
Definition absent (x : pyobject) (key : pystr) : Prop := ~ In (enc key) (map at_label (obj_attrs (po_attic x))).
(** dimensions, which are integers *)
Definition shape_of (x : pyobject) (dims : option bytes) (shape : list Z) : Prop :=
  match dims with
  | None => shape = [1]
  | Some l => exists c, In c integer_codes /\ gives x (lit l) (RMany (map (PNumber c) shape))
  end.

(** ** Rows *)
Inductive name_of : pyval -> written -> Prop :=
  | name_object o : name_of (PObject o) (AName (dec (ob_id (obj_name (po_attic o)))))
  | name_other v : (forall o, v <> PObject o) -> name_of v (AsText v).
Inductive cell_shows (x : pyobject) : cell -> shown -> option pystr -> Prop :=
  | shows_attr l r u : gives x (lit l) r -> unit_of x (lit l) u -> cell_shows x (Attr l) (SResult r) u
  | shows_val l r : gives x (lit l) r -> cell_shows x (Val l) (SResult r) None
  | shows_free l r : gives x (lit l) r -> cell_shows x (Free l) (SResult r) None
  | shows_names l xs ws : gives x (lit l) (RMany xs) -> Forall2 name_of xs ws -> cell_shows x (Names l) (SNames ws) None
  | shows_no_name l r : gives x (lit l) r -> r = RNone \/ r = ROne PNone -> cell_shows x (Names l) (SResult r) None
  | shows_pair t a b ra rb : gives x (lit a) ra -> gives x (lit b) rb -> cell_shows x (Pair t a b) (SFormat t [ra; rb]) None
  | shows_count l xs : gives x (lit l) (RMany xs) -> cell_shows x (Count l) (SInt (Z.of_nat (length xs))) None
  | shows_members c vs lg l xs : stored enc (po_attic x) (lit (text "OBJECT-LIST")) c vs lg ->
      vs = [] \/ members_link dec enc esc (po_attic x) vs l -> Forall2 (turns dec sets l c) vs xs -> cell_shows x Members (SResult (RMany xs)) None
  | shows_no_samples dims l : absent x (lit l) \/ values_of x (lit l) [] -> cell_shows x (Sample_count dims l) (SInt 0) None
  | shows_samples dims l shape data out : shape_of x (Some dims) shape -> values_of x (lit l) data -> data <> [] -> outcome data shape None out ->
      cell_shows x (Sample_count dims l) (SInt (match out with Some s => Z.of_nat (length s) | None => 0 end)) None.
Definition row_shows (x : pyobject) (row : bytes * cell) (e : entry) : Prop :=
  fst e = lit (fst row) /\ cell_shows x (snd row) (fst (snd e)) (snd (snd e)).

(** attributes with samples: those of the right shape, and the others with their values *)
Inductive samples_sorted (x : pyobject) (shape : list Z) : list (bytes * bytes * bool) -> list entry -> list entry -> Prop :=
  | sorted_none : samples_sorted x shape [] [] []
  | sorted_absent c l s rows ok ko : absent x (lit l) -> samples_sorted x shape rows ok ko -> samples_sorted x shape ((c, l, s) :: rows) ok ko
  | sorted_empty c l s rows ok ko u : values_of x (lit l) [] -> unit_of x (lit l) u ->
      samples_sorted x shape rows ok ko -> samples_sorted x shape ((c, l, s) :: rows) ((lit c, (SArray (Arr []), u)) :: ok) ko
  | sorted_all c l rows ok ko data samples u : values_of x (lit l) data -> data <> [] -> unit_of x (lit l) u ->
      outcome data shape None (Some samples) ->
      samples_sorted x shape rows ok ko -> samples_sorted x shape ((c, l, false) :: rows) ((lit c, (SArray (Arr samples), u)) :: ok) ko
  | sorted_first c l rows ok ko data first rest u : values_of x (lit l) data -> data <> [] -> unit_of x (lit l) u ->
      outcome data shape None (Some (first :: rest)) ->
      samples_sorted x shape rows ok ko -> samples_sorted x shape ((c, l, true) :: rows) ((lit c, (SArray first, u)) :: ok) ko
  | sorted_invalid c l s rows ok ko data u : values_of x (lit l) data -> data <> [] -> unit_of x (lit l) u ->
      outcome data shape None None ->
      samples_sorted x shape rows ok ko -> samples_sorted x shape ((c, l, s) :: rows) ok ((lit c, (SResult (RMany data), u)) :: ko).

(** the rows about the index of a frame *)
Definition index_rows : list (bytes * option bytes) :=
  [ (text "Description", Some (text "DESCRIPTION")); (text "Indexed by", Some (text "INDEX-TYPE")); (text "Index units", None);
    (text "Index min", Some (text "INDEX-MIN")); (text "Index max", Some (text "INDEX-MAX")); (text "Direction", Some (text "DIRECTION"));
    (text "Constant spacing", Some (text "SPACING")) ].
Definition index_shows (x index : pyobject) (row : bytes * option bytes) (e : entry) : Prop :=
  match snd row with
  | Some l => row_shows x (fst row, Attr l) e
  | None => row_shows index (fst row, Val (text "UNITS")) e
  end.

(** ** Parts *)
Definition told (s : txt) : piece := Line (SResult (ROne (PText (lit (text s))))).
Arguments told s%txt_scope.
Inductive block_shows (x : pyobject) (fmt : list Z) : block -> list piece -> Prop :=
  | shows_rows rows d ps : Forall2 (row_shows x) rows d -> rows_written fmt d ps -> block_shows x fmt (Rows rows) ps
  | shows_titled h rows d ps : Forall2 (row_shows x) rows d -> rows_written fmt d ps -> block_shows x fmt (Titled h rows) (Section (lit h) :: ps)
  | shows_no_description l r : without fmt "e"%byte -> gives x (lit l) r -> r = RNone \/ (exists v, r = ROne v /\ is_false v) ->
      block_shows x fmt (Long_name l) []
  | shows_description l r ps : gives x (lit l) r -> (without fmt "e"%byte -> exists v, r = ROne v /\ ~ is_false v) ->
      (forall o, r <> ROne (PObject o)) -> rows_written fmt [(lit (text "Description"), (SResult r, None))] ps ->
      block_shows x fmt (Long_name l) ps
  | shows_long_name l ln d ps : gives x (lit l) (ROne (PObject ln)) -> Forall2 (row_shows ln) longname_rows d ->
      rows_written [b2z "e"%byte] d ps -> block_shows x fmt (Long_name l) (Section (lit (text "Description")) :: ps)
  | shows_sampled dims l extras single shape ok ko ps qs : shape_of x dims shape ->
      samples_sorted x shape ((text "Value(s)", l, false) :: map (fun e => (fst e, snd e, single)) extras) ok ko ->
      rows_written fmt ok ps ->
      if_in fmt "i"%byte (qs = [])
        (ko = [] /\ qs = [] \/ ko <> [] /\ exists rs, rows_written fmt ko rs /\ qs = Section (lit (text "Invalid dimensions")) :: rs) ->
      block_shows x fmt (Sampled_rows dims l extras single) (ps ++ qs)
  | shows_no_text l : gives x (lit l) (RMany []) -> block_shows x fmt (Text l) []
  | shows_text l v vs : gives x (lit l) (RMany (v :: vs)) -> block_shows x fmt (Text l) [Line (SResult (RMany (v :: vs)))]
  | shows_coordinates k1 v1 k2 v2 k3 v3 d ps :
      coordinate dec enc (po_attic x) "1" k1 v1 -> coordinate dec enc (po_attic x) "2" k2 v2 -> coordinate dec enc (po_attic x) "3" k3 v3 ->
      NoDup (map fst d) ->
      (forall k v, In (k, v) d <-> k = k3 /\ v = v3 \/ k = k2 /\ v = v2 /\ k <> k3 \/ k = k1 /\ v = v1 /\ k <> k2 /\ k <> k3) ->
      rows_written fmt (map (fun e => (fst e, (SResult (ROne (snd e)), None))) d) ps ->
      block_shows x fmt Coordinate_rows ps
  | shows_no_channels : gives x (lit (text "CHANNELS")) (RMany []) -> block_shows x fmt Frame_rows [told "Frame has no channels"]
  | shows_channels chs ws : gives x (lit (text "CHANNELS")) (RMany chs) -> chs <> [] -> gives x (lit (text "INDEX-TYPE")) RNone ->
      Forall2 name_of chs ws ->
      block_shows x fmt Frame_rows
        [ told "There is no index channel, channels are indexed by samplenumber, i.e [1,2,3,..,n]";
          Section (lit (text "Channels")); Line (SNames ws) ]
  | shows_index t index chs ws d ps : gives x (lit (text "CHANNELS")) (RMany (PObject index :: chs)) ->
      gives x (lit (text "INDEX-TYPE")) (ROne t) -> Forall2 name_of (PObject index :: chs) ws ->
      Forall2 (index_shows x index) index_rows d ->
      rows_written fmt (d ++ [(lit (text "Index channel"), (SResult (ROne (PObject index)), None))]) ps ->
      block_shows x fmt Frame_rows
        (Section (lit (text "Channel indexing")) :: ps ++ [Section (lit (text "Channels")); Line (SNames ws)]).

(** ** The description *)

(** the coefficients as they are described: the tolerances are the wrong way around *)
Definition coefficient_swapped : list block :=
  [ Rows [ "Coefficient type" ~V> "LABEL"; "Number of value(s)" ~> Count (text "COEFFICIENTS") ];
    Sampled_rows None (text "COEFFICIENTS")
      [ "Reference value(s)" ~> text "REFERENCES"; "Minus Tolerance(s)" ~> text "PLUS-TOLERANCES";
        "Plus Tolerance(s)" ~> text "MINUS-TOLERANCES" ] false ].
(** the blocks of a type; none if it is not known *)
Definition blocks_for (x : pyobject) (blocks : list block) : Prop :=
  let t := dec (obj_type (po_attic x)) in In (t, blocks) summaries \/ ~ In t (map fst summaries) /\ blocks = [].
(** name, origin and copy number *)
Definition head_rows (o : object) : list entry :=
  [ (lit (text "name"), (SResult (ROne (PText (dec (ob_id (obj_name o))))), None));
    (lit (text "origin"), (SInt (ob_origin (obj_name o)), None)); (lit (text "copy"), (SInt (ob_copy (obj_name o)), None)) ].
(** attributes the class does not know, by their labels, with their units *)
Definition extra_shows (x : pyobject) (a : attribute) (e : entry) : Prop :=
  fst e = dec (at_label a) /\ snd (snd e) = Some (dec (at_units a)) /\
  exists r, gives x (dec (at_label a)) r /\ fst (snd e) = SResult r.
Definition summary_with (x : pyobject) (fmt : list Z) (blocks : list block) (ps : list piece) : Prop :=
  exists p1 p2 p3, ps = p1 ++ p2 ++ p3 /\
  if_in fmt "h"%byte (p1 = [])
    (exists q, p1 = Title (dec (obj_type (po_attic x))) :: q /\ rows_written fmt (head_rows (po_attic x)) q) /\
  if_in fmt "a"%byte (p2 = []) (exists parts, p2 = concat parts /\ Forall2 (block_shows x fmt) blocks parts) /\
  if_in fmt "s"%byte (p3 = [])
    (forall unknown, (forall a, unknown a = true <-> unknown_label dec (schema_of x) a) ->
       filter unknown (obj_attrs (po_attic x)) = [] /\ p3 = [] \/
       filter unknown (obj_attrs (po_attic x)) <> [] /\
       exists d q, p3 = Section (lit (text "Unknown attributes")) :: q /\
         Forall2 (extra_shows x) (filter unknown (obj_attrs (po_attic x))) d /\ rows_written fmt d q).

(** ** When it can be given *)

(** an attribute that can be read (C37) *)
Definition legible (x : pyobject) (key : pystr) : Prop :=
  exists l c vs lg, link_for (schema_of x) key l /\ stored enc (po_attic x) key c vs lg /\
    calm dec enc esc (po_attic x) (obj_log (po_attic x)) /\ calm dec enc esc (po_attic x) lg /\ Forall (readable dec enc esc sets l) vs.
Definition sound_object (o : object) : Prop :=
  (forall key, has_label (promote dec o) key -> legible (promote dec o) key) /\
  (exists u, dec (ob_id (obj_name o)) = Str u) /\
  forall a, In a (obj_attrs o) ->
    enc (dec (at_label a)) = at_label a /\
    (* the texts of a list can all be decoded, or none of them can *)
    forall c vs, at_value a = Vec c vs ->
      (forall t, In (VText t) vs -> exists u, dec t = Str u) \/ (forall t, In (VText t) vs -> exists u, dec t = Raw u).
(** every attribute of every object can be read *)
Definition sound_file : Prop := forall s o, In s sets -> In o (objects_in s) -> sound_object o.
(** samples that fit into arrays *)
Definition samples_fit (x : pyobject) (dims : option bytes) (labels : list bytes) : Prop :=
  exists shape, shape_of x dims shape /\ Forall (Z.le 1) shape /\
    forall l data, In l labels -> values_of x (lit l) data -> data <> [] -> small maxdims data shape.
Definition cell_clear (x : pyobject) (c : cell) : Prop :=
  match c with
  (* the text is not the label of an attribute *)
  | Free l => forall s, gives x (lit l) (ROne (PText s)) -> ~ has_label x s
  (* it is a list, or there is no object *)
  | Names l => forall v, gives x (lit l) (ROne v) -> v = PNone
  | Members => ~ valueless enc (po_attic x) (lit (text "OBJECT-LIST")) /\
      exists c vs lg l, stored enc (po_attic x) (lit (text "OBJECT-LIST")) c vs lg /\ (vs = [] \/ members_link dec enc esc (po_attic x) vs l) /\
        Forall (readable dec enc esc sets l) vs
  | Sample_count dims l => samples_fit x (Some dims) [l]
  | _ => True
  end.
Definition block_clear (x : pyobject) (b : block) : Prop :=
  match b with
  | Rows rows | Titled _ rows => Forall (fun r => cell_clear x (snd r)) rows
  | Sampled_rows dims l extras _ => samples_fit x dims (l :: map snd extras)
  | Coordinate_rows =>
      exists k1 v1 k2 v2 k3 v3, coordinate dec enc (po_attic x) "1" (Str k1) v1 /\ coordinate dec enc (po_attic x) "2" (Str k2) v2 /\
        coordinate dec enc (po_attic x) "3" (Str k3) v3
  (* the index channel is in the file, and its unit is not the label of an attribute *)
  | Frame_rows => forall ch chs t, gives x (lit (text "CHANNELS")) (RMany (ch :: chs)) -> gives x (lit (text "INDEX-TYPE")) (ROne t) ->
      exists index, ch = PObject index /\ forall s, gives index (lit (text "UNITS")) (ROne (PText s)) -> ~ has_label x s
  | _ => True
  end.
(** the labels of the class can be encoded *)
Definition labels_clear (x : pyobject) : Prop := forall key, In key (map fst (sc_attributes (schema_of x))) -> SpecDlisStore.kept dec enc key.
(** attributes the class does not know have values, and labels that can be decoded *)
Definition extras_clear (x : pyobject) : Prop :=
  forall a, In a (obj_attrs (po_attic x)) -> unknown_label dec (schema_of x) a -> at_value a <> Mono /\ exists u, dec (at_label a) = Str u.

(** ** Files *)

(** the number of objects of a type in the file *)
Definition count_of (t : pystr) : Z := Z.of_nat (length (selected dec (pystr_eqb t) (fun _ => true) sets)).
(** the name of the logical file: the ID of its header, if there is exactly one *)
Definition file_named (r : result) : Prop :=
  match selected dec (pystr_eqb (lit (text "FILE-HEADER"))) (fun _ => true) sets with
  | [o] => gives (promote dec o) (lit (text "ID")) r
  | _ => r = ROne (PText (lit (text "Unknown")))
  end.
Definition header_legible : Prop :=
  forall o, selected dec (pystr_eqb (lit (text "FILE-HEADER"))) (fun _ => true) sets = [o] -> legible (promote dec o) (lit (text "ID")).
Definition file_rows_show (ps : list piece) : Prop :=
  exists r, file_named r /\
    ps = [ Entry (lit (text "Description")) (SFormat (text "LogicalFile({})") [r]) None;
           Entry (lit (text "Frames")) (SInt (count_of (lit (text "FRAME")))) None;
           Entry (lit (text "Channels")) (SInt (count_of (lit (text "CHANNEL")))) None ].
(** the types in the file that satisfy [P], each once, with the number of their objects *)
Definition counts (P : pystr -> Prop) (l : list (pystr * Z)) : Prop :=
  NoDup (map fst l) /\ forall t n, In (t, n) l <-> (exists s, In s sets /\ dec (os_type s) = t) /\ P t /\ n = count_of t.
Definition under (heading : bytes) (l : list (pystr * Z)) : list piece :=
  match l with [] => [] | _ => Section (lit heading) :: map (fun e => Entry (fst e) (SInt (snd e)) None) l end.
Definition file_summary (ps : list piece) : Prop :=
  exists rows known unknown, file_rows_show rows /\ counts standard known /\ counts (fun t => ~ standard t) unknown /\
    ps = Title (lit (text "Logical File")) :: rows ++ under (text "Known objects") known ++ under (text "Unknown objects") unknown.
End summary.
