(** C88: tables of information records from the bytes of a LIS file. *)
From Verif Require Import Bytes BytesProofs DlisTypes SpecTypes SpecCore Stream SpecIo DlisRecords LisTypes LisProtocol LisPy LisInfo LisCurves
  SpecLisCurves SpecLisProtocol LisIo SpecLisIo LisLoad SpecLisLoad LisFile SpecLisFile LisFileProofs SpecLisPy LisPyProofs LisInfoProofs LisProtocolProofs LisProtocolProofs2 CommonPy LisTable SpecLisTable LisTableProofs LisLoadProofs5
  PropLisIo PropLisProtocol PropLisLoad PropLisFile.
Local Open Scope Z_scope.

(** ** The tables of the records of one type *)

(** what the methods of a logical file give, if its information records of the type
    have the contents [dss] *)
Definition tables_read (dec : bytes -> CommonPy.pystr) (m : res (option (list parsed))) (dss : list bytes) : Prop :=
  exists xs, m = Ok (Some xs) /\ length xs = length dss /\
  forall k ds c0 rows, nth_error dss k = Some ds -> holds_table ds c0 rows ->
  exists info, nth_error xs k = Some (Information info (c0 :: concat rows)) /\
    isstructured (c0 :: concat rows) = true /\ table_name (c0 :: concat rows) = Ok (cb_component c0) /\
    forall simple,
    ((exists c, In c (concat rows) /\ forall u, ~ mnemonic_is dec c u) /\ table_method dec (c0 :: concat rows) simple = Exn) \/
    ((forall c, In c (concat rows) -> exists u, mnemonic_is dec c u) /\
     exists cols cells, table_method dec (c0 :: concat rows) simple = Ok (mk_table cols cells) /\ columns_of dec (concat rows) cols /\
       Forall2 (fun row => Forall2 (cell_in dec simple row) cols) rows cells).
(** the methods and the types of information records *)
Definition information_methods : list ((LisLoad.logical_file -> Z -> res (option (list parsed))) * Z) :=
  [(job_identification, 32); (wellsite_data, 34); (tool_string_info, 39)].

Lemma reads_tables dec type rs dss (m : res (option (list parsed))) : In type [32; 34; 39] -> Forall (fun r => type_of r = type) rs -> length rs = length dss ->
  Forall (fun ds => exists cs, of_components ds cs) dss ->
  (forall xs, m = Ok (Some xs) <-> Forall2 (fun '(r, ds) x => parsed_as r ds x) (combine rs dss) xs) -> tables_read dec m dss.
Proof.
  intros T TY L F M. destruct (parsed_list type rs dss T TY L F) as (xs & X & LX & K). exists xs. split; [apply M; exact X|]. split; [exact LX|].
  intros k ds c0 rows E (H & C & N & R). destruct (K k ds (c0 :: concat rows) E H) as (info & I). exists info. split; [exact I|].
  assert (ST : isstructured (c0 :: concat rows) = true) by (unfold isstructured; apply Z.eqb_eq; exact C).
  split; [exact ST|]. split; [unfold table_name; rewrite ST; reflexivity|]. intros simple. apply table_ok; assumption.
Qed.

(** ** C88 *)

(** *** From the bytes of a plain file: whatever else it holds, each information record
    that holds a table gives that table.  All information records of the type must be
    made of components; see C72_one_bad_refuted for what happens otherwise. *)
Theorem C88_plain : forall dec esc open_tif tif_stopped data secs,
  12 <= len data -> (forall type, ~ starts_with_mark data type) -> SpecLisLoad.layout data true 0 secs ->
  exists st, load esc open_tif tif_stopped (length data + 2) data = ([], Ok st) /\ length (fi_files st) = count_files secs /\
  forall before rs after, secs = before ++ File rs :: after ->
  exists f dss, nth_error (fi_files st) (count_files before) = Some f /\ Forall2 (contents 0 data) rs dss /\
    forall method type rs' dss' q, In (method, type) information_methods -> of_type type rs dss rs' dss' ->
    Forall (fun ds => exists cs, of_components ds cs) dss' -> tables_read dec (method f q) dss'.
Proof.
  intros dec esc ot ts data secs L N Y. destruct (C72_plain esc ot ts data secs L N Y) as (st & E & C & D). exists st. split; [exact E|]. split; [exact C|].
  intros before rs after S. destruct (D before rs after S) as (f & o & dss & F & K & P). exists f, dss. split; [exact F|]. split; [exact K|].
  intros method type rs' dss' q M O FC. destruct (of_type_types _ _ _ _ _ O) as (TY & LE & _). destruct (P type rs' dss' O) as (A & _).
  assert (G : In type [32; 34; 39] /\ method f q = parse_records f type q) by (destruct M as [M|[M|[M|[]]]]; injection M as <- <-; (split; [cbn; tauto|reflexivity])).
  destruct G as [T ->]. apply (reads_tables dec type (map (back o) rs') dss'); try assumption.
  - apply Forall_map. exact TY.
  - rewrite map_length. exact LE.
  - apply A.
Qed.
Print Assumptions C88_plain.

(** *** The same through any sequence of devices, such as tape images *)
Theorem C88_devices : forall dec esc openlis stopped o secs,
  course (fun o x => openlis o = match x with Some d => DOk d | None => DErr EofError end) stopped true o secs ->
  exists n, forall fuel, (n <= fuel)%nat ->
  exists st, index_all esc openlis stopped fuel (new_indexer o) = ([], Ok st) /\ length (fi_files st) = dcount_files secs /\
  forall before d rs after, secs = before ++ DFile d rs :: after ->
  exists f dss, nth_error (fi_files st) (dcount_files before) = Some f /\ Forall2 (contents (d_offset d) (d_data d)) rs dss /\
    forall method type rs' dss' q, In (method, type) information_methods -> of_type type rs dss rs' dss' ->
    Forall (fun ds => exists cs, of_components ds cs) dss' -> tables_read dec (method f q) dss'.
Proof.
  intros dec esc openlis stopped o secs Y. destruct (C72_devices esc openlis stopped o secs Y) as (n & D). exists n. intros fuel Fu. destruct (D fuel Fu) as (st & E & C & D').
  exists st. split; [exact E|]. split; [exact C|].
  intros before d rs after S. destruct (D' before d rs after S) as (f & dss & F & K & P). exists f, dss. split; [exact F|]. split; [exact K|].
  intros method type rs' dss' q M O FC. destruct (of_type_types _ _ _ _ _ O) as (TY & LE & _). destruct (P type rs' dss' O) as (A & _).
  assert (G : In type [32; 34; 39] /\ method f q = parse_records f type q) by (destruct M as [M|[M|[M|[]]]]; injection M as <- <-; (split; [cbn; tauto|reflexivity])).
  destruct G as [T ->]. apply (reads_tables dec type rs' dss'); try assumption. apply A.
Qed.
Print Assumptions C88_devices.

(** *** The columns and the cells are determined: there is only one such table *)
Theorem C88_one_table : forall dec simple rows cols cells cols' cells',
  columns_of dec (concat rows) cols -> Forall2 (fun row => Forall2 (cell_in dec simple row) cols) rows cells ->
  columns_of dec (concat rows) cols' -> Forall2 (fun row => Forall2 (cell_in dec simple row) cols') rows cells' -> cols = cols' /\ cells = cells'.
Proof. exact one_table. Qed.
Print Assumptions C88_one_table.

(** *** A file with a table of two rows: one has no value in the second column, one none in
    the third *)
Definition a_block (t : byte) (mnem value : bytes) : bytes := [t; x41; z2b (len value); x00] ++ mnem ++ text "    " ++ value.
Definition a_value (t : Z) (mnem value : bytes) : component_block := mk_component t 65 (len value) 0 mnem (text "    ") (LString value).
Lemma a_block_spec t mnem value : In (b2z t) [0; 69; 73] -> length mnem = 4%nat -> value <> [] -> len value <? 256 = true ->
  component_bytes (a_block t mnem value) (a_value (b2z t) mnem value).
Proof.
  intros T M N L. assert (E : b2z (z2b (len value)) = len value) by (rewrite b2z_z2b; apply Z.mod_small; unfold len in *; lia). unfold a_block, a_value. rewrite <- E at 2.
  apply (cb t x41 (z2b (len value)) x00 mnem (text "    ") value (LString value)); [exact T|exact M|reflexivity|]. rewrite E. apply (sv_some 65). constructor. exact N.
Qed.
Definition ex_blocks : list bytes :=
  [a_block x49 (text "TYPE") (text "PRES"); a_block x00 (text "MNEM") (text "1"); a_block x45 (text "GCOD") (text "E2E");
   a_block x00 (text "MNEM") (text "2"); a_block x45 (text "DEST") (text "PF2")].
Definition ex_name : component_block := a_value 73 (text "TYPE") (text "PRES").
Definition ex_rows : list (list component_block) :=
  [[a_value 0 (text "MNEM") (text "1"); a_value 69 (text "GCOD") (text "E2E")]; [a_value 0 (text "MNEM") (text "2"); a_value 69 (text "DEST") (text "PF2")]].
Lemma ex_holds : holds_table (concat ex_blocks) ex_name ex_rows.
Proof.
  split; [|split; [reflexivity|split; [discriminate|]]].
  - exists ex_blocks. split; [reflexivity|].
    repeat (constructor; [apply a_block_spec; [vm_compute; tauto|reflexivity|discriminate|reflexivity]|]). constructor.
  - constructor; [|constructor; [|constructor]]; (constructor; [reflexivity|intros x [<-|[]]; discriminate]).
Qed.
Definition ex_dec (b : bytes) : CommonPy.pystr := if forallb (fun c => b2z c <? 128) b then Str (map b2z b) else Raw b.
(** the file: a file header, a record of type 34 with the table, a file trailer *)
Definition C88_bytes : bytes := one_record (z2b 128) C50_data ++ one_record (z2b 34) (concat ex_blocks) ++ one_record (z2b 129) C50_data.
Definition C88_records : list (Z * Z * Z) := [(128, 62, 0); (34, 78, 62); (129, 62, 140)].
Lemma C88_layout : SpecLisLoad.layout C88_bytes true 0 [File C88_records].
Proof.
  assert (T : tail_at C88_bytes 202 []) by (exists C88_bytes; split; vm_compute; reflexivity).
  change C88_records with ([(128, 62, 0); (34, 78, 62)] ++ [(129, 62, 140)]). apply la_closed with (last := 202).
  - rec 128 C50_data 0%nat. rec 34 (concat ex_blocks) 62%nat. rec 129 C50_data 140%nat. apply ra_nil.
  - inside_tac.
  - cbn; tauto.
  - intros HH; vm_compute in HH; discriminate HH.
  - exists 202. right. exists []. split; [exists x00, 0%nat; auto|]. split; [exact T | reflexivity].
  - eapply la_end; [exists x00, 0%nat; auto | exact T].
Qed.
Example C88_example :
  SpecLisLoad.layout C88_bytes true 0 [File C88_records] /\ 12 <= len C88_bytes /\ (forall type, ~ starts_with_mark C88_bytes type) /\
  results (load quiet never_tif plain_stopped (length C88_bytes + 2) C88_bytes) (fun st f => wellsite_data f 0) =
    Some (Ok (Some [Information (mk_info 34 78 62) (ex_name :: concat ex_rows)])) /\
  holds_table (concat ex_blocks) ex_name ex_rows /\
  table_method ex_dec (ex_name :: concat ex_rows) true =
    Ok (mk_table [map b2z (text "MNEM"); map b2z (text "GCOD"); map b2z (text "DEST")]
          [[Value (LString (text "1")); Value (LString (text "E2E")); Fill]; [Value (LString (text "2")); Fill; Value (LString (text "PF2"))]]).
Proof.
  split; [exact C88_layout|]. split; [vm_compute; discriminate|]. split; [exact (proj2 (proj1 (check_plain C88_bytes) ltac:(vm_compute; reflexivity)))|].
  split; [vm_compute; reflexivity|]. split; [exact ex_holds|vm_compute; reflexivity].
Qed.

(** *** One mnemonic that does not decode takes the whole table with it: the record of the
    file still gives its components, but table() raises *)
Definition bad_row : list component_block := [a_value 0 [xff; x20; x20; x20] (text "1"); a_value 69 (text "GCOD") (text "E2E")].
Theorem C88_undecodable : exists ds c0 rows,
  holds_table ds c0 rows /\ (forall simple, table_method ex_dec (c0 :: concat rows) simple = Exn) /\
  exists rows', rows' <> [] /\ incl rows' rows /\ exists t, table_method ex_dec (c0 :: concat rows') true = Ok t.
Proof.
  exists (concat (ex_blocks ++ [a_block x00 [xff; x20; x20; x20] (text "1"); a_block x45 (text "GCOD") (text "E2E")])), ex_name, (ex_rows ++ [bad_row]).
  split; [|split].
  - split; [|split; [reflexivity|split; [discriminate|]]].
    + exists (ex_blocks ++ [a_block x00 [xff; x20; x20; x20] (text "1"); a_block x45 (text "GCOD") (text "E2E")]). split; [reflexivity|].
      repeat (constructor; [apply a_block_spec; [vm_compute; tauto|reflexivity|discriminate|reflexivity]|]). constructor.
    + repeat (constructor; [constructor; [reflexivity|intros x [<-|[]]; discriminate]|]). constructor.
  - intros []; vm_compute; reflexivity.
  - exists ex_rows. split; [discriminate|]. split; [intros x I; apply in_or_app; auto|]. eexists. vm_compute. reflexivity.
Qed.
Print Assumptions C88_undecodable.
