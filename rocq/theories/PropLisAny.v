(** Loading LIS79 files of any bytes: C83. *)
From Verif Require Import Bytes BytesProofs DlisTypes SpecTypes Stream SpecIo IoProofs LisProtocol LisIo SpecLisIo LisIoProofs3 LisIoProofs4 LisIoProofs5 PropLisIo Tapemark LisLoad SpecLisLoad LisLoadProofs LisLoadProofs3 LisLoadProofs4 LisLoadProofs5 PropLisLoad SpecLisAny LisAnyProofs.
Local Open Scope Z_scope.

(** ** C83: damage in a LIS79 file does not reach back *)

(** However a plain file goes on after a good beginning: loading returns, with at
    most one critical report, and what it returns starts with the sections of the
    beginning: the logical files with exactly their records and with their reels
    and tapes, then the logical file that the beginning ends in, with its records
    first.  All entries of all logical files are in order, inside the file and
    without overlaps, and have a header and a known type in the file.  If the
    handler raises on critical problems, the alternative is its exception. *)
Theorem C83_prefix : forall esc open_tif tif_stopped fuel data secs part,
  12 <= len data -> (forall type, ~ starts_with_mark data type) -> so_far data 0 secs part -> (length data + 2 <= fuel)%nat ->
  (exists log st later, load esc open_tif tif_stopped fuel data = (log, Ok st) /\
     (log = [] \/ log = [CRITICAL] /\ esc CRITICAL = false) /\
     loaded data (secs ++ later) st /\
     (part <> [] -> exists rs rest, later = File (part ++ rs) :: rest) /\
     ordered 0 (len data) (all_records (secs ++ later)) /\
     (forall r, In r (all_records (secs ++ later)) -> stored data r)) \/
  (load esc open_tif tif_stopped fuel data = ([CRITICAL], Exn) /\ esc CRITICAL = true).
Proof.
  intros esc ot ts fuel data secs part L N S F.
  destruct (load_any esc data ot ts fuel secs part L N S F) as (b & st & later & E & Ld & P & O & St).
  assert (St' : forall r, In r (all_records (secs ++ later)) -> stored data r) by (apply Forall_forall; exact St).
  destruct b; [left; exists [], st, later; auto 10|]. cbn [fin outcome] in E. destruct (esc CRITICAL) eqn:C; [right; auto|].
  left. exists [CRITICAL], st, later. auto 10.
Qed.
Print Assumptions C83_prefix.

(** Every file of at least 12 bytes that is no tape image is loaded, whatever it
    holds, unless the handler raises on critical problems. *)
Theorem C83_any : forall esc open_tif tif_stopped fuel data,
  12 <= len data -> (forall type, ~ starts_with_mark data type) -> (length data + 2 <= fuel)%nat -> esc CRITICAL = false ->
  exists log st secs, load esc open_tif tif_stopped fuel data = (log, Ok st) /\ (log = [] \/ log = [CRITICAL]) /\
    loaded data secs st /\ ordered 0 (len data) (all_records secs) /\
    (forall r, In r (all_records secs) -> stored data r).
Proof.
  intros esc ot ts fuel data L N F C.
  assert (S : so_far data 0 [] []) by (apply (sf_rest data 0 [] 0); [constructor | exact inside_nil | left; reflexivity]).
  destruct (C83_prefix esc ot ts fuel data [] [] L N S F) as [(log & st & later & E & Lg & Ld & _ & O & St)|[_ E]]; [|congruence].
  exists log, st, later. split; [exact E|]. split; [destruct Lg as [Lg|[Lg _]]; auto|]. auto.
Qed.
Print Assumptions C83_any.

(** *** Examples *)

(** the files of C58, then a logical file that breaks off in garbage *)
Definition C83_garbage : bytes := [x01; x02; xff; x00; x00; x00; x07].
Definition C83_bytes : bytes :=
  one_record (z2b 132) (text "R1") ++ one_record (z2b 128) [] ++ one_record x00 [x01] ++ one_record (z2b 129) [] ++
  one_record (z2b 133) (text "r1") ++ one_record (z2b 128) [] ++ one_record x00 [x02] ++ C83_garbage.
Definition C83_secs : list section :=
  [Delimiter 132 (text "R1"); File ([(128, 6, 8); (0, 7, 14)] ++ [(129, 6, 21)]); Delimiter 133 (text "r1")].
Lemma C83_so_far : so_far C83_bytes 0 C83_secs [(128, 6, 35); (0, 7, 41)].
Proof.
  unfold C83_secs.
  apply sf_delimiter with (last := 8); [one 132 (text "R1") 0%nat | cbn; tauto |].
  apply sf_closed with (last := 27);
    [rec 128 (@nil byte) 8%nat; rec 0 [x01] 14%nat; rec 129 (@nil byte) 21%nat; apply ra_nil
    | inside_tac | cbn; tauto | intros HH; vm_compute in HH; discriminate HH |].
  apply sf_delimiter with (last := 35); [one 133 (text "r1") 27%nat | cbn; tauto |].
  eapply sf_rest; [rec 128 (@nil byte) 35%nat; rec 0 [x02] 41%nat; apply ra_nil | inside_tac |].
  right. exists 128. split; [left; reflexivity | cbn; lia].
Qed.
Example C83_example :
  12 <= len C83_bytes /\ (forall type, ~ starts_with_mark C83_bytes type) /\
  so_far C83_bytes 0 C83_secs [(128, 6, 35); (0, 7, 41)] /\
  exists st, load quiet never_tif plain_stopped (length C83_bytes + 2) C83_bytes = ([CRITICAL], Ok st) /\
    map (fun f => (d_offset (lf_io f), ix_explicits (lf_index f), ix_implicits (lf_index f))) (fi_files st) =
      [(8, [mk_info 128 6 0; mk_info 129 6 13], [mk_info 0 7 6]); (35, [mk_info 128 6 0], [mk_info 0 7 6])].
Proof.
  split; [vm_compute; discriminate|]. split; [exact (proj2 (proj1 (check_plain C83_bytes) ltac:(vm_compute; reflexivity)))|].
  split; [exact C83_so_far|]. eexists. split; vm_compute; reflexivity.
Qed.

(** *** What does not hold *)

(** Not for a beginning of data records only: if a reel or tape header follows,
    the data records are lost and so is the rest of the file. *)
Definition C83_data_bytes : bytes :=
  one_record x00 [x01; x02] ++ one_record (z2b 132) (text "R1") ++ one_record (z2b 128) [] ++ one_record (z2b 129) [].
Theorem C83_data_only_refuted :
  records_at 0 C83_data_bytes 0 [(0, 8, 0); (132, 8, 8); (128, 6, 16); (129, 6, 22)] (len C83_data_bytes) /\
  12 <= len C83_data_bytes /\ (forall type, ~ starts_with_mark C83_data_bytes type) /\
  exists st, load quiet never_tif plain_stopped (length C83_data_bytes + 2) C83_data_bytes = ([CRITICAL], Ok st) /\
    fi_files st = [].
Proof.
  split; [|split; [vm_compute; discriminate|split]].
  - rec 0 [x01; x02] 0%nat. rec 132 (text "R1") 8%nat. rec 128 (@nil byte) 16%nat. rec 129 (@nil byte) 22%nat. apply ra_nil.
  - exact (proj2 (proj1 (check_plain C83_data_bytes) ltac:(vm_compute; reflexivity))).
  - eexists. split; vm_compute; reflexivity.
Qed.
Print Assumptions C83_data_only_refuted.

(** Damage is not always reported: four bytes after the last record that start
    like padding are dropped, whatever the other two are, if the file ends there
    and the record does not end on a multiple of four. *)
Definition C83_silent_bytes (x y : byte) : bytes :=
  one_record (z2b 128) [] ++ one_record (z2b 34) [x01] ++ [x00; x00; x; y].
Theorem C83_silent_refuted : forall x y,
  exists st, load quiet never_tif plain_stopped (length (C83_silent_bytes x y) + 2) (C83_silent_bytes x y) = ([], Ok st) /\
    map (fun f => (d_offset (lf_io f), ix_explicits (lf_index f), ix_implicits (lf_index f), ix_incomplete (lf_index f))) (fi_files st) =
      [(0, [mk_info 128 6 0; mk_info 34 7 6], [], false)].
Proof. intros x y. eexists. split; vm_compute; reflexivity. Qed.
Print Assumptions C83_silent_refuted.
(** the same bytes after a record that ends on a multiple of four are reported *)
Example C83_silent_contrast :
  exists st, load quiet never_tif plain_stopped 100 (one_record (z2b 128) [] ++ one_record (z2b 34) [] ++ [x00; x00; x01; x02]) = ([CRITICAL], Ok st).
Proof. eexists. vm_compute. reflexivity. Qed.
