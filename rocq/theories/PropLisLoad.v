(** Loading LIS79 files: C58, C59, C61. *)
From Verif Require Import Bytes BytesProofs DlisTypes SpecTypes Stream SpecIo IoProofs LisProtocol LisIo SpecLisIo LisIoProofs3 LisIoProofs4 LisIoProofs5 PropLisIo Tapemark LisLoad SpecLisLoad LisLoadProofs LisLoadProofs3 LisLoadProofs4 LisLoadProofs5.
Local Open Scope Z_scope.

(** ** C58: logical files know their reel and tape *)

(** A plain file: whatever the sequence of reels, tapes and logical files, the
    logical files are returned in order, each with the index of exactly its own
    records, with the header of its reel and tape and with the trailer that
    closes them.  Nothing is reported. *)
Theorem C58_plain : forall esc open_tif tif_stopped data secs,
  12 <= len data -> (forall type, ~ starts_with_mark data type) -> layout data true 0 secs ->
  exists st, load esc open_tif tif_stopped (length data + 2) data = ([], Ok st) /\ loaded data secs st.
Proof.
  intros esc ot ts data secs L N Y. destruct (all_plain esc data true secs _ Y (le_n _)) as (st & D & E).
  exists st. split; [|exact D]. unfold load. rewrite (proj2 (check_plain data) (conj L N)). exact E.
Qed.
Print Assumptions C58_plain.

(** Files that are read through any sequence of devices, such as tape images; the
    course of such a file assumes nothing about how devices are opened. *)
Theorem C58_devices : forall esc openlis stopped o secs,
  course (fun o x => openlis o = match x with Some d => DOk d | None => DErr EofError end) stopped true o secs ->
  exists n, forall fuel, (n <= fuel)%nat ->
    exists st, index_all esc openlis stopped fuel (new_indexer o) = ([], Ok st) /\ dloaded secs st.
Proof.
  intros esc openlis stopped o secs C. destruct (course_loaded esc openlis stopped true o secs C) as (n & st & D & A).
  exists n. intros fuel F. destruct (A fuel F) as (st' & E1 & E2). exists st'. split; [exact E2|].
  apply (dloaded_core secs st); [symmetry; exact E1 | exact D].
Qed.
Print Assumptions C58_devices.

(** Loading a plain file ends: with a result or an exception. *)
Theorem C58_ends : forall esc open_tif tif_stopped file fuel,
  check_for_tapemarks file = Ok (false, 0) -> (length file + 2 <= fuel)%nat ->
  (exists st, snd (load esc open_tif tif_stopped fuel file) = Ok st) \/
  snd (load esc open_tif tif_stopped fuel file) = Exn.
Proof.
  intros esc ot ts file fuel C F. unfold load. rewrite C.
  pose proof (all_ends esc file fuel (new_indexer 0) ltac:(cbn; lia) ltac:(cbn; pose proof (len_nonneg file); unfold len in *; lia)) as A.
  destruct (snd (index_all _ _ _ _ _)) as [st| | |]; [left; exists st; reflexivity | right; reflexivity | destruct A..].
Qed.
Print Assumptions C58_ends.

(** *** Examples *)
Definition at_b (data : bytes) (pos : nat) (x : bytes) : bool := bytes_eqb (firstn (length x) (skipn pos data)) x.
Lemma bytes_eqb_true a b : bytes_eqb a b = true -> a = b.
Proof.
  revert b. induction a as [|x a IH]; intros [|y b]; cbn; try discriminate; [reflexivity|].
  intros E. apply andb_prop in E as [E1 E2]. apply Byte.byte_dec_bl in E1. rewrite E1, (IH _ E2). reflexivity.
Qed.
Lemma at_b_pos data pos x : (pos <=? length data)%nat = true -> at_b data pos x = true -> at_pos data (Z.of_nat pos) x.
Proof.
  intros L E. apply bytes_eqb_true in E. exists (firstn pos data), (skipn (length x) (skipn pos data)).
  split; [|unfold len; rewrite firstn_length; apply Nat.leb_le in L; lia].
  rewrite <- E at 1. rewrite firstn_skipn, firstn_skipn. reflexivity.
Qed.
Lemma one_at data pos type ds : len ds < 200 -> at_pos data pos (one_record type ds) ->
  record_at data pos (b2z type) ds (pos + len (one_record type ds)).
Proof.
  intros L A. destruct (one_record_spec 0 pos type ds L) as [S G]. exists [], (one_record type ds).
  change (len []) with 0. rewrite Z.add_0_r. auto.
Qed.
Lemma one_next data pos type ds : len ds < 200 -> at_pos data pos (one_record type ds) -> In (b2z type) record_types ->
  continues data pos.
Proof.
  intros L A V. exists pos. left. eexists (_, _, pos), _. split; [|reflexivity].
  apply (one_record_at 0 data pos type ds [] _ L A V). apply ra_nil.
Qed.

(** reel 1 with a tape holding one file, then another file without tape, in the
    same reel; reel 2 is not closed *)
Definition C58_bytes : bytes :=
  one_record (z2b 132) (text "R1") ++ one_record (z2b 130) (text "T1") ++
  one_record (z2b 128) [] ++ one_record x00 [x01] ++ one_record (z2b 129) [] ++
  one_record (z2b 131) (text "t1") ++
  one_record (z2b 128) [] ++
  one_record (z2b 133) (text "r1") ++ one_record (z2b 132) (text "R2") ++
  one_record (z2b 128) [] ++ one_record (z2b 129) [] ++ [x00; x00].
Definition C58_secs : list section :=
  [Delimiter 132 (text "R1"); Delimiter 130 (text "T1"); File ([(128, 6, 16); (0, 7, 22)] ++ [(129, 6, 29)]);
   Delimiter 131 (text "t1"); File [(128, 6, 43)]; Delimiter 133 (text "r1"); Delimiter 132 (text "R2");
   File ([(128, 6, 65)] ++ [(129, 6, 71)])].
Definition never_tif (_ : bytes) (_ : Z) : dres device := DErr OtherError.
Definition quiet (_ : severity) : bool := false.
Definition view (st : indexer) :=
  map (fun f => (d_offset (lf_io f), ix_explicits (lf_index f),
                 option_map (fun o => (option_map snd (rawheader o), option_map snd (rawtrailer o))) (nth_error (fi_reels st) (lf_reel f)),
                 option_map (fun o => (option_map snd (rawheader o), option_map snd (rawtrailer o))) (nth_error (fi_tapes st) (lf_tape f))))
      (fi_files st).

Lemma inside_b (ts : list Z) :
  forallb (fun t => negb (existsb (Z.eqb t) [129; 130; 131; 132; 133; 137])) ts = true ->
  forallb (fun t => negb (t =? 128)) (tl ts) = true -> inside ts.
Proof.
  intros A B. rewrite forallb_forall in A, B. split.
  - intros t T. specialize (A t T). cbn in A. split; intros H; cbn in H; repeat destruct H as [<- | H]; try destruct H; discriminate A.
  - intros a t b -> -> x X. destruct a as [|y a]; [destruct X|]. exfalso.
    assert (C : In 128 (tl ((y :: a) ++ 128 :: b))) by (cbn; apply in_or_app; right; left; reflexivity).
    specialize (B 128 C). discriminate B.
Qed.
Ltac inside_tac := apply inside_b; reflexivity.
Ltac here n := apply (at_b_pos _ n); vm_compute; reflexivity.
Ltac one ty ds n := apply (one_at _ (Z.of_nat n) (z2b ty) ds); [reflexivity | here n].
Ltac next ty ds n := apply (one_next _ (Z.of_nat n) (z2b ty) ds); [reflexivity | here n | vm_compute; tauto].
Ltac rec ty ds n := apply (one_record_at _ _ (Z.of_nat n) (z2b ty) ds); [reflexivity | here n | vm_compute; tauto |].

Lemma C58_layout : layout C58_bytes true 0 C58_secs.
Proof.
  unfold C58_secs.
  apply la_delimiter with (last := 8); [one 132 (text "R1") 0%nat | cbn; tauto | next 130 (text "T1") 8%nat|].
  apply la_delimiter with (last := 16); [one 130 (text "T1") 8%nat | cbn; tauto | next 128 (@nil byte) 16%nat|].
  apply la_closed with (last := 35);
    [rec 128 (@nil byte) 16%nat; rec 0 [x01] 22%nat; rec 129 (@nil byte) 29%nat; apply ra_nil
    | inside_tac | cbn; tauto | intros HH; vm_compute in HH; discriminate HH | next 131 (text "t1") 35%nat|].
  apply la_delimiter with (last := 43); [one 131 (text "t1") 35%nat | cbn; tauto | next 128 (@nil byte) 43%nat|].
  apply la_open with (last := 49);
    [rec 128 (@nil byte) 43%nat; apply ra_nil | inside_tac | exists 128; split; [left; reflexivity | cbn; lia]
    | exists (133, 8, 49), 57; split; [rec 133 (text "r1") 49%nat; apply ra_nil | left; cbn; tauto] |].
  apply la_delimiter with (last := 57); [one 133 (text "r1") 49%nat | cbn; tauto | next 132 (text "R2") 57%nat|].
  apply la_delimiter with (last := 65); [one 132 (text "R2") 57%nat | cbn; tauto | next 128 (@nil byte) 65%nat|].
  assert (T : tail_at C58_bytes 77 [x00; x00]) by (exists (firstn 77 C58_bytes); split; reflexivity).
  apply la_closed with (last := 77);
    [rec 128 (@nil byte) 65%nat; rec 129 (@nil byte) 71%nat; apply ra_nil
    | inside_tac | cbn; tauto | intros HH; vm_compute in HH; discriminate HH | |].
  - exists 79. right. exists [x00; x00]. split; [exists x00, 2%nat; auto | split; [exact T | reflexivity]].
  - eapply la_end; [exists x00, 2%nat; auto | exact T].
Qed.
Example C58_example :
  layout C58_bytes true 0 C58_secs /\ 12 <= len C58_bytes /\ (forall type, ~ starts_with_mark C58_bytes type) /\
  exists st, load quiet never_tif plain_stopped (length C58_bytes + 2) C58_bytes = ([], Ok st) /\
    view st = [(16, [mk_info 128 6 0; mk_info 129 6 13], Some (Some (text "R1"), Some (text "r1")), Some (Some (text "T1"), Some (text "t1")));
               (43, [mk_info 128 6 0], Some (Some (text "R1"), Some (text "r1")), Some (None, None));
               (65, [mk_info 128 6 0; mk_info 129 6 6], Some (Some (text "R2"), None), Some (None, None))].
Proof.
  split; [exact C58_layout|]. split; [vm_compute; discriminate|]. split.
  - exact (proj2 (proj1 (check_plain C58_bytes) ltac:(vm_compute; reflexivity))).
  - eexists. split; [vm_compute; reflexivity | vm_compute; reflexivity].
Qed.

(** ** C59: tape image detection is exact *)

(** A file is taken for a tape image exactly if it starts with a mark of type 0
    or 1 whose previous pointer is below the next one; it is then read from the
    first mark of type 0 on. *)
Theorem C59_detected : forall file o,
  (check_for_tapemarks file = Ok (true, o) <->
   (exists type, starts_with_mark file type) /\ exists k, 0 <= k /\ o = 12 * k /\ first_block file k).
Proof. exact check_tif. Qed.
Print Assumptions C59_detected.

Theorem C59_not_detected : forall file,
  (check_for_tapemarks file = Ok (false, 0) <-> 12 <= len file /\ forall type, ~ starts_with_mark file type).
Proof. exact check_plain. Qed.
Print Assumptions C59_not_detected.

(** anything else raises *)
Theorem C59_otherwise : forall file,
  (exists o, check_for_tapemarks file = Ok (true, o)) \/ check_for_tapemarks file = Ok (false, 0) \/
  check_for_tapemarks file = Exn.
Proof.
  intros file. destruct (check_total file) as (N1 & N2 & N3). destruct (check_for_tapemarks file) as [[[|] o]| | |]; try congruence; eauto.
  right. left. rewrite (N3 false o eq_refl eq_refl). reflexivity.
Qed.
Print Assumptions C59_otherwise.

(** in particular a file whose first byte is not 0 or 1, such as a LIS79 file with a
    first physical record of 512 bytes or more or a DLIS file with a label, is
    not taken for one *)
Theorem C59_first_byte : forall x t, 1 < b2z x -> 11 <= len t -> check_for_tapemarks (x :: t) = Ok (false, 0).
Proof.
  intros x t H L. apply check_plain. split; [rewrite len_cons; lia|]. intros type (p & n & m & A & M & T & _).
  destruct M as (t0 & t1 & t2 & t3 & p0 & p1 & p2 & p3 & n0 & n1 & n2 & n3 & -> & E & _).
  destruct A as (pre & post & A & L'). destruct pre; [|rewrite len_cons in L'; pose proof (len_nonneg pre); lia]. injection A as -> _.
  unfold little in E. pose proof (b2z_range t1). pose proof (b2z_range t2). pose proof (b2z_range t3). lia.
Qed.
Print Assumptions C59_first_byte.

(** the check of the mark itself, which dlis.load uses too *)
Theorem C59_mark : forall file type prev next m, at_pos file 0 m -> mark type prev next m ->
  exists tm, read_tapemark file 0 = Ok tm /\ (valid_tapemark tm = true <-> (type = 0 \/ type = 1) /\ prev < next).
Proof.
  intros file type prev next m A M. exists (mk_tapemark type prev next). split; [eapply read_mark; eauto; lia | apply valid_spec].
Qed.
Print Assumptions C59_mark.

(** A valid plain file can start with bytes that make a valid mark: its first
    physical record is 256 bytes long.  Loading it then fails. *)
Theorem C59_plain_refuted : exists data secs, layout data true 0 secs /\ check_for_tapemarks data = Exn.
Proof.
  set (r := [x01; x00; x00; x00] ++ [z2b 128; x00] ++ repeat "A"%byte 250). exists r, [File [(128, 256, 0)]].
  split; [|vm_compute; reflexivity].
  apply la_last with (last := 256) (p := []); [|inside_tac | discriminate | exists x00, 0%nat; auto | exists r; split; reflexivity].
  assert (R : records_at 0 r 0 [(128, len r, 0 + len [])] (0 + len [] + len r)); [|exact R].
  econstructor; [ | | | |apply ra_nil].
  - exists [], []. split; reflexivity.
  - split; [exists x00, 0%nat; auto|]. split; [discriminate | left; split; [reflexivity | discriminate]].
  - exists (z2b 128), x00. split; [reflexivity|]. unfold r.
    replace ([x01; x00; x00; x00] ++ [z2b 128; x00] ++ repeat "A"%byte 250) with
      ([x01; x00; x00; x00] ++ (z2b 128 :: x00 :: repeat "A"%byte 250) ++ []) by (rewrite app_nil_r; reflexivity).
    apply pc_last with (a := 0); try reflexivity.
    + exists x01, x00, x00, x00. split; [reflexivity|]. split; reflexivity.
    + intros _. vm_compute. discriminate.
  - cbn; tauto.
Qed.
Print Assumptions C59_plain_refuted.

Definition le32 (z : Z) : bytes := enc_le 4 z.
Example C59_example :
  check_for_tapemarks (le32 1 ++ le32 0 ++ le32 12 ++ le32 0 ++ le32 0 ++ le32 36 ++ text "abcdefghijkl") = Ok (true, 12) /\
  check_for_tapemarks (le32 0 ++ le32 12 ++ le32 12 ++ text "abc") = Ok (false, 0) /\
  check_for_tapemarks (le32 2 ++ le32 0 ++ le32 12 ++ text "abc") = Ok (false, 0) /\
  check_for_tapemarks (text "abc") = Exn.
Proof. repeat split; vm_compute; reflexivity. Qed.

(** ** C61, LIS part: damage *)

(** A file that breaks off is a critical problem.  If its action does not raise,
    everything before is loaded. *)
Theorem C61_lis_continues : forall esc open_tif tif_stopped data secs,
  12 <= len data -> (forall type, ~ starts_with_mark data type) -> layout data false 0 secs ->
  exists st, loaded data secs st /\
    load esc open_tif tif_stopped (length data + 2) data = ([CRITICAL], if esc CRITICAL then Exn else Ok st).
Proof.
  intros esc ot ts data secs L N Y. destruct (all_plain esc data false secs _ Y (le_n _)) as (st & D & E).
  exists st. split; [exact D|]. unfold load. rewrite (proj2 (check_plain data) (conj L N)). exact E.
Qed.
Print Assumptions C61_lis_continues.

(** Damage just behind a closed logical file or a delimiter goes unreported: here
    the file ends inside the record after a file trailer, and loading it reports
    nothing, whatever the handler. *)
Theorem C61_lis_refuted : exists data rs last,
  12 <= len data /\ (forall type, ~ starts_with_mark data type) /\
  records_at 0 data 0 rs last /\ last < len data /\ damaged_at 0 data last /\
  forall esc open_tif tif_stopped,
    exists st, load esc open_tif tif_stopped (length data + 2) data = ([], Ok st) /\ length (fi_files st) = 1%nat.
Proof.
  set (r := one_record (z2b 128) [] ++ one_record (z2b 129) [] ++ [x00; z2b 100; x00; x00; z2b 128; x00; "A"%byte]).
  exists r, [(128, 6, 0); (129, 6, 6)], 12. split; [vm_compute; discriminate|]. split.
  { exact (proj2 (proj1 (check_plain r) ltac:(vm_compute; reflexivity))). }
  split; [rec 128 (@nil byte) 0%nat; rec 129 (@nil byte) 6%nat; apply ra_nil|]. split; [vm_compute; reflexivity|]. split.
  { exists [], [x00; z2b 100; x00; x00], 100, 0. split; [|split; [|split; [lia|split; [|right; left; vm_compute; reflexivity]]]].
    - split; [exists x00, 0%nat; auto|]. split; [discriminate | left; split; [reflexivity | discriminate]].
    - exists x00, (z2b 100), x00, x00. repeat split; reflexivity.
    - here 12%nat. }
  intros esc ot ts. eexists. split; vm_compute; reflexivity.
Qed.
Print Assumptions C61_lis_refuted.

(** the same damage inside a logical file *)
Definition C61_bytes : bytes := one_record (z2b 128) [] ++ one_record (z2b 34) [] ++ [x00; z2b 100; x00; x00; z2b 128; x00; "A"%byte].
Example C61_lis_example :
  layout C61_bytes false 0 [File [(128, 6, 0); (34, 6, 6)]] /\
  fst (load quiet never_tif plain_stopped (length C61_bytes + 2) C61_bytes) = [CRITICAL] /\
  snd (load (fun _ => true) never_tif plain_stopped (length C61_bytes + 2) C61_bytes) = Exn /\
  exists st, snd (load quiet never_tif plain_stopped (length C61_bytes + 2) C61_bytes) = Ok st /\ length (fi_files st) = 1%nat.
Proof.
  split; [|split; [vm_compute; reflexivity|split; [vm_compute; reflexivity|]]].
  - apply la_broken_file with (last := 12); [rec 128 (@nil byte) 0%nat; rec 34 (@nil byte) 6%nat; apply ra_nil | inside_tac | discriminate|].
    exists [], [x00; z2b 100; x00; x00], 100, 0. split; [|split; [|split; [lia|split; [|right; left; vm_compute; reflexivity]]]].
    + split; [exists x00, 0%nat; auto|]. split; [discriminate | left; split; [reflexivity | discriminate]].
    + exists x00, (z2b 100), x00, x00. repeat split; reflexivity.
    + here 12%nat.
  - eexists. split; vm_compute; reflexivity.
Qed.
