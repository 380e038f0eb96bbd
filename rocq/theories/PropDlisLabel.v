(** C79: LogicalFile.storage_label of loaded files. *)
From Verif Require Import Bytes BytesProofs Stream PyBase DlisCore SpecTypes SpecCore CommonPy SpecCommon CommonProofs CoreProofs CoreProofs2
  SpecIo SpecRecords SpecDlisLoad DlisRecords PropCore PropDlisLoad DlisLabel SpecDlisLabel.
From Verif Require DlisLoad.
Import DlisLoad (load, load_loop, new_indexer, di_files, lf_sul).
Local Open Scope Z_scope.

Lemma Forall2_length {A B} (R : A -> B -> Prop) l m : Forall2 R l m -> length l = length m.
Proof. induction 1; cbn [length]; congruence. Qed.
Lemma number_dec f : (exists n, sul_number f n) \/ forall n, ~ sul_number f n.
Proof.
  destruct (code_number f) as [n|] eqn:E; [left; exists n; apply code_number_spec; exact E|].
  right. intros n X. apply code_number_spec in X. congruence.
Qed.

(** ** Any 80 bytes *)

Theorem C79_any : forall strict seq rev lay ln id,
  length seq = 4%nat -> length rev = 5%nat -> length lay = 6%nat -> length ln = 5%nat -> length id = 60%nat ->
  gives strict seq rev lay ln id (lf_storage_label strict (Some (seq ++ rev ++ lay ++ ln ++ id))).
Proof.
  intros strict seq rev lay ln id L1 L2 L3 L4 L5.
  set (b := seq ++ rev ++ lay ++ ln ++ id).
  assert (E : lf_storage_label strict (Some b) = core_storage_label strict b).
  { unfold b. destruct seq; [discriminate L1|reflexivity]. }
  rewrite E. clear E. unfold core_storage_label.
  replace b with (seq ++ rev ++ lay ++ ln ++ id ++ []) by (unfold b; rewrite app_nil_r; reflexivity). clear b.
  destruct (C11_label_fields seq rev lay ln id [] L1 L2 L3 L4 L5) as
    [(major & minor & R & N & ->)|(R & l & -> & M1 & M2 & S1 & S2 & N1 & N2 & Y1 & Y2 & C & W)].
  { exact (gv_version _ _ _ _ _ _ _ _ R N). }
  fold (valid_fields seq rev lay ln) in W.
  destruct (label_warning l && strict) eqn:WS.
  { apply andb_true_iff in WS as [W1 ->]. apply gv_warning; [exact R| |reflexivity].
    intros X. apply W in X. congruence. }
  assert (V : valid_fields seq rev lay ln \/ strict = false).
  { apply andb_false_iff in WS as [X|X]; [left; apply W; exact X|right; exact X]. }
  destruct (utf8 (label_id l)) as [u|] eqn:U.
  - rewrite M1, M2. change (to_string 1 ++ text "." ++ to_string 0) with (text "1.0").
    apply utf8_spec in U. eapply gv_fields; [exact R|exact V|exact W| | | |exact C|exact U].
    + assert (D : (exists n, sul_number seq n /\ 0 < n) \/ forall n, sul_number seq n -> n <= 0).
      { destruct (number_dec seq) as [[n X]|X]; [|right; intros n Y; destruct (X n Y)].
        destruct (Z.leb_spec n 0) as [Y|Y]; [|left; eauto]. right. intros k K.
        rewrite (C11_number_unique _ _ _ K X). exact Y. }
      destruct D as [(n & X & Y)|D]; [left|right; auto]. rewrite (S1 n X Y). auto.
    + destruct (bytes_eq_dec lay (text "RECORD")) as [D|D]; [left|right]; auto.
    + destruct (number_dec ln) as [[n X]|X]; [left; rewrite (N1 n X); exact X|right; auto].
  - eapply gv_decode; [exact R|exact V|exact C|].
    intros u X. apply utf8_spec in X. congruence.
Qed.
Print Assumptions C79_any.

(** the fields leave no choice *)
Theorem C79_determined : forall strict seq rev lay ln id a b,
  gives strict seq rev lay ln id a -> gives strict seq rev lay ln id b -> a = b.
Proof.
  assert (T : forall u v s, utf8_text u s -> utf8_text v s -> u = v).
  { intros u v s U V. apply utf8_spec in U, V. congruence. }
  intros strict seq rev lay ln id a b A B.
  inversion A as [mj mi R N|V1 F S|s V1 F C U|w n layout m s u V1 F W SN LY LN C U]; subst;
  inversion B as [mj' mi' R' N'|V1' F' S'|s' V1' F' C' U'|w' n' layout' m' s' u' V1' F' W' SN' LY' LN' C' U']; subst;
  try reflexivity;
  try (exfalso; destruct (V1 _ _ R'); apply N'; congruence);
  try (exfalso; destruct (V1' _ _ R); apply N; congruence);
  try (exfalso; destruct F' as [F'|F']; [exact (F F')|discriminate]);
  try (exfalso; destruct F as [F|F]; [exact (F' F)|discriminate]);
  try pose proof (c_string_unique _ _ _ C C') as ->.
  - destruct (U _ U').
  - destruct (U' _ U).
  - f_equal.
    + destruct w, w'; try reflexivity; [apply W; apply W'; reflexivity|symmetry; apply W'; apply W; reflexivity].
    + destruct SN as [[X P]|[X P]], SN' as [[X' P']|[X' P']]; try congruence.
      * exact (C11_number_unique _ _ _ X X').
      * specialize (X' _ X). lia.
      * specialize (X _ X'). lia.
    + destruct LY as [[X ->]|[X ->]], LY' as [[X' ->]|[X' ->]]; congruence.
    + destruct LN as [X|[X ->]], LN' as [X'|[X' ->]]; try reflexivity.
      * exact (C11_number_unique _ _ _ X X').
      * destruct (X' _ X).
      * destruct (X _ X').
    + exact (T _ _ _ U U').
Qed.
Print Assumptions C79_determined.

(** ** Loaded files *)

(** a plain file with a valid label: each of its logical files gives the label *)
Theorem C79_labelled : forall esc ot tr strict seq ln id n m s u fs,
  length seq = 4%nat -> Forall (fun c => 32 <= b2z c) seq -> length ln = 5%nat -> length id = 60%nat ->
  sul_number seq n -> 0 < n -> sul_number ln m -> c_string_of id s -> utf8_text u s ->
  let lab := seq ++ text "V1.00" ++ text "RECORD" ++ ln ++ id in
  Forall wf_file fs -> len (lab ++ enc_files fs) < 2 ^ 63 ->
  exists st,
    (forall fuel, len (lab ++ enc_files fs) + 1 < Z.of_nat fuel -> load esc ot tr fuel (lab ++ enc_files fs) = ([], Ok st)) /\
    length (di_files st) = length fs /\
    Forall (fun x => lf_storage_label strict (lf_sul x) = Label false n (text "1.0") (text "record") m u) (di_files st).
Proof.
  intros esc ot tr strict seq ln id n m s u fs L1 P L4 L5 SN PN LN C U lab W B.
  destruct (C62_labelled esc ot tr lab fs) as (st & H & F); [|exact W|exact B|].
  { exists seq, (ln ++ id). split; [reflexivity|]. rewrite app_length, L4, L5. auto. }
  exists st. split; [exact H|]. split; [symmetry; exact (Forall2_length _ _ _ F)|].
  assert (RV : revision_text (text "V1.00") 1 0).
  { exists "1"%byte, "0"%byte, "0"%byte. unfold digit_char. cbn. repeat split; vm_compute; congruence. }
  assert (V1 : version_1 (text "V1.00")).
  { intros major minor (d & d1 & d2 & E & _ & _ & _ & -> & ->). injection E as <- <- <-. auto. }
  assert (VF : valid_fields seq (text "V1.00") (text "RECORD") ln) by (repeat split; eauto).
  assert (E : lf_storage_label strict (Some lab) = Label false n (text "1.0") (text "record") m u).
  { apply (C79_determined strict seq (text "V1.00") (text "RECORD") ln id); [apply C79_any; auto|].
    eapply gv_fields; eauto. split; auto. }
  clear - F E. induction F as [|f x fs' xs X _ IH]; constructor; [|exact IH].
  destruct X as (-> & _). exact E.
Qed.
Print Assumptions C79_labelled.

(** a plain file without a label *)
Theorem C79_unlabelled : forall esc ot tr strict fs,
  esc MINOR = false -> fs <> [] -> Forall wf_file fs -> len (enc_files fs) < 2 ^ 63 ->
  (forall k, ~ occurs_at (text "RECORD") (firstn 1700 (enc_files fs)) k) ->
  exists st,
    (forall fuel, len (enc_files fs) + 1 < Z.of_nat fuel -> load esc ot tr fuel (enc_files fs) = ([MINOR], Ok st)) /\
    length (di_files st) = length fs /\
    Forall (fun x => lf_storage_label strict (lf_sul x) = NoLabel) (di_files st).
Proof.
  intros esc ot tr strict fs Q NE W B NR.
  destruct (C62_unlabelled esc ot tr fs Q NE W B NR) as (st & H & F).
  exists st. split; [exact H|]. split; [symmetry; exact (Forall2_length _ _ _ F)|].
  clear - F. induction F as [|f x fs' xs X _ IH]; constructor; [|exact IH].
  destruct X as (-> & _). reflexivity.
Qed.
Print Assumptions C79_unlabelled.

(** Any protocol, labels that come late or again, invalid labels: a logical file has no
    label, or 80 bytes of the file and gives what they are to give. *)
Definition label_given (strict : bool) (sul : option bytes) : Prop :=
  sul = None /\ lf_storage_label strict sul = NoLabel \/
  exists seq rev lay ln id,
    length seq = 4%nat /\ length rev = 5%nat /\ length lay = 6%nat /\ length ln = 5%nat /\ length id = 60%nat /\
    sul = Some (seq ++ rev ++ lay ++ ln ++ id) /\
    gives strict seq rev lay ln id (lf_storage_label strict sul).
Lemma label_80 strict b : length b = 80%nat -> label_given strict (Some b).
Proof.
  intros L. right.
  exists (firstn 4 b), (firstn 5 (skipn 4 b)), (firstn 6 (skipn 9 b)), (firstn 5 (skipn 15 b)), (skipn 20 b).
  assert (E : b = firstn 4 b ++ firstn 5 (skipn 4 b) ++ firstn 6 (skipn 9 b) ++ firstn 5 (skipn 15 b) ++ skipn 20 b).
  { do 20 (destruct b as [|? b]; [discriminate L|]). reflexivity. }
  assert (Ls : length (firstn 4 b) = 4%nat /\ length (firstn 5 (skipn 4 b)) = 5%nat /\ length (firstn 6 (skipn 9 b)) = 6%nat /\
    length (firstn 5 (skipn 15 b)) = 5%nat /\ length (skipn 20 b) = 60%nat).
  { repeat rewrite ?firstn_length, ?skipn_length. rewrite L. cbn. auto. }
  destruct Ls as (L1 & L2 & L3 & L4 & L5). do 5 (split; [assumption|]). split; [f_equal; exact E|].
  rewrite E at 6. apply C79_any; assumption.
Qed.
Definition label_size (sul : option bytes) : Prop := match sul with None => True | Some b => length b = 80%nat end.
Lemma begins_size r sul first sul' pos l : begins r sul first sul' pos l -> label_size sul -> label_size sul'.
Proof.
  intros B S. destruct B as [q l LB Q|l LB]; [|exact S]. cbn [label_size]. unfold window. rewrite firstn_length, skipn_length.
  assert (0 <= q) by (inversion LB; subst; lia). unfold len in Q. lia.
Qed.
Lemma course_size tif os orp next sul first log fs :
  course tif os orp next sul first log fs -> label_size sul -> Forall (fun x => label_size (fst (fst (fst x)))) fs.
Proof.
  induction 1; intros S; try constructor; cbn [fst]; eauto using begins_size.
Qed.
Theorem C79_course : forall esc tif open_stream open_rp66 strict log fs,
  course tif open_stream open_rp66 0 None true log fs -> quiet esc log ->
  exists fuel0 st,
    (forall fuel, (fuel0 <= fuel)%nat -> load_loop esc tif open_stream open_rp66 fuel new_indexer = (log, Ok st)) /\
    length (di_files st) = length fs /\
    Forall (fun x => label_given strict (lf_sul x)) (di_files st).
Proof.
  intros esc tif os orp strict log fs C Q.
  destruct (C62_course esc tif os orp log fs C Q) as (f0 & st & H & F).
  exists f0, st. split; [exact H|]. split; [symmetry; exact (Forall2_length _ _ _ F)|].
  pose proof (course_size _ _ _ _ _ _ _ _ C I) as S. clear - F S.
  induction F as [|f x fs' xs X _ IH]; constructor; [|apply IH; inversion S; assumption].
  inversion S as [|? ? Z _]; subst. destruct f as [[[sul vs] recs] cs]. destruct X as (_ & -> & _). cbn [fst] in Z.
  destruct sul as [b|]; [apply label_80; exact Z|left; split; reflexivity].
Qed.
Print Assumptions C79_course.

(** ** Examples *)

Definition named_label (nm : bytes) : bytes :=
  text "   1" ++ text "V1.00" ++ text "RECORD" ++ text " 8192" ++ nm.
Definition storage_id : bytes := text "Default Storage Set" ++ repeat " "%byte 41.
Example C79_example :
  Forall (fun c => 32 <= b2z c) (text "   1") /\ sul_number (text "   1") 1 /\ sul_number (text " 8192") 8192 /\
  c_string_of storage_id storage_id /\ utf8_text (map b2z storage_id) storage_id /\
  exists st, load (fun _ => true) (fun _ _ => None) (fun _ _ => None) 500
               (named_label storage_id ++ enc_files [example_wfile (text "A"); example_wfile (text "A")]) = ([], Ok st) /\
    map (fun x => lf_storage_label true (lf_sul x)) (di_files st) =
      repeat (Label false 1 (text "1.0") (text "record") 8192 (map b2z storage_id)) 2.
Proof.
  split; [repeat constructor; vm_compute; discriminate|].
  split. { apply (sul_number_intro (text "   ") (text "1") [] []); repeat constructor; unfold digit_char; try discriminate; vm_compute; auto; congruence. }
  split. { apply (sul_number_intro [x20] (text "8192") [] []); repeat constructor; unfold digit_char; try discriminate; vm_compute; auto; congruence. }
  split. { split; [|exists []; rewrite app_nil_r; auto]. intros X. assert (Y : existsb (beqb x00) storage_id = true) by (apply existsb_exists; exists x00; auto). discriminate Y. }
  split. { apply utf8_spec. vm_compute. reflexivity. }
  eexists. split; [vm_compute; reflexivity|vm_compute; reflexivity].
Qed.

(** "The label can be read like other text of the file" is false: whatever the
    encodings, an id that is not UTF-8 makes storage_label raise, although the same
    bytes as a name in the file would be decoded. *)
Definition latin_id : bytes := text "Sn" ++ [xf8] ++ text "hvit" ++ repeat " "%byte 53.
Theorem C79_encodings_refuted :
  exists st, load (fun _ => true) (fun _ _ => None) (fun _ _ => None) 500
               (named_label latin_id ++ enc_files [example_wfile (text "A")]) = ([], Ok st) /\
    (forall strict, map (fun x => lf_storage_label strict (lf_sul x)) (di_files st) = [RaisesUnicodeDecodeError]) /\
    forall codec : unit -> bytes -> option (list Z), codec tt latin_id = Some (map b2z latin_id) ->
      decode_str unit codec true [tt] latin_id = (false, Some (Str (map b2z latin_id))).
Proof.
  eexists. split; [vm_compute; reflexivity|]. split; [intros []; vm_compute; reflexivity|].
  intros codec H. unfold decode_str. replace (utf8 (c_string latin_id)) with (@None (list Z)) by (vm_compute; reflexivity).
  cbn [try_encodings]. rewrite H. reflexivity.
Qed.
Print Assumptions C79_encodings_refuted.
