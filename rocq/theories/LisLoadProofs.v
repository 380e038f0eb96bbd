(** Proofs about splitting LIS79 files. *)
From Verif Require Import Bytes BytesProofs DlisTypes SpecTypes TypesProofs Stream SpecIo IoProofs LisProtocol LisIo SpecLisIo LisIoProofs LisIoProofs2 LisIoProofs3 LisIoProofs4 LisIoProofs5 Tapemark LisLoad SpecLisLoad.
Local Open Scope Z_scope.
Ltac Zify.zify_post_hook ::= Z.div_mod_to_equations.

(** ** What matters of the state *)
Definition core (st : indexer) := (fi_files st, (fi_reels st, fi_reel st), (fi_tapes st, fi_tape st)).
Inductive event := EvDelimiter (rec : raw_record) | EvFile (d : device) (ix : record_index).
Definition happen (ev : event) (st : indexer) : indexer :=
  match ev with
  | EvDelimiter rec => adjust_reel_tape (fst rec) rec st
  | EvFile d ix => with_file (mk_lf d ix (fi_reel st) (fi_tape st)) st
  end.
Definition happens (evs : list event) (st : indexer) : indexer := fold_left (fun st ev => happen ev st) evs st.

Lemma happen_core ev st st' : core st = core st' -> core (happen ev st) = core (happen ev st').
Proof.
  destruct st as [o c f r i t j], st' as [o' c' f' r' i' t' j']. unfold core. cbn. intros E. injection E as -> -> -> -> ->.
  destruct ev as [[info ds]|d ix]; cbn; [|reflexivity].
  unfold adjust_reel_tape. destruct (_ =? 132); [reflexivity|]. destruct (_ =? 133); [reflexivity|].
  destruct (_ =? 130); [reflexivity|]. destruct (_ =? 131); reflexivity.
Qed.
Lemma happens_core evs : forall st st', core st = core st' -> core (happens evs st) = core (happens evs st').
Proof. induction evs as [|ev evs IH]; intros st st' E; [exact E|]. cbn. apply IH, happen_core, E. Qed.
Lemma happen_complete ev st : fi_complete (happen ev st) = fi_complete st.
Proof.
  destruct ev as [[info ds]|d ix]; cbn; [|reflexivity].
  unfold adjust_reel_tape. destruct (_ =? 132); [reflexivity|]. destruct (_ =? 133); [reflexivity|].
  destruct (_ =? 130); [reflexivity|]. destruct (_ =? 131); reflexivity.
Qed.
Lemma happen_offset ev st : fi_offset (happen ev st) = fi_offset st.
Proof.
  destruct ev as [[info ds]|d ix]; cbn; [|reflexivity].
  unfold adjust_reel_tape. destruct (_ =? 132); [reflexivity|]. destruct (_ =? 133); [reflexivity|].
  destruct (_ =? 130); [reflexivity|]. destruct (_ =? 131); reflexivity.
Qed.

Definition matches (s : dsection) (ev : event) : Prop :=
  match s, ev with
  | DDelimiter type ds, EvDelimiter (info, data) => ri_type info = type /\ data = ds
  | DFile d rs, EvFile d' ix => d' = d /\ exists b, ix = index_of rs b
  | _, _ => False
  end.

Lemma inside_nil : inside (map type_of []).
Proof. split; [intros t []|]. intros [|x a] t b E; discriminate. Qed.

(** ** Steps *)
Section steps.
Variable esc : severity -> bool.
Variable openlis : Z -> dres device.
Variable stopped : device -> Z -> Z.
Definition opens_of (o : Z) (x : option device) : Prop :=
  openlis o = match x with Some d => DOk d | None => DErr EofError end.

Lemma record_single d type ds last : record_in d type ds last -> In type record_types ->
  exists c, records_at (d_offset d) (d_data d) 0 [c] last /\ type_of c = type /\
    forall pos, exists q, read_record d (info_of c) pos = (DOk ds, q).
Proof.
  intros (p & e & A & G & R & ->) V. exists (type, len e, len p). split; [|split; [reflexivity|]].
  - change (len p) with (0 + len p) at 1. econstructor; try eassumption. rewrite Z.add_0_l. constructor.
  - intros pos. eexists. apply at_pos_app in A as [_ A]. rewrite Z.add_0_l in A.
    assert (gap (d_offset d) (len p) [] (firstn 4 e)) as G'.
    { destruct G as (_ & G1 & G2). split; [exists x00, 0%nat; auto|]. split; [exact G1|].
      destruct G2 as [[-> G2]|[_ G2]]; [left; auto | right]. change (len []) with 0. split; [discriminate|].
      rewrite Z.add_0_r in *. exact G2. }
    apply (read_record_spec d false (len p) [] type ds e); change (len []) with 0; rewrite ?Z.add_0_r; assumption.
Qed.

Lemma index_single c b : datab c = false -> index_of [c] b = mk_index [info_of c] [] b.
Proof. intros D. unfold index_of, others_of, data_of. cbn [filter]. rewrite D. reflexivity. Qed.

Lemma first_explicit rs : match map info_of (others_of rs) with
  | [] => True
  | i :: _ => In (ri_type i) (map type_of rs)
  end.
Proof.
  destruct (others_of rs) as [|r l] eqn:E; [exact I|]. cbn [map].
  assert (In r (others_of rs)) as H by (rewrite E; left; reflexivity).
  unfold others_of in H. apply filter_In in H as [H _]. apply in_map_iff. exists r. split; [reflexivity|exact H].
Qed.
Lemma size_of rs b : (length (ix_explicits (index_of rs b)) + length (ix_implicits (index_of rs b)) = length rs)%nat.
Proof.
  cbn. rewrite !map_length. unfold others_of, data_of. induction rs as [|r rs IH]; [reflexivity|].
  cbn [filter]. destruct (datab r); cbn [negb length]; lia.
Qed.
Lemma inside_no_delimiter info rs : inside (map type_of rs) -> In (ri_type info) (map type_of rs) ->
  is_delimiter_record info = false.
Proof.
  intros [I _] H. apply I in H as [H1 H2]. unfold is_delimiter_record. unfold is_delimiter, is_closing in *.
  destruct (Z.eqb_spec (ri_type info) 132) as [E|_]; [exfalso; apply H1; rewrite E; cbn; auto|].
  destruct (Z.eqb_spec (ri_type info) 133) as [E|_]; [exfalso; apply H1; rewrite E; cbn; auto|].
  destruct (Z.eqb_spec (ri_type info) 130) as [E|_]; [exfalso; apply H1; rewrite E; cbn; auto|].
  destruct (Z.eqb_spec (ri_type info) 131) as [E|_]; [exfalso; apply H1; rewrite E; cbn; auto|].
  destruct (Z.eqb_spec (ri_type info) 137) as [E|_]; [exfalso; apply H2; rewrite E; cbn; auto|].
  reflexivity.
Qed.

(** a logical file is appended *)
Lemma step_file st d rs b q : openlis (fi_offset st) = DOk d -> rs <> [] ->
  index_records d 0 = (DOk (index_of rs b), q) ->
  match map info_of (others_of rs) with [] => True | i :: _ => is_delimiter_record i = false end ->
  index_logical_file esc openlis stopped st =
  check_incomplete esc (index_of rs b) (happen (EvFile d (index_of rs b)) (with_offset (stopped d q) st)).
Proof.
  intros O N E F. unfold index_logical_file. rewrite O, E. rewrite size_of.
  change (ix_explicits (index_of rs b)) with (map info_of (others_of rs)).
  destruct (map info_of (others_of rs)) as [|i l]; [|rewrite F; reflexivity].
  destruct rs; [congruence|]. reflexivity.
Qed.
Lemma file_first rs : inside (map type_of rs) ->
  match map info_of (others_of rs) with [] => True | i :: _ => is_delimiter_record i = false end.
Proof.
  intros Hi. pose proof (first_explicit rs) as F. destruct (map info_of (others_of rs)) as [|i l]; [trivial|].
  eapply inside_no_delimiter; eassumption.
Qed.
Lemma closed_first rs c : inside (map type_of rs) -> is_closing (type_of c) ->
  (type_of c = 137 -> has_explicit (map type_of rs)) ->
  match map info_of (others_of (rs ++ [c])) with [] => True | i :: _ => is_delimiter_record i = false end.
Proof.
  intros Hi C X. pose proof (file_first rs Hi) as F. unfold others_of in *. rewrite filter_app, map_app.
  destruct (map info_of (filter _ rs)) as [|i l] eqn:E; [|exact F]. cbn [app filter].
  rewrite (closing_other c C). cbn [negb map]. destruct C as [C|[C|[]]].
  - unfold is_delimiter_record. change (ri_type (info_of c)) with (type_of c). rewrite <- C. reflexivity.
  - destruct (X (eq_sym C)) as (t & T & Nt). exfalso. apply Nt. apply map_eq_nil in E. eapply others_nil; eassumption.
Qed.

Definition fin (b : bool) : list severity := if b then [] else [CRITICAL].
Definition outcome (b : bool) (st : indexer) : res indexer :=
  if b then Ok st else if esc CRITICAL then Exn else Ok st.

Lemma course_runs b o secs : course opens_of stopped b o secs ->
  exists evs n, Forall2 matches secs evs /\
    forall st fuel, fi_offset st = o -> fi_complete st = false -> (n <= fuel)%nat ->
      exists st', core st' = core (happens evs st) /\
        index_all esc openlis stopped fuel st = (fin b, outcome b st').
Proof.
  induction 1 as [o O | b o d p secs O Sf P T C (evs & n & M & IH)
    | b o d type ds last q secs O R D N C (evs & n & M & IH)
    | b o d ds last q secs O R N C (evs & n & M & IH)
    | b o d rs c last q secs O R Ins Cl Ex N C (evs & n & M & IH)
    | b o d rs c last secs O R Ins Ex D C (evs & n & M & IH)
    | b o d rs last p secs O R Ins Ne Sf P T C (evs & n & M & IH)
    | o d O D | o d rs last O R Ins Ne D].
  - exists [], 2%nat. split; [constructor|]. intros st fuel Ho Hc Hf. exists (completed st). split; [reflexivity|].
    destruct fuel as [|[|fuel]]; [lia..|]. cbn [index_all]. rewrite Hc. unfold index_logical_file. rewrite Ho, O. reflexivity.
  - exists evs, (S n). split; [exact M|]. intros st fuel Ho Hc Hf. destruct fuel as [|fuel]; [lia|].
    cbn [index_all]. rewrite Hc. unfold index_logical_file. rewrite Ho, O.
    rewrite (file_rest d 0 [] 0 p ltac:(lia) (ra_nil _ _ _)) by (first [exact inside_nil | assumption]).
    rewrite Sf. cbn [index_of others_of data_of filter map ix_explicits ix_implicits ix_incomplete length Nat.add Nat.eqb negb check_incomplete].
    destruct (IH (with_offset (stopped d (len (d_data d))) st) fuel eq_refl Hc ltac:(lia)) as (st' & E1 & E2).
    exists st'. split; [rewrite E1; apply happens_core; reflexivity|]. unfold bind, ret. rewrite E2. reflexivity.
  - destruct (record_single d type ds last R) as (c & R1 & R2 & R3); [cbn in D; unfold record_types; cbn; intuition|]. subst type.
    exists (EvDelimiter (info_of c, ds) :: evs), (S n). split; [constructor; [split; reflexivity | exact M]|].
    intros st fuel Ho Hc Hf. destruct fuel as [|fuel]; [lia|].
    cbn [index_all]. rewrite Hc. unfold index_logical_file. rewrite Ho, O.
    rewrite (file_delimiter d 0 c last q ltac:(lia) R1 D N), (index_single c _ (delimiter_other c D)).
    cbn [ix_explicits ix_implicits ix_incomplete length Nat.add Nat.eqb negb].
    assert (is_delimiter_record (info_of c) = true) as ->.
    { unfold is_delimiter_record. change (ri_type (info_of c)) with (type_of c). cbn in D. destruct D as [<-|[<-|[<-|[<-|[]]]]]; reflexivity. }
    destruct (R3 q) as (q' & ->). cbn [check_incomplete ix_incomplete].
    change (adjust_reel_tape (info_of c) (info_of c, ds) (with_offset (stopped d q) st)) with (happen (EvDelimiter (info_of c, ds)) (with_offset (stopped d q) st)).
    destruct (IH (happen (EvDelimiter (info_of c, ds)) (with_offset (stopped d q) st)) fuel) as (st' & E1 & E2).
    { apply happen_offset. } { rewrite happen_complete. exact Hc. } { lia. }
    exists st'. split; [rewrite E1; cbn [happens fold_left]; apply happens_core, happen_core; reflexivity|].
    unfold check_incomplete. cbn [ix_incomplete]. unfold bind, ret. rewrite E2. reflexivity.
  - destruct (record_single d 137 ds last R) as (c & R1 & R2 & R3); [unfold record_types; cbn; intuition|].
    exists evs, (S n). split; [exact M|].
    intros st fuel Ho Hc Hf. destruct fuel as [|fuel]; [lia|].
    cbn [index_all]. rewrite Hc. unfold index_logical_file. rewrite Ho, O.
    assert (is_closing (type_of c)) as Cl by (rewrite R2; right; left; reflexivity).
    rewrite (file_closed d 0 [] c last q ltac:(lia) R1) by (first [exact inside_nil | assumption]).
    cbn [app]. rewrite (index_single c _ (closing_other c Cl)).
    cbn [ix_explicits ix_implicits ix_incomplete length Nat.add Nat.eqb negb].
    assert (is_delimiter_record (info_of c) = true) as ->.
    { unfold is_delimiter_record. change (ri_type (info_of c)) with (type_of c). rewrite R2. reflexivity. }
    destruct (R3 q) as (q' & ->). replace (adjust_reel_tape (info_of c) (info_of c, ds) (with_offset (stopped d q) st)) with (with_offset (stopped d q) st)
      by (unfold adjust_reel_tape; change (ri_type (info_of c)) with (type_of c); rewrite R2; reflexivity).
    destruct (IH (with_offset (stopped d q) st) fuel eq_refl Hc ltac:(lia)) as (st' & E1 & E2).
    exists st'. split; [rewrite E1; apply happens_core; reflexivity|].
    unfold check_incomplete. cbn [ix_incomplete]. unfold bind, ret. rewrite E2. reflexivity.
  - exists (EvFile d (index_of (rs ++ [c]) false) :: evs), (S n). split; [constructor; [split; [reflexivity|eexists; reflexivity] | exact M]|].
    intros st fuel Ho Hc Hf. destruct fuel as [|fuel]; [lia|]. cbn [index_all]. rewrite Hc.
    rewrite (step_file st d (rs ++ [c]) false q); [ | rewrite Ho; exact O | destruct rs; discriminate
      | apply (file_closed d 0 rs c last q ltac:(lia)); assumption | apply closed_first; assumption].
    set (st1 := happen _ (with_offset _ st)). destruct (IH st1 fuel) as (st' & E1 & E2).
    { unfold st1. apply happen_offset. } { unfold st1. rewrite happen_complete. exact Hc. } { lia. }
    exists st'. split; [rewrite E1; cbn [happens fold_left]; apply happens_core, happen_core; reflexivity|].
    unfold check_incomplete. cbn [ix_incomplete index_of]. unfold bind, ret. rewrite E2. reflexivity.
  - exists (EvFile d (index_of rs false) :: evs), (S n). split; [constructor; [split; [reflexivity|eexists; reflexivity] | exact M]|].
    intros st fuel Ho Hc Hf. destruct fuel as [|fuel]; [lia|]. cbn [index_all]. rewrite Hc.
    rewrite (step_file st d rs false (start_of c)); [ | rewrite Ho; exact O | destruct Ex as (t & T & _); destruct rs; [destruct T|discriminate]
      | apply (file_separated d 0 rs c last ltac:(lia)); assumption | apply file_first; assumption].
    set (st1 := happen _ (with_offset _ st)). destruct (IH st1 fuel) as (st' & E1 & E2).
    { unfold st1. apply happen_offset. } { unfold st1. rewrite happen_complete. exact Hc. } { lia. }
    exists st'. split; [rewrite E1; cbn [happens fold_left]; apply happens_core, happen_core; reflexivity|].
    unfold check_incomplete. cbn [ix_incomplete index_of]. unfold bind, ret. rewrite E2. reflexivity.
  - exists (EvFile d (index_of rs false) :: evs), (S n). split; [constructor; [split; [reflexivity|eexists; reflexivity] | exact M]|].
    intros st fuel Ho Hc Hf. destruct fuel as [|fuel]; [lia|]. cbn [index_all]. rewrite Hc.
    rewrite (step_file st d rs false (len (d_data d))); [ | rewrite Ho; exact O | exact Ne
      | rewrite (file_rest d 0 rs last p ltac:(lia)) by assumption; rewrite Sf; reflexivity | apply file_first; assumption].
    set (st1 := happen _ (with_offset _ st)). destruct (IH st1 fuel) as (st' & E1 & E2).
    { unfold st1. apply happen_offset. } { unfold st1. rewrite happen_complete. exact Hc. } { lia. }
    exists st'. split; [rewrite E1; cbn [happens fold_left]; apply happens_core, happen_core; reflexivity|].
    unfold check_incomplete. cbn [ix_incomplete index_of]. unfold bind, ret. rewrite E2. reflexivity.
  - exists [], 2%nat. split; [constructor|]. intros st fuel Ho Hc Hf. destruct fuel as [|[|fuel]]; [lia..|].
    destruct (file_damaged d 0 [] 0 ltac:(lia) (ra_nil _ _ _)) as (q & E); [exact inside_nil | exact D|].
    exists (completed (with_offset (stopped d q) st)). split; [reflexivity|].
    cbn [index_all]. rewrite Hc. unfold index_logical_file. rewrite Ho, O, E.
    cbn [index_of others_of data_of filter map ix_explicits ix_implicits ix_incomplete length Nat.add Nat.eqb negb].
    unfold check_incomplete. cbn [ix_incomplete]. unfold give_up, log, bind, outcome. destruct (esc CRITICAL); reflexivity.
  - exists [EvFile d (index_of rs true)], 2%nat. split; [constructor; [split; [reflexivity|eexists; reflexivity] | constructor]|].
    intros st fuel Ho Hc Hf. destruct fuel as [|[|fuel]]; [lia..|].
    destruct (file_damaged d 0 rs last ltac:(lia) R Ins D) as (q & E).
    eexists. split; [|cbn [index_all]; rewrite Hc;
      rewrite (step_file st d rs true q) by (rewrite ?Ho; first [exact O | exact Ne | exact E | apply file_first; assumption]);
      unfold check_incomplete; cbn [ix_incomplete index_of]; unfold give_up, log, bind, outcome; destruct (esc CRITICAL) eqn:Ec; [reflexivity|];
      cbn [ret fi_complete completed app]; reflexivity].
    reflexivity.
Qed.
End steps.
