(** Proofs about loading LIS79 files of any bytes. *)
From Verif Require Import Bytes BytesProofs DlisTypes SpecTypes TypesProofs Stream SpecIo IoProofs LisProtocol LisIo SpecLisIo LisIoProofs LisIoProofs2 LisIoProofs3 LisIoProofs4 LisIoProofs5 Tapemark LisLoad SpecLisLoad LisLoadProofs LisLoadProofs2 LisLoadProofs3 LisLoadProofs4 LisLoadProofs5 SpecLisAny.
Local Open Scope Z_scope.

(** ** Sequences *)
Lemma ordered_app l l' a b c : ordered a b l -> ordered b c l' -> a <= b -> b <= c -> ordered a c (l ++ l').
Proof.
  revert a. induction l as [|r l IH]; intros a O O' H H'; cbn [app ordered] in *.
  - eapply ordered_mono; eauto. lia.
  - destruct O as (O1 & O2 & O3). split; [lia|]. split; [lia|]. apply IH; auto. lia.
Qed.

(** ** Indexing any device *)
Lemma index_of_snoc rs r b : index_of (rs ++ [r]) b =
  mk_index (if datab r then ix_explicits (index_of rs b) else ix_explicits (index_of rs b) ++ [info_of r])
           (if datab r then ix_implicits (index_of rs b) ++ [info_of r] else ix_implicits (index_of rs b)) b.
Proof.
  unfold index_of, others_of, data_of. rewrite !filter_snoc. destruct (datab r); cbn [negb]; rewrite !map_app; cbn [map];
    rewrite ?app_nil_r; reflexivity.
Qed.
Lemma tuple_back i : info_of (tuple i) = i.
Proof. destruct i. reflexivity. Qed.
Lemma data_type i : datab (tuple i) = (ri_type i =? 0) || (ri_type i =? 1).
Proof. unfold datab, type_of, tuple. cbn. rewrite orb_false_r. reflexivity. Qed.

Lemma loop_trace d : forall fuel rs0 pos, 0 <= pos -> pos <= d_size d ->
  d_size d - pos < Z.of_nat fuel ->
  exists rs b q, index_records_loop fuel d (map info_of (others_of rs0)) (map info_of (data_of rs0)) pos = (DOk (index_of (rs0 ++ rs) b), q) /\
    pos <= q /\ ordered pos (Z.min q (d_size d)) rs /\ Forall (stored (d_data d)) rs.
Proof.
  induction fuel as [|fuel IH]; intros rs0 pos Hp Hs Hf; [lia|]. cbn [index_records_loop].
  pose proof (index_record_inv d pos Hp) as I. destruct (index_record d pos) as [[i|e|] p1]; [| |destruct I].
  2: { assert (Nil : forall b, exists rs b' q, (DOk (mk_index (map info_of (others_of rs0)) (map info_of (data_of rs0)) b), p1) = (DOk (index_of (rs0 ++ rs) b'), q) /\
         pos <= q /\ ordered pos (Z.min q (d_size d)) rs /\ Forall (stored (d_data d)) rs).
       { intros b. exists [], b, p1. rewrite app_nil_r. split; [reflexivity|]. split; [apply I|]. split; [exact Logic.I | constructor]. }
       destruct e; apply Nil. }
  destruct I as (I1 & I2 & I3 & I4 & I5 & l & a & h & t & x & J1 & J2 & J3 & _ & J5 & J6).
  assert (St : stored (d_data d) (tuple i)).
  { exists l, a, h, t, x. unfold tuple, type_of, start_of. cbn [fst snd]. auto 10. }
  set (im' := if (ri_type i =? 0) || (ri_type i =? 1) then map info_of (data_of rs0) ++ [i] else map info_of (data_of rs0)).
  set (ex' := if (ri_type i =? 0) || (ri_type i =? 1) then map info_of (others_of rs0) else map info_of (others_of rs0) ++ [i]).
  assert (Ee : forall b, mk_index ex' im' b = index_of (rs0 ++ [tuple i]) b).
  { intros b. rewrite index_of_snoc, tuple_back, data_type. reflexivity. }
  assert (One : ordered pos p1 [tuple i]).
  { cbn [ordered]. unfold start_of, stop_of, tuple. cbn [fst snd]. lia. }
  assert (N : exists rs b q, index_records_loop fuel d ex' im' p1 = (DOk (index_of (rs0 ++ rs) b), q) /\
    pos <= q /\ ordered pos (Z.min q (d_size d)) rs /\ Forall (stored (d_data d)) rs).
  { pose proof (Ee false) as E0. unfold index_of in E0. injection E0 as E1 E2. rewrite E1, E2.
    destruct (IH (rs0 ++ [tuple i]) p1 ltac:(lia) ltac:(lia) ltac:(lia)) as (rs & b & q & A1 & A2 & A3 & A4).
    exists (tuple i :: rs), b, q. rewrite A1, <- app_assoc. split; [reflexivity|]. split; [lia|].
    split; [|constructor; assumption]. apply (ordered_app [tuple i] rs pos p1); [exact One | exact A3 | lia | lia]. }
  assert (R : exists rs b q, dbind (reposition_tell d) (fun _ => dret (mk_index ex' im' false)) p1 = (DOk (index_of (rs0 ++ rs) b), q) /\
    pos <= q /\ ordered pos (Z.min q (d_size d)) rs /\ Forall (stored (d_data d)) rs).
  { unfold dbind, reposition_tell. pose proof (index_record_inv d p1 ltac:(lia)) as J.
    assert (X : forall q, p1 <= q -> exists rs b q', dret (mk_index ex' im' false) q = (DOk (index_of (rs0 ++ rs) b), q') /\
      pos <= q' /\ ordered pos (Z.min q' (d_size d)) rs /\ Forall (stored (d_data d)) rs).
    { intros q Q. exists [tuple i], false, q. unfold dret. rewrite Ee. split; [reflexivity|]. split; [lia|].
      split; [eapply ordered_mono; [exact One | lia | lia] | constructor; [exact St | constructor]]. }
    destruct (index_record d p1) as [[j|e|] p2]; [apply X; lia | apply X; lia | destruct J]. }
  assert (S1 : im' = map info_of (data_of rs0) -> exists rs b q, (DOk (mk_index (map info_of (others_of rs0)) im' false), ri_ltell i) = (DOk (index_of (rs0 ++ rs) b), q) /\
    pos <= q /\ ordered pos (Z.min q (d_size d)) rs /\ Forall (stored (d_data d)) rs).
  { intros ->. exists [], false, (ri_ltell i). rewrite app_nil_r. split; [reflexivity|]. split; [exact I1|]. split; [exact Logic.I | constructor]. }
  destruct ((ri_type i =? 132) || _ || _ || _) eqn:ED.
  { destruct (1 <? _)%nat; [apply S1; unfold im' | exact R].
    destruct ((ri_type i =? 0) || (ri_type i =? 1)) eqn:E01; [exfalso; lia | reflexivity]. }
  destruct (Z.eqb_spec (ri_type i) 128) as [E8|E8].
  { destruct (_ =? 1)%nat; [exact N|]. apply S1. unfold im'. rewrite E8. reflexivity. }
  destruct ((ri_type i =? 137) || _); [exact R | exact N].
Qed.

Lemma records_trace d : exists rs b q, index_records d 0 = (DOk (index_of rs b), q) /\
  0 <= q /\ ordered 0 (Z.min q (d_size d)) rs /\ Forall (stored (d_data d)) rs.
Proof.
  pose proof (len_nonneg (d_data d)) as L.
  destruct (loop_trace d (S (length (d_data d))) [] 0 ltac:(lia) L) as (rs & b & q & H); [unfold d_size, len; lia|].
  exists rs, b, q. exact H.
Qed.
(** a good beginning *)
Lemma records_stored d : forall rs pos last, records_at (d_offset d) (d_data d) pos rs last -> 0 <= pos ->
  ordered pos last rs /\ Forall (stored (d_data d)) rs /\ pos <= last.
Proof.
  induction rs as [|r rs IH]; intros pos last R Hp; [inversion R; subst; split; [exact I | split; [constructor | lia]]|].
  pose proof (records_head d pos r rs last R) as (E & R' & S). pose proof (index_record_inv d pos Hp) as I. rewrite E in I.
  destruct I as (I1 & I2 & I3 & I4 & I5 & l & a & h & t & x & J1 & J2 & J3 & _ & J5 & J6).
  destruct r as [[ty sz] st]. unfold info_of, stop_of in *. cbn [fst snd ri_ltell ri_size ri_type] in *.
  destruct (IH _ _ R' ltac:(lia)) as (A1 & A2 & A3). split; [|split; [constructor; [|exact A2]|lia]].
  - cbn [ordered]. unfold start_of, stop_of in *. cbn [fst snd] in *. split; [lia|]. split; [lia | exact A1].
  - exists l, a, h, t, x. unfold type_of, start_of. cbn [fst snd]. auto 10.
Qed.
Lemma part_trace d rs last : records_at (d_offset d) (d_data d) 0 rs last -> inside (map type_of rs) ->
  exists more b q, index_records d 0 = (DOk (index_of (rs ++ more) b), q) /\
    0 <= q /\ ordered 0 (Z.min q (d_size d)) (rs ++ more) /\ Forall (stored (d_data d)) (rs ++ more).
Proof.
  intros R Hi.
  pose proof (fuel_rest d rs 0 last ltac:(lia) R) as F. destruct (records_bound _ _ _ _ _ R ltac:(lia)) as [B1 B2].
  pose proof (index_insides d rs 0 last true [] [] _ R (inside_insides _ Hi) (fun _ => eq_refl) F) as I.
  destruct (records_stored d rs 0 last R ltac:(lia)) as (O & Sr & Hl).
  assert (Hd : last <= d_size d).
  { destruct rs; [inversion R; subst; unfold d_size, len; lia|]. apply B2. discriminate. }
  destruct (loop_trace d (S (length (d_data d)) - length rs) rs last) as (more & b' & q' & E' & Q & O' & Sr').
  - lia.
  - exact Hd.
  - unfold d_size in *. lia.
  - exists more, b', q'. unfold index_records. rewrite I. cbn [app]. split; [exact E'|]. split; [lia|]. split.
    + eapply ordered_app; [exact O | exact O' | lia | lia].
    + apply Forall_app. split; assumption.
Qed.

(** where indexing stops after a closing record *)
Lemma reposition_total d pos : 0 <= pos -> exists q, reposition_tell d pos = (DOk tt, q) /\ pos <= q.
Proof.
  intros Hp. unfold reposition_tell. pose proof (index_record_inv d pos Hp) as J.
  destruct (index_record d pos) as [[j|e|] p]; [eexists; split; [reflexivity|lia] | eexists; split; [reflexivity|lia] | destruct J].
Qed.
Lemma closed_any d rs c last : records_at (d_offset d) (d_data d) 0 (rs ++ [c]) last -> inside (map type_of rs) -> is_closing (type_of c) ->
  exists q, index_records d 0 = (DOk (index_of (rs ++ [c]) false), q) /\ last <= q /\
    forall q', next_start (d_offset d) (d_data d) last q' -> q' = q.
Proof.
  intros R I C. pose proof (records_last _ _ _ _ _ R ltac:(lia)) as Hlast.
  destruct (reposition_total d last Hlast) as (q & E & Q). exists q. split; [|split; [exact Q|]].
  - apply records_app in R as (mid & R1 & R2). unfold index_records.
    pose proof (fuel_rest d rs 0 mid ltac:(lia) R1) as F.
    rewrite (index_insides d rs 0 mid true [] [] _ R1 (inside_insides _ I) (fun _ => eq_refl) F).
    destruct (S (length (d_data d)) - length rs)%nat as [|fuel] eqn:Ef; [lia|].
    apply records_head in R2 as (E2 & R2 & _). rewrite (step_closing d fuel _ _ _ c _ E2 C). inversion R2; subst.
    unfold dbind. rewrite E. unfold dret, index_of, others_of, data_of.
    rewrite !filter_snoc, (closing_other c C), !map_app. cbn [negb map app]. rewrite app_nil_r. reflexivity.
  - intros q' N. rewrite (reposition_next d last q' Hlast N) in E. congruence.
Qed.
Lemma delimiter_any d c last : records_at (d_offset d) (d_data d) 0 [c] last -> is_delimiter (type_of c) ->
  exists q, index_records d 0 = (DOk (index_of [c] false), q) /\ last <= q /\
    forall q', next_start (d_offset d) (d_data d) last q' -> q' = q.
Proof.
  intros R C. pose proof (records_last _ _ _ _ _ R ltac:(lia)) as Hlast.
  destruct (reposition_total d last Hlast) as (q & E & Q). exists q. split; [|split; [exact Q|]].
  - unfold index_records. apply records_head in R as (E2 & R & _). rewrite (step_first d _ _ _ c _ E2 C). inversion R; subst.
    unfold dbind. rewrite E. unfold dret, index_of, others_of, data_of. cbn [filter]. rewrite (delimiter_other c C). reflexivity.
  - intros q' N. rewrite (reposition_next d last q' Hlast N) in E. congruence.
Qed.

(** ** Positions in the file *)
Definition fwd (o : Z) (r : Z * Z * Z) : Z * Z * Z := (fst r, snd r + o).
Lemma back_fwd o rs : map (back o) (map (fwd o) rs) = rs.
Proof. rewrite map_map. rewrite <- (map_id rs) at 2. apply map_ext. intros [r x]. unfold back, fwd. cbn. f_equal. lia. Qed.
Lemma fwd_back o rs : map (fwd o) (map (back o) rs) = rs.
Proof. rewrite map_map. rewrite <- (map_id rs) at 2. apply map_ext. intros [r x]. unfold back, fwd. cbn. f_equal. lia. Qed.
Lemma ordered_fwd o : forall rs a b, ordered a b rs -> ordered (a + o) (b + o) (map (fwd o) rs).
Proof.
  induction rs as [|[r x] rs IH]; intros a b; cbn [ordered map]; [trivial|]. unfold start_of, stop_of, fwd in *. cbn [fst snd].
  intros (A & B & C). split; [lia|]. split; [lia|]. replace (x + o + snd r) with (x + snd r + o) by lia. apply IH, C.
Qed.
Lemma ordered_start rs : forall a b, ordered a b rs -> forall r, In r rs -> a <= start_of r.
Proof.
  induction rs as [|r rs IH]; intros a b O x; [intros []|]. cbn [ordered] in O. destruct O as (O1 & O2 & O3).
  intros [<-|X]; [lia|].
  specialize (IH _ _ O3 x X). unfold start_of, stop_of in *. lia.
Qed.
Lemma stored_fwd data o r : 0 <= o <= len data -> 0 <= start_of r -> stored (from o data) r -> stored data (fwd o r).
Proof.
  intros Ho Hs (l & a & h & t & x & H1 & H2 & (pre & post & E & L) & H4). exists l, a, h, t, x. split; [exact H1|]. split; [exact H2|].
  split; [|exact H4]. exists (firstn (Z.to_nat o) data ++ pre), post. split.
  - rewrite <- app_assoc, <- E. unfold from. symmetry. apply firstn_skipn.
  - rewrite len_app, L. unfold fwd, start_of, len in *. cbn [snd]. rewrite firstn_length. lia.
Qed.

(** ** Runs *)
Section runs.
Variable esc : severity -> bool.
Variable data : bytes.
Notation Step := (index_logical_file esc (open_plain data) plain_stopped).
Notation All := (index_all esc (open_plain data) plain_stopped).

Definition good (o : Z) (secs : list section) : Prop :=
  ordered o (len data) (all_records secs) /\ Forall (stored data) (all_records secs).
Definition run (o : Z) (secs : list section) (part : list (Z * Z * Z)) : Prop :=
  forall st fuel, fi_offset st = o -> fi_complete st = false -> Z.max 0 (len data - o) + 1 < Z.of_nat fuel ->
  exists b st' later dsecs evs, All fuel st = (fin b, outcome esc b st') /\ core st' = core (happens evs st) /\
    Forall2 matches dsecs evs /\ Forall2 (fun s s' => related s s' data) (secs ++ later) dsecs /\
    (part <> [] -> exists rs rest, later = File (part ++ rs) :: rest) /\ good o (secs ++ later).

Lemma good_nil o : good o [].
Proof. split; [exact I | constructor]. Qed.
Lemma good_file o o1 rs secs : ordered o o1 rs -> Forall (stored data) rs -> o <= o1 -> o1 <= len data -> good o1 secs -> good o (File rs :: secs).
Proof.
  intros O S H1 H2 [G1 G2]. split; cbn [all_records flat_map].
  - eapply ordered_app; eauto.
  - apply Forall_app. auto.
Qed.
Lemma good_mono o o1 secs : o <= o1 -> good o1 secs -> good o secs.
Proof. intros H [G1 G2]. split; [eapply ordered_mono; [exact G1 | lia | lia] | exact G2]. Qed.
Lemma good_end o o1 rs secs : ordered o (Z.min o1 (len data)) rs -> Forall (stored data) rs -> o <= len data -> o <= o1 -> good o1 secs -> good o (File rs :: secs).
Proof.
  intros O S Hl H G. eapply (good_file o (Z.min o1 (len data))); auto; try lia. eapply good_mono; [|exact G]. lia.
Qed.

(** one more section in front *)
Lemma run_step o o1 s ev ds secs part :
  (forall st, fi_offset st = o -> fi_complete st = false -> exists st1, Step st = ([], Ok st1) /\ core st1 = core (happen ev st) /\
     fi_offset st1 = o1 /\ fi_complete st1 = false) ->
  o < o1 -> o < len data -> matches ds ev -> related s ds data ->
  (forall later, good o1 later -> good o (s :: later)) ->
  run o1 secs part -> run o (s :: secs) part.
Proof.
  intros St H Hl M Rl G Rn st fuel Ho Hc Hf. destruct fuel as [|fuel]; [lia|]. destruct (St st Ho Hc) as (st1 & E1 & E2 & E3 & E4).
  destruct (Rn st1 fuel E3 E4 ltac:(lia)) as (b & st' & later & dsecs & evs & A1 & A2 & A3 & A4 & A5 & A6).
  exists b, st', later, (ds :: dsecs), (ev :: evs). split.
  { cbn [index_all]. rewrite Hc. unfold bind. rewrite E1, A1. reflexivity. }
  split; [rewrite A2; cbn [happens fold_left]; apply happens_core; exact E2|].
  split; [constructor; assumption|]. split; [constructor; assumption|]. split; [exact A5|].
  exact (G (secs ++ later) A6).
Qed.
Lemma run_skip o o1 secs part :
  (forall st, fi_offset st = o -> fi_complete st = false -> exists st1, Step st = ([], Ok st1) /\ core st1 = core st /\
     fi_offset st1 = o1 /\ fi_complete st1 = false) ->
  o < o1 -> o < len data -> run o1 secs part -> run o secs part.
Proof.
  intros St H Hl Rn st fuel Ho Hc Hf. destruct fuel as [|fuel]; [lia|]. destruct (St st Ho Hc) as (st1 & E1 & E2 & E3 & E4).
  destruct (Rn st1 fuel E3 E4 ltac:(lia)) as (b & st' & later & dsecs & evs & A1 & A2 & A3 & A4 & A5 & A6).
  exists b, st', later, dsecs, evs. split.
  { cbn [index_all]. rewrite Hc. unfold bind. rewrite E1, A1. reflexivity. }
  split; [rewrite A2; apply happens_core; exact E2|].
  split; [assumption|]. split; [assumption|]. split; [exact A5|]. eapply good_mono; [|exact A6]. lia.
Qed.
(** the end, with an event or without *)
Lemma run_give_up o s ev ds part :
  (forall st, fi_offset st = o -> fi_complete st = false -> exists st1, Step st = give_up esc st1 /\ core st1 = core (happen ev st)) ->
  matches ds ev -> related s ds data -> good o [s] -> (part <> [] -> exists rs, s = File (part ++ rs)) ->
  run o [] part.
Proof.
  intros St M Rl G P st fuel Ho Hc Hf. destruct fuel as [|[|fuel]]; [lia..|]. destruct (St st Ho Hc) as (st1 & E1 & E2).
  exists false, (completed st1), [s], [ds], [ev]. split.
  { cbn [index_all]. rewrite Hc, E1. unfold give_up, log, bind, outcome. destruct (esc CRITICAL); reflexivity. }
  split; [exact E2|]. split; [constructor; [exact M | constructor]|]. split; [constructor; [exact Rl | constructor]|].
  split; [|exact G]. intros N. destruct (P N) as (rs & ->). exists rs, []. reflexivity.
Qed.
Lemma run_give_up_bare o :
  (forall st, fi_offset st = o -> fi_complete st = false -> exists st1, Step st = give_up esc st1 /\ core st1 = core st) ->
  run o [] [].
Proof.
  intros St st fuel Ho Hc Hf. destruct fuel as [|[|fuel]]; [lia..|]. destruct (St st Ho Hc) as (st1 & E1 & E2).
  exists false, (completed st1), [], [], []. split.
  { cbn [index_all]. rewrite Hc, E1. unfold give_up, log, bind, outcome. destruct (esc CRITICAL); reflexivity. }
  split; [exact E2|]. split; [constructor|]. split; [constructor|]. split; [congruence | apply good_nil].
Qed.
Lemma run_end o : len data <= o -> run o [] [].
Proof.
  intros H st fuel Ho Hc Hf. destruct fuel as [|[|fuel]]; [lia..|].
  exists true, (completed st), [], [], []. split.
  { cbn [index_all]. rewrite Hc. unfold index_logical_file. rewrite Ho, (opens_none data o H). reflexivity. }
  split; [reflexivity|]. split; [constructor|]. split; [constructor|]. split; [congruence | apply good_nil].
Qed.
Lemma run_forget o secs part : run o secs part -> run o secs [].
Proof.
  intros R st fuel Ho Hc Hf. destruct (R st fuel Ho Hc Hf) as (b & st' & later & dsecs & evs & A1 & A2 & A3 & A4 & A5 & A6).
  exists b, st', later, dsecs, evs. repeat (split; [assumption|]). split; [congruence | exact A6].
Qed.

(** *** One logical file, whatever follows *)
Lemma file_parts o rs q : 0 <= o < len data ->
  0 <= q -> ordered 0 (Z.min q (d_size (plain_device data o))) rs -> Forall (stored (d_data (plain_device data o))) rs ->
  ordered o (Z.min (plain_stopped (plain_device data o) q) (len data)) (map (fwd o) rs) /\
  Forall (stored data) (map (fwd o) rs) /\
  related (File (map (fwd o) rs)) (DFile (plain_device data o) rs) data.
Proof.
  intros Ho Q O S. change (d_size (plain_device data o)) with (len (from o data)) in O. change (d_data (plain_device data o)) with (from o data) in *.
  rewrite from_len in O by lia. unfold plain_stopped. cbn [plain_device d_offset].
  split; [|split].
  - apply (ordered_fwd o) in O. eapply ordered_mono; [exact O | lia | lia].
  - apply Forall_forall. intros r Hr. apply in_map_iff in Hr as (r' & <- & Hr). rewrite Forall_forall in S.
    apply stored_fwd; [lia | | apply S, Hr]. eapply ordered_start; [exact O | exact Hr].
  - exists o. split; [lia|]. split; [|split; [reflexivity | symmetry; apply back_fwd]].
    intros r Hr. apply in_map_iff in Hr as (r' & <- & Hr). pose proof (ordered_start _ _ _ O r' Hr). unfold fwd, start_of in *. cbn [snd]. lia.
Qed.
Lemma nonempty_ahead o rs q : ordered 0 (Z.min q o) rs -> rs <> [] -> 0 < q.
Proof. destruct rs as [|r rs]; [congruence|]. cbn [ordered]. lia. Qed.

Lemma empty_index rs b : ix_explicits (index_of rs b) = [] -> ix_implicits (index_of rs b) = [] -> rs = [].
Proof. pose proof (size_of rs b) as L. intros E1 E2. rewrite E1, E2 in L. destruct rs; [reflexivity | discriminate]. Qed.

(** the file begins with [rs] and is no delimiter *)
Lemma run_file o rs b q part :
  0 <= o < len data -> rs <> [] ->
  index_records (plain_device data o) 0 = (DOk (index_of rs b), q) -> 0 <= q ->
  ordered 0 (Z.min q (d_size (plain_device data o))) rs -> Forall (stored (d_data (plain_device data o))) rs ->
  match map info_of (others_of rs) with [] => True | i :: _ => is_delimiter_record i = false end ->
  (part <> [] -> exists more, map (fwd o) rs = part ++ more) ->
  (forall o1, o < o1 -> run o1 [] []) -> run o [] part.
Proof.
  intros Ho N E Q O S F P IH. destruct (file_parts o rs q Ho Q O S) as (O' & S' & Rl).
  pose proof (nonempty_ahead _ _ _ O N) as Q1.
  set (d := plain_device data o) in *. set (s := File (map (fwd o) rs)).
  assert (St : forall st, fi_offset st = o -> Step st = check_incomplete esc (index_of rs b) (happen (EvFile d (index_of rs b)) (with_offset (plain_stopped d q) st))).
  { intros st Hst. apply step_file; try assumption. rewrite Hst. apply opens_some. lia. }
  assert (Hq : o < plain_stopped d q) by (unfold plain_stopped, d; cbn; lia).
  assert (M : matches (DFile d rs) (EvFile d (index_of rs b))) by (split; [reflexivity | eexists; reflexivity]).
  assert (G : good o [s]). { eapply good_end; [exact O' | exact S' | lia | lia | apply good_nil]. }
  assert (P' : part <> [] -> exists rs', s = File (part ++ rs')). { intros Np. destruct (P Np) as (more & Em). exists more. unfold s. rewrite Em. reflexivity. }
  destruct b.
  - eapply run_give_up; [|exact M | exact Rl | exact G | exact P'].
    intros st Hst Hc. eexists. split; [rewrite St by exact Hst; reflexivity | apply happen_core; reflexivity].
  - pose proof (IH _ Hq) as Rn.
    assert (R1 : run o [s] []).
    { eapply run_step with (o1 := plain_stopped d q); [|exact Hq | lia | exact M | exact Rl | | exact Rn].
      - intros st Hst Hc. eexists. split; [rewrite St by exact Hst; reflexivity|]. split; [apply happen_core; reflexivity|].
        split; [rewrite happen_offset; reflexivity | rewrite happen_complete; exact Hc].
      - intros later Gl. eapply good_end; [exact O' | exact S' | lia | lia | exact Gl]. }
    intros st fuel Hst Hc Hf. destruct (R1 st fuel Hst Hc Hf) as (b & st' & later & dsecs & evs & A1 & A2 & A3 & A4 & A5 & A6).
    exists b, st', ([s] ++ later), dsecs, evs. repeat (split; [assumption|]). split; [|exact A6].
    intros Np. destruct (P' Np) as (rs' & ->). exists rs', later. reflexivity.
Qed.

Lemma run_any : forall n o, 0 <= o -> Z.max 0 (len data - o) < Z.of_nat n -> run o [] [].
Proof.
  induction n as [|n IH]; intros o Ho Hn; [lia|].
  destruct (Z_lt_ge_dec o (len data)) as [B|B]; [|apply run_end; lia].
  assert (IH' : forall o1, o < o1 -> run o1 [] []) by (intros o1 H1; apply IH; lia).
  destruct (records_trace (plain_device data o)) as (rs & b & q & E & Q & O & S).
  set (d := plain_device data o) in *.
  destruct (map info_of (others_of rs)) as [|f l] eqn:X.
  - destruct rs as [|r rs].
    + (* nothing *)
      assert (Op : forall st, fi_offset st = o -> Step st = check_incomplete esc (index_of [] b) (with_offset (plain_stopped d q) st)).
      { intros st Hst. unfold index_logical_file. rewrite Hst, (opens_some data o) by lia. fold d. rewrite E. reflexivity. }
      destruct b.
      * apply run_give_up_bare. intros st Hst Hc. eexists. split; [rewrite Op by exact Hst; reflexivity | reflexivity].
      * apply run_skip with (o1 := plain_stopped d q); [| | lia | ].
        -- intros st Hst Hc. eexists. split; [rewrite Op by exact Hst; reflexivity|]. split; [reflexivity|]. split; [reflexivity | exact Hc].
        -- pose proof (empty_end d 0 _ q ltac:(lia) E eq_refl eq_refl eq_refl) as Z. unfold plain_stopped, d. cbn [plain_device d_offset].
           change (d_size d) with (len (from o data)) in Z. rewrite from_len in Z by lia. lia.
        -- apply IH'. pose proof (empty_end d 0 _ q ltac:(lia) E eq_refl eq_refl eq_refl) as Z. unfold plain_stopped, d. cbn [plain_device d_offset].
           change (d_size d) with (len (from o data)) in Z. rewrite from_len in Z by lia. lia.
    + eapply (run_file o (r :: rs) b q []); try eassumption; try lia; try discriminate; [rewrite X; exact I | congruence].
  - destruct (is_delimiter_record f) eqn:D.
    2: { eapply (run_file o rs b q []); try eassumption; try lia; try discriminate; [destruct rs; discriminate | rewrite X; exact D | congruence]. }
    assert (N : rs <> []) by (destruct rs; discriminate). pose proof (nonempty_ahead _ _ _ O N) as Q1.
    assert (Hq : o < plain_stopped d q) by (unfold plain_stopped, d; cbn; lia).
    assert (Op : forall st, fi_offset st = o -> Step st =
      if negb (length rs =? 1)%nat then give_up esc (with_offset (plain_stopped d q) st)
      else match read_record d f q with
           | (DOk x, _) => check_incomplete esc (index_of rs b) (adjust_reel_tape f (f, x) (with_offset (plain_stopped d q) st))
           | (DErr _, _) => give_up esc (with_offset (plain_stopped d q) st)
           | (DFuel, _) => ([], Fuel)
           end).
    { intros st Hst. unfold index_logical_file. rewrite Hst, (opens_some data o) by lia. fold d. rewrite E. rewrite size_of.
      change (ix_explicits (index_of rs b)) with (map info_of (others_of rs)). rewrite X, D. reflexivity. }
    destruct (negb (length rs =? 1)%nat).
    { apply run_give_up_bare. intros st Hst Hc. eexists. split; [rewrite Op by exact Hst; reflexivity | reflexivity]. }
    assert (F0 : 0 <= ri_ltell f).
    { assert (In f (map info_of (others_of rs))) as Hi by (rewrite X; left; reflexivity).
      apply in_map_iff in Hi as (r & <- & Hr). unfold others_of in Hr. apply filter_In in Hr as [Hr _].
      pose proof (ordered_start _ _ _ O r Hr) as Z. exact Z. }
    pose proof (read_record_no_fuel d f q F0) as Nf.
    destruct (read_record d f q) as [[x|e|] p]; [| | destruct (Nf eq_refl)].
    2: { apply run_give_up_bare. intros st Hst Hc. eexists. split; [rewrite Op by exact Hst; reflexivity | reflexivity]. }
    set (ev := EvDelimiter (f, x)).
    assert (M : matches (DDelimiter (ri_type f) x) ev) by (split; reflexivity).
    assert (Rl : related (Delimiter (ri_type f) x) (DDelimiter (ri_type f) x) data) by (split; reflexivity).
    destruct b.
    + eapply run_give_up with (s := Delimiter (ri_type f) x); [|exact M | exact Rl | apply good_nil | congruence].
      intros st Hst Hc. eexists. split; [rewrite Op by exact Hst; reflexivity | apply (happen_core ev); reflexivity].
    + intros st fuel Hst Hc Hf.
      assert (R1 : run o [Delimiter (ri_type f) x] []).
      { eapply run_step with (o1 := plain_stopped d q); [|exact Hq | lia | exact M | exact Rl | | apply IH', Hq].
        - intros st1 Hst1 Hc1. eexists. split; [rewrite Op by exact Hst1; reflexivity|]. split; [apply (happen_core ev); reflexivity|].
          split; [etransitivity; [exact (happen_offset ev _) | reflexivity] | etransitivity; [exact (happen_complete ev _) | exact Hc1]].
        - intros later Gl. eapply (good_mono o (plain_stopped d q)) in Gl; [exact Gl | lia]. }
      destruct (R1 st fuel Hst Hc Hf) as (b & st' & later & dsecs & evs & A1 & A2 & A3 & A4 & A5 & A6).
      exists b, st', ([Delimiter (ri_type f) x] ++ later), dsecs, evs. repeat (split; [assumption|]). split; [congruence | exact A6].
Qed.
Lemma run_anything o : 0 <= o -> run o [] [].
Proof. intros Ho. eapply (run_any (Z.to_nat (Z.max 0 (len data - o) + 1))); lia. Qed.

(** *** Good beginnings *)
Lemma fwd_records o rs last : 0 <= o -> records_at 0 data o rs last ->
  ordered o last rs /\ Forall (stored data) rs /\ o <= last.
Proof. intros Ho R. exact (records_stored (mk_device (mk_stream data false) 0) rs o last R Ho). Qed.

Lemma first_explicit_part rs more : inside (map type_of rs) -> has_explicit (map type_of rs) ->
  match map info_of (others_of (rs ++ more)) with [] => True | i :: _ => is_delimiter_record i = false end.
Proof.
  intros Hi (t & T & Nt). pose proof (file_first rs Hi) as F. unfold others_of in *. rewrite filter_app, map_app.
  destruct (map info_of (filter _ rs)) as [|i l] eqn:E; [|exact F]. exfalso. apply Nt. apply map_eq_nil in E. eapply others_nil; eassumption.
Qed.
Lemma run_part o rs last : 0 <= o -> records_at 0 data o rs last -> inside (map type_of rs) ->
  rs = [] \/ has_explicit (map type_of rs) -> run o [] rs.
Proof.
  intros Ho R Hi [->|Ex]; [apply run_anything; exact Ho|]. destruct rs as [|r rs]; [apply run_anything; exact Ho|].
  pose proof (record_before data o r rs last Ho R) as B.
  pose proof (plain_records data o _ last Ho R) as R'.
  destruct (part_trace (plain_device data o) _ _ R' ltac:(rewrite types_back; exact Hi)) as (more & b & q & E & Q & O & Sr).
  eapply run_file; try eassumption; try lia; try discriminate.
  - apply first_explicit_part; rewrite types_back; assumption.
  - intros _. exists (map (fwd o) more). rewrite map_app, fwd_back. reflexivity.
  - intros o1 H1. apply run_anything. lia.
Qed.

(** a complete logical file or delimiter in front; [rest]: where to go on *)
Lemma run_delimiter o type ds last secs part : 0 <= o -> record_at data o type ds last -> is_delimiter type ->
  (forall q, last <= q -> (forall q', next_start 0 data last q' -> q' = q) -> run q secs part) ->
  run o (Delimiter type ds :: secs) part.
Proof.
  intros Ho R D IH. pose proof (record_at_before data _ _ _ _ Ho R) as B.
  destruct (record_records data o type ds last (delimiter_type _ D) R) as (r0 & R0 & _).
  destruct (fwd_records o [r0] last Ho R0) as (O0 & _ & _). cbn [ordered] in O0.
  assert (R' : record_in (plain_device data o) type ds (last - o)).
  { destruct R as (p & e & A & G & L & E). exists p, e.
    pose proof (from_at o data o _ Ho ltac:(lia) A) as A'. rewrite Z.sub_diag in A'. split; [exact A'|].
    pose proof (gap_shift o _ _ _ G) as G'. rewrite Z.sub_diag in G'. split; [exact G'|].
    pose proof (lis_record_shift _ o _ _ _ _ L) as L'. replace (o + len p - o) with (len p) in L' by lia. split; [exact L' | lia]. }
  set (d := plain_device data o) in *.
  destruct (record_single d type ds _ R' (delimiter_type _ D)) as (c & R1 & R2 & R3). subst type.
  destruct (delimiter_any d c _ R1 D) as (q & E & Q & U). destruct (R3 q) as (q' & E3).
  set (ev := EvDelimiter (info_of c, ds)).
  eapply run_step with (o1 := plain_stopped d q) (ev := ev) (ds := DDelimiter (type_of c) ds).
  - intros st Hst Hc. exists (happen ev (with_offset (plain_stopped d q) st)).
    split; [|split; [apply happen_core; reflexivity | split; [apply happen_offset | rewrite happen_complete; exact Hc]]].
    unfold index_logical_file. rewrite Hst, (opens_some data o) by lia. fold d. rewrite E, (index_single c _ (delimiter_other c D)).
    cbn [ix_explicits ix_implicits ix_incomplete length Nat.add Nat.eqb negb].
    assert (is_delimiter_record (info_of c) = true) as ->.
    { unfold is_delimiter_record. change (ri_type (info_of c)) with (type_of c). cbn in D. destruct D as [<-|[<-|[<-|[<-|[]]]]]; reflexivity. }
    rewrite E3. reflexivity.
  - unfold plain_stopped, d. cbn. lia.
  - lia.
  - split; reflexivity.
  - split; reflexivity.
  - intros later G. eapply (good_mono o) in G; [exact G | unfold plain_stopped, d; cbn; lia].
  - apply IH; [unfold plain_stopped, d; cbn; lia|]. intros x N. unfold plain_stopped, d. cbn.
    rewrite <- (U (x - o)); [lia | apply next_shift; auto; lia].
Qed.
Lemma run_eof o ds last secs part : 0 <= o -> record_at data o 137 ds last ->
  (forall q, last <= q -> (forall q', next_start 0 data last q' -> q' = q) -> run q secs part) ->
  run o secs part.
Proof.
  intros Ho R IH. pose proof (record_at_before data _ _ _ _ Ho R) as B.
  assert (V : In 137 record_types) by (unfold record_types; cbn; intuition).
  destruct (record_records data o 137 ds last V R) as (r0 & R0 & _).
  destruct (fwd_records o [r0] last Ho R0) as (O0 & _ & _). cbn [ordered] in O0.
  assert (R' : record_in (plain_device data o) 137 ds (last - o)).
  { destruct R as (p & e & A & G & L & E). exists p, e.
    pose proof (from_at o data o _ Ho ltac:(lia) A) as A'. rewrite Z.sub_diag in A'. split; [exact A'|].
    pose proof (gap_shift o _ _ _ G) as G'. rewrite Z.sub_diag in G'. split; [exact G'|].
    pose proof (lis_record_shift _ o _ _ _ _ L) as L'. replace (o + len p - o) with (len p) in L' by lia. split; [exact L' | lia]. }
  set (d := plain_device data o) in *.
  destruct (record_single d 137 ds _ R' V) as (c & R1 & R2 & R3).
  assert (is_closing (type_of c)) as Cl by (rewrite R2; right; left; reflexivity).
  destruct (closed_any d [] c _ R1 inside_nil Cl) as (q & E & Q & U). cbn [app] in E. destruct (R3 q) as (q' & E3).
  eapply run_skip with (o1 := plain_stopped d q).
  - intros st Hst Hc. exists (with_offset (plain_stopped d q) st). split; [|split; [reflexivity | split; [reflexivity | exact Hc]]].
    unfold index_logical_file. rewrite Hst, (opens_some data o) by lia. fold d. rewrite E, (index_single c _ (closing_other c Cl)).
    cbn [ix_explicits ix_implicits ix_incomplete length Nat.add Nat.eqb negb].
    assert (is_delimiter_record (info_of c) = true) as ->.
    { unfold is_delimiter_record. change (ri_type (info_of c)) with (type_of c). rewrite R2. reflexivity. }
    rewrite E3. unfold adjust_reel_tape. change (ri_type (info_of c)) with (type_of c). rewrite R2. reflexivity.
  - unfold plain_stopped, d. cbn. lia.
  - lia.
  - apply IH; [unfold plain_stopped, d; cbn; lia|]. intros x N. unfold plain_stopped, d. cbn.
    rewrite <- (U (x - o)); [lia | apply next_shift; auto; lia].
Qed.
Lemma run_whole o rs last q secs part : 0 <= o < len data -> rs <> [] -> records_at 0 data o rs last ->
  index_records (plain_device data o) 0 = (DOk (index_of (map (back o) rs) false), q) -> last - o <= q ->
  match map info_of (others_of (map (back o) rs)) with [] => True | i :: _ => is_delimiter_record i = false end ->
  run (o + q) secs part -> run o (File rs :: secs) part.
Proof.
  intros Ho N R E Q F IH. destruct (fwd_records o rs last ltac:(lia) R) as (O & Sr & _).
  pose proof (records_bound _ _ _ _ _ R ltac:(lia)) as [_ Bl]. specialize (Bl N).
  assert (Hl : o < last) by (destruct rs as [|r rs]; [congruence|]; destruct (records_head (mk_device (mk_stream data false) 0) o r rs last R) as (_ & R2 & H2);
    pose proof (proj2 (proj2 (records_stored (mk_device (mk_stream data false) 0) rs _ last R2 ltac:(cbn [ordered] in O; lia)))); cbn [ordered] in O; lia).
  set (d := plain_device data o) in *.
  assert (St : forall st, fi_offset st = o -> Step st = check_incomplete esc (index_of (map (back o) rs) false)
     (happen (EvFile d (index_of (map (back o) rs) false)) (with_offset (plain_stopped d q) st))).
  { intros st Hst. apply step_file; try assumption; [rewrite Hst; apply opens_some; lia | destruct rs; [congruence | discriminate]]. }
  eapply run_step with (o1 := o + q) (ev := EvFile d (index_of (map (back o) rs) false)) (ds := DFile d (map (back o) rs)).
  - intros st Hst Hc. eexists. split; [rewrite St by exact Hst; reflexivity|]. split; [apply happen_core; reflexivity|].
    split; [rewrite happen_offset; reflexivity | rewrite happen_complete; exact Hc].
  - lia.
  - lia.
  - split; [reflexivity | eexists; reflexivity].
  - exists o. split; [lia|]. split; [eapply ordered_start; exact O | split; reflexivity].
  - intros later G. eapply (good_file o last); [exact O | exact Sr | lia | exact Bl | eapply good_mono; [|exact G]; lia].
  - exact IH.
Qed.
Lemma run_closed o rs c last secs part : 0 <= o -> records_at 0 data o (rs ++ [c]) last -> inside (map type_of rs) ->
  is_closing (type_of c) -> (type_of c = 137 -> has_explicit (map type_of rs)) ->
  (forall q, last <= q -> (forall q', next_start 0 data last q' -> q' = q) -> run q secs part) ->
  run o (File (rs ++ [c]) :: secs) part.
Proof.
  intros Ho R Hi Cl Ex IH.
  assert (B : o < len data) by (destruct (rs ++ [c]) eqn:E; [destruct rs; discriminate|]; eapply record_before; eassumption).
  destruct (fwd_records o _ last Ho R) as (_ & _ & Hl).
  pose proof (plain_records data o _ last Ho R) as R'. rewrite map_app in R'. cbn [map] in R'.
  destruct (closed_any (plain_device data o) _ (back o c) _ R' ltac:(rewrite types_back; exact Hi) Cl) as (q & E & Q & U).
  eapply (run_whole o (rs ++ [c]) last q); try assumption; try lia.
  - destruct rs; discriminate.
  - rewrite map_app. exact E.
  - rewrite map_app. apply closed_first; [rewrite types_back; exact Hi | exact Cl | rewrite types_back; exact Ex].
  - apply IH; [lia|]. intros x N. rewrite <- (U (x - o)); [lia | apply next_shift; auto; lia].
Qed.
Lemma run_open o rs c last secs part : 0 <= o -> records_at 0 data o (rs ++ [c]) last -> inside (map type_of rs) ->
  has_explicit (map type_of rs) -> is_delimiter (type_of c) \/ is_header (type_of c) ->
  run (start_of c) secs part -> run o (File rs :: secs) part.
Proof.
  intros Ho R Hi Ex D IH.
  assert (B : o < len data) by (destruct (rs ++ [c]) eqn:E; [destruct rs; discriminate|]; eapply record_before; eassumption).
  pose proof (plain_records data o _ last Ho R) as R'. rewrite map_app in R'. cbn [map] in R'.
  pose proof (file_separated (plain_device data o) 0 _ (back o c) _ ltac:(lia) R' ltac:(rewrite types_back; exact Hi) ltac:(rewrite types_back; exact Ex) D) as E.
  apply records_app in R as (mid & R1 & R2).
  destruct (fwd_records o rs mid Ho R1) as (_ & _ & Hm).
  pose proof (starts_after data _ _ _ R2 c (or_introl eq_refl)) as Hc.
  eapply (run_whole o rs mid); try eassumption; try lia.
  - destruct Ex as (t & T & _). destruct rs; [destruct T | discriminate].
  - unfold start_of, back. cbn [snd]. unfold start_of in Hc. lia.
  - apply file_first. rewrite types_back. exact Hi.
  - unfold start_of, back. cbn [snd]. replace (o + (snd c - o)) with (snd c) by lia. exact IH.
Qed.

Lemma so_far_starts pos secs part : so_far data pos secs part -> (secs = [] /\ part = []) \/ exists q, next_start 0 data pos q.
Proof.
  assert (V : In 137 record_types) by (unfold record_types; cbn; intuition).
  assert (X : forall rs last, records_at 0 data pos rs last -> rs <> [] -> exists q, next_start 0 data pos q).
  { intros rs last R N. destruct rs as [|r rs]; [congruence|]. exists (start_of r). left. exists r.
    inversion R; subst. eexists. split; [econstructor; try eassumption; constructor | reflexivity]. }
  intros H. destruct H as [pos rs last R Hi Ex | pos type ds last secs part R D H | pos ds last secs part R H
    | pos rs c last secs part R Hi Cl Ex H | pos rs last secs part R Hi Ex Sn H].
  - destruct rs as [|r rs]; [left; auto | right]. eapply X; [exact R | discriminate].
  - right. destruct (record_records data pos type ds last (delimiter_type _ D) R) as (r & R1 & _). eapply X; [exact R1 | discriminate].
  - right. destruct (record_records data pos 137 ds last V R) as (r & R1 & _). eapply X; [exact R1 | discriminate].
  - right. eapply X; [exact R | destruct rs; discriminate].
  - right. eapply X; [exact R|]. destruct Ex as (t & T & _). destruct rs; [destruct T | discriminate].
Qed.

(** opened at [pos] itself or at the start of what follows *)
Lemma so_far_run pos secs part : so_far data pos secs part -> 0 <= pos ->
  run pos secs part /\ forall q, next_start 0 data pos q -> run q secs part.
Proof.
  assert (V : In 137 record_types) by (unfold record_types; cbn; intuition).
  induction 1 as [pos rs last R Hi Ex | pos type ds last secs part R D H IH | pos ds last secs part R H IH
    | pos rs c last secs part R Hi Cl Ex H IH | pos rs last secs part R Hi Ex (c & l & Rc & Dc) H IH]; intros Hp.
  - split; [eapply run_part; eassumption|]. intros q N. pose proof (next_nonneg data pos q Hp N) as Hq.
    destruct rs as [|r rs]; [apply run_anything; exact Hq|].
    rewrite (start_unique data pos r rs last q Hp R N). pose proof (starts_after data _ _ _ R r (or_introl eq_refl)).
    apply records_drop in R. eapply run_part; try eassumption. lia.
  - pose proof (record_end data _ _ _ _ Hp R) as Hl. destruct (IH Hl) as [_ F].
    assert (G : forall q, last <= q -> (forall q', next_start 0 data last q' -> q' = q) -> run q secs part).
    { intros q Q U. destruct (so_far_starts _ _ _ H) as [[-> ->]|(q' & N)]; [apply run_anything; lia|]. rewrite <- (U q' N). apply F, N. }
    split; [eapply run_delimiter; eassumption|]. intros q N.
    destruct (record_records data pos type ds last (delimiter_type _ D) R) as (r & R1 & R2 & _).
    rewrite (start_unique data pos r [] last q Hp R1 N). pose proof (starts_after data _ _ _ R1 r (or_introl eq_refl)).
    eapply run_delimiter; try eassumption. lia.
  - pose proof (record_end data _ _ _ _ Hp R) as Hl. destruct (IH Hl) as [_ F].
    assert (G : forall q, last <= q -> (forall q', next_start 0 data last q' -> q' = q) -> run q secs part).
    { intros q Q U. destruct (so_far_starts _ _ _ H) as [[-> ->]|(q' & N)]; [apply run_anything; lia|]. rewrite <- (U q' N). apply F, N. }
    split; [eapply run_eof; eassumption|]. intros q N.
    destruct (record_records data pos 137 ds last V R) as (r & R1 & R2 & _).
    rewrite (start_unique data pos r [] last q Hp R1 N). pose proof (starts_after data _ _ _ R1 r (or_introl eq_refl)).
    eapply run_eof; try eassumption. lia.
  - pose proof (records_end data _ _ _ Hp R) as Hl. destruct (IH Hl) as [_ F].
    assert (G : forall q, last <= q -> (forall q', next_start 0 data last q' -> q' = q) -> run q secs part).
    { intros q Q U. destruct (so_far_starts _ _ _ H) as [[-> ->]|(q' & N)]; [apply run_anything; lia|]. rewrite <- (U q' N). apply F, N. }
    split; [eapply run_closed; eassumption|]. intros q N.
    destruct (rs ++ [c]) as [|r l] eqn:E; [destruct rs; discriminate|]. rewrite (start_unique data pos r l last q Hp R N).
    pose proof (starts_after data _ _ _ R r (or_introl eq_refl)). apply records_drop in R. rewrite <- E in *.
    eapply run_closed; try eassumption. lia.
  - pose proof (records_end data _ _ _ Hp R) as Hl. destruct (IH Hl) as [_ F].
    assert (N0 : next_start 0 data last (start_of c)) by (left; exists c, l; split; [exact Rc | reflexivity]). specialize (F _ N0).
    assert (R' : records_at 0 data pos (rs ++ [c]) l) by (clear - R Rc; induction R; [exact Rc|cbn [app]; econstructor; eauto]).
    split; [eapply run_open; eassumption|]. intros q N.
    destruct (rs ++ [c]) as [|r l'] eqn:E; [destruct rs; discriminate|]. rewrite (start_unique data pos r l' l q Hp R' N).
    pose proof (starts_after data _ _ _ R' r (or_introl eq_refl)). apply records_drop in R'. rewrite <- E in *.
    eapply run_open; try eassumption. lia.
Qed.

(** ** Loading *)
Lemma load_any open_tif tif_stopped fuel secs part :
  12 <= len data -> (forall type, ~ starts_with_mark data type) -> so_far data 0 secs part -> (length data + 2 <= fuel)%nat ->
  exists b st later, load esc open_tif tif_stopped fuel data = (fin b, outcome esc b st) /\
    loaded data (secs ++ later) st /\ (part <> [] -> exists rs rest, later = File (part ++ rs) :: rest) /\
    ordered 0 (len data) (all_records (secs ++ later)) /\ Forall (stored data) (all_records (secs ++ later)).
Proof.
  intros L N Sf F. destruct (so_far_run 0 secs part Sf ltac:(lia)) as [Rn _].
  destruct (Rn (new_indexer 0) fuel eq_refl eq_refl) as (b & st' & later & dsecs & evs & A1 & A2 & A3 & A4 & A5 & A6 & A7).
  { unfold len. lia. }
  exists b, st', later. split; [unfold load; rewrite (proj2 (check_plain data) (conj L N)); exact A1|].
  split; [|split; [exact A5 | split; [exact A6 | exact A7]]].
  eapply loaded_plain; [exact A4|]. apply (association dsecs evs 0); assumption.
Qed.
End runs.
