(** Proofs about splitting LIS79 files: reels and tapes. *)
From Verif Require Import Bytes BytesProofs DlisTypes SpecTypes TypesProofs Stream SpecIo IoProofs LisProtocol LisIo SpecLisIo LisIoProofs LisIoProofs2 LisIoProofs3 LisIoProofs4 LisIoProofs5 Tapemark LisLoad SpecLisLoad LisLoadProofs.
Local Open Scope Z_scope.

Definition hstep (h t : Z) (ev : event) (s : list header_trailer * nat) : list header_trailer * nat :=
  match ev with
  | EvDelimiter rec =>
      if ri_type (fst rec) =? h then (fst s ++ [mk_ht (Some rec) None], length (fst s))
      else if ri_type (fst rec) =? t then (set_trailer (snd s) rec (fst s) ++ [mk_ht None None], length (fst s))
      else s
  | EvFile _ _ => s
  end.
Definition hrun (h t : Z) (evs : list event) s := fold_left (fun s ev => hstep h t ev s) evs s.
Lemma hrun_cons h t ev evs s : hrun h t (ev :: evs) s = hrun h t evs (hstep h t ev s).
Proof. reflexivity. Qed.
Lemma happens_cons ev evs st : happens (ev :: evs) st = happens evs (happen ev st).
Proof. reflexivity. Qed.

Lemma reel_step ev st : (fi_reels (happen ev st), fi_reel (happen ev st)) = hstep 132 133 ev (fi_reels st, fi_reel st).
Proof.
  destruct ev as [[info ds]|d ix]; [|reflexivity]. cbn [happen hstep fst snd]. unfold adjust_reel_tape.
  destruct (_ =? 132); [reflexivity|]. destruct (_ =? 133); [reflexivity|].
  destruct (_ =? 130); [reflexivity|]. destruct (_ =? 131); reflexivity.
Qed.
Lemma tape_step ev st : (fi_tapes (happen ev st), fi_tape (happen ev st)) = hstep 130 131 ev (fi_tapes st, fi_tape st).
Proof.
  destruct ev as [[info ds]|d ix]; [|reflexivity]. cbn [happen hstep fst snd]. unfold adjust_reel_tape.
  destruct (Z.eqb_spec (ri_type info) 132) as [->|_]; [reflexivity|]. destruct (Z.eqb_spec (ri_type info) 133) as [->|_]; [reflexivity|].
  destruct (_ =? 130); [reflexivity|]. destruct (_ =? 131); reflexivity.
Qed.
Lemma reel_run evs : forall st, (fi_reels (happens evs st), fi_reel (happens evs st)) = hrun 132 133 evs (fi_reels st, fi_reel st).
Proof. induction evs as [|ev evs IH]; intros st; [reflexivity|]. cbn. rewrite IH, reel_step. reflexivity. Qed.
Lemma tape_run evs : forall st, (fi_tapes (happens evs st), fi_tape (happens evs st)) = hrun 130 131 evs (fi_tapes st, fi_tape st).
Proof. induction evs as [|ev evs IH]; intros st; [reflexivity|]. cbn. rewrite IH, tape_step. reflexivity. Qed.

Lemma set_trailer_length r rec objs : length (set_trailer r rec objs) = length objs.
Proof. revert r. induction objs as [|o l IH]; intros [|r]; cbn; auto. Qed.
Lemma set_trailer_nth r rec objs k : nth_error (set_trailer r rec objs) k =
  if (k =? r)%nat then option_map (fun o => mk_ht (rawheader o) (Some rec)) (nth_error objs k) else nth_error objs k.
Proof.
  revert r k. induction objs as [|o l IH]; intros [|r] [|k]; cbn; try reflexivity.
  - destruct (k =? r)%nat; reflexivity.
  - apply IH.
Qed.

Section one_kind.
Variables h t : Z.

Lemma delims_cons s secs : ddelimiters (s :: secs) = match s with DDelimiter ty ds => (ty, ds) :: ddelimiters secs | DFile _ _ => ddelimiters secs end.
Proof. destruct s; reflexivity. Qed.
Lemma delims_app a b : ddelimiters (a ++ b) = ddelimiters a ++ ddelimiters b.
Proof. apply flat_map_app. Qed.

(** objects other than the current one stay as they are *)
Lemma hrun_other evs : forall objs cur k, (k < length objs)%nat -> (cur < length objs)%nat -> cur <> k ->
  nth_error (fst (hrun h t evs (objs, cur))) k = nth_error objs k.
Proof.
  induction evs as [|ev evs IH]; intros objs cur k K C N; [reflexivity|]. rewrite hrun_cons. destruct ev as [rec|d ix]; [|apply IH; assumption]. cbn [hstep fst snd].
  destruct (_ =? h); [|destruct (_ =? t)].
  - rewrite IH; [apply nth_error_app1; exact K | rewrite app_length; cbn; lia | rewrite app_length; cbn; lia | lia].
  - rewrite IH; [|rewrite app_length, set_trailer_length; cbn; lia..| lia].
    rewrite nth_error_app1 by (rewrite set_trailer_length; exact K). rewrite set_trailer_nth.
    destruct (Nat.eqb_spec k cur); [congruence|reflexivity].
  - apply IH; assumption.
Qed.

Lemma closed_skip ty ds l y : ty <> h -> ty <> t -> closed_by h t l y -> closed_by h t ((ty, ds) :: l) y.
Proof.
  assert (X : forall l, ty <> h -> ty <> t -> unconcerned h t l -> unconcerned h t ((ty, ds) :: l)).
  { intros l' H1 H2 U ty' ds' [E|E]; [injection E as <- <-; auto | eapply U; exact E]. }
  intros H1 H2. destruct y as [d|]; cbn [closed_by].
  - intros (a & b & -> & U). exists ((ty, ds) :: a), b. split; [reflexivity | apply X; assumption].
  - intros [U|(a & d & b & -> & U)]; [left; apply X; assumption|]. right. exists ((ty, ds) :: a), d, b. split; [reflexivity | apply X; assumption].
Qed.
Lemma unconcerned_nil : unconcerned h t [].
Proof. intros ? ? []. Qed.

(** the current object gets the trailer that closes it *)
Lemma hrun_current secs evs : Forall2 matches secs evs -> forall objs cur o, nth_error objs cur = Some o -> rawtrailer o = None ->
  exists o' y, nth_error (fst (hrun h t evs (objs, cur))) cur = Some o' /\ rawheader o' = rawheader o /\
    holds (rawtrailer o') t y /\ closed_by h t (ddelimiters secs) y.
Proof.
  induction 1 as [|s ev secs evs M Ms IH]; intros objs cur o E T.
  - exists o, None. split; [exact E|]. split; [reflexivity|]. rewrite T. split; [exact I|]. left. apply unconcerned_nil.
  - assert (C : (cur < length objs)%nat) by (apply nth_error_Some; congruence).
    rewrite hrun_cons. rewrite delims_cons.
    destruct s as [ty ds|d rs], ev as [[info data]|d' ix]; cbn [matches] in M; try contradiction.
    + destruct M as [M1 M2]. cbn [hstep fst snd]. rewrite M1.
      destruct (Z.eqb_spec ty h) as [->|Nh]; [|destruct (Z.eqb_spec ty t) as [->|Nt]].
      * exists o, None. rewrite hrun_other by (rewrite ?app_length; cbn; lia). split; [rewrite nth_error_app1 by exact C; exact E|].
        split; [reflexivity|]. rewrite T. split; [exact I|]. right. exists [], ds, (ddelimiters secs). split; [reflexivity | apply unconcerned_nil].
      * exists (mk_ht (rawheader o) (Some (info, data))), (Some ds).
        rewrite hrun_other by (rewrite ?app_length, ?set_trailer_length; cbn; lia).
        split; [rewrite nth_error_app1 by (rewrite set_trailer_length; exact C); rewrite set_trailer_nth, Nat.eqb_refl, E; reflexivity|].
        split; [reflexivity|]. split; [split; assumption|]. exists [], (ddelimiters secs). split; [reflexivity | apply unconcerned_nil].
      * destruct (IH objs cur o E T) as (o' & y & I1 & I2 & I3 & I4). exists o', y. repeat (split; [assumption|]). apply closed_skip; assumption.
    + apply IH; assumption.
Qed.

Lemma opened_snoc l ty ds x : opened_by h t l x ->
  opened_by h t (l ++ [(ty, ds)]) (if ty =? h then Some ds else if ty =? t then None else x).
Proof.
  intros O. destruct (Z.eqb_spec ty h) as [->|Nh]; [|destruct (Z.eqb_spec ty t) as [->|Nt]].
  - exists l, []. split; [reflexivity | apply unconcerned_nil].
  - right. exists l, ds, []. split; [reflexivity | apply unconcerned_nil].
  - assert (X : forall b, unconcerned h t b -> unconcerned h t (b ++ [(ty, ds)])).
    { intros b U ty' ds' E. apply in_app_or in E as [E|[E|[]]]; [eapply U; exact E | injection E as <- <-; auto]. }
    destruct x as [d|]; cbn [opened_by] in *.
    + destruct O as (a & b & -> & U). exists a, (b ++ [(ty, ds)]). split; [rewrite <- app_assoc; reflexivity | apply X, U].
    + destruct O as [U|(a & d & b & -> & U)]; [left; apply X, U|]. right. exists a, d, (b ++ [(ty, ds)]).
      split; [rewrite <- app_assoc; reflexivity | apply X, U].
Qed.

(** the current object after some sections *)
Definition current_ok (s : list header_trailer * nat) (l : list (Z * bytes)) : Prop :=
  exists o x, nth_error (fst s) (snd s) = Some o /\ rawtrailer o = None /\ holds (rawheader o) h x /\ opened_by h t l x.
Lemma hrun_opened secs evs : Forall2 matches secs evs -> forall s l, current_ok s l -> current_ok (hrun h t evs s) (l ++ ddelimiters secs).
Proof.
  induction 1 as [|sec ev secs evs M Ms IH]; intros s l K; [rewrite app_nil_r; exact K|].
  rewrite hrun_cons. rewrite delims_cons.
  destruct sec as [ty ds|d rs], ev as [[info data]|d' ix]; cbn [matches] in M; try contradiction; [|apply IH, K].
  replace (l ++ (ty, ds) :: ddelimiters secs) with ((l ++ [(ty, ds)]) ++ ddelimiters secs) by (rewrite <- app_assoc; reflexivity).
  apply IH. destruct M as [M1 M2]. destruct K as (o & x & K1 & K2 & K3 & K4). pose proof (opened_snoc l ty ds x K4) as O.
  unfold current_ok. cbn [hstep fst snd]. rewrite M1. destruct (Z.eqb_spec ty h) as [->|Nh]; [|destruct (Z.eqb_spec ty t) as [->|Nt]].
  - exists (mk_ht (Some (info, data)) None), (Some ds). cbn [fst snd]. split; [|split; [reflexivity|split; [split; assumption | exact O]]].
    rewrite nth_error_app2, Nat.sub_diag by lia. reflexivity.
  - exists (mk_ht None None), None. cbn [fst snd]. split; [|split; [reflexivity|split; [exact I | exact O]]].
    rewrite nth_error_app2 by (rewrite set_trailer_length; lia). rewrite set_trailer_length, Nat.sub_diag. reflexivity.
  - exists o, x. auto.
Qed.
End one_kind.

(** ** Files *)
Lemma happens_app a b st : happens (a ++ b) st = happens b (happens a st).
Proof. apply fold_left_app. Qed.
Lemma files_happens secs evs : Forall2 matches secs evs -> forall st,
  exists more, fi_files (happens evs st) = fi_files st ++ more /\ length more = dcount_files secs.
Proof.
  induction 1 as [|s ev secs evs M Ms IH]; intros st; [exists []; rewrite app_nil_r; split; reflexivity|].
  rewrite happens_cons. destruct (IH (happen ev st)) as (more & E & L).
  destruct s as [ty ds|d rs], ev as [[info data]|d' ix]; cbn [matches] in M; try contradiction.
  - exists more. split; [|exact L]. rewrite E. f_equal. cbn [happen fst].
    unfold adjust_reel_tape. destruct (_ =? 132); [reflexivity|]. destruct (_ =? 133); [reflexivity|].
    destruct (_ =? 130); [reflexivity|]. destruct (_ =? 131); reflexivity.
  - rewrite E. eexists (_ :: more). split; [cbn; rewrite <- app_assoc; reflexivity|]. cbn. rewrite L. reflexivity.
Qed.

Lemma tuple_info l : map tuple (map info_of l) = l.
Proof. rewrite map_map. rewrite <- (map_id l) at 2. apply map_ext. intros [[a b] c]. reflexivity. Qed.
Lemma listed_index rs b : listed rs (index_of rs b).
Proof. split; apply tuple_info. Qed.

Lemma association secs evs o st : Forall2 matches secs evs -> core st = core (happens evs (new_indexer o)) ->
  length (fi_files st) = dcount_files secs /\
  forall before d rs after, secs = before ++ DFile d rs :: after ->
    exists f, nth_error (fi_files st) (dcount_files before) = Some f /\ lf_io f = d /\ listed rs (lf_index f) /\
      belongs 132 133 (ddelimiters before) (ddelimiters after) (nth_error (fi_reels st) (lf_reel f)) /\
      belongs 130 131 (ddelimiters before) (ddelimiters after) (nth_error (fi_tapes st) (lf_tape f)).
Proof.
  intros M E. unfold core in E. injection E as -> -> _ -> _. split.
  - destruct (files_happens secs evs M (new_indexer o)) as (more & -> & L). exact L.
  - intros before d rs after ->. apply Forall2_app_inv_l in M as (e1 & e2 & M1 & M2 & ->).
    inversion M2 as [|? ev ? e3 Mf M3]; subst. destruct ev as [|d' ix]; cbn [matches] in Mf; [contradiction|]. destruct Mf as [-> (b & ->)].
    set (s1 := happens e1 (new_indexer o)). rewrite !happens_app, !happens_cons. fold s1. set (s2 := happen (EvFile d (index_of rs b)) s1).
    exists (mk_lf d (index_of rs b) (fi_reel s1) (fi_tape s1)). cbn [lf_io lf_index lf_reel lf_tape].
    destruct (files_happens _ _ M1 (new_indexer o)) as (m1 & F1 & L1). fold s1 in F1. cbn [new_indexer fi_files app] in F1.
    destruct (files_happens _ _ M3 s2) as (m3 & F3 & L3). split; [|split; [reflexivity|split; [apply listed_index|]]].
    { rewrite F3. unfold s2. cbn [happen with_file fi_files]. rewrite F1, <- app_assoc, nth_error_app2 by lia. rewrite L1, Nat.sub_diag. reflexivity. }
    assert (K : forall h t, h <> t -> current_ok h t (hrun h t e1 ([mk_ht None None], 0%nat)) (ddelimiters before)).
    { intros h t N. apply (hrun_opened h t before e1 M1 _ []). exists (mk_ht None None), None. cbn.
      repeat split; try exact I. left. apply unconcerned_nil. }
    split.
    + destruct (K 132 133 ltac:(lia)) as (ob & x & K1 & K2 & K3 & K4). pose proof (reel_run e1 (new_indexer o)) as R1. fold s1 in R1.
      change (hrun 132 133 e1 ([mk_ht None None], 0%nat)) with (hrun 132 133 e1 (fi_reels (new_indexer o), fi_reel (new_indexer o))) in K1. rewrite <- R1 in K1. cbn [fst snd] in K1.
      destruct (hrun_current 132 133 after e3 M3 (fi_reels s1) (fi_reel s1) ob K1 K2) as (o' & y & Y1 & Y2 & Y3 & Y4).
      pose proof (reel_run e3 s2) as R3. change (fi_reels s2) with (fi_reels s1) in R3. change (fi_reel s2) with (fi_reel s1) in R3.
      rewrite <- R3 in Y1. cbn [fst] in Y1. exists o', x, y. rewrite Y2. auto.
    + destruct (K 130 131 ltac:(lia)) as (ob & x & K1 & K2 & K3 & K4). pose proof (tape_run e1 (new_indexer o)) as R1. fold s1 in R1.
      change (hrun 130 131 e1 ([mk_ht None None], 0%nat)) with (hrun 130 131 e1 (fi_tapes (new_indexer o), fi_tape (new_indexer o))) in K1. rewrite <- R1 in K1. cbn [fst snd] in K1.
      destruct (hrun_current 130 131 after e3 M3 (fi_tapes s1) (fi_tape s1) ob K1 K2) as (o' & y & Y1 & Y2 & Y3 & Y4).
      pose proof (tape_run e3 s2) as R3. change (fi_tapes s2) with (fi_tapes s1) in R3. change (fi_tape s2) with (fi_tape s1) in R3.
      rewrite <- R3 in Y1. cbn [fst] in Y1. exists o', x, y. rewrite Y2. auto.
Qed.
