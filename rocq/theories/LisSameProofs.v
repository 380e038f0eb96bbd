(** Proofs about LIS files that agree with a good file up to some position. *)
From Verif Require Import Bytes BytesProofs DlisTypes SpecTypes Stream SpecIo IoProofs DlisRecords LisProtocol LisIo SpecLisIo LisLoad
  SpecLisProtocol LisIoProofs LisIoProofs4 LisIoProofs5 SpecLisLoad LisLoadProofs LisLoadProofs3 LisLoadProofs5 LisFile SpecLisFile LisFileProofs LisFileProofs2 SpecLisAny LisAnyProofs.
Local Open Scope Z_scope.

Section same.
Variables data data' : bytes.
Variable n : Z.
Hypothesis agree : exists pre post post', data = pre ++ post /\ data' = pre ++ post' /\ len pre = n.

Lemma at_pos_agree pos x : at_pos data pos x -> pos + len x <= n -> at_pos data' pos x.
Proof.
  destruct agree as (h & t & t' & E & E' & L). intros (a & b & Ea & La) Le.
  assert (P : exists m, h = (a ++ x) ++ m).
  { rewrite E, app_assoc in Ea. apply app_eq_app in Ea as (l & [[H1 H2]|[H1 H2]]); [eauto|]. exists [].
    assert (len (a ++ x) = len a + len x) by (unfold len; rewrite app_length; lia). assert (len (a ++ x) = len h + len l) by (rewrite H1; unfold len; rewrite app_length; lia).
    assert (l = []) by (destruct l; [reflexivity|unfold len in *; cbn [length] in *; lia]). subst l. rewrite app_nil_r in *. auto. }
  destruct P as (m & ->). exists a, (m ++ t'). rewrite E', <- !app_assoc. auto.
Qed.

Lemma records_agree pos rs last : records_at 0 data pos rs last -> 0 <= pos -> last <= n -> records_at 0 data' pos rs last.
Proof.
  induction 1 as [pos|pos p e type ds rs last A G R V T IH]; intros Hp Le; [constructor|].
  pose proof (len_nonneg p). pose proof (len_nonneg e). destruct (records_ordered _ _ _ _ _ T ltac:(lia)) as [B _].
  apply ra_cons with (ds := ds); try assumption; [|apply IH; lia]. apply at_pos_agree; [exact A|]. unfold len in *. rewrite app_length. lia.
Qed.
Lemma record_agree pos type ds last : record_at data pos type ds last -> last <= n -> record_at data' pos type ds last.
Proof.
  intros (p & e & A & G & R & ->) Le. exists p, e. split; [|auto]. apply at_pos_agree; [exact A|]. unfold len in *. rewrite app_length. lia.
Qed.
Lemma contents_agree pos rs last : records_at 0 data pos rs last -> 0 <= pos -> last <= n ->
  exists dss, Forall2 (contents 0 data) rs dss /\ Forall2 (contents 0 data') rs dss.
Proof.
  induction 1 as [pos|pos p e type ds rs last A G R V T IH]; intros Hp Le; [exists []; split; constructor|].
  pose proof (len_nonneg p). pose proof (len_nonneg e). destruct (records_ordered _ _ _ _ _ T ltac:(lia)) as [B _].
  destruct IH as (dss & F & F'); [lia|lia|]. exists (ds :: dss).
  assert (A' : at_pos data' pos (p ++ e)) by (apply at_pos_agree; [exact A|]; unfold len in *; rewrite app_length; lia).
  apply at_pos_app in A as [_ A]. apply at_pos_app in A' as [_ A'].
  split; (constructor; [|assumption]); exists false, e; unfold start_of, type_of; cbn [fst snd]; (split; [assumption|]; split; [apply gap_here; exact G | exact R]).
Qed.
Lemma contents_one d r ds ds' : contents 0 d r ds -> contents 0 d r ds' -> ds = ds'.
Proof. apply (contents_unique (mk_device (mk_stream d false) 0)). Qed.

(** positions grow *)
Lemma record_ends d pos type ds last : record_at d pos type ds last -> pos < last.
Proof.
  intros (p & e & _ & _ & (t & x & _ & P) & ->). apply pieces_length in P. pose proof (len_nonneg p). lia.
Qed.
Lemma ordered_in from to rs r : ordered from to rs -> In r rs -> from <= start_of r /\ start_of r < stop_of r <= to.
Proof.
  revert from. induction rs as [|x rs IH]; intros from O; [intros []|]. cbn [ordered] in O. destruct O as (O1 & O2 & O3). intros [<-|I]; [lia|].
  destruct (IH _ O3 I). lia.
Qed.
Lemma layout_from b pos secs : SpecLisLoad.layout data b pos secs -> 0 <= pos -> forall rs r, In (File rs) secs -> In r rs -> pos <= start_of r /\ start_of r < stop_of r.
Proof.
  assert (K : forall pos rs last r, records_at 0 data pos rs last -> 0 <= pos -> In r rs -> pos <= start_of r /\ start_of r < stop_of r).
  { intros q rs last r R H I. destruct (records_ordered _ _ _ _ _ R H) as [_ O]. pose proof (ordered_in _ _ _ _ O I). lia. }
  assert (E : forall pos rs last, records_at 0 data pos rs last -> 0 <= pos -> pos <= last).
  { intros q rs last R H. exact (proj1 (records_ordered _ _ _ _ _ R H)). }
  induction 1 as [|b pos type ds last secs R _ _ Y IH|b pos ds last secs R _ Y IH|b pos rs c last secs R I C _ _ Y IH|b pos rs last secs R I _ _ Y IH
    |pos rs last p R I _ _ _| |pos rs last R I _ _]; intros Hp rs0 r X Ir.
  - destruct X.
  - destruct X as [X|X]; [discriminate|]. apply record_ends in R. destruct (IH ltac:(lia) rs0 r X Ir). lia.
  - apply record_ends in R. destruct (IH ltac:(lia) rs0 r X Ir). lia.
  - destruct X as [X|X]; [injection X as <-; eapply K; eassumption|]. pose proof (E _ _ _ R Hp). destruct (IH ltac:(lia) rs0 r X Ir). lia.
  - destruct X as [X|X]; [injection X as <-; eapply K; eassumption|]. pose proof (E _ _ _ R Hp). destruct (IH ltac:(lia) rs0 r X Ir). lia.
  - destruct X as [X|[]]. injection X as <-. eapply K; eassumption.
  - destruct X.
  - destruct X as [X|[]]. injection X as <-. eapply K; eassumption.
Qed.

Lemma closed_in rs : closed rs -> exists r, In r rs.
Proof. intros (a & c & -> & _). exists c. apply in_elt. Qed.
Lemma closed_not_inside rs : closed rs -> inside (map type_of rs) -> False.
Proof. intros (a & c & -> & C) [I _]. destruct (I (type_of c)) as [_ N]; [rewrite map_app; apply in_elt|]. apply N. exact C. Qed.
Lemma last_stop d pos rs c last : records_at 0 d pos (rs ++ [c]) last -> last = stop_of c.
Proof.
  revert pos. induction rs as [|r rs IH]; intros pos R; cbn [app] in R.
  - inversion R as [|? p e type ds ? ? A G L V T]; subst. inversion T; subst. unfold stop_of. cbn [fst snd]. lia.
  - inversion R; subst. eauto.
Qed.

(** the first record of a layout ends before the records of its files do *)
Lemma first_ends b pos secs c last : SpecLisLoad.layout data b pos secs -> 0 <= pos -> records_at 0 data pos [c] last ->
  is_delimiter (type_of c) \/ is_header (type_of c) -> forall rs, In (File rs) secs -> closed rs -> (forall r, In r rs -> stop_of r <= n) -> last <= n.
Proof.
  intros Y Hp Rc T rs X CL ST.
  assert (LC : last = stop_of c) by (apply (last_stop data pos [] c last Rc)).
  assert (H : forall q r l rs', records_at 0 data q (r :: rs') l -> q = pos -> stop_of c <= l).
  { intros q r l rs' R ->. pose proof (same_start data pos r c _ _ _ _ Hp R Rc). subst r.
    destruct (records_ordered _ _ _ _ _ R Hp) as [_ O]. pose proof (ordered_in _ _ _ c O ltac:(left; reflexivity)). lia. }
  assert (Z1 : forall l secs', SpecLisLoad.layout data b l secs' -> pos <= l -> In (File rs) secs' -> l <= n).
  { intros l secs' Y' Hl X'. destruct (closed_in rs CL) as (r & Ir). destruct (layout_from b l secs' Y' ltac:(lia) rs r X' Ir). specialize (ST r Ir). lia. }
  inversion Y as [? p P1 P2|? ? type ds l secs' R D CO Y' |? ? ds l secs' R CO Y'|? ? rs1 c1 l secs' R I C1 EX CO Y'|? ? rs1 l secs' R I EX SN Y'|? rs1 l p R I NE P1 P2|? l E D|? rs1 l R I NE D]; subst; try (destruct X; fail).
  - destruct X as [X|X]; [discriminate|]. pose proof (record_ends _ _ _ _ _ R). assert (l <= n) by (apply (Z1 l secs'); [assumption|lia|exact X]).
    destruct R as (p & e & A & G & L & El). assert (R1 : records_at 0 data pos [(type, len e, pos + len p)] l).
    { apply ra_cons with (ds := ds); [exact A|exact G|exact L| |rewrite <- El; constructor]. destruct D as [<-|[<-|[<-|[<-|[]]]]]; cbn; tauto. }
    pose proof (H _ _ _ _ R1 eq_refl). lia.
  - pose proof (record_ends _ _ _ _ _ R). destruct R as (p & e & A & G & L & El). assert (R1 : records_at 0 data pos [(137, len e, pos + len p)] l).
    { apply ra_cons with (ds := ds); [exact A|exact G|exact L|cbn; tauto|rewrite <- El; constructor]. }
    pose proof (same_start data pos _ c _ _ _ _ Hp R1 Rc) as E. exfalso. subst c. cbn in T. unfold is_delimiter, is_header in T. cbn in T. lia.
  - destruct (records_ordered _ _ _ _ _ R Hp) as [Hl _]. assert (l <= n).
    { destruct X as [X|X]; [|apply (Z1 l secs'); [assumption|lia|exact X]]. injection X as <-. rewrite (last_stop _ _ _ _ _ R). apply ST. apply in_elt. }
    destruct rs1 as [|r1 rs1]; cbn [app] in R; pose proof (H _ _ _ _ R eq_refl); lia.
  - destruct X as [X|X]; [injection X as <-; exfalso; apply (closed_not_inside rs1); assumption|].
    destruct (records_ordered _ _ _ _ _ R Hp) as [Hl _]. assert (l <= n) by (apply (Z1 l secs'); [assumption|lia|exact X]).
    destruct rs1 as [|r1 rs1]; [destruct EX as (t & [] & _)|]. pose proof (H _ _ _ _ R eq_refl). lia.
  - destruct X as [X|[]]. injection X as <-. exfalso. apply (closed_not_inside rs1); assumption.
  - destruct X as [X|[]]. injection X as <-. exfalso. apply (closed_not_inside rs1); assumption.
Qed.

Lemma layout_so_far b pos secs : SpecLisLoad.layout data b pos secs -> 0 <= pos -> forall before rs after, secs = before ++ File rs :: after ->
  closed rs -> (forall r, In r rs -> stop_of r <= n) -> so_far data' pos (before ++ [File rs]) [].
Proof.
  assert (Z1 : forall b l secs' rs, SpecLisLoad.layout data b l secs' -> 0 <= l -> In (File rs) secs' -> closed rs -> (forall r, In r rs -> stop_of r <= n) -> l <= n).
  { intros b0 l secs' rs Y' Hl X' CL ST. destruct (closed_in rs CL) as (r & Ir). destruct (layout_from b0 l secs' Y' Hl rs r X' Ir). specialize (ST r Ir). lia. }
  assert (E : forall pos rs last, records_at 0 data pos rs last -> 0 <= pos -> pos <= last).
  { intros q rs last R H. exact (proj1 (records_ordered _ _ _ _ _ R H)). }
  assert (NIL : forall l, so_far data' l [] []) by (intros l; apply (sf_rest data' l [] l); [apply ra_nil | exact inside_nil | left; reflexivity]).
  induction 1 as [|b pos type ds last secs R D _ Y IH|b pos ds last secs R _ Y IH|b pos rs c last secs R I C EX _ Y IH|b pos rs last secs R I EX SN Y IH
    |pos rs last p R I _ _ _| |pos rs last R I _ _]; intros Hp before rs0 after EQ CL ST.
  - destruct before; discriminate.
  - destruct before as [|s before]; [discriminate|]. injection EQ as <- ->. pose proof (record_ends _ _ _ _ _ R).
    assert (last <= n) by (apply (Z1 b last _ rs0 Y); [lia|apply in_elt|assumption|assumption]).
    cbn [app]. apply sf_delimiter with (last := last); [apply record_agree; assumption|exact D|]. apply (IH ltac:(lia) before rs0 after); auto.
  - pose proof (record_ends _ _ _ _ _ R). assert (last <= n) by (apply (Z1 b last _ rs0 Y); [lia|rewrite EQ; apply in_elt|assumption|assumption]).
    apply sf_eof with (ds := ds) (last := last); [apply record_agree; assumption|]. apply (IH ltac:(lia) before rs0 after); auto.
  - pose proof (E _ _ _ R Hp). destruct before as [|s before].
    + injection EQ as <- ->. cbn [app]. apply sf_closed with (last := last); try assumption; [|apply NIL]. apply records_agree; [exact R|lia|].
      rewrite (last_stop _ _ _ _ _ R). apply ST. apply in_elt.
    + injection EQ as <- ->. assert (last <= n) by (apply (Z1 b last _ rs0 Y); [lia|apply in_elt|assumption|assumption]).
      cbn [app]. apply sf_closed with (last := last); try assumption; [apply records_agree; [exact R|lia|lia]|]. apply (IH ltac:(lia) before rs0 after); auto.
  - pose proof (E _ _ _ R Hp). destruct before as [|s before]; [injection EQ as <- ->; exfalso; apply (closed_not_inside rs); assumption|].
    injection EQ as <- ->. assert (last <= n) by (apply (Z1 b last _ rs0 Y); [lia|apply in_elt|assumption|assumption]).
    cbn [app]. apply sf_open with (last := last); try assumption; [apply records_agree; [exact R|lia|lia]| |apply (IH ltac:(lia) before rs0 after); auto].
    destruct SN as (c & l' & Rc & T). exists c, l'. split; [|exact T]. apply records_agree; [exact Rc|lia|].
    apply (first_ends b last _ c l' Y ltac:(lia) Rc T rs0); [apply in_elt|assumption|assumption].
  - destruct before as [|s before]; [injection EQ as <- ->|destruct before; discriminate]. exfalso. apply (closed_not_inside rs); assumption.
  - destruct before; discriminate.
  - destruct before as [|s before]; [injection EQ as <- ->|destruct before; discriminate]. exfalso. apply (closed_not_inside rs); assumption.
Qed.
End same.
