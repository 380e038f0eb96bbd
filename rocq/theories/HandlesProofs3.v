(** Lemmas for C77: dlisio.lis.load. *)
From Verif Require Import Bytes Stream Tapemark LisProtocol LisIo LisIoProofs5 Handles SpecHandles HandlesProofs HandlesProofs2.
From Coq Require Import Permutation.
From Verif Require DlisLoad LisLoad.
Local Open Scope Z_scope.

(** an index that starts with a delimiter has no other explicit record *)
Lemma delimiter_alone d : forall fuel ex im pos ix q,
  index_records_loop fuel d ex im pos = (DOk ix, q) ->
  (forall first, In first ex -> LisLoad.is_delimiter_record first = false) ->
  forall first rest, ix_explicits ix = first :: rest -> LisLoad.is_delimiter_record first = true -> rest = [].
Proof.
  induction fuel as [|fuel IH]; intros ex im pos ix q H N first rest E D; [discriminate H|].
  cbn [index_records_loop] in H.
  assert (K : forall i p0 p1, (DOk (mk_index ex i p0), p1) = (DOk ix, q) -> rest = []).
  { intros i p0 p1 X. injection X as X _. subst ix. cbn in E. subst ex. rewrite (N first) in D by (left; reflexivity). discriminate D. }
  destruct (index_record d pos) as [[info|[]|] p]; try (eapply K; exact H); [|discriminate H].
  set (implicit := (ri_type info =? 0) || (ri_type info =? 1)) in *.
  set (im' := if implicit then im ++ [info] else im) in *. set (ex' := if implicit then ex else ex ++ [info]) in *.
  assert (R : forall p', dbind (reposition_tell d) (fun _ => dret (mk_index ex' im' false)) p' = (DOk ix, q) -> rest = []).
  { intros p' X. unfold dbind in X. destruct (reposition_tell d p') as [[u|e|] p2]; try discriminate X. injection X as X _. subst ix.
    cbn [ix_explicits] in E. unfold ex' in E. destruct implicit.
    - subst ex. rewrite (N first) in D by (left; reflexivity). discriminate D.
    - destruct ex as [|x ex]; [injection E as -> <-; reflexivity|]. injection E as -> _.
      rewrite (N first) in D by (left; reflexivity). discriminate D. }
  destruct ((ri_type info =? 132) || (ri_type info =? 133) || (ri_type info =? 130) || (ri_type info =? 131)) eqn:T.
  { destruct (1 <? length ex')%nat; [eapply K; exact H|eapply R; exact H]. }
  assert (G : (ri_type info =? 137) = false -> forall f, In f ex' -> LisLoad.is_delimiter_record f = false).
  { intros T7 f I. unfold ex' in I. destruct implicit; [exact (N f I)|]. apply in_app_iff in I as [I|[<-|[]]]; [exact (N f I)|].
    unfold LisLoad.is_delimiter_record. rewrite T, T7. reflexivity. }
  destruct (Z.eqb_spec (ri_type info) 128) as [E8|E8].
  { destruct (length ex' =? 1)%nat; [|eapply K; exact H]. eapply IH; [exact H| |exact E|exact D]. apply G. rewrite E8. reflexivity. }
  destruct (ri_type info =? 137) eqn:T7; cbn [orb] in H; [eapply R; exact H|].
  destruct (ri_type info =? 129); [eapply R; exact H|]. eapply IH; [exact H| |exact E|exact D]. apply G. reflexivity.
Qed.

Lemma delimiter_type r : LisLoad.is_delimiter_record r = true -> In (ri_type r) [130; 131; 132; 133; 137].
Proof.
  unfold LisLoad.is_delimiter_record. intros H. cbn [In].
  repeat (apply orb_true_iff in H as [H|H]); apply Z.eqb_eq in H; rewrite H; tauto.
Qed.

Section lis.
Variable esc : severity -> bool.
Variable is_tif : bool.
Variable openlis : nat -> Z -> lis_opening.
Variable stopped_at : device -> Z -> Z.

Definition stuck : Prop := esc CRITICAL = true /\ exists n o d, openlis n o = LGot d /\ joined d.

Record settled (n : nat) (w : world) : Prop := {
  s_len : length (w_files w) = n;
  s_some : Forall (fun s => s <> []) (w_files w);
  s_fine : fine w (concat (w_files w)) }.
Record holding (n : nat) (s : handle) (w : world) : Prop := {
  o_len : length (w_files w) = n;
  o_some : Forall (fun s => s <> []) (w_files w);
  o_handle : s <> [];
  o_fine : fine w (s ++ concat (w_files w)) }.
Definition broke (w : world) : Prop :=
  fine w (concat (w_files w)) \/ (stuck /\ exists s, s <> [] /\ fine w (s ++ concat (w_files w))).

Lemma open_lis_post n w o : settled n w ->
  post (open_lis is_tif o) w (fun x w' => match x with
    | inl (s, d) => holding n s w' /\ o = LGot d
    | inr _ => settled n w'
    end) broke.
Proof.
  intros [L So F]. unfold post, open_lis.
  assert (P : fine (created w) ([w_next w] ++ concat (w_files w))) by (apply fine_created; exact F).
  assert (P2 : fine (created (use [w_next w] (created w))) ([S (w_next w); w_next w] ++ concat (w_files w))).
  { apply (fine_created (use [w_next w] (created w))). apply (fine_use _ ([w_next w] ++ concat (w_files w))); [exact P|].
    intros h [<-|[]]. left. reflexivity. }
  assert (I : forall (a b : list nat), incl a (a ++ b)) by (intros a b h J; apply in_app_iff; left; exact J).
  destruct o; cbn [ret].
  - split; assumption.
  - split; try assumption. apply fine_close. exact P.
  - split; try assumption. apply fine_close, fine_use; [exact P|apply I].
  - destruct is_tif; (split; try assumption; apply fine_close, fine_use; [eassumption|apply I]).
  - destruct is_tif; (split; try assumption; apply fine_close, fine_use; [eassumption|apply I]).
  - destruct is_tif; (split; try assumption; apply fine_close, fine_use; [eassumption|apply I]).
  - destruct is_tif; (split; [split; try assumption; [discriminate|apply fine_use; [eassumption|apply I]]|reflexivity]).
Qed.
Lemma holding_use n s w : holding n s w -> holding n s (use s w).
Proof. intros [L S N F]. split; try assumption. apply fine_use; [exact F|]. intros h I. apply in_app_iff. left. exact I. Qed.
Lemma holding_close n s w : holding n s w -> settled n (close s w).
Proof. intros [L S N F]. split; try assumption. apply fine_close. exact F. Qed.
Lemma holding_add n s w : holding n s w -> settled (S n) (add_file s w).
Proof.
  intros [L S N F]. split; cbn [add_file w_files].
  - rewrite app_length, L. cbn. lia.
  - apply Forall_app. split; [exact S|]. repeat constructor. exact N.
  - rewrite concat_app. cbn [concat]. rewrite app_nil_r. eapply (fine_perm w); [|exact F]. apply Permutation_app_comm.
Qed.

Notation count st := (length (LisLoad.fi_files st)).
Lemma give_up_ok st st' : snd (LisLoad.give_up esc st) = Ok st' -> LisLoad.fi_files st' = LisLoad.fi_files st.
Proof. unfold LisLoad.give_up, log, bind. destruct (esc CRITICAL); cbn; intros H; [discriminate H|]. injection H as <-. reflexivity. Qed.
Lemma give_up_exn st : snd (LisLoad.give_up esc st) = Exn -> esc CRITICAL = true.
Proof. unfold LisLoad.give_up, log, bind. destruct (esc CRITICAL); cbn; intros H; [reflexivity|discriminate H]. Qed.
Lemma check_post ix st n w : count st = n -> settled n w ->
  post (check_incomplete esc ix st) w (fun st' w' => settled (count st') w') broke.
Proof.
  intros C B. unfold check_incomplete. apply post_lift; [|left; apply B]. intros a H.
  unfold LisLoad.check_incomplete in H. destruct (ix_incomplete ix).
  - rewrite (give_up_ok _ _ H), C. exact B.
  - injection H as <-. rewrite C. exact B.
Qed.
Lemma adjust_files first rec st : LisLoad.fi_files (LisLoad.adjust_reel_tape first rec st) = LisLoad.fi_files st.
Proof. unfold LisLoad.adjust_reel_tape. repeat (destruct (_ =? _); [reflexivity|]). reflexivity. Qed.

Lemma index_post st w : settled (count st) w ->
  post (index_logical_file esc is_tif openlis stopped_at st) w (fun st' w' => settled (count st') w') broke.
Proof.
  intros B. unfold index_logical_file.
  apply (post_bind _ _ _ _ _ (fun x w' => match x with
    | inl (s, d) => holding (count st) s w' /\ exists n o, openlis n o = LGot d
    | inr _ => settled (count st) w'
    end)).
  { eapply post_weaken; [apply (open_lis_post (count st) w _ B)| |auto].
    intros [[s d]|e] w'; [|auto]. intros [H E]. split; [exact H|]. exists (w_next w), (LisLoad.fi_offset st). exact E. }
  intros [[s d]|e] w1.
  2: { intros B1. destruct e; [exact B1| |];
       (apply post_lift; [|left; apply B1]; intros a H; rewrite (give_up_ok _ _ H); exact B1). }
  intros [H1 (n0 & o0 & EO)].
  eapply (post_bind _ _ _ _ _ (fun _ w' => holding (count st) s w')); [apply post_change, holding_use, H1|].
  intros _ w2 H2. destruct (index_records_total d 0 ltac:(lia)) as (ix & q & IR & _). rewrite IR.
  set (st1 := LisLoad.with_offset (stopped_at d q) st).
  assert (C1 : count st1 = count st) by reflexivity.
  assert (AF : forall r t, count (LisLoad.with_file (LisLoad.mk_lf d ix r t) st1) = S (count st)).
  { intros r t. unfold LisLoad.with_file. cbn [LisLoad.fi_files]. rewrite app_length. cbn. lia. }
  destruct (ix_explicits ix) as [|first rest] eqn:EX.
  - destruct (negb _).
    + eapply (post_bind _ _ _ _ _ (fun _ w' => settled (S (count st)) w')); [apply post_change, holding_add, H2|].
      intros _ w3 B3. eapply check_post; [apply AF|exact B3].
    + eapply (post_bind _ _ _ _ _ (fun _ w' => settled (count st) w')); [apply post_change; eapply holding_close; exact H2|].
      intros _ w3 B3. eapply check_post; [exact C1|exact B3].
  - destruct (LisLoad.is_delimiter_record first) eqn:DL.
    + assert (RE : rest = []).
      { eapply delimiter_alone; [exact IR| |exact EX|exact DL]. intros f []. }
      subst rest. cbn [length]. destruct (negb _) eqn:SZ.
      * eapply (post_bind _ _ _ _ _ (fun st' w' => count st' = count st /\ holding (count st) s w')).
        { unfold post, give_up, lift. pose proof (give_up_ok st1) as GO. pose proof (give_up_exn st1) as GE.
          destruct (LisLoad.give_up esc st1) as [l [a| | |]]; try exact Logic.I.
          - split; [rewrite (GO a eq_refl); reflexivity|exact H2].
          - right. split; [|exists s; split; apply H2]. split; [exact (GE eq_refl)|].
            exists n0, o0, d. split; [exact EO|]. exists ix, q, first. split; [exact IR|]. split; [exact EX|]. split; [exact (delimiter_type _ DL)|].
            intros X. rewrite X in SZ. discriminate SZ. }
        intros st2 w3 [C2 H3].
        eapply (post_bind _ _ _ _ _ (fun _ w' => settled (count st) w')); [apply post_change; eapply holding_close; exact H3|].
        intros _ w4 B4. apply post_ret. rewrite C2. exact B4.
      * eapply (post_bind _ _ _ _ _ (fun _ w' => holding (count st) s w')); [apply post_change, holding_use, H2|].
        intros _ w3 H3. destruct (read_record d first q) as [[data|e|] q'].
        -- eapply (post_bind _ _ _ _ _ (fun _ w' => settled (count st) w')); [apply post_change; eapply holding_close; exact H3|].
           intros _ w4 B4. eapply check_post; [|exact B4]. rewrite adjust_files. exact C1.
        -- unfold post, give_up, lift. pose proof (give_up_ok st1) as GO. apply holding_close in H3.
           destruct (LisLoad.give_up esc st1) as [l [a| | |]]; try exact Logic.I.
           ++ rewrite (GO a eq_refl). exact H3.
           ++ left. apply H3.
        -- exact Logic.I.
    + eapply (post_bind _ _ _ _ _ (fun _ w' => settled (S (count st)) w')); [apply post_change, holding_add, H2|].
      intros _ w3 B3. eapply check_post; [apply AF|exact B3].
Qed.

Definition finished (w : world) : Prop :=
  disciplined (w_trace w) /\
  (all_closed (w_trace w) \/ (stuck /\ exists s, s <> [] /\ forall h, still_open (w_trace w) h <-> In h s)).
Lemma close_broke w : broke w -> finished (close_files w).
Proof.
  intros [F|(K & s & N & F)]; unfold close_files.
  - rewrite <- (app_nil_r (concat (w_files w))) in F. apply fine_close_all in F. split; [apply F|]. left.
    intros h O. apply F in O. destruct O.
  - assert (F' : fine w (concat (w_files w) ++ s)) by (eapply fine_perm; [apply Permutation_app_comm|exact F]).
    apply fine_close_all in F'. split; [apply F'|]. right. split; [exact K|]. exists s. split; [exact N|]. apply F'.
Qed.
Lemma index_all_post fuel : forall st w, settled (count st) w ->
  post (index_all esc is_tif openlis stopped_at fuel st) w (fun st' w' => settled (count st') w') finished.
Proof.
  induction fuel as [|fuel IH]; intros st w B; [exact I|]. cbn [index_all].
  destruct (LisLoad.fi_complete st); [exact B|].
  eapply post_bind; [|intros st' w' B'; apply IH; exact B'].
  pose proof (index_post st w B) as P. unfold post in *. destruct (index_logical_file _ _ _ _ _ _) as [w' [l [a| | |]]]; try exact P.
  apply close_broke. exact P.
Qed.
End lis.

(** the first look at the file *)
Lemma mark_post tm s w : fine w s -> post (read_as_tapemark s tm) w (fun _ w' => fine w' s /\ w_files w' = w_files w) (fun w' => fine w' [] /\ w_files w' = w_files w).
Proof.
  intros F. assert (U : fine (use s w) s) by (apply fine_use; [exact F|apply incl_refl]).
  unfold post, read_as_tapemark. destruct tm; try exact Logic.I; (split; [|reflexivity]).
  - exact U.
  - apply fine_close. rewrite app_nil_r. exact U.
Qed.
Lemma skip_post fuel s file : forall tm pos w, fine w s ->
  post (skip_marks fuel s file tm pos) w (fun _ w' => fine w' s /\ w_files w' = w_files w) (fun w' => fine w' [] /\ w_files w' = w_files w).
Proof.
  induction fuel as [|fuel IH]; intros tm pos w F; [exact I|]. cbn [skip_marks]. destruct (tm_type tm =? 0).
  - split; [|reflexivity]. apply fine_use; [exact F|apply incl_refl].
  - eapply post_bind; [apply mark_post; exact F|]. intros tm' w' [F' E]. rewrite <- E. apply IH. exact F'.
Qed.
Lemma check_marks_post file :
  post (check_for_tapemarks file) new_world (fun _ w => fine w [] /\ w_files w = []) (fun w => fine w []).
Proof.
  unfold check_for_tapemarks.
  eapply (post_bind _ _ _ _ _ (fun x w => fine w (fst x) /\ w_files w = [])).
  { unfold post, open_file. destruct file.
    - exact fine_new.
    - apply fine_close, fine_created, fine_new.
    - split; [apply fine_created, fine_new|reflexivity]. }
  intros [s f] w1 [F1 E1]. cbn [fst] in F1.
  eapply (post_bind _ _ _ _ _ (fun _ w => fine w s /\ w_files w = [])).
  { eapply post_weaken; [apply mark_post; exact F1| |]; cbn beta.
    - intros _ w' [A B]. rewrite B. split; assumption.
    - intros w' [A _]. exact A. }
  intros tm w2 [F2 E2].
  eapply (post_bind _ _ _ _ _ (fun _ w => fine w s /\ w_files w = [])).
  { destruct (valid_tapemark tm); [|split; assumption].
    eapply (post_bind _ _ _ _ _ (fun _ w => fine w s /\ w_files w = [])); [|intros o w3 H; exact H].
    eapply post_weaken; [apply skip_post; exact F2| |]; cbn beta.
    - intros _ w' [A B]. rewrite B. split; assumption.
    - intros w' [A _]. exact A. }
  intros r w3 [F3 E3]. unfold post, hbind, change. cbn [ret hret app]. split; [|exact E3].
  apply fine_close. rewrite app_nil_r. exact F3.
Qed.

Lemma lis_load_post esc openlis stopped fuel file :
  post (lis_load esc openlis stopped fuel file) new_world (fun st w => settled (length (LisLoad.fi_files st)) w)
    (fun w => finished esc (openlis true) w \/ finished esc (openlis false) w).
Proof.
  unfold lis_load.
  eapply (post_bind _ _ _ _ _ (fun _ w => fine w [] /\ w_files w = [])).
  { eapply post_weaken; [apply check_marks_post|auto|]. cbn beta. intros w F. left. split; [apply F|]. left.
    intros h O. apply F in O. destruct O. }
  intros [is_tif offset] w [F E].
  assert (B : settled 0 w) by (split; rewrite ?E; auto).
  eapply post_weaken; [apply (index_all_post esc is_tif (openlis is_tif) (stopped is_tif) fuel (LisLoad.new_indexer offset) w B)|auto|].
  cbn beta. intros w' H. destruct is_tif; [left|right]; exact H.
Qed.

Lemma lis_returned esc openlis stopped fuel file w l st :
  lis_load esc openlis stopped fuel file new_world = (w, (l, Ok st)) ->
  disciplined (w_trace w) /\ length (w_files w) = length (LisLoad.fi_files st) /\ own_handles (w_trace w) (w_files w).
Proof.
  intros E. pose proof (lis_load_post esc openlis stopped fuel file) as P. unfold post in P. rewrite E in P.
  destruct P as [L S F]. split; [apply F|]. split; [exact L|]. split; [exact S|]. split; apply F.
Qed.
Lemma lis_raised esc openlis stopped fuel file w l :
  lis_load esc openlis stopped fuel file new_world = (w, (l, Exn)) ->
  disciplined (w_trace w) /\
  (all_closed (w_trace w) \/
   (esc CRITICAL = true /\ exists tif n o d, openlis tif n o = LGot d /\ joined d) /\
   exists s, s <> [] /\ forall h, still_open (w_trace w) h <-> In h s).
Proof.
  intros E. pose proof (lis_load_post esc openlis stopped fuel file) as P. unfold post in P. rewrite E in P.
  destruct P as [[D [A|((Es & n & o & d & O & J) & H)]]|[D [A|((Es & n & o & d & O & J) & H)]]]; (split; [exact D|]);
    try (left; exact A); right; (split; [split; [exact Es|]|exact H]); [exists true|exists false]; exists n, o, d; split; assumption.
Qed.

(** *** The results are those of LisLoad.v *)
Section same.
Variable esc : severity -> bool.
Variable is_tif : bool.
Variable openlis : Z -> lis_opening.
Variable stopped_at : device -> Z -> Z.

Lemma open_lis_same o w : snd (open_lis is_tif o w) =
  ret (match lis_opened o with DOk d => inl (if is_tif then [S (w_next w); w_next w] else [w_next w], d) | DErr e => inr e | DFuel => inr OtherError end).
Proof. destruct o; cbn; destruct is_tif; reflexivity. Qed.
Lemma let_nil {A} (x : io A) : (let '(l', r) := x in ([] ++ l', r)) = x.
Proof. destruct x; reflexivity. Qed.
Lemma change_same {A} f (k : hio A) w : snd ((let& _ := change f in k) w) = snd (k (f w)).
Proof. rewrite snd_bind. cbn [change snd fst ret bind]. apply let_nil. Qed.
Lemma index_same st w : snd (index_logical_file esc is_tif (fun _ => openlis) stopped_at st w) =
  LisLoad.index_logical_file esc (fun o => lis_opened (openlis o)) stopped_at st.
Proof.
  unfold index_logical_file, LisLoad.index_logical_file. rewrite snd_bind. rewrite open_lis_same.
  unfold ret at 1. cbn [bind]. rewrite let_nil.
  set (w1 := fst (open_lis is_tif (openlis (LisLoad.fi_offset st)) w)).
  destruct (lis_opened (openlis (LisLoad.fi_offset st))) as [d|e|] eqn:EO.
  2: { destruct e; reflexivity. }
  2: { destruct (openlis (LisLoad.fi_offset st)); discriminate EO. }
  rewrite change_same. destruct (index_records d 0) as [[ix|e|] q]; try reflexivity.
  destruct (ix_explicits ix) as [|first rest].
  - destruct (negb _); rewrite change_same; reflexivity.
  - destruct (LisLoad.is_delimiter_record first); [|rewrite change_same; reflexivity].
    destruct (negb _).
    + rewrite snd_bind. unfold give_up, lift. cbn [snd fst].
      etransitivity; [|apply bind_ret]. apply bind_ext. intros a. rewrite change_same. reflexivity.
    + rewrite change_same. destruct (read_record d first q) as [[data|e|] q']; try reflexivity. rewrite change_same. reflexivity.
Qed.
Lemma index_all_same fuel : forall st w, snd (index_all esc is_tif (fun _ => openlis) stopped_at fuel st w) =
  LisLoad.index_all esc (fun o => lis_opened (openlis o)) stopped_at fuel st.
Proof.
  induction fuel as [|fuel IH]; intros st w; [reflexivity|]. cbn [index_all LisLoad.index_all].
  destruct (LisLoad.fi_complete st); [reflexivity|]. rewrite snd_bind.
  pose proof (index_same st w) as X. rewrite <- X.
  destruct (index_logical_file esc is_tif (fun _ => openlis) stopped_at st w) as [w' [l [a| | |]]]; cbn [snd fst bind]; try reflexivity.
  rewrite IH. reflexivity.
Qed.
End same.

Lemma skip_same fuel s file : forall tm pos w, snd (skip_marks fuel s file tm pos w) = ([], LisLoad.skip_marks fuel file tm pos).
Proof.
  induction fuel as [|fuel IH]; intros tm pos w; [reflexivity|]. cbn [skip_marks LisLoad.skip_marks].
  destruct (tm_type tm =? 0); [reflexivity|]. rewrite snd_bind. unfold read_as_tapemark.
  destruct (read_tapemark file pos); cbn [snd fst bind ret fail]; try reflexivity. rewrite IH. reflexivity.
Qed.
Lemma marks_same file w : snd (check_for_tapemarks (Got file) w) = ([], LisLoad.check_for_tapemarks file).
Proof.
  unfold check_for_tapemarks, LisLoad.check_for_tapemarks. rewrite snd_bind. cbn [open_file snd fst ret bind]. rewrite let_nil.
  rewrite snd_bind. unfold read_as_tapemark. destruct (read_tapemark file 0) as [tm| | |]; cbn [snd fst bind ret fail]; try reflexivity.
  rewrite let_nil. rewrite snd_bind. destruct (valid_tapemark tm); [|reflexivity].
  rewrite snd_bind, skip_same. destruct (LisLoad.skip_marks _ file tm 12); reflexivity.
Qed.
Lemma plain_opened file o : lis_opened (plain_opening file o) = LisLoad.open_plain file o.
Proof. unfold plain_opening, LisLoad.open_plain. destruct (open_device _) as [[]|]; reflexivity. Qed.
Lemma index_all_ext esc o1 o2 stopped fuel : (forall x, o1 x = o2 x) -> forall st,
  LisLoad.index_all esc o1 stopped fuel st = LisLoad.index_all esc o2 stopped fuel st.
Proof.
  intros E. induction fuel as [|fuel IH]; intros st; [reflexivity|]. cbn [LisLoad.index_all].
  destruct (LisLoad.fi_complete st); [reflexivity|]. unfold LisLoad.index_logical_file at 1 2. rewrite E.
  apply bind_ext. exact IH.
Qed.
Lemma lis_same esc tif_opening tif_stopped file fuel :
  snd (lis_load esc (fun tif _ o => if tif : bool then tif_opening o else plain_opening file o)
         (fun tif => if tif : bool then tif_stopped else LisLoad.plain_stopped) fuel (Got file) new_world) =
  LisLoad.load esc (fun _ o => lis_opened (tif_opening o)) tif_stopped fuel file.
Proof.
  unfold lis_load, LisLoad.load. rewrite snd_bind, marks_same.
  destruct (LisLoad.check_for_tapemarks file) as [[[] o]| | |]; cbn [bind]; try reflexivity; rewrite let_nil.
  - apply (index_all_same esc true tif_opening tif_stopped).
  - etransitivity; [apply (index_all_same esc false (plain_opening file) LisLoad.plain_stopped)|].
    apply index_all_ext. intros x. apply plain_opened.
Qed.
