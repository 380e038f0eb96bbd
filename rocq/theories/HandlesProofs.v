(** Lemmas for C76 and C77. *)
From Verif Require Import Bytes Stream DlisIo Tapemark Lfp LisProtocol LisIo LisIoProofs5 Handles SpecHandles.
From Coq Require Import Permutation.
From Verif Require DlisLoad LisLoad.

(** ** Traces *)

Definition fits (tr : list event) (e : event) : Prop :=
  match e with
  | Opens h => ~ In (Opens h) tr
  | Uses h | Closes h => still_open tr h
  end.

Lemma disciplined_nil : disciplined [].
Proof. intros b e a H. destruct b; discriminate H. Qed.
Lemma disciplined_snoc tr e : disciplined (tr ++ [e]) <-> disciplined tr /\ fits tr e.
Proof.
  split.
  - intros D. split.
    + intros b x a ->. specialize (D b x (a ++ [e])). rewrite <- app_assoc in D. apply D. reflexivity.
    + apply (D tr e []). reflexivity.
  - intros [D F] b x a H. destruct a as [|y a _] using rev_ind.
    + apply app_inj_tail in H as [-> ->]. exact F.
    + rewrite app_comm_cons, app_assoc in H. apply app_inj_tail in H as [-> _].
      apply (D b x a). reflexivity.
Qed.
Lemma disciplined_app a b : disciplined (a ++ b) -> disciplined a.
Proof.
  induction b as [|e b IH] using rev_ind; [rewrite app_nil_r; trivial|].
  rewrite app_assoc. intros D. apply disciplined_snoc in D as [D _]. exact (IH D).
Qed.

Lemma still_open_closes tr s h : still_open (tr ++ map Closes s) h <-> still_open tr h /\ ~ In h s.
Proof.
  unfold still_open. rewrite !in_app_iff. split.
  - intros [[O|O] C]; [|apply in_map_iff in O as (x & X & _); discriminate X].
    split; [split; [exact O|intros I; apply C; left; exact I]|].
    intros I. apply C. right. apply in_map. exact I.
  - intros [[O C] N]. split; [left; exact O|]. intros [I|I]; [exact (C I)|].
    apply in_map_iff in I as (x & X & I). injection X as ->. exact (N I).
Qed.
Lemma still_open_uses tr s h : still_open (tr ++ map Uses s) h <-> still_open tr h.
Proof.
  unfold still_open. rewrite !in_app_iff. split.
  - intros [[O|O] C]; [|apply in_map_iff in O as (x & X & _); discriminate X].
    split; [exact O|intros I; apply C; left; exact I].
  - intros [O C]. split; [left; exact O|]. intros [I|I]; [exact (C I)|].
    apply in_map_iff in I as (x & X & _). discriminate X.
Qed.

(** ** Worlds *)

(** exactly the handles [L] are open, and everything was right so far *)
Record fine_at (tr : list event) (n : nat) (L : list nat) : Prop := {
  f_disc : disciplined tr;
  f_next : forall h, In (Opens h) tr -> (h < n)%nat;
  f_nodup : NoDup L;
  f_live : forall h, still_open tr h <-> In h L }.
Definition fine (w : world) (L : list nat) : Prop := fine_at (w_trace w) (w_next w) L.

Lemma fine_perm w L L' : Permutation L L' -> fine w L -> fine w L'.
Proof.
  intros P [D N U V]. split; try assumption.
  - exact (Permutation_NoDup P U).
  - intros h. rewrite V. split; intros I; eapply Permutation_in; try eassumption. apply Permutation_sym. exact P.
Qed.
Lemma fine_new : fine new_world [].
Proof.
  split; cbn [w_trace new_world].
  - exact disciplined_nil.
  - intros h [].
  - constructor.
  - intros h. split; [intros [[] _]|intros []].
Qed.
Lemma closed_opened tr h : disciplined tr -> In (Closes h) tr -> In (Opens h) tr.
Proof.
  intros D I. apply in_split in I as (b & a & ->). destruct (D b _ a eq_refl) as [O _].
  apply in_app_iff. left. exact O.
Qed.
Lemma fine_created w L : fine w L -> fine (created w) (w_next w :: L).
Proof.
  intros [D N U V].
  assert (F : ~ In (Opens (w_next w)) (w_trace w)) by (intros I; apply N in I; lia).
  split; cbn [created w_trace w_next].
  - apply disciplined_snoc. split; [exact D|exact F].
  - intros h I. apply in_app_iff in I as [I|[I|[]]]; [apply N in I; lia|injection I as ->; lia].
  - constructor; [|exact U]. intros I. apply V in I. destruct I as [I _]. exact (F I).
  - intros h. unfold still_open. rewrite !in_app_iff. cbn [In]. split.
    + intros [[O|[O|[]]] C].
      * right. apply V. split; [exact O|]. intros I. apply C. left. exact I.
      * injection O as ->. left. reflexivity.
    + intros [<-|I].
      * split; [right; left; reflexivity|]. intros [I|[I|[]]]; [|discriminate I].
        apply F, closed_opened; assumption.
      * apply V in I as [O C]. split; [left; exact O|]. intros [I|[I|[]]]; [exact (C I)|discriminate I].
Qed.
Lemma opens_only tr es h : (forall h, ~ In (Opens h) es) -> In (Opens h) (tr ++ es) -> In (Opens h) tr.
Proof. intros N I. apply in_app_iff in I as [I|I]; [exact I|destruct (N h I)]. Qed.
Lemma no_opens_uses s h : ~ In (Opens h) (map Uses s).
Proof. intros I. apply in_map_iff in I as (x & X & _). discriminate X. Qed.
Lemma no_opens_closes s h : ~ In (Opens h) (map Closes s).
Proof. intros I. apply in_map_iff in I as (x & X & _). discriminate X. Qed.

Lemma disciplined_uses tr s : disciplined tr -> (forall h, In h s -> still_open tr h) -> disciplined (tr ++ map Uses s).
Proof.
  intros D. induction s as [|x s IH] using rev_ind; intros I; [rewrite app_nil_r; exact D|].
  rewrite map_app, app_assoc. apply disciplined_snoc. split.
  - apply IH. intros h Ih. apply I. apply in_app_iff. left. exact Ih.
  - apply still_open_uses. apply I. apply in_app_iff. right. left. reflexivity.
Qed.
Lemma disciplined_closes tr s :
  disciplined tr -> NoDup s -> (forall h, In h s -> still_open tr h) -> disciplined (tr ++ map Closes s).
Proof.
  intros D. induction s as [|x s IH] using rev_ind; intros U I; [rewrite app_nil_r; exact D|].
  rewrite map_app, app_assoc. apply disciplined_snoc.
  assert (P : NoDup (x :: s)) by (eapply Permutation_NoDup; [apply Permutation_sym, Permutation_cons_append|exact U]).
  inversion P as [|? ? NI Us]; subst. split.
  - apply IH; [exact Us|]. intros h Ih. apply I. apply in_app_iff. left. exact Ih.
  - apply still_open_closes. split; [|exact NI]. apply I. apply in_app_iff. right. left. reflexivity.
Qed.

Lemma fine_use w L s : fine w L -> incl s L -> fine (use s w) L.
Proof.
  intros [D N U V] I. split; cbn [use emit w_trace w_next].
  - apply disciplined_uses; [exact D|]. intros h Ih. apply V, I, Ih.
  - intros h H. apply N. revert H. apply opens_only, no_opens_uses.
  - exact U.
  - intros h. rewrite still_open_uses. apply V.
Qed.
Lemma nodup_app_l {A} (a b : list A) : NoDup (a ++ b) -> NoDup a.
Proof. induction a; [constructor|]. cbn [app]. intros U. inversion U; subst. constructor; [|auto]. intros I. apply H1, in_app_iff. left. exact I. Qed.
Lemma nodup_app_r {A} (a b : list A) : NoDup (a ++ b) -> NoDup b.
Proof. induction a; [trivial|]. cbn [app]. intros U. inversion U; subst. auto. Qed.
Lemma nodup_disjoint {A} (a b : list A) x : NoDup (a ++ b) -> In x a -> ~ In x b.
Proof.
  induction a as [|y a IH]; [intros _ []|]. cbn [app]. intros U [->|I] J; inversion U; subst.
  - apply H1, in_app_iff. right. exact J.
  - exact (IH H2 I J).
Qed.
Lemma fine_close w L s : fine w (s ++ L) -> fine (close s w) L.
Proof.
  intros [D N U V]. split; cbn [close emit w_trace w_next].
  - apply disciplined_closes; [exact D|exact (nodup_app_l _ _ U)|]. intros h Ih. apply V, in_app_iff. left. exact Ih.
  - intros h H. apply N. revert H. apply opens_only, no_opens_closes.
  - exact (nodup_app_r _ _ U).
  - intros h. rewrite still_open_closes, V, in_app_iff. split.
    + intros [[I|I] NI]; [destruct (NI I)|exact I].
    + intros I. split; [right; exact I|]. intros J. exact (nodup_disjoint _ _ _ U J I).
Qed.
Lemma fine_close_all fs : forall w L, fine w (concat fs ++ L) -> fine (fold_left (fun w s => close s w) fs w) L.
Proof.
  induction fs as [|s fs IH]; intros w L F; [exact F|]. cbn [fold_left]. apply IH, fine_close.
  cbn [concat] in F. rewrite <- app_assoc in F. exact F.
Qed.
Lemma close_all_trace fs : forall w,
  w_trace (fold_left (fun w s => close s w) fs w) = w_trace w ++ map Closes (concat fs) /\
  w_files (fold_left (fun w s => close s w) fs w) = w_files w.
Proof.
  induction fs as [|s fs IH]; intros w; [cbn; rewrite app_nil_r; split; reflexivity|].
  cbn [fold_left concat]. destruct (IH (close s w)) as [-> ->]. cbn [close emit w_trace w_files].
  rewrite map_app, app_assoc. split; reflexivity.
Qed.
(** the trace and the number are all that counts *)
Lemma fine_same w w' L : w_trace w = w_trace w' -> w_next w = w_next w' -> fine w L -> fine w' L.
Proof. intros T N F. unfold fine in *. rewrite <- T, <- N. exact F. Qed.

(** ** Computations *)

Definition post {A} (m : hio A) (w : world) (Q : A -> world -> Prop) (E : world -> Prop) : Prop :=
  match m w with
  | (w', (_, Ok a)) => Q a w'
  | (w', (_, Exn)) => E w'
  | _ => True
  end.
Lemma post_bind {A B} (m : hio A) (k : A -> hio B) w Q E R :
  post m w R E -> (forall a w', R a w' -> post (k a) w' Q E) -> post (hbind m k) w Q E.
Proof.
  unfold post, hbind. intros H K. destruct (m w) as [w' [l [a| | |]]]; try exact H.
  specialize (K a w' H). destruct (k a w') as [w'' [l' r]]. exact K.
Qed.
Lemma post_ret {A} (a : A) w (Q : A -> world -> Prop) E : Q a w -> post (hret a) w Q E.
Proof. intros H. exact H. Qed.
Lemma post_change f w (Q : unit -> world -> Prop) E : Q tt (f w) -> post (change f) w Q E.
Proof. intros H. exact H. Qed.
Lemma post_lift {A} (m : io A) w (Q : A -> world -> Prop) (E : world -> Prop) :
  (forall a, snd m = Ok a -> Q a w) -> E w -> post (lift m) w Q E.
Proof. intros H1 H2. unfold post, lift. destruct m as [l [a| | |]]; try exact I; [apply H1; reflexivity|exact H2]. Qed.
Lemma post_weaken {A} (m : hio A) w (Q Q' : A -> world -> Prop) (E E' : world -> Prop) :
  post m w Q E -> (forall a w', Q a w' -> Q' a w') -> (forall w', E w' -> E' w') -> post m w Q' E'.
Proof. unfold post. intros H HQ HE. destruct (m w) as [w' [l [a| | |]]]; auto. Qed.

Lemma snd_bind {A B} (m : hio A) (k : A -> hio B) w :
  snd (hbind m k w) = bind (snd (m w)) (fun a => snd (k a (fst (m w)))).
Proof.
  unfold hbind. destruct (m w) as [w' [l [a| | |]]]; cbn [fst snd bind]; try reflexivity.
  destruct (k a w') as [w'' [l' r]]. reflexivity.
Qed.

(** ** DLIS *)
Section dlis.
Variable esc : severity -> bool.
Variable is_tif : bool.
Variable open_cfile : nat -> Z -> opening raw.
Variable open_tif : nat -> raw -> option raw.
Variable open_rp66 : nat -> raw -> Z -> option rp66.

Notation files := (fun w => concat (w_files w)).
(** between rounds: the current stream, if there is one, is that of the last
    logical file *)
Record between (n : nat) (w : world) : Prop := {
  b_len : length (w_files w) = n;
  b_some : Forall (fun s => s <> []) (w_files w);
  b_fine : fine w (files w);
  b_last : w_stream w = None \/ exists fs s, w_files w = fs ++ [s] /\ w_stream w = Some s }.
(** within a round *)
Record within (n : nat) (s : handle) (w : world) : Prop := {
  i_stream : w_stream w = Some s;
  i_some : s <> [];
  i_files : Forall (fun s => s <> []) (w_files w);
  i_len : length (w_files w) = n;
  i_fine : fine w (s ++ files w) }.
Definition refused : Prop := exists n o, forall r, open_cfile n o <> Got r.
(** where exceptions are raised *)
Definition raised (w : world) : Prop :=
  fine w (match w_stream w with Some s => s | None => [] end ++ files w) \/
  (refused /\ exists n, (0 < n)%nat /\ between n w /\ w_stream w <> None).

Lemma within_raised n s w : within n s w -> raised w.
Proof. intros [S N F L I]. left. rewrite S. exact I. Qed.

Lemma on_stream_post {A} (m : io A) n s w (Q : A -> world -> Prop) :
  within n s w -> (forall a w', snd m = Ok a -> within n s w' -> Q a w') -> post (on_stream m) w Q raised.
Proof.
  intros I H. assert (I' : within n s (use s w)).
  { destruct I as [S N F L I]. split; try assumption. apply fine_use; [exact I|]. intros h J. apply in_app_iff. left. exact J. }
  unfold post, on_stream. rewrite (i_stream _ _ _ I). destruct m as [l [a| | |]]; try exact Logic.I.
  - apply H; [reflexivity|exact I'].
  - eapply within_raised. exact I'.
Qed.

Lemma open_stream_post o n w :
  between n w -> post (open_stream is_tif open_cfile open_tif o) w (fun _ w' => exists s, within n s w') raised.
Proof.
  intros B. unfold open_stream. apply (post_bind _ _ _ _ _ (fun x w' => w_files w' = w_files w /\ fst x <> [] /\ fine w' (fst x ++ files w'))).
  - unfold post, open_file. destruct (open_cfile (w_next w) o) eqn:E.
    + destruct B as [L S F [N|(fs & s & Fs & W)]].
      * left. cbn [fst snd fail]. rewrite N. exact F.
      * right. split. { exists (w_next w), o. intros r. rewrite E. discriminate. }
        exists n. split; [|split; [split; try assumption; right; eauto|congruence]].
        rewrite <- L, Fs, app_length. cbn. lia.
    + assert (F' : fine (close [w_next w] (created w)) (files w)).
      { apply fine_close. apply fine_created. apply B. }
      destruct B as [L S F [N|(fs & s & Fs & W)]].
      * left. cbn [fst snd fail w_stream w_files close emit created]. rewrite N. exact F'.
      * right. split. { exists (w_next w), o. intros r. rewrite E. discriminate. }
        exists n. split; [|split; [split; try assumption; right; eauto|cbn; congruence]].
        rewrite <- L, Fs, app_length. cbn. lia.
    + cbn [fst ret]. split; [reflexivity|]. split; [discriminate|]. apply fine_created. apply B.
  - intros [s r] w1 (Fs & N & F). cbn [fst] in *.
    apply (post_bind _ _ _ _ _ (fun _ w' => within n s w')).
    { apply post_change. split; cbn [set_stream w_stream w_files]; try assumption; try reflexivity; try exact F; rewrite Fs; apply B. }
    intros _ w2 I. destruct is_tif; [|apply post_ret; exists s; exact I].
    apply (post_bind _ _ _ _ _ (fun x w' => w_files w' = w_files w2 /\ fst x <> [] /\ fine w' (fst x ++ files w'))).
    + assert (I' : fine (use s w2) (s ++ files w2)).
      { apply fine_use; [apply I|]. intros h J. apply in_app_iff. left. exact J. }
      unfold post, put_on. destruct (open_tif (w_next w2) r).
      * cbn [fst ret]. split; [reflexivity|]. split; [discriminate|].
        exact (fine_created _ _ I').
      * left. cbn [w_stream w_files use emit]. rewrite (i_stream _ _ _ I). exact I'.
    + intros [s' r'] w3 (Fs' & N' & F'). cbn [fst] in *.
      apply (post_bind _ _ _ _ _ (fun _ w' => within n s' w')).
      { apply post_change. split; cbn [set_stream w_stream w_files]; try assumption; try reflexivity; try exact F'; rewrite Fs'; apply I. }
      intros _ w4 I4. apply post_ret. exists s'. exact I4.
Qed.

Lemma close_stream_post n s w : within n s w -> between n (close_stream w).
Proof.
  intros [S N F L I]. unfold close_stream. rewrite S. split; try assumption.
  - apply (fine_close w _ s). exact I.
  - left. reflexivity.
Qed.

Lemma logical_eof_files st r pos a : snd (DlisLoad.logical_eof esc st r pos) = Ok a ->
  DlisLoad.di_files (snd a) = DlisLoad.di_files st.
Proof.
  unfold DlisLoad.logical_eof. destruct (read (raw_stream r) pos 1) as [[|b t]|].
  - destruct (raw_peof r); intros H; injection H as <-; reflexivity.
  - intros H; injection H as <-; reflexivity.
  - unfold log, bind. destruct (esc CRITICAL); cbn; intros H; [discriminate H|]. injection H as <-. reflexivity.
Qed.
Lemma read_sul_files st r pos a : snd (DlisLoad.read_sul esc st r pos) = Ok a ->
  DlisLoad.di_files (fst a) = DlisLoad.di_files st.
Proof.
  unfold DlisLoad.read_sul. destruct (read (raw_stream r) pos 80) as [got|]; [|discriminate].
  destruct (length got =? 80)%nat; unfold log, bind; [|destruct (esc MAJOR)]; cbn; intros H; try discriminate H; injection H as <-; reflexivity.
Qed.
Lemma bind_ok {A B} (m : io A) (k : A -> io B) b : snd (bind m k) = Ok b -> exists a, snd m = Ok a /\ snd (k a) = Ok b.
Proof.
  destruct m as [l [a| | |]]; cbn [bind]; try discriminate. destruct (k a) as [l' r] eqn:E. cbn. intros H.
  exists a. rewrite E. split; [reflexivity|exact H].
Qed.
Lemma parse_files st vs a : snd (DlisLoad.parse_logical_file esc is_tif st vs) = Ok a ->
  length (DlisLoad.di_files a) = S (length (DlisLoad.di_files st)).
Proof.
  unfold DlisLoad.parse_logical_file. intros H.
  apply bind_ok in H as ([[ofs stop] eof] & _ & H). apply bind_ok in H as (recs & _ & H).
  apply bind_ok in H as (sets & _ & H). apply bind_ok in H as (fdata & _ & H). injection H as <-.
  destruct (broken ofs); cbn [DlisLoad.with_file DlisLoad.with_next DlisLoad.ended DlisLoad.di_files];
    rewrite app_length; cbn; lia.
Qed.

Notation count st := (length (DlisLoad.di_files st)).
Lemma round_post st w : between (count st) w ->
  post (load_round esc is_tif open_cfile open_tif open_rp66 st) w (fun st' w' => between (count st') w') raised.
Proof.
  intros B. unfold load_round. eapply post_bind; [apply open_stream_post; exact B|].
  intros r w1 (s & I1). eapply (post_bind _ _ _ _ _ (fun a w' => count (snd a) = count st /\ within (count st) s w')).
  { eapply on_stream_post; [exact I1|]. intros a w' H I. split; [f_equal; exact (logical_eof_files _ _ _ _ H)|exact I]. }
  intros [eof st1] w2 [C1 I2]. cbn [snd] in C1. destruct eof.
  { eapply (post_bind _ _ _ _ _ (fun _ w' => between (count st) w')); [apply post_change; eapply close_stream_post; exact I2|].
    intros _ w3 B3. apply post_ret. rewrite C1. exact B3. }
  eapply (post_bind _ _ _ _ _ (fun a w' => within (count st) s w')).
  { eapply on_stream_post; [exact I2|]. intros a w' _ I. exact I. }
  intros [found pos] w3 I3.
  eapply (post_bind _ _ _ _ _ (fun a w' => count (fst a) = count st /\ within (count st) s w')).
  { destruct found.
    - eapply on_stream_post; [exact I3|]. intros a w' H I. split; [|exact I]. rewrite (read_sul_files _ _ _ _ H). exact C1.
    - apply post_ret. split; [exact C1|exact I3]. }
  intros [st2 pos'] w4 [C2 I4]. cbn [fst] in C2.
  eapply (post_bind _ _ _ _ _ (fun a w' => count (snd a) = count st /\ within (count st) s w')).
  { eapply on_stream_post; [exact I4|]. intros a w' H I. split; [|exact I]. rewrite (logical_eof_files _ _ _ _ H). exact C2. }
  intros [eof st3] w5 [C3 I5]. cbn [snd] in C3. destruct eof.
  { eapply (post_bind _ _ _ _ _ (fun _ w' => between (count st) w')); [apply post_change; eapply close_stream_post; exact I5|].
    intros _ w6 B6. apply post_ret. rewrite C3. exact B6. }
  eapply (post_bind _ _ _ _ _ (fun vs w' => exists s', within (count st) s' w')).
  { unfold apply_rp66_protocol. eapply (post_bind _ _ _ _ _ (fun a w' => within (count st) s w')).
    { eapply on_stream_post; [exact I5|]. intros a w' _ I. exact I. }
    intros q w6 I6. unfold post. rewrite (i_stream _ _ _ I6).
    assert (I' : fine (use s w6) (s ++ files w6)).
    { apply fine_use; [apply I6|]. intros h J. apply in_app_iff. left. exact J. }
    unfold put_on, hbind. destruct (open_rp66 (w_next w6) r q); cbn [change hret ret fst snd app].
    - exists (w_next w6 :: s). destruct I6 as [S N F L I6]. split; try assumption; try reflexivity; [discriminate|].
      exact (fine_created _ _ I').
    - left. cbn [w_stream w_files use emit fail]. rewrite (i_stream _ _ _ I6). exact I'. }
  intros vs w6 (s' & I6). unfold parse_logical_file.
  eapply (post_bind _ _ _ _ _ (fun a w' => count a = S (count st) /\ within (count st) s' w')).
  { eapply on_stream_post; [exact I6|]. intros a w' H I. split; [|exact I]. rewrite (parse_files _ _ _ H), C3. reflexivity. }
  intros st4 w7 [C4 I7].
  eapply (post_bind _ _ _ _ _ (fun _ w' => between (S (count st)) w')).
  { apply post_change. rewrite (i_stream _ _ _ I7). destruct I7 as [S N F L I7]. split; cbn [add_file w_files w_stream].
    - rewrite app_length, L. cbn. lia.
    - apply Forall_app. split; [exact F|]. constructor; [exact N|constructor].
    - eapply (fine_same w7); [reflexivity|reflexivity|]. eapply fine_perm; [|exact I7].
      rewrite concat_app. cbn [concat]. rewrite app_nil_r. apply Permutation_app_comm.
    - right. exists (w_files w7), s'. split; [reflexivity|exact S]. }
  intros _ w8 B8. apply post_ret. rewrite C4. exact B8.
Qed.
Lemma loop_post fuel : forall st w, between (count st) w ->
  post (load_loop esc is_tif open_cfile open_tif open_rp66 fuel st) w (fun st' w' => between (count st') w') raised.
Proof.
  induction fuel as [|fuel IH]; intros st w B; [exact I|]. cbn [load_loop].
  destruct (DlisLoad.di_end st); [exact B|].
  eapply post_bind; [apply round_post; exact B|]. intros st' w' B'. apply IH. exact B'.
Qed.

Lemma fold_closes_open fs w h :
  still_open (w_trace (fold_left (fun w s => close s w) fs w)) h <-> still_open (w_trace w) h /\ ~ In h (concat fs).
Proof. rewrite (proj1 (close_all_trace fs w)). apply still_open_closes. Qed.

Definition cleaned (w : world) : Prop :=
  all_closed (w_trace w) /\
  (disciplined (w_trace w) \/ (refused /\ w_files w <> [] /\ ~ disciplined (w_trace w))).
Lemma close_raised w : raised w -> cleaned (close_indexer w).
Proof.
  intros [F|(R & n & Hn & B & NS)].
  - unfold close_indexer.
    assert (F' : fine (close_stream w) (concat (w_files w) ++ [])).
    { rewrite app_nil_r. unfold close_stream. destruct (w_stream w) as [s|]; [exact (fine_close _ _ _ F)|exact F]. }
    apply fine_close_all in F'. split; [|left; apply F'].
    intros h O. apply F' in O. destruct O.
  - destruct B as [L S F [N|(fs & s & Fs & W)]]; [destruct (NS N)|].
    unfold close_indexer, close_stream. rewrite W. rewrite Fs at 1. split.
    + intros h O. rewrite (proj1 (close_all_trace _ _)) in O. apply still_open_closes in O as [O NI].
      cbn [set_stream w_trace close emit] in O. apply still_open_closes in O as [O NI'].
      apply F in O. rewrite Fs in O. exact (NI O).
    + right. split; [exact R|]. rewrite (proj2 (close_all_trace _ _)). cbn [set_stream w_files close emit].
      split. { rewrite Fs. destruct fs; discriminate. }
      rewrite (proj1 (close_all_trace _ _)). cbn [set_stream w_trace close emit].
      rewrite concat_app, map_app. cbn [concat]. rewrite app_nil_r, !app_assoc.
      rewrite Fs in S. apply Forall_app in S as [_ S]. inversion S as [|? ? Ns _]; subst.
      destruct s as [|h s]; [congruence|]. cbn [map]. intros D.
      specialize (D (((w_trace w ++ Closes h :: map Closes s) ++ map Closes (concat fs))) (Closes h) (map Closes s) eq_refl).
      destruct D as [_ D]. apply D. apply in_app_iff. left. apply in_app_iff. right. left. reflexivity.
Qed.
End dlis.
