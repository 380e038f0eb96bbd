(** Lemmas for C76 and C77: whole loads, and calls on what they return. *)
From Verif Require Import Bytes Stream DlisIo Tapemark Lfp LisProtocol LisIo LisIoProofs5 Handles SpecHandles HandlesProofs.
From Coq Require Import Permutation.
From Verif Require DlisLoad LisLoad.
Local Open Scope Z_scope.

(** ** dlisio.dlis.load *)
Section dlis.
Variable esc : severity -> bool.
Variable open_cfile : nat -> Z -> opening raw.
Variable open_tif : nat -> raw -> option raw.
Variable open_rp66 : nat -> raw -> Z -> option rp66.
Notation load := (dlis_load esc open_cfile open_tif open_rp66).

Lemma between_new w : fine w [] -> w_files w = [] -> w_stream w = None -> between 0 w.
Proof. intros F N S. split; rewrite ?N; auto. Qed.

Definition stopped_well (mark : opening (res tapemark)) (w : world) : Prop :=
  match mark with
  | Got Exn => w_trace w = [Opens 0; Uses 0]
  | _ => cleaned open_cfile w
  end.
Lemma dlis_load_post ex mark fuel :
  post (load ex mark fuel) new_world (fun st w => between (length (DlisLoad.di_files st)) w) (fun w => (ex = false -> w = new_world) /\ (ex = true -> stopped_well mark w)).
Proof.
  unfold dlis_load. destruct ex; cbn [negb].
  2: { split; [reflexivity|discriminate]. }
  assert (C0 : forall w, fine w [] -> cleaned open_cfile w).
  { intros w F. split; [intros h O; apply F in O; destruct O|left; apply F]. }
  destruct mark as [| |tm].
  - split; [discriminate|]. intros _. apply C0, fine_new.
  - split; [discriminate|]. intros _. apply C0. apply fine_close, fine_created, fine_new.
  - unfold open_file. unfold hbind at 1, post. unfold hbind at 1, change. cbn [ret app].
    unfold hbind at 1, lift. destruct tm as [tm| | |]; try exact Logic.I.
    2: { split; [discriminate|]. intros _. reflexivity. }
    unfold hbind. cbn [ret app].
    set (w0 := close [w_next new_world] (use [w_next new_world] (created new_world))).
    assert (B0 : between 0 w0).
    { apply between_new; try reflexivity. apply fine_close, fine_use; [apply fine_created, fine_new|]. apply incl_refl. }
    unfold guarded.
    pose proof (loop_post esc (valid_tapemark tm) open_cfile open_tif open_rp66 fuel DlisLoad.new_indexer w0 B0) as P.
    unfold post in P. destruct (load_loop _ _ _ _ _ _ _ _) as [w' [l [st| | |]]]; cbn [app]; try exact Logic.I.
    + exact P.
    + split; [discriminate|]. intros _. apply close_raised. exact P.
Qed.

Lemma between_own n w : between n w -> own_handles (w_trace w) (w_files w).
Proof. intros [L S F _]. split; [exact S|]. split; apply F. Qed.

Lemma dlis_returned ex mark fuel w l st : load ex mark fuel new_world = (w, (l, Ok st)) ->
  disciplined (w_trace w) /\ length (w_files w) = length (DlisLoad.di_files st) /\ own_handles (w_trace w) (w_files w).
Proof.
  intros E. pose proof (dlis_load_post ex mark fuel) as P. unfold post in P. rewrite E in P.
  split; [apply (b_fine _ _ P)|]. split; [apply P|exact (between_own _ _ P)].
Qed.
Lemma dlis_raised ex mark fuel w l : load ex mark fuel new_world = (w, (l, Exn)) -> mark <> Got Exn ->
  all_closed (w_trace w) /\
  (disciplined (w_trace w) \/
   (exists n o, forall r, open_cfile n o <> Got r) /\ w_files w <> [] /\ ~ disciplined (w_trace w)).
Proof.
  intros E N. pose proof (dlis_load_post ex mark fuel) as P. unfold post in P. rewrite E in P. destruct P as [P1 P2].
  destruct ex.
  - specialize (P2 eq_refl). unfold stopped_well in P2. destruct mark as [| |[| | |]]; try exact P2. congruence.
  - rewrite (P1 eq_refl). split; [intros h [[] _]|left; exact disciplined_nil].
Qed.
Lemma dlis_mark fuel w l r : load true (Got Exn) fuel new_world = (w, (l, r)) -> r = Exn /\ w_trace w = [Opens 0; Uses 0].
Proof. intros E. injection E as <- <- <-. split; reflexivity. Qed.
End dlis.

Lemma mark_raises file : read_tapemark file 0 = Exn <-> Z.of_nat (length file) < 12.
Proof.
  unfold read_tapemark, read. cbn [s_data s_hard]. change (12 =? 0) with false. change ((12 <? 0) || (0 <? 0)) with false.
  change (Z.to_nat 12) with 12%nat. change (Z.to_nat 0) with 0%nat. cbn [skipn].
  replace (if (length (firstn 12 file) =? 12)%nat then Some (firstn 12 file) else Some (firstn 12 file))
    with (Some (firstn 12 file)) by (destruct (_ =? _)%nat; reflexivity).
  cbv iota beta. destruct (Z.ltb_spec (Z.of_nat (length (firstn 12 file))) 12) as [B|B]; rewrite firstn_length in B; split; intros X;
    try discriminate X; try lia; reflexivity.
Qed.

(** *** The results are those of DlisLoad.v *)
Section same.
Variable esc : severity -> bool.
Variable is_tif : bool.
Variable open_cfile : Z -> opening raw.
Variable open_tif : raw -> option raw.
Variable open_rp66 : raw -> Z -> option rp66.
Definition opened (o : Z) : option raw :=
  match open_cfile o with Got r => if is_tif then open_tif r else Some r | _ => None end.
Notation hround := (load_round esc is_tif (fun _ => open_cfile) (fun _ => open_tif) (fun _ => open_rp66)).
Notation hloop := (load_loop esc is_tif (fun _ => open_cfile) (fun _ => open_tif) (fun _ => open_rp66)).

Lemma on_stream_same {A} (m : io A) w : w_stream w <> None ->
  snd (on_stream m w) = m /\ w_stream (fst (on_stream m w)) <> None.
Proof. unfold on_stream. destruct (w_stream w) as [s|] eqn:E; [|congruence]. intros _. cbn. rewrite E. split; [reflexivity|discriminate]. Qed.
Lemma bind_ext {A B} (m : io A) (k k' : A -> io B) : (forall a, k a = k' a) -> bind m k = bind m k'.
Proof. intros E. destruct m as [l [a| | |]]; cbn [bind]; try reflexivity. rewrite E. reflexivity. Qed.
Lemma on_stream_bind {A B} (m : io A) (k : A -> hio B) (k' : A -> io B) w : w_stream w <> None ->
  (forall a w, w_stream w <> None -> snd (k a w) = k' a) -> snd (hbind (on_stream m) k w) = bind m k'.
Proof.
  intros S K. rewrite snd_bind. destruct (on_stream_same m w S) as [-> S']. apply bind_ext. intros a. apply K. exact S'.
Qed.
Lemma bind_ret {A} (m : io A) : bind m ret = m.
Proof. destruct m as [l [a| | |]]; cbn [bind ret]; try reflexivity. rewrite app_nil_r. reflexivity. Qed.

Lemma apply_same r pos w : w_stream w <> None ->
  snd (apply_rp66_protocol esc (fun _ => open_rp66) r pos w) = DlisLoad.apply_rp66_protocol esc open_rp66 r pos /\
  w_stream (fst (apply_rp66_protocol esc (fun _ => open_rp66) r pos w)) <> None.
Proof.
  intros S. unfold apply_rp66_protocol, DlisLoad.apply_rp66_protocol, hbind, on_stream.
  destruct (w_stream w) as [s|] eqn:Es; [|congruence].
  destruct (findvrl esc (raw_stream r) pos) as [l [q| | |]]; cbn [bind fst snd use emit w_stream]; rewrite ?Es;
    try (split; [reflexivity|discriminate]).
  unfold put_on. destruct (open_rp66 r q) as [vs|]; cbn; rewrite ?Es; split; try reflexivity; discriminate.
Qed.
Lemma parse_same st vs w : w_stream w <> None ->
  snd (parse_logical_file esc is_tif st vs w) = DlisLoad.parse_logical_file esc is_tif st vs.
Proof.
  intros S. unfold parse_logical_file, hbind, on_stream. destruct (w_stream w) as [s|] eqn:Es; [|congruence].
  destruct (DlisLoad.parse_logical_file esc is_tif st vs) as [l [a| | |]]; cbn; rewrite ?app_nil_r; reflexivity.
Qed.
Lemma round_same st w : snd (hround st w) = DlisLoad.load_round esc is_tif opened open_rp66 st.
Proof.
  unfold load_round, DlisLoad.load_round. rewrite snd_bind.
  assert (O : match opened (DlisLoad.di_next st) with
              | None => snd (open_stream is_tif (fun _ => open_cfile) (fun _ => open_tif) (DlisLoad.di_next st) w) = fail
              | Some r => snd (open_stream is_tif (fun _ => open_cfile) (fun _ => open_tif) (DlisLoad.di_next st) w) = ret r /\
                  w_stream (fst (open_stream is_tif (fun _ => open_cfile) (fun _ => open_tif) (DlisLoad.di_next st) w)) <> None
              end).
  { unfold opened, open_stream, open_file, hbind. destruct (open_cfile (DlisLoad.di_next st)); try reflexivity.
    destruct is_tif; unfold put_on; cbn; [|split; [reflexivity|discriminate]].
    destruct (open_tif a); cbn; [split; [reflexivity|discriminate]|reflexivity]. }
  destruct (opened (DlisLoad.di_next st)) as [r|]; [|rewrite O; reflexivity].
  destruct O as [E S1]. rewrite E. unfold ret at 1. cbn [bind].
  assert (X : forall (x : io DlisLoad.indexer), (let '(l', r) := x in ([] ++ l', r)) = x) by (intros [a b]; reflexivity).
  rewrite X. clear X E. revert S1. generalize (fst (open_stream is_tif (fun _ => open_cfile) (fun _ => open_tif) (DlisLoad.di_next st) w)).
  intros w1 S1. apply on_stream_bind; [exact S1|]. intros [eof st1] w2 S2. destruct eof; [reflexivity|].
  apply on_stream_bind; [exact S2|]. intros [found pos] w3 S3.
  assert (K : forall st2 w4, w_stream w4 <> None -> forall pos',
    snd ((let& (eof, st3) := on_stream (DlisLoad.logical_eof esc st2 r pos') in
          if eof then let& _ := change close_stream in hret st3
          else let& vs := apply_rp66_protocol esc (fun _ => open_rp66) r pos' in parse_logical_file esc is_tif st3 vs) w4) =
    (let* (eof, st3) := DlisLoad.logical_eof esc st2 r pos' in
     if eof then ret st3
     else let* vs := DlisLoad.apply_rp66_protocol esc open_rp66 r pos' in DlisLoad.parse_logical_file esc is_tif st3 vs)).
  { intros st2 w4 S4 pos'. apply on_stream_bind; [exact S4|]. intros [eof st3] w5 S5. destruct eof; [reflexivity|].
    rewrite snd_bind. destruct (apply_same r pos' w5 S5) as [-> S6]. apply bind_ext. intros vs. apply parse_same. exact S6. }
  destruct found.
  - apply on_stream_bind; [exact S3|]. intros [st2 pos'] w4 S4. apply K. exact S4.
  - rewrite snd_bind. cbn [hret snd fst ret bind].
    assert (X : forall (x : io DlisLoad.indexer), (let '(l', r) := x in ([] ++ l', r)) = x) by (intros [a b]; reflexivity).
    rewrite !X. apply K. exact S3.
Qed.
Lemma loop_same fuel : forall st w, snd (hloop fuel st w) = DlisLoad.load_loop esc is_tif opened open_rp66 fuel st.
Proof.
  induction fuel as [|fuel IH]; intros st w; [reflexivity|]. cbn [load_loop DlisLoad.load_loop].
  destruct (DlisLoad.di_end st); [reflexivity|]. rewrite snd_bind, round_same. apply bind_ext. intros a. apply IH.
Qed.
End same.

Lemma dlis_same esc open_tif tif_rp66 file fuel :
  snd (dlis_load esc (fun _ o => Got (plain_raw file o)) (fun _ => open_tif)
         (fun _ r q => match read_tapemark file 0 with
                       | Ok tm => if valid_tapemark tm then tif_rp66 r q else plain_rp66 r q
                       | _ => None
                       end) true (Got (read_tapemark file 0)) fuel new_world) =
  DlisLoad.load esc (fun f o => open_tif (plain_raw f o)) tif_rp66 fuel file.
Proof.
  unfold dlis_load, DlisLoad.load. cbn [negb].
  unfold open_file. unfold hbind at 1. unfold hbind at 1, change. cbn [ret app].
  unfold hbind at 1, lift. destruct (read_tapemark file 0) as [tm| | |]; try reflexivity.
  unfold hbind. cbn [ret app]. unfold guarded.
  match goal with |- context [load_loop _ ?tif ?oc ?ot (fun _ => ?orp) ?f ?st ?w] =>
    pose proof (loop_same esc tif (fun o => Got (plain_raw file o)) open_tif orp f st w) as X;
    destruct (load_loop esc tif oc ot (fun _ => orp) f st w) as [w' [l r]] end.
  cbn [snd] in X. transitivity (l, r); [destruct r; reflexivity|]. rewrite X.
  destruct (valid_tapemark tm); reflexivity.
Qed.

(** ** Calls *)

Lemma disciplined_uses_iff tr s : disciplined (tr ++ map Uses s) <-> disciplined tr /\ forall h, In h s -> still_open tr h.
Proof.
  split; [|intros [D I]; apply disciplined_uses; assumption]. intros D. split; [exact (disciplined_app _ _ D)|].
  induction s as [|x s IH] using rev_ind; intros h I; [destruct I|]. rewrite map_app, app_assoc in D.
  apply disciplined_snoc in D as [D F]. cbn [fits] in F. apply in_app_iff in I as [I|[<-|[]]]; [exact (IH D h I)|].
  apply still_open_uses in F. exact F.
Qed.
Lemma disciplined_closes_iff tr s :
  disciplined (tr ++ map Closes s) <-> disciplined tr /\ NoDup s /\ forall h, In h s -> still_open tr h.
Proof.
  split; [|intros (D & U & I); apply disciplined_closes; assumption]. intros D. split; [exact (disciplined_app _ _ D)|].
  induction s as [|x s IH] using rev_ind; [split; [constructor|intros h []]|]. rewrite map_app, app_assoc in D.
  apply disciplined_snoc in D as [D F]. cbn [fits] in F. apply still_open_closes in F as [O N]. destruct (IH D) as [U A]. split.
  - eapply Permutation_NoDup; [apply Permutation_cons_append|]. constructor; assumption.
  - intros h I. apply in_app_iff in I as [I|[<-|[]]]; [exact (A h I)|exact O].
Qed.

Lemma careful_snoc n cs c : careful n (cs ++ [c]) <-> careful n cs /\ forall i, needs n c i -> left_open cs i.
Proof.
  split.
  - intros C. split.
    + intros b x a i -> N. apply (C b x (a ++ [c]) i); [rewrite <- app_assoc; reflexivity|exact N].
    + intros i N c' I. exact (C cs c [] i eq_refl N c' I).
  - intros [C L] b x a i H N. destruct a as [|y a _] using rev_ind.
    + apply app_inj_tail in H as [-> ->]. exact (L i N).
    + rewrite app_comm_cons, app_assoc in H. apply app_inj_tail in H as [-> _]. exact (C b x a i eq_refl N).
Qed.
Lemma left_open_snoc cs c i : left_open (cs ++ [c]) i <-> left_open cs i /\ ~ closes c i.
Proof.
  unfold left_open. split.
  - intros L. split; [intros c' I; apply L, in_app_iff; left; exact I|apply L, in_app_iff; right; left; reflexivity].
  - intros [L N] c' I. apply in_app_iff in I as [I|[<-|[]]]; [exact (L c' I)|exact N].
Qed.
Lemma run_call_files w c : w_files (run_call w c) = w_files w.
Proof.
  destruct c; cbn [run_call]; try reflexivity; try (destruct (nth_error (w_files w) i); reflexivity).
  apply close_all_trace.
Qed.
Lemma run_snoc w cs c : run w (cs ++ [c]) = run_call (run w cs) c.
Proof. unfold run. rewrite fold_left_app. reflexivity. Qed.
Lemma run_files w cs : w_files (run w cs) = w_files w.
Proof. induction cs as [|c cs IH] using rev_ind; [reflexivity|]. rewrite run_snoc, run_call_files. exact IH. Qed.

Lemma in_concat_nth {A} (fs : list (list A)) h : In h (concat fs) <-> exists i s, nth_error fs i = Some s /\ In h s.
Proof.
  rewrite in_concat. split.
  - intros (s & I & J). apply In_nth_error in I as [i E]. exists i, s. split; assumption.
  - intros (i & s & E & J). exists s. split; [exact (nth_error_In _ _ E)|exact J].
Qed.
Lemma own_index {A} (fs : list (list A)) : forall i j s t h, NoDup (concat fs) ->
  nth_error fs i = Some s -> In h s -> nth_error fs j = Some t -> In h t -> i = j.
Proof.
  induction fs as [|f fs IH]; intros [|i] [|j] s t h U E I E' J; try discriminate; try reflexivity; cbn [concat nth_error] in *.
  - injection E as ->. exfalso. apply (nodup_disjoint _ _ _ U I), in_concat_nth. exists j, t. split; assumption.
  - injection E' as ->. exfalso. apply (nodup_disjoint _ _ _ U J), in_concat_nth. exists i, s. split; assumption.
  - f_equal. exact (IH i j s t h (nodup_app_r _ _ U) E I E' J).
Qed.

Lemma calls w : disciplined (w_trace w) -> own_handles (w_trace w) (w_files w) -> forall cs,
  let n := length (w_files w) in
  (disciplined (w_trace (run w cs)) <-> careful n cs) /\
  (forall i s, nth_error (w_files w) i = Some s -> forall h, In h s ->
     (still_open (w_trace (run w cs)) h <-> left_open cs i)) /\
  (forall h, still_open (w_trace (run w cs)) h -> In h (concat (w_files w))).
Proof.
  intros D (NE & U & V) cs n.
  assert (NEi : forall i s, nth_error (w_files w) i = Some s -> exists h, In h s).
  { intros i s E. apply nth_error_In in E. rewrite Forall_forall in NE. apply NE in E. destruct s as [|h s]; [congruence|].
    exists h. left. reflexivity. }
  assert (Us : forall i s, nth_error (w_files w) i = Some s -> NoDup s).
  { intros i s E. apply nth_error_split in E as (a & b & E & _). rewrite E, concat_app in U. cbn [concat] in U.
    apply nodup_app_r in U. exact (nodup_app_l _ _ U). }
  induction cs as [|c cs (IH1 & IH2 & IH3)] using rev_ind.
  - cbn [run fold_left]. split; [|split].
    + split; [|intros _; exact D]. intros _ b x a i H. destruct b; discriminate H.
    + intros i s E h I. split; [intros _ c []|]. intros _. apply V, in_concat_nth. exists i, s. split; assumption.
    + intros h O. apply V. exact O.
  - rewrite run_snoc. pose proof (run_files w cs) as FF. set (w1 := run w cs) in *. rewrite careful_snoc, <- IH1.
    destruct c as [i|i|i|]; cbn [run_call]; rewrite ?FF.
    + split; [|split].
      * split; [|intros [D1 _]; exact D1]. intros D1. split; [exact D1|]. intros j [_ [X|[X|X]]]; discriminate X.
      * intros j s E h I. rewrite (IH2 j s E h I), left_open_snoc. split; [|intros [L _]; exact L].
        intros L. split; [exact L|]. intros [X|X]; discriminate X.
      * exact IH3.
    + destruct (nth_error (w_files w) i) as [s|] eqn:E.
      * cbn [use emit w_trace]. split; [|split].
        -- rewrite disciplined_uses_iff. split; intros [D1 H]; split; try exact D1.
           ++ intros j [_ [X|[X|X]]]; try discriminate X. injection X as <-. destruct (NEi i s E) as [h I].
              exact (proj1 (IH2 i s E h I) (H h I)).
           ++ intros h I. apply (IH2 i s E h I), H. split; [apply nth_error_Some; congruence|left; reflexivity].
        -- intros j t E' h I. rewrite still_open_uses, (IH2 j t E' h I), left_open_snoc. split; [|intros [L _]; exact L].
           intros L. split; [exact L|]. intros [X|X]; discriminate X.
        -- intros h. rewrite still_open_uses. apply IH3.
      * split; [|split].
        -- split; [|intros [D1 _]; exact D1]. intros D1. split; [exact D1|]. intros j [B [X|[X|X]]]; try discriminate X.
           injection X as <-. apply nth_error_None in E. unfold n in B. lia.
        -- intros j t E' h I. rewrite (IH2 j t E' h I), left_open_snoc. split; [|intros [L _]; exact L].
           intros L. split; [exact L|]. intros [X|X]; discriminate X.
        -- exact IH3.
    + destruct (nth_error (w_files w) i) as [s|] eqn:E.
      * cbn [close emit w_trace]. split; [|split].
        -- rewrite disciplined_closes_iff. split.
           ++ intros (D1 & _ & H). split; [exact D1|]. intros j [_ [X|[X|X]]]; try discriminate X. injection X as <-.
              destruct (NEi i s E) as [h I]. exact (proj1 (IH2 i s E h I) (H h I)).
           ++ intros [D1 H]. split; [exact D1|]. split; [exact (Us i s E)|].
              intros h I. apply (IH2 i s E h I), H. split; [apply nth_error_Some; congruence|right; left; reflexivity].
        -- intros j t E' h I. rewrite still_open_closes, (IH2 j t E' h I), left_open_snoc. split; intros [L N]; split; try exact L.
           ++ intros [X|X]; [|discriminate X]. injection X as <-. apply N. congruence.
           ++ intros J. apply N. left. f_equal. exact (own_index _ _ _ _ _ _ U E J E' I).
        -- intros h. rewrite still_open_closes. intros [O _]. exact (IH3 h O).
      * split; [|split].
        -- split; [|intros [D1 _]; exact D1]. intros D1. split; [exact D1|]. intros j [B [X|[X|X]]]; try discriminate X.
           injection X as <-. apply nth_error_None in E. unfold n in B. lia.
        -- intros j t E' h I. rewrite (IH2 j t E' h I), left_open_snoc. split; [|intros [L _]; exact L].
           intros L. split; [exact L|]. intros [X|X]; [|discriminate X]. injection X as <-. congruence.
        -- exact IH3.
    + rewrite !(proj1 (close_all_trace _ _)). split; [|split].
      * rewrite disciplined_closes_iff. split.
        -- intros (D1 & _ & H). split; [exact D1|]. intros j [B _]. apply nth_error_Some in B.
           destruct (nth_error (w_files w) j) as [s|] eqn:E; [|congruence]. destruct (NEi j s E) as [h I].
           apply (IH2 j s E h I), H, in_concat_nth. exists j, s. split; assumption.
        -- intros [D1 H]. split; [exact D1|]. split; [exact U|]. intros h I. apply in_concat_nth in I as (j & s & E & I).
           apply (IH2 j s E h I), H. split; [apply nth_error_Some; intros X; assert (Y : Some s = None) by (rewrite <- E; exact X); discriminate Y|right; right; reflexivity].
      * intros j t E' h I. rewrite still_open_closes, left_open_snoc. split.
        -- intros [_ N]. exfalso. apply N, in_concat_nth. exists j, t. split; assumption.
        -- intros [_ N]. exfalso. apply N. right. reflexivity.
      * intros h. rewrite still_open_closes. intros [O _]. exact (IH3 h O).
Qed.
