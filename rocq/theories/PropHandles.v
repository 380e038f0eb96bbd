(** C76 and C77: the file handles of dlisio.dlis.load and dlisio.lis.load. *)
From Verif Require Import Bytes SpecIo Stream Tapemark Lfp LisProtocol LisIo Handles SpecHandles HandlesProofs HandlesProofs2 HandlesProofs3 SpecDlisLoad PropDlisLoad.
From Verif Require DlisLoad LisLoad.
Local Open Scope Z_scope.

(** ** C76: DLIS *)

(** The computations with handles give the results of the model of C61 and C62. *)
Theorem C76_same_results : forall esc open_tif tif_rp66 file fuel,
  snd (dlis_load esc (fun _ o => Got (plain_raw file o)) (fun _ => open_tif)
         (fun _ r q => match read_tapemark file 0 with
                       | Ok tm => if valid_tapemark tm then tif_rp66 r q else plain_rp66 r q
                       | _ => None
                       end) true (Got (read_tapemark file 0)) fuel new_world) =
  DlisLoad.load esc (fun f o => open_tif (plain_raw f o)) tif_rp66 fuel file.
Proof. exact dlis_same. Qed.
Print Assumptions C76_same_results.

(** load returns: whatever the file holds, however the handler is set, and whatever
    the system answered when it was asked to open something, nothing was used or
    closed that was not open, every logical file has handles of its own that are
    open, and nothing else is open. *)
Theorem C76_returned : forall esc open_cfile open_tif open_rp66 exists_ mark fuel w l st,
  dlis_load esc open_cfile open_tif open_rp66 exists_ mark fuel new_world = (w, (l, Ok st)) ->
  disciplined (w_trace w) /\ length (w_files w) = length (DlisLoad.di_files st) /\
  own_handles (w_trace w) (w_files w).
Proof. exact dlis_returned. Qed.
Print Assumptions C76_returned.

(** load raises, at any point after the first 12 bytes could be read: nothing stays
    open.  Everything was closed once, except where the system refused to open
    the file again after a logical file had been found. *)
Theorem C76_raised_partial : forall esc open_cfile open_tif open_rp66 exists_ mark fuel w l,
  dlis_load esc open_cfile open_tif open_rp66 exists_ mark fuel new_world = (w, (l, Exn)) -> mark <> Got Exn ->
  all_closed (w_trace w) /\
  (disciplined (w_trace w) \/
   (exists n o, forall r, open_cfile n o <> Got r) /\ w_files w <> [] /\ ~ disciplined (w_trace w)).
Proof. exact dlis_raised. Qed.
Print Assumptions C76_raised_partial.

(** A file of at least 12 bytes on a system that opens it whenever asked, of which
    some bytes may be unreadable as a tape image or as visible records: right in
    all cases. *)
Theorem C76_file : forall esc open_tif open_rp66 file fuel w l r,
  12 <= len file ->
  dlis_load esc (fun _ o => Got (plain_raw file o)) open_tif open_rp66 true (Got (read_tapemark file 0)) fuel new_world
    = (w, (l, r)) ->
  match r with
  | Ok st => disciplined (w_trace w) /\ length (w_files w) = length (DlisLoad.di_files st) /\
             own_handles (w_trace w) (w_files w)
  | Exn => disciplined (w_trace w) /\ all_closed (w_trace w)
  | _ => True
  end.
Proof.
  intros esc ot orp file fuel w l r L E. destruct r as [st| | |]; try exact I.
  - eapply dlis_returned. exact E.
  - apply dlis_raised in E as [A [D|[(n & o & R) _]]].
    + split; assumption.
    + destruct (R _ eq_refl).
    + intros X. injection X as X. apply mark_raises in X. unfold len in L. lia.
Qed.
Print Assumptions C76_file.

(** Any number of calls on what load returned, in any order: they are right exactly
    if no logical file is read or closed after it was closed; until then every
    logical file is open exactly if it was not closed, whatever happened to the
    others; no other handle is open. *)
Theorem C76_calls : forall esc open_cfile open_tif open_rp66 exists_ mark fuel w l st cs,
  dlis_load esc open_cfile open_tif open_rp66 exists_ mark fuel new_world = (w, (l, Ok st)) ->
  (disciplined (w_trace (run w cs)) <-> careful (length (DlisLoad.di_files st)) cs) /\
  (forall i s, nth_error (w_files w) i = Some s -> forall h, In h s ->
     (still_open (w_trace (run w cs)) h <-> left_open cs i)) /\
  (forall h, still_open (w_trace (run w cs)) h -> In h (concat (w_files w))).
Proof.
  intros esc oc ot orp ex mark fuel w l st cs E. apply dlis_returned in E as (D & L & O). rewrite <- L.
  exact (calls w D O cs).
Qed.
Print Assumptions C76_calls.

(** Files shorter than a tape mark: load raises and leaves the handle open. *)
Theorem C76_short_refuted : forall esc open_cfile open_tif open_rp66 file fuel,
  len file < 12 ->
  exists w, dlis_load esc open_cfile open_tif open_rp66 true (Got (read_tapemark file 0)) fuel new_world = (w, ([], Exn)) /\
    still_open (w_trace w) 0.
Proof.
  intros esc oc ot orp file fuel L.
  assert (E : read_tapemark file 0 = Exn) by (apply mark_raises; exact L).
  rewrite E. eexists. split; [reflexivity|]. cbn. split; [left; reflexivity|]. intros [X|[X|[]]]; discriminate X.
Qed.
Print Assumptions C76_short_refuted.

Definition two_files : bytes := example_label ++ enc_files [example_wfile (text "A"); example_wfile (text "A")].
(** A file of two logical files on a system that opens it twice but not a third time
    (for instance because the limit of open files is reached): load raises, and on
    the way it closes the handles of the first logical file twice. *)
Theorem C76_reopen_refuted :
  exists w l,
    dlis_load (fun _ => true) (fun n o => if (n <? 3)%nat then Got (plain_raw two_files o) else NoFile)
      (fun _ _ => None) (fun _ => plain_rp66) true (Got (read_tapemark two_files 0)) 500 new_world = (w, (l, Exn)) /\
    ~ disciplined (w_trace w) /\
    exists before after, w_trace w = before ++ Closes 2 :: after /\ In (Closes 2) before.
Proof.
  eexists. eexists. split; [vm_compute; reflexivity|]. cbn [w_trace].
  assert (X : forall tr before after, tr = before ++ Closes 2 :: after -> In (Closes 2) before -> ~ disciplined tr).
  { intros tr b a E I D. destruct (D b _ a E) as [_ N]. exact (N I). }
  match goal with |- ~ disciplined ?tr /\ _ =>
    assert (Y : exists before after, tr = before ++ Closes 2 :: after /\ In (Closes 2) before) end.
  { match goal with |- context [?tr = _] => exists (firstn (length tr - 2) tr), [Closes 1] end.
    split; [reflexivity|]. vm_compute. tauto. }
  split; [|exact Y]. destruct Y as (b & a & E & I). eapply X; eassumption.
Qed.
Print Assumptions C76_reopen_refuted.

(** Closing a logical file within the with-statement of the list it is from is not
    careful, nor is reading it after closing. *)
Theorem C76_twice_refuted :
  exists w l st,
    dlis_load (fun _ => true) (fun _ o => Got (plain_raw two_files o)) (fun _ _ => None) (fun _ => plain_rp66)
      true (Got (read_tapemark two_files 0)) 500 new_world = (w, (l, Ok st)) /\
    ~ disciplined (w_trace (run w [Close 0; CloseAll])) /\ ~ disciplined (w_trace (run w [Close 0; Read 0])).
Proof.
  set (x := dlis_load _ _ _ _ _ _ _ _).
  assert (X : match snd (snd x) with Ok st => length (DlisLoad.di_files st) = 2%nat | _ => False end) by (vm_compute; reflexivity).
  destruct x as [w [l r]] eqn:E. cbn [snd] in X. destruct r as [st| | |]; try contradiction X.
  exists w, l, st. split; [reflexivity|]. rename X into N. unfold x in E.
  split; intros D; apply (proj1 (C76_calls _ _ _ _ _ _ _ _ _ _ _ E)) in D; rewrite N in D.
  - refine (D [Close 0] CloseAll [] 0%nat eq_refl _ (Close 0) (or_introl eq_refl) (or_introl eq_refl)).
    split; [lia|]. right. right. reflexivity.
  - refine (D [Close 0] (Read 0) [] 0%nat eq_refl _ (Close 0) (or_introl eq_refl) (or_introl eq_refl)).
    split; [lia|]. left. reflexivity.
Qed.
Print Assumptions C76_twice_refuted.

(** two logical files: the trace, and calls that are careful *)
Example C76_example :
  exists w st,
    dlis_load (fun _ => true) (fun _ o => Got (plain_raw two_files o)) (fun _ _ => None) (fun _ => plain_rp66)
      true (Got (read_tapemark two_files 0)) 500 new_world = (w, ([], Ok st)) /\
    w_files w = [[2; 1]; [4; 3]]%nat /\
    filter (fun e => match e with Uses _ => false | _ => true end) (w_trace w)
      = [Opens 0; Closes 0; Opens 1; Opens 2; Opens 3; Opens 4; Opens 5; Closes 5]%nat /\
    careful 2 [Read 0; Close 0; Query 0; Read 1; Close 1].
Proof.
  eexists. eexists. split; [vm_compute; reflexivity|]. split; [reflexivity|]. split; [reflexivity|].
  intros b c a i E [_ N] c' I [->| ->].
  - destruct b as [|? [|? [|? [|? [|? b]]]]]; cbn in E; injection E; intros; subst; cbn in I; destruct N as [N|[N|N]]; try discriminate N;
      try (injection N as <-); repeat (destruct I as [I|I]; [discriminate I || (injection I as <-; try discriminate)|]); try contradiction I;
      try discriminate; destruct b; discriminate.
  - destruct b as [|? [|? [|? [|? [|? b]]]]]; cbn in E; injection E; intros; subst; cbn in I;
      repeat (destruct I as [I|I]; [discriminate I|]); try contradiction I; destruct b; discriminate.
Qed.

(** ** C77: LIS *)

Theorem C77_same_results : forall esc tif_opening tif_stopped file fuel,
  snd (lis_load esc (fun tif _ o => if tif : bool then tif_opening o else plain_opening file o)
         (fun tif => if tif : bool then tif_stopped else LisLoad.plain_stopped) fuel (Got file) new_world) =
  LisLoad.load esc (fun _ o => lis_opened (tif_opening o)) tif_stopped fuel file.
Proof. exact lis_same. Qed.
Print Assumptions C77_same_results.

Theorem C77_returned : forall esc openlis stopped fuel file w l st,
  lis_load esc openlis stopped fuel file new_world = (w, (l, Ok st)) ->
  disciplined (w_trace w) /\ length (w_files w) = length (LisLoad.fi_files st) /\
  own_handles (w_trace w) (w_files w).
Proof. exact lis_returned. Qed.
Print Assumptions C77_returned.

(** load raises: nothing was misused, and nothing stays open, except where the
    action for CRITICAL raises and data records end in a delimiter (reel, tape or
    end of file) *)
Theorem C77_raised_partial : forall esc openlis stopped fuel file w l,
  lis_load esc openlis stopped fuel file new_world = (w, (l, Exn)) ->
  disciplined (w_trace w) /\
  (all_closed (w_trace w) \/
   (esc CRITICAL = true /\ exists tif n o d, openlis tif n o = LGot d /\ joined d) /\
   exists s, s <> [] /\ forall h, still_open (w_trace w) h <-> In h s).
Proof. exact lis_raised. Qed.
Print Assumptions C77_raised_partial.

Theorem C77_calls : forall esc openlis stopped fuel file w l st cs,
  lis_load esc openlis stopped fuel file new_world = (w, (l, Ok st)) ->
  (disciplined (w_trace (run w cs)) <-> careful (length (LisLoad.fi_files st)) cs) /\
  (forall i s, nth_error (w_files w) i = Some s -> forall h, In h s ->
     (still_open (w_trace (run w cs)) h <-> left_open cs i)) /\
  (forall h, still_open (w_trace (run w cs)) h -> In h (concat (w_files w))).
Proof.
  intros esc ol sa fuel file w l st cs E. apply lis_returned in E as (D & L & O). rewrite <- L.
  exact (calls w D O cs).
Qed.
Print Assumptions C77_calls.

(** A row of data, then a tape trailer: load raises and leaves a handle open. *)
Definition data_then_trailer : bytes :=
  [x00; x0a; x00; x00; x00; x00] ++ text "rows" ++ [x00; x08; x00; x00; x83; x00] ++ text "xx".
Theorem C77_leak_refuted :
  exists w,
    lis_load (fun s => match s with CRITICAL => true | _ => false end) (fun _ _ => plain_opening data_then_trailer)
      (fun _ => LisLoad.plain_stopped) 100 (Got data_then_trailer) new_world = (w, ([CRITICAL], Exn)) /\
    w_trace w = [Opens 0; Uses 0; Closes 0; Opens 1; Uses 1; Uses 1]%nat /\ still_open (w_trace w) 1.
Proof.
  eexists. split; [vm_compute; reflexivity|]. cbn [w_trace]. split; [reflexivity|]. split; [cbn; tauto|].
  cbn. intuition discriminate.
Qed.
Print Assumptions C77_leak_refuted.

(** a reel header, then a logical file of two records *)
Definition reel_then_file : bytes :=
  [x00; x08; x00; x00; x84; x00] ++ text "rl" ++ [x00; x08; x00; x00; x80; x00] ++ text "hd"
  ++ [x00; x08; x00; x00; x81; x00] ++ text "tr".
Example C77_example :
  exists w st,
    lis_load (fun _ => true) (fun _ _ => plain_opening reel_then_file)
      (fun _ => LisLoad.plain_stopped) 100 (Got reel_then_file) new_world = (w, ([], Ok st)) /\
    w_files w = [[2]]%nat /\
    filter (fun e => match e with Uses _ => false | _ => true end) (w_trace w)
      = [Opens 0; Closes 0; Opens 1; Closes 1; Opens 2; Opens 3; Closes 3]%nat.
Proof. eexists. eexists. split; [vm_compute; reflexivity|]. split; reflexivity. Qed.
