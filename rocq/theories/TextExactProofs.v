(** C31: text samples with any bytes. *)
From Verif Require Import Bytes BytesProofs DlisTypes SpecTypes TypesProofs DlisCore CoreProofs2 Stream DlisIo SpecIo DlisRecords SpecRecords PyBase DlisFdata SpecFdata FdataProofs FdataProofs2 FdataProofs3.
Local Open Scope Z_scope.

Lemma text_any esc data hard after c tell en o cp i e s us w :
  In c [("s"%byte); ("Q"%byte)] -> len data < 2 ^ 63 ->
  plain_record data tell (en ++ e) -> rp66_obname en o cp i -> rp66_ident e s ->
  Forall2 (fun b u => u = if b2z b <? 128 then b2z b else b2z b + 0xFFFFFF00) s us ->
  code_units (us ++ repeat 0 (255 - length s)) w ->
  read_fdata esc (mk_stream data hard) after [] [c] [] 1020 [tell] = ([], Ok (map Raw w, 1)).
Proof.
  intros C L P O I F U.
  assert (R : row_width [c] 1020 /\ sample c e (map Raw w)).
  { destruct C as [<-|[<-|[]]].
    - split; [apply (rw_cons _ 1020 [] 0); [exists 18%nat; split; reflexivity | constructor]|].
      exists 19, (VText s). split; [split; [lia | reflexivity]|]. split; [constructor; exact I|].
      eapply im_text; [cbn; tauto | exact F | exact U].
    - split; [apply (rw_cons _ 1020 [] 0); [exists 26%nat; split; reflexivity | constructor]|].
      exists 27, (VText s). split; [split; [lia | reflexivity]|]. split; [constructor; exact I|].
      eapply im_text; [cbn; tauto | exact F | exact U]. }
  destruct R as [W S].
  rewrite (read_ok esc data hard after [] [c] [] 1020 [tell] [[map Raw w]]).
  - cbn [concat app]. rewrite app_nil_r. reflexivity.
  - exact W.
  - discriminate.
  - exact L.
  - constructor; [|constructor]. exists (en ++ e). split; [exact P|].
    exists en, o, cp, i, e. split; [reflexivity|]. split; [exact O|].
    rewrite <- (app_nil_r e).
    replace (e ++ []) with (([] ++ (e ++ []) ++ []) ++ []) by (cbn [app]; rewrite !app_nil_r; reflexivity).
    apply rows_cons; [constructor | | constructor | constructor].
    rewrite <- (app_nil_r (map Raw w)). apply row_cons; [exact S | constructor].
Qed.
Definition unit_of (b : byte) : Z := if b2z b <? 128 then b2z b else b2z b + 0xFFFFFF00.
Lemma units_same s t : flat_map (native 4) (map unit_of s) ++ t = flat_map (native 4) (map b2z s) ++ t -> Forall (fun b => b2z b < 128) s.
Proof.
  intros H. apply app_inv_tail in H. induction s as [|b s IH]; [constructor|]. cbn [map flat_map] in H.
  assert (E : native 4 (unit_of b) = native 4 (b2z b) /\ flat_map (native 4) (map unit_of s) = flat_map (native 4) (map b2z s)).
  { apply (f_equal (firstn 4)) in H as H1. apply (f_equal (skipn 4)) in H as H2.
    pose proof (native_length 4 (unit_of b)) as L1. pose proof (native_length 4 (b2z b)) as L2.
    rewrite !firstn_app, L1, L2, !firstn_all2 in H1 by lia. rewrite !skipn_app, L1, L2, !skipn_all2 in H2 by lia. change (4 - 4)%nat with 0%nat in H1, H2. rewrite !firstn_O, !app_nil_r in H1. rewrite !skipn_O in H2. cbn [app] in H2. auto. }
  destruct E as [E1 E2]. constructor; [|apply IH, E2]. apply (f_equal le) in E1. rewrite !native_le in E1. unfold unit_of in E1. pose proof (b2z_range b).
  change (256 ^ Z.of_nat 4) with 4294967296 in E1. destruct (Z.ltb_spec (b2z b) 128); [assumption|]. rewrite !Z.mod_small in E1 by lia. lia.
Qed.
Lemma text_iff esc data hard after c tell en o cp i e s w :
  In c [("s"%byte); ("Q"%byte)] -> len data < 2 ^ 63 ->
  plain_record data tell (en ++ e) -> rp66_obname en o cp i -> rp66_ident e s ->
  code_units (map b2z s ++ repeat 0 (255 - length s)) w ->
  exists us w', Forall2 (fun b u => u = if b2z b <? 128 then b2z b else b2z b + 0xFFFFFF00) s us /\
    code_units (us ++ repeat 0 (255 - length s)) w' /\
    read_fdata esc (mk_stream data hard) after [] [c] [] 1020 [tell] = ([], Ok (map Raw w', 1)) /\
    (w' = w <-> Forall (fun b => b2z b < 128) s).
Proof.
  intros C L P O I U. apply code_units_spec in U as ->.
  assert (F : Forall2 (fun b u => u = if b2z b <? 128 then b2z b else b2z b + 0xFFFFFF00) s (map unit_of s)) by (apply (forall2_map unit_of); reflexivity).
  eexists (map unit_of s), _. split; [exact F|]. split; [apply code_units_spec; reflexivity|]. split.
  - eapply text_any; try eassumption. apply code_units_spec. reflexivity.
  - rewrite !flat_map_app. split; [apply units_same|]. intros A. f_equal. f_equal. clear - A. induction A as [|b s' H _ IH]; [reflexivity|]. cbn [map]. f_equal; [|exact IH].
    unfold unit_of. replace (b2z b <? 128) with true by lia. reflexivity.
Qed.
