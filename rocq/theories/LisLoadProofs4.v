(** Proofs about splitting LIS79 files: loading ends; tape marks. *)
From Verif Require Import Bytes BytesProofs DlisTypes SpecTypes TypesProofs Stream SpecIo IoProofs LisProtocol LisIo SpecLisIo LisIoProofs LisIoProofs2 LisIoProofs3 LisIoProofs4 LisIoProofs5 Tapemark LisLoad SpecLisLoad LisLoadProofs LisLoadProofs2 LisLoadProofs3.
Local Open Scope Z_scope.
Ltac Zify.zify_post_hook ::= Z.div_mod_to_equations.

(** ** Progress *)
Lemma header_eof_pos d pos q : 0 <= pos -> read_physical_header d pos = (DErr EofError, q) -> d_size d <= q.
Proof.
  intros Hp. unfold read_physical_header.
  assert (fin : forall h pos', (let head := read_prh h in
      if prh_length head <? min_length (prh_attributes head) then dfail OtherError else dret head) pos' = (DErr EofError, q) -> False).
  { intros h pos'. cbv zeta. destruct (_ <? _); discriminate. }
  unfold dbind at 1. destruct (dread d 4 pos) as [[b|e|] pos'] eqn:R.
  2: { apply dread_err in R as [-> _]. discriminate. }
  2: { discriminate. }
  apply dread_inv in R as (-> & R1 & R2); [|lia..]. pose proof (len_nonneg b) as Lb.
  destruct (short b 4).
  { destruct R2 as [_ R2]; [reflexivity|]. unfold header_error. destruct (_ || _); cbn; intros E; injection E as E; try discriminate; lia. }
  destruct R1 as [R1 R3]; [reflexivity|]. rewrite R1. clear R2.
  unfold dbind at 1. destruct (is_padbytes (firstn 2 b)).
  2: { unfold dret at 1. intros E. destruct (fin _ _ E). }
  unfold dbind at 1. unfold dtell at 1. cbv zeta. unfold dbind at 1.
  destruct (Z.eqb_spec ((d_offset d + (pos + 4)) mod 4) 0) as [E0|N0]; cbn [negb].
  - unfold dret at 1. pose proof (skip_padding_inv d (S (length (d_data d))) b pos Hp ltac:(unfold d_size; lia) R3 R1) as I.
    destruct (skip_padding _ d b (pos + 4)) as [[h|e|] pos']; intros E.
    + destruct (fin _ _ E). + injection E as _ E. lia. + discriminate.
  - set (m := 4 - (d_offset d + (pos + 4)) mod 4). assert (Hm : 0 < m < 4) by lia.
    unfold dbind at 1. destruct (dread d m (pos + 4)) as [[g|e|] pos'] eqn:R.
    2: { apply dread_err in R as [-> _]. discriminate. }
    2: { discriminate. }
    apply dread_inv in R as (-> & Q1 & Q2); [|lia..]. pose proof (len_nonneg g) as Lg.
    destruct (short g m).
    { destruct Q2 as [_ Q2]; [reflexivity|]. unfold header_error. destruct (_ || _); cbn; intros E; injection E as E; try discriminate; lia. }
    destruct Q1 as [Q1 Q3]; [reflexivity|]. unfold dret at 1. clear Q2.
    assert (A : at_pos (d_data d) (pos + m) (skipn (Z.to_nat m) b ++ g) /\ len (skipn (Z.to_nat m) b ++ g) = 4).
    { assert (LS : len (skipn (Z.to_nat m) b) = 4 - m) by (unfold len in *; rewrite skipn_length; lia). split.
      - apply at_pos_app. rewrite LS. replace (pos + m + (4 - m)) with (pos + 4) by lia. split; [|exact Q3].
        replace (pos + m) with (pos + Z.of_nat (Z.to_nat m)) by lia. apply skipn_at; [exact R3 | unfold len in R1; lia].
      - rewrite len_app. lia. }
    destruct A as [A LA].
    pose proof (skip_padding_inv d (S (length (d_data d))) _ (pos + m) ltac:(lia) ltac:(unfold d_size; lia) A LA) as I.
    replace (pos + 4 + len g) with (pos + m + 4) by lia.
    destruct (skip_padding _ d _ (pos + m + 4)) as [[h|e|] pos']; intros E.
    + destruct (fin _ _ E). + injection E as _ E. lia. + discriminate.
Qed.
Lemma index_eof_pos d pos q : 0 <= pos -> index_record d pos = (DErr EofError, q) -> d_size d <= q.
Proof.
  intros Hp E. pose proof (index_record_inv d pos Hp) as I. rewrite E in I. destruct I as [_ I]. specialize (I eq_refl).
  apply (header_eof_pos d pos q Hp). unfold index_record, dbind at 1 in E.
  destruct (read_physical_header d pos) as [[h|e|] p1]; cbn [fst] in I; try discriminate. injection E as -> ->. reflexivity.
Qed.

Lemma loop_nonempty d : forall fuel ex im pos ix q, index_records_loop fuel d ex im pos = (DOk ix, q) ->
  ex <> [] \/ im <> [] -> ix_explicits ix <> [] \/ ix_implicits ix <> [].
Proof.
  induction fuel as [|fuel IH]; intros ex im pos ix q E N; [discriminate|]. cbn [index_records_loop] in E.
  destruct (index_record d pos) as [[i|e|] p1]; [| |discriminate].
  2: { destruct e; injection E as <- _; exact N. }
  set (implicit := (ri_type i =? 0) || (ri_type i =? 1)) in *.
  assert (N' : (if implicit then ex else ex ++ [i]) <> [] \/ (if implicit then im ++ [i] else im) <> []).
  { destruct implicit; [right; destruct im; discriminate | left; destruct ex; discriminate]. }
  assert (N'' : ex <> [] \/ (if implicit then im ++ [i] else im) <> []).
  { destruct N as [N|N]; [left; exact N | right]. destruct implicit; [destruct im; discriminate | exact N]. }
  assert (R : dbind (reposition_tell d) (fun _ => dret (mk_index (if implicit then ex else ex ++ [i]) (if implicit then im ++ [i] else im) false)) p1 = (DOk ix, q) ->
    ix_explicits ix <> [] \/ ix_implicits ix <> []).
  { unfold dbind. destruct (reposition_tell d p1) as [[[]|?|] ?]; try discriminate. intros X. injection X as <- _. exact N'. }
  destruct (_ || _ || _ || _) in E.
  { destruct (1 <? _)%nat; [injection E as <- _; exact N'' | exact (R E)]. }
  destruct (_ =? 128). { destruct (_ =? 1)%nat; [exact (IH _ _ _ _ _ E N') | injection E as <- _; exact N'']. }
  destruct (_ || _) in E; [exact (R E) | exact (IH _ _ _ _ _ E N')].
Qed.
Lemma empty_end d pos ix q : 0 <= pos -> index_records d pos = (DOk ix, q) -> ix_explicits ix = [] -> ix_implicits ix = [] ->
  ix_incomplete ix = false -> d_size d <= q.
Proof.
  intros Hp E X1 X2 F. unfold index_records in E. cbn [index_records_loop] in E.
  destruct (index_record d pos) as [[i|e|] p1] eqn:R; [| |discriminate].
  2: { destruct e; injection E as <- <-; try discriminate. eapply index_eof_pos; eassumption. }
  exfalso. set (implicit := (ri_type i =? 0) || (ri_type i =? 1)) in *.
  assert (N' : (if implicit then [] else [] ++ [i]) <> [] \/ (if implicit then [] ++ [i] else []) <> []).
  { destruct implicit; [right; discriminate | left; discriminate]. }
  assert (Rp : dbind (reposition_tell d) (fun _ => dret (mk_index (if implicit then [] else [] ++ [i]) (if implicit then [] ++ [i] else []) false)) p1 = (DOk ix, q) -> False).
  { unfold dbind. destruct (reposition_tell d p1) as [[[]|?|] ?]; try discriminate. intros X. injection X as <- _. cbn in X1, X2. destruct implicit; discriminate. }
  assert (Lp : forall p2, index_records_loop (length (d_data d)) d (if implicit then [] else [] ++ [i]) (if implicit then [] ++ [i] else []) p2 = (DOk ix, q) -> False).
  { intros p2 Y. apply loop_nonempty in Y; [|exact N']. rewrite X1, X2 in Y. destruct Y; congruence. }
  destruct (_ || _ || _ || _) in E.
  { destruct (1 <? _)%nat eqn:G; [|exact (Rp E)]. destruct implicit; cbn in G; discriminate. }
  destruct (Z.eqb_spec (ri_type i) 128) as [T|T].
  { assert (implicit = false) as I0 by (unfold implicit; rewrite T; reflexivity). rewrite I0 in *. cbn [app length Nat.eqb] in E. exact (Lp _ E). }
  destruct (_ || _) in E; [exact (Rp E) | exact (Lp _ E)].
Qed.

Lemma adjust_offset i rec st : fi_offset (adjust_reel_tape i rec st) = fi_offset st.
Proof.
  unfold adjust_reel_tape. destruct (_ =? 132); [reflexivity|]. destruct (_ =? 133); [reflexivity|].
  destruct (_ =? 130); [reflexivity|]. destruct (_ =? 131); reflexivity.
Qed.

Lemma read_loop_no_fuel d : forall fuel pos acc, 0 <= pos -> Z.max 0 (d_size d - pos) < 4 * Z.of_nat fuel -> fst (read_record_loop fuel d acc pos) <> DFuel.
Proof.
  induction fuel as [|fuel IH]; intros pos acc Hp M; [lia|]. cbn [read_record_loop]. unfold dbind at 1.
  pose proof (header_inv d pos Hp) as H. destruct (read_physical_header d pos) as [[[l a]|e|] p1]; [|discriminate|destruct H].
  destruct H as (H1 & H2 & h & Hh & Ha). apply at_pos_bound in Ha. rewrite (phys_len _ _ _ Hh) in Ha. change (len (d_data d)) with (d_size d) in Ha.
  cbn [prh_length prh_attributes] in *. unfold dbind at 1, dtell at 1.
  cbv zeta. unfold dbind at 1. set (tr := trailer_length a). set (first := negb (has a predces)).
  assert (Ht : 0 <= tr) by (unfold tr; rewrite trailer_length_spec; pose proof (trailer_size_range a); lia).
  assert (Hn : 0 <= l - 4 - tr - (if first then 2 else 0)).
  { unfold tr, first. rewrite trailer_length_spec, has_pred_bit. rewrite min_length_spec in H2. destruct (predecessor a); cbn [negb]; lia. }
  set (n := l - 4 - tr - (if first then 2 else 0)) in *.
  assert (K : forall p2, p1 <= p2 -> fst ((let+ got := dread d n in
      if short got n then dfail OtherError
      else let+ tell := dtell in let+ _ := dseek (tell + tr) in
        if negb (has a succses) then dret (acc ++ got) else read_record_loop fuel d (acc ++ got)) p2) <> DFuel).
  { intros p2 P2. unfold dbind at 1. destruct (dread d n p2) as [[g|e|] p3] eqn:R; [|discriminate|apply dread_fuel in R; destruct R].
    destruct (short g n); [cbn; discriminate|]. unfold dbind, dtell, dseek. destruct (negb (has a succses)); [cbn; discriminate|].
    assert (p2 <= p3). { unfold dread in R. destruct (read _ _ _) in R; [|discriminate]. injection R as _ <-. lia. }
    apply IH; lia. }
  destruct first; [apply (K (p1 + 2)); lia | apply (K p1); lia].
Qed.
Lemma read_record_no_fuel d i pos : 0 <= ri_ltell i -> fst (read_record d i pos) <> DFuel.
Proof.
  intros H. unfold read_record, dbind, dseek. apply read_loop_no_fuel; [exact H|]. unfold d_size. lia.
Qed.

Section plain.
Variable esc : severity -> bool.
Variable file : bytes.
Notation Step := (index_logical_file esc (open_plain file) plain_stopped).
Notation All := (index_all esc (open_plain file) plain_stopped).

Lemma give_up_done st : match snd (give_up esc st) with Ok st' => fi_complete st' = true | Exn => True | _ => False end.
Proof. unfold give_up, log, bind. destruct (esc CRITICAL); cbn; trivial. Qed.
Lemma check_done ix st o : fi_offset st > o -> match snd (check_incomplete esc ix st) with Ok st' => fi_complete st' = true \/ o < fi_offset st' | Exn => True | _ => False end.
Proof.
  intros H. unfold check_incomplete. destruct (ix_incomplete ix); [|cbn; right; lia].
  pose proof (give_up_done st) as X. destruct (snd (give_up esc st)); auto.
Qed.

Lemma step_progress st : 0 <= fi_offset st ->
  match snd (Step st) with
  | Ok st' => fi_complete st' = true \/ (fi_offset st < len file /\ fi_offset st < fi_offset st')
  | Exn => True
  | _ => False
  end.
Proof.
  intros Ho. unfold index_logical_file. destruct (Z_lt_ge_dec (fi_offset st) (len file)) as [B|B].
  2: { rewrite (opens_none file (fi_offset st)) by lia. left. reflexivity. }
  rewrite (opens_some file (fi_offset st)) by lia. set (d := plain_device file (fi_offset st)).
  destruct (index_records_total d 0 ltac:(lia)) as (ix & q & E & Q & O1 & O2 & _ & _ & P). rewrite E.
  assert (Dn : forall ix' st', fi_offset st' > fi_offset st -> match snd (check_incomplete esc ix' st') with
    Ok st'' => fi_complete st'' = true \/ (fi_offset st < len file /\ fi_offset st < fi_offset st'') | Exn => True | _ => False end).
  { intros ix' st' H. pose proof (check_done ix' st' (fi_offset st) H) as X. destruct (snd (check_incomplete esc ix' st')); auto.
    destruct X; [left | right]; auto. }
  assert (Gu : forall st', match snd (give_up esc st') with
    Ok st'' => fi_complete st'' = true \/ (fi_offset st < len file /\ fi_offset st < fi_offset st'') | Exn => True | _ => False end).
  { intros st'. pose proof (give_up_done st') as X. destruct (snd (give_up esc st')); auto. }
  cbv zeta. destruct (ix_explicits ix) as [|f l] eqn:X.
  - cbn [length Nat.add]. destruct (ix_implicits ix) as [|i im] eqn:Y; cbn [length Nat.eqb negb].
    + unfold check_incomplete. destruct (ix_incomplete ix) eqn:F; [apply Gu|]. cbn. right. split; [exact B|].
      pose proof (empty_end d 0 ix q ltac:(lia) E X Y F) as Z. unfold plain_stopped. cbn [d plain_device d_offset].
      change (d_size d) with (len (from (fi_offset st) file)) in Z. rewrite from_len in Z by lia. lia.
    + apply Dn. cbn. unfold plain_stopped. cbn. assert (0 < q) as P' by (apply P; right; discriminate). clear - P'. lia.
  - assert (0 < q) as P' by (apply P; left; discriminate). clear P. rename P' into P. destruct (is_delimiter_record f).
    + destruct (negb _); [apply Gu|]. pose proof (read_record_no_fuel d f q) as Nf.
      destruct (read_record d f q) as [[r|e|] p].
      * apply Dn. rewrite adjust_offset. cbn. unfold plain_stopped. cbn. clear - P. lia.
      * apply Gu.
      * apply Nf; [|reflexivity]. cbn [map ordered] in O1. unfold start_of, tuple in O1. cbn in O1. lia.
    + apply Dn. cbn. unfold plain_stopped. cbn. clear - P. lia.
Qed.
Lemma all_ends : forall fuel st, 0 <= fi_offset st ->
  Z.max 0 (len file - fi_offset st) + (if fi_complete st then 0 else 1) < Z.of_nat fuel ->
  match snd (All fuel st) with Ok _ | Exn => True | _ => False end.
Proof.
  induction fuel as [|fuel IH]; intros st Ho M; [destruct (fi_complete st); lia|]. cbn [index_all].
  destruct (fi_complete st); [cbn; trivial|]. pose proof (step_progress st Ho) as P. unfold bind.
  destruct (Step st) as [l r]; cbn [snd] in P. destruct r as [st'| | |]; cbn; try contradiction; try trivial.
  destruct P as [P|[P1 P2]].
  - assert (X : forall f, All (S f) st' = ret st') by (intros f; cbn [index_all]; rewrite P; reflexivity).
    destruct fuel as [|fuel]; [lia|]. rewrite X. cbn. trivial.
  - specialize (IH st' ltac:(lia)). destruct (All fuel st') as [l' r']. cbn [snd] in *. apply IH.
    destruct (fi_complete st'); lia.
Qed.
Lemma all_more : forall fuel st k, match snd (All fuel st) with Ok _ | Exn => True | _ => False end -> All (fuel + k) st = All fuel st.
Proof.
  induction fuel as [|fuel IH]; intros st k H; [destruct H|]. cbn [index_all Nat.add] in *.
  destruct (fi_complete st); [reflexivity|]. unfold bind in *. destruct (Step st) as [l r]. destruct r as [st'| | |]; try reflexivity.
  rewrite IH; [reflexivity|]. destruct (All fuel st') as [l' r']. exact H.
Qed.
End plain.

(** ** Tape marks *)
Lemma le4 a b c d : le [a; b; c; d] = little a b c d.
Proof. unfold little. cbn [le]. lia. Qed.
Lemma little_range a b c d : 0 <= little a b c d < 2 ^ 32.
Proof. unfold little. pose proof (b2z_range a). pose proof (b2z_range b). pose proof (b2z_range c). pose proof (b2z_range d). lia. Qed.

Lemma read_mark file pos type prev next m : at_pos file pos m -> mark type prev next m -> 0 <= pos ->
  read_tapemark file pos = Ok (mk_tapemark type prev next).
Proof.
  intros A M Hp. unfold read_tapemark.
  destruct M as (t0 & t1 & t2 & t3 & p0 & p1 & p2 & p3 & n0 & n1 & n2 & n3 & -> & <- & <- & <-).
  destruct A as (pre & post & -> & L). unfold read. cbn [s_data s_hard Z.eqb Z.ltb orb].
  replace (12 <? 0) with false by lia. replace (pos <? 0) with false by lia. cbn [orb].
  replace (Z.to_nat pos) with (length pre) by (unfold len in L; lia). rewrite skipn_app, skipn_all, Nat.sub_diag.
  change (Z.to_nat 12) with 12%nat. cbn [app skipn firstn length Nat.eqb Z.of_nat]. replace (Z.of_nat 12 <? 12) with false by lia.
  unfold parse_tapemark. cbn [firstn skipn]. rewrite !le4. reflexivity.
Qed.
Lemma read_mark_inv file pos tm : 0 <= pos -> read_tapemark file pos = Ok tm ->
  exists m, at_pos file pos m /\ mark (tm_type tm) (tm_prev tm) (tm_next tm) m.
Proof.
  intros Hp. unfold read_tapemark. destruct (read (mk_stream file false) pos 12) as [g|] eqn:R; [|discriminate].
  fold (len g). destruct (Z.ltb_spec (len g) 12); [discriminate|]. intros E. injection E as <-.
  pose proof (dread_inv (mk_device (mk_stream file false) 0) 12 pos g (pos + len g) Hp ltac:(lia)) as D.
  unfold dread in D. cbn [d_stream] in D. rewrite R in D. specialize (D eq_refl) as (_ & D & _).
  destruct D as [D1 D2]; [unfold short; fold (len g); lia|]. exists g. split; [exact D2|].
  unfold len in D1. do 13 (destruct g as [|? g]; [cbn in D1; try lia|]); [|cbn in D1; lia].
  unfold parse_tapemark, mark. cbn [firstn skipn tm_type tm_prev tm_next]. rewrite !le4.
  repeat eexists.
Qed.
Lemma read_mark_short file pos : 0 <= pos -> len file < pos + 12 -> read_tapemark file pos = Exn.
Proof.
  intros Hp H. destruct (read_tapemark file pos) as [tm| | |] eqn:E; try reflexivity.
  - destruct (read_mark_inv file pos tm Hp E) as (m & A & M). apply at_pos_bound in A.
    destruct M as (t0 & t1 & t2 & t3 & p0 & p1 & p2 & p3 & n0 & n1 & n2 & n3 & -> & _). cbn in A. lia.
  - unfold read_tapemark in E. destruct (read _ _ _); [destruct (_ <? _)|]; discriminate.
  - unfold read_tapemark in E. destruct (read _ _ _); [destruct (_ <? _)|]; discriminate.
Qed.
