(** Proofs about the end of the file and about what a header read tells. *)
From Verif Require Import Bytes BytesProofs DlisTypes SpecTypes TypesProofs Stream SpecIo IoProofs LisProtocol LisIo SpecLisIo LisIoProofs.
Local Open Scope Z_scope.
Ltac Zify.zify_post_hook ::= Z.div_mod_to_equations.

(** ** The end of the file *)
Definition stop (d : device) (e : derror) : derror := if s_hard (d_stream d) then OtherError else e.
Definition rest_kind (t : bytes) : derror := if (len t =? 0) || is_padbytes t then EofError else TruncationError.

Lemma tail_size d pos x : tail_at (d_data d) pos x -> d_size d = pos + len x.
Proof. intros (pre & E & L). unfold d_size. rewrite E. fold (len (pre ++ x)). rewrite len_app. lia. Qed.
Lemma dread_over d pos x n : tail_at (d_data d) pos x -> len x < n ->
  dread d n pos = (if s_hard (d_stream d) then DErr OtherError else DOk x, pos + len x).
Proof.
  intros T L. destruct (s_hard (d_stream d)) eqn:H; [apply dread_hard; auto | apply dread_end; auto].
Qed.
Lemma read_short {A} d pos x n (k : bytes -> dev A) buf : tail_at (d_data d) pos x -> len x < n ->
  (let+ got := dread d n in
   if short got n then header_error (buf ++ got) (Z.of_nat (length got)) else k got) pos =
  (DErr (stop d (if (len x =? 0) || is_padbytes (buf ++ x) then EofError else TruncationError)), pos + len x).
Proof.
  intros T L. unfold dbind. rewrite (dread_over d pos x n T L). unfold stop. destruct (s_hard (d_stream d)); [reflexivity|].
  rewrite short_cut by exact L. unfold header_error. fold (len x). destruct (_ || _); reflexivity.
Qed.

Lemma times4 j : (4 * S j = 4 + 4 * j)%nat.
Proof. lia. Qed.
Lemma skip_padding_end d c t : (c = x00 \/ c = x20) -> len t < 4 ->
  forall j fuel buf q, (j < fuel)%nat ->
  tail_at (d_data d) q (repeat c (4 * S j) ++ t) -> at_pos (d_data d) q buf -> len buf = 4 ->
  skip_padding fuel d buf (q + 4) = (DErr (stop d (rest_kind t)), d_size d).
Proof.
  intros Hc Lt. induction j as [|j IH]; intros fuel buf q Hf T B L; destruct fuel as [|fuel]; try lia; cbn [skip_padding];
    rewrite times4, repeat_app, <- app_assoc in T; pose proof T as T0; apply tail_at_app in T as [A1 T]; change (len (repeat c 4)) with 4 in T;
    rewrite (at_pos_same _ _ _ _ B A1) by (rewrite L; reflexivity);
    rewrite is_padbytes_repeat by (auto; lia); cbn [negb].
  - change (repeat c (4 * 0) ++ t) with t in T.
    pose proof (read_short d (q + 4) t 4 (fun buf => skip_padding fuel d buf) [] T Lt) as R. cbn [app] in R. rewrite R.
    rewrite (tail_size _ _ _ T). reflexivity.
  - replace (4 * S j)%nat with (4 + 4 * j)%nat in T by lia. pose proof T as T'.
    rewrite repeat_app, <- app_assoc in T'. apply tail_at_app in T' as [A2 _].
    unfold dbind. rewrite (dread_at _ _ _ 4 A2) by reflexivity. rewrite short_full by reflexivity. change (len (repeat c 4)) with 4.
    rewrite (IH fuel (repeat c 4) (q + 4)) by (auto; lia || (replace (4 * S j)%nat with (4 + 4 * j)%nat by lia; exact T)).
    reflexivity.
Qed.

(** how many bytes the search for the header moves ahead *)
Definition shift (d : device) (pos : Z) : Z := (4 - (d_offset d + pos) mod 4) mod 4.

Lemma read_shift {A} d pos x (k : bytes -> dev A) : tail_at (d_data d) pos x -> 4 <= len x -> is_padbytes (firstn 2 x) = true ->
  (let+ buf := dread d 4 in
   if short buf 4 then header_error buf (Z.of_nat (length buf))
   else
    let+ buf :=
      if is_padbytes (firstn 2 buf) then
        let+ tell := dtell in
        let alignment := (d_offset d + tell) mod 4 in
        let+ buf :=
          if negb (alignment =? 0) then
            let padbytes := 4 - alignment in
            let tmp := skipn (Z.to_nat padbytes) buf in
            let+ more := dread d padbytes in
            if short more padbytes then header_error (tmp ++ more) (Z.of_nat (length more))
            else dret (tmp ++ more)
          else dret buf in
        skip_padding (S (length (d_data d))) d buf
      else dret buf in k buf) pos =
  (if len x - 4 <? shift d pos then
     (DErr (stop d (if (len x =? 4) || is_padbytes (skipn (Z.to_nat (shift d pos)) x) then EofError else TruncationError)), d_size d)
   else
     (let+ buf := skip_padding (S (length (d_data d))) d (firstn 4 (skipn (Z.to_nat (shift d pos)) x)) in k buf) (pos + shift d pos + 4)).
Proof.
  intros T L P. pose proof (tail_size _ _ _ T) as Es.
  assert (T4 : at_pos (d_data d) pos (firstn 4 x) /\ tail_at (d_data d) (pos + 4) (skipn 4 x)).
  { pose proof T as T'. rewrite <- (firstn_skipn 4 x) in T'. apply tail_at_app in T' as [T1 T2]. split; [exact T1|].
    replace 4 with (len (firstn 4 x)); [exact T2|]. unfold len in *. rewrite firstn_length. lia. }
  destruct T4 as [A4 T4].
  assert (L4 : len (firstn 4 x) = 4) by (unfold len in *; rewrite firstn_length; lia).
  assert (Ls : len (skipn 4 x) = len x - 4) by (unfold len in *; rewrite skipn_length; lia).
  unfold dbind at 1. rewrite (dread_at _ _ _ 4 A4) by lia. rewrite short_full by lia. rewrite L4.
  rewrite firstn_firstn. change (Nat.min 2 4) with 2%nat. rewrite P.
  unfold dbind at 1. unfold dbind at 1. unfold dtell at 1. unfold dbind at 1.
  assert (Esh : shift d pos = if (d_offset d + (pos + 4)) mod 4 =? 0 then 0 else 4 - (d_offset d + (pos + 4)) mod 4).
  { unfold shift. destruct (Z.eqb_spec ((d_offset d + (pos + 4)) mod 4) 0); lia. }
  destruct (Z.eqb_spec ((d_offset d + (pos + 4)) mod 4) 0) as [E0|N0].
  - rewrite Esh. cbn [negb]. unfold dret at 1. replace (len x - 4 <? 0) with false by lia. change (Z.to_nat 0) with 0%nat.
    cbn [skipn]. rewrite Z.add_0_r. reflexivity.
  - cbn [negb]. rewrite <- Esh. set (m := shift d pos) in *. assert (Hm : 0 < m < 4) by lia.
    destruct (Z.ltb_spec (len x - 4) m) as [Sm|Sm].
    + pose proof (read_short d (pos + 4) (skipn 4 x) m (fun more => dret (skipn (Z.to_nat m) (firstn 4 x) ++ more))
        (skipn (Z.to_nat m) (firstn 4 x)) T4 ltac:(lia)) as R. cbv zeta. rewrite R.
      assert (EE : skipn (Z.to_nat m) (firstn 4 x) ++ skipn 4 x = skipn (Z.to_nat m) x).
      { rewrite <- (firstn_skipn 4 x) at 3. rewrite skipn_app.
        replace (Z.to_nat m - length (firstn 4 x))%nat with 0%nat by (unfold len in L4; lia). reflexivity. }
      rewrite EE, Ls. replace (len x - 4 =? 0) with (len x =? 4) by lia. f_equal. lia.
    + assert (AA : at_pos (d_data d) (pos + 4) (firstn (Z.to_nat m) (skipn 4 x)) /\ len (firstn (Z.to_nat m) (skipn 4 x)) = m).
      { destruct (firstn_at _ _ _ (Z.to_nat m) (tail_at_pos _ _ _ T4) ltac:(unfold len in *; lia)) as [A1 A2]. split; [exact A1 | lia]. }
      destruct AA as [AA LA]. unfold dbind at 1. rewrite (dread_at _ _ _ m AA) by lia. rewrite short_full by lia.
      unfold dret at 1. rewrite LA. unfold dbind at 1.
      assert (EE : skipn (Z.to_nat m) (firstn 4 x) ++ firstn (Z.to_nat m) (skipn 4 x) = firstn 4 (skipn (Z.to_nat m) x)).
      { rewrite <- (firstn_skipn 4 x) at 3. rewrite skipn_app.
        replace (Z.to_nat m - length (firstn 4 x))%nat with 0%nat by (unfold len in L4; lia).
        rewrite (firstn_app 4). unfold skipn at 5. rewrite (firstn_all2 (n := 4) (skipn (Z.to_nat m) (firstn 4 x)))
          by (rewrite skipn_length; unfold len in L4; lia).
        f_equal. f_equal. rewrite skipn_length. unfold len in L4. lia. }
      rewrite EE. replace (pos + 4 + m) with (pos + m + 4) by lia. reflexivity.
Qed.

Lemma tail_skip data pos x m : tail_at data pos x -> 0 <= m <= len x -> tail_at data (pos + m) (skipn (Z.to_nat m) x).
Proof.
  intros T H. rewrite <- (firstn_skipn (Z.to_nat m) x) in T. apply tail_at_app in T as [_ T].
  replace m with (len (firstn (Z.to_nat m) x)) at 1; [exact T|]. unfold len in *. rewrite firstn_length. lia.
Qed.
Lemma tail_fuel d pos x : tail_at (d_data d) pos x -> (length x <= length (d_data d))%nat.
Proof. intros (pre & -> & _). rewrite app_length. lia. Qed.
Lemma repeat_split (c : byte) k : repeat c k = repeat c (4 * (k / 4)) ++ repeat c (k mod 4).
Proof. rewrite <- repeat_app. f_equal. pose proof (Nat.div_mod_eq k 4). lia. Qed.
Lemma skipn_repeat (c : byte) m k : skipn m (repeat c k) = repeat c (k - m).
Proof. revert k; induction m as [|m IH]; intros [|k]; cbn; auto. Qed.

(** nothing but padding is left *)
Lemma header_eof d pos p : padding p -> tail_at (d_data d) pos p ->
  read_physical_header d pos = (DErr (stop d EofError), d_size d).
Proof.
  intros (c & k & -> & Hc) T. pose proof (tail_size _ _ _ T) as Es.
  assert (Lk : len (repeat c k) = Z.of_nat k) by (unfold len; rewrite repeat_length; reflexivity).
  destruct (Nat.ltb_spec k 4) as [Sm|Sm].
  - unfold read_physical_header.
    pose proof (fun kk => read_short (A := prheader) d pos (repeat c k) 4 kk [] T ltac:(lia)) as R. cbn [app] in R. rewrite R, Es.
    replace (_ || _) with true; [reflexivity|]. rewrite Lk. destruct k; [reflexivity|].
    rewrite is_padbytes_repeat by (auto; lia). rewrite orb_true_r. reflexivity.
  - unfold read_physical_header. rewrite (read_shift d pos (repeat c k) _ T) by
      (lia || (replace k with (2 + (k - 2))%nat by lia; rewrite repeat_app; change (is_padbytes (repeat c 2) = true); apply is_padbytes_repeat; auto)).
    assert (Hs : 0 <= shift d pos < 4) by (unfold shift; lia). rewrite skipn_repeat.
    destruct (Z.ltb_spec (len (repeat c k) - 4) (shift d pos)) as [Sm'|Sm'].
    + rewrite is_padbytes_repeat by (auto; lia). rewrite orb_true_r. reflexivity.
    + set (m := Z.to_nat (shift d pos)). assert (T' : tail_at (d_data d) (pos + shift d pos) (repeat c (k - m))).
      { rewrite <- skipn_repeat. apply tail_skip; [exact T | lia]. }
      pose proof (tail_fuel _ _ _ T') as F. rewrite repeat_length in F.
      unfold dbind. rewrite (skip_padding_end d c (repeat c ((k - m) mod 4)) Hc) with (j := ((k - m) / 4 - 1)%nat).
      * unfold rest_kind. replace (_ || _) with true; [reflexivity|].
        destruct ((k - m) mod 4)%nat eqn:Em; [reflexivity|]. rewrite is_padbytes_repeat by (auto; lia). rewrite orb_true_r. reflexivity.
      * unfold len. rewrite repeat_length. pose proof (Nat.mod_upper_bound (k - m) 4). lia.
      * pose proof (Nat.div_le_upper_bound (k - m) 4 (k - m)). lia.
      * replace (S ((k - m) / 4 - 1))%nat with ((k - m) / 4)%nat; [rewrite <- repeat_split; exact T'|].
        pose proof (Nat.div_le_lower_bound (k - m) 4 1). lia.
      * apply firstn_at; [apply tail_at_pos, T' | rewrite repeat_length; lia].
      * unfold len. rewrite firstn_length, repeat_length. lia.
Qed.

(** a header cut short *)
Lemma header_cut d pos p t :
  padding p -> 0 < len t < 4 -> ~ padding t ->
  (p = [] \/ (length p <> 1%nat /\ (d_offset d + pos + len p) mod 4 = 0 /\ len p + len t <> 4)) ->
  tail_at (d_data d) pos (p ++ t) ->
  read_physical_header d pos = (DErr (stop d TruncationError), d_size d).
Proof.
  intros (c & k & -> & Hc) Lt Nt G T. pose proof (tail_size _ _ _ T) as Es.
  assert (Pt : is_padbytes t = false).
  { destruct (is_padbytes t) eqn:P; [|reflexivity]. exfalso. apply Nt. apply is_padbytes_inv in P as (c' & E & Hc' & _).
    exists c', (length t). auto. }
  assert (Ppt : forall j, is_padbytes (repeat c j ++ t) = false).
  { intros j. destruct (is_padbytes (repeat c j ++ t)) eqn:P; [|reflexivity]. exfalso. apply Nt.
    apply is_padbytes_inv in P as (c' & E & Hc' & _). exists c', (length t). split; [|exact Hc'].
    rewrite app_length, repeat_length, repeat_app in E. apply (f_equal (skipn j)) in E.
    rewrite !skipn_app, !repeat_length, Nat.sub_diag, !skipn_repeat, Nat.sub_diag in E. rewrite Nat.sub_0_r in E. exact E. }
  rewrite len_app in Es. assert (Lk : len (repeat c k) = Z.of_nat k) by (unfold len; rewrite repeat_length; reflexivity).
  rewrite Lk in *. rewrite repeat_length in G.
  destruct (Z.ltb_spec (Z.of_nat k + len t) 4) as [Sm|Sm].
  - unfold read_physical_header.
    pose proof (fun kk => read_short (A := prheader) d pos (repeat c k ++ t) 4 kk [] T ltac:(rewrite len_app; lia)) as R.
    cbn [app] in R. rewrite R, Es, len_app, Lk, Ppt. replace (_ =? 0) with false by lia. reflexivity.
  - destruct G as [G|(G1 & G2 & G3)].
    { apply (f_equal (@length byte)) in G. rewrite repeat_length in G. cbn in G. lia. }
    assert (Hk : (2 <= k)%nat) by (destruct k as [|[|k]]; cbn in *; lia).
    unfold read_physical_header. rewrite (read_shift d pos (repeat c k ++ t) _ T) by
      ((rewrite len_app; lia) || (replace k with (2 + (k - 2))%nat by lia; rewrite repeat_app; change (is_padbytes (repeat c 2) = true); apply is_padbytes_repeat; auto)).
    set (m := (k mod 4)%nat). assert (Hm : (m < 4 /\ m <= k)%nat) by (unfold m; split; [apply Nat.mod_upper_bound; lia | apply Nat.mod_le; lia]).
    assert (Esh : shift d pos = Z.of_nat m). { unfold m. unfold shift. rewrite Nat2Z.inj_mod. lia. }
    rewrite Esh, Nat2Z.id, len_app, Lk. rewrite skipn_app, skipn_repeat, repeat_length. replace (m - k)%nat with 0%nat by lia.
    cbn [skipn]. pose proof (Nat.div_mod_eq k 4) as Dk. fold m in Dk.
    destruct (Z.ltb_spec (Z.of_nat k + len t - 4) (Z.of_nat m)) as [Sm'|Sm'].
    + rewrite Ppt. replace (_ =? 4) with false by lia. reflexivity.
    + assert (T' : tail_at (d_data d) (pos + Z.of_nat m) (repeat c (k - m) ++ t)).
      { rewrite <- (Nat2Z.id m) at 2. rewrite <- skipn_repeat.
        replace (skipn (Z.to_nat (Z.of_nat m)) (repeat c k) ++ t) with (skipn (Z.to_nat (Z.of_nat m)) (repeat c k ++ t))
          by (rewrite skipn_app, repeat_length, Nat2Z.id; replace (m - k)%nat with 0%nat by lia; reflexivity).
        apply tail_skip; [exact T|]. rewrite len_app. lia. }
      pose proof (tail_fuel _ _ _ T') as F. rewrite app_length, repeat_length in F. unfold len in *.
      unfold dbind. rewrite (skip_padding_end d c t Hc) with (j := (k / 4 - 1)%nat).
      * unfold rest_kind. rewrite Pt. unfold len. replace (_ =? 0) with false by lia. reflexivity.
      * unfold len. lia.
      * lia.
      * replace (4 * S (k / 4 - 1))%nat with (k - m)%nat by lia. exact T'.
      * apply firstn_at; [apply tail_at_pos, T' | rewrite app_length, repeat_length; lia].
      * unfold len. rewrite firstn_length, app_length, repeat_length. lia.
Qed.

(** ** What a read tells *)
Lemma dread_inv d n pos got pos' : 0 <= pos -> 0 < n -> dread d n pos = (DOk got, pos') ->
  pos' = pos + len got /\ (short got n = false -> len got = n /\ at_pos (d_data d) pos got) /\
  (short got n = true -> s_hard (d_stream d) = false /\ d_size d <= pos').
Proof.
  intros Hp Hn. unfold dread. destruct (read (d_stream d) pos n) as [g|] eqn:R; [|discriminate].
  intros E. injection E as <- <-. fold (len g). split; [reflexivity|].
  pose proof (read_Some _ _ _ _ Hp R) as (R1 & R2 & R3 & R4). fold (d_data d) in *. split.
  - unfold short. fold (len g). intros Sm. assert (len g = n) by lia. split; [exact H|].
    apply R4; [exact Hn|]. fold (d_data d). unfold read in R. replace (n =? 0) with false in R by lia.
    replace (_ || _) with false in R by lia. fold (d_data d) in R.
    destruct (Z_le_gt_dec pos (len (d_data d))); [assumption|]. exfalso.
    rewrite skipn_all2, firstn_nil in R by (unfold len in *; lia). destruct (_ =? _)%nat; [|destruct (s_hard _)]; try discriminate;
      injection R as <-; cbn in H; lia.
  - unfold short. fold (len g). intros Sm. destruct R2 as [R2 R2']; [lia|]. split; [exact R2 | exact R2'].
Qed.
Lemma dread_err d n pos e pos' : dread d n pos = (DErr e, pos') -> e = OtherError /\ pos <= pos'.
Proof. unfold dread. destruct (read (d_stream d) pos n); [discriminate|]. intros E. injection E as <- <-. split; [reflexivity | lia]. Qed.
Lemma dread_fuel d n pos pos' : dread d n pos = (DFuel, pos') -> False.
Proof. unfold dread. destruct (read (d_stream d) pos n); discriminate. Qed.

Lemma skip_padding_inv d : forall fuel buf q, 0 <= q -> d_size d - q < 4 * Z.of_nat fuel ->
  at_pos (d_data d) q buf -> len buf = 4 ->
  match skip_padding fuel d buf (q + 4) with
  | (DOk h, pos') => q + 4 <= pos' /\ at_pos (d_data d) (pos' - 4) h /\ len h = 4 /\ is_padbytes h = false
  | (DErr e, pos') => q + 4 <= pos' /\ d_size d <= pos'
  | (DFuel, _) => False
  end.
Proof.
  induction fuel as [|fuel IH]; intros buf q Hq M A L.
  { apply at_pos_bound in A. unfold d_size, len in *. lia. }
  cbn [skip_padding]. destruct (is_padbytes buf) eqn:P; cbn [negb].
  - unfold dbind. destruct (dread d 4 (q + 4)) as [[g|e|] pos'] eqn:R.
    + apply dread_inv in R as (-> & R1 & R2); [|lia..]. destruct (short g 4).
      * destruct R2 as [R2 R3]; [reflexivity|]. pose proof (len_nonneg g).
        unfold header_error. destruct (_ || _); cbn; lia.
      * destruct R1 as [R1 R3]; [reflexivity|]. rewrite R1.
        pose proof (IH g (q + 4) ltac:(lia) ltac:(lia) R3 R1) as I.
        destruct (skip_padding fuel d g (q + 4 + 4)) as [[h|e|] pos''].
        { destruct I as (I1 & I2). split; [lia | exact I2]. }
        { lia. }
        exact I.
    + unfold dread in R. destruct (read _ _ _); [discriminate|]. injection R as _ <-. lia.
    + apply dread_fuel in R. exact R.
  - unfold dret. replace (q + 4 - 4) with q by lia. split; [lia|]. auto.
Qed.

Lemma header_of_bytes h : len h = 4 -> phys_header (prh_length (read_prh h)) (prh_attributes (read_prh h)) h.
Proof.
  destruct h as [|l0 [|l1 [|a0 [|a1 [|x t]]]]]; cbn [len length]; unfold len; cbn [length]; try lia. intros _.
  exists l0, l1, a0, a1. split; [reflexivity|]. unfold read_prh. cbn [firstn skipn prh_length prh_attributes]. rewrite !be2. auto.
Qed.

Lemma header_inv d pos : 0 <= pos ->
  match read_physical_header d pos with
  | (DOk prh, pos') => pos + 4 <= pos' /\ min_length (prh_attributes prh) <= prh_length prh /\
      exists h, phys_header (prh_length prh) (prh_attributes prh) h /\ at_pos (d_data d) (pos' - 4) h
  | (DErr e, pos') => pos <= pos'
  | (DFuel, _) => False
  end.
Proof.
  intros Hp. unfold read_physical_header.
  assert (fin : forall h pos', pos + 4 <= pos' -> len h = 4 -> at_pos (d_data d) (pos' - 4) h ->
    match (let head := read_prh h in
      if prh_length head <? min_length (prh_attributes head) then dfail OtherError else dret head) pos' with
    | (DOk prh, pos') => pos + 4 <= pos' /\ min_length (prh_attributes prh) <= prh_length prh /\
        exists h, phys_header (prh_length prh) (prh_attributes prh) h /\ at_pos (d_data d) (pos' - 4) h
    | (DErr e, pos') => pos <= pos'
    | (DFuel, _) => False
    end).
  { intros h pos' L1 L A. cbv zeta. destruct (Z.ltb_spec (prh_length (read_prh h)) (min_length (prh_attributes (read_prh h)))); unfold dfail, dret.
    - lia.
    - split; [lia|]. split; [assumption|]. exists h. split; [apply header_of_bytes; exact L | exact A]. }
  unfold dbind at 1. destruct (dread d 4 pos) as [[b|e|] pos'] eqn:R.
  2: { apply dread_err in R. lia. }
  2: { apply dread_fuel in R. exact R. }
  apply dread_inv in R as (-> & R1 & R2); [|lia..]. pose proof (len_nonneg b) as Lb.
  destruct (short b 4).
  { unfold header_error. destruct (_ || _); cbn; lia. }
  destruct R1 as [R1 R3]; [reflexivity|]. rewrite R1. clear R2.
  unfold dbind at 1. destruct (is_padbytes (firstn 2 b)).
  2: { unfold dret at 1. apply fin; [lia | exact R1 |]. replace (pos + 4 - 4) with pos by lia. exact R3. }
  unfold dbind at 1. unfold dtell at 1. cbv zeta. unfold dbind at 1.
  destruct (Z.eqb_spec ((d_offset d + (pos + 4)) mod 4) 0) as [E0|N0]; cbn [negb].
  - unfold dret at 1. pose proof (skip_padding_inv d (S (length (d_data d))) b pos Hp ltac:(unfold d_size; lia) R3 R1) as I.
    destruct (skip_padding _ d b (pos + 4)) as [[h|e|] pos']; [|lia|exact I].
    destruct I as (I1 & I2 & I3 & _). apply fin; [lia | exact I3 | exact I2].
  - set (m := 4 - (d_offset d + (pos + 4)) mod 4). assert (Hm : 0 < m < 4) by lia.
    unfold dbind at 1. destruct (dread d m (pos + 4)) as [[g|e|] pos'] eqn:R.
    2: { apply dread_err in R. lia. }
    2: { apply dread_fuel in R. exact R. }
    apply dread_inv in R as (-> & Q1 & Q2); [|lia..]. pose proof (len_nonneg g) as Lg.
    destruct (short g m).
    { unfold header_error. destruct (_ || _); cbn; lia. }
    destruct Q1 as [Q1 Q3]; [reflexivity|]. unfold dret at 1. clear Q2.
    assert (A : at_pos (d_data d) (pos + m) (skipn (Z.to_nat m) b ++ g) /\ len (skipn (Z.to_nat m) b ++ g) = 4).
    { assert (LS : len (skipn (Z.to_nat m) b) = 4 - m) by (unfold len in *; rewrite skipn_length; lia). split.
      - apply at_pos_app. rewrite LS. replace (pos + m + (4 - m)) with (pos + 4) by lia. split; [|exact Q3].
        replace (pos + m) with (pos + Z.of_nat (Z.to_nat m)) by lia. apply skipn_at; [exact R3 | unfold len in R1; lia].
      - rewrite len_app. lia. }
    destruct A as [A LA].
    pose proof (skip_padding_inv d (S (length (d_data d))) _ (pos + m) ltac:(lia) ltac:(unfold d_size; lia) A LA) as I.
    replace (pos + 4 + len g) with (pos + m + 4) by lia.
    destruct (skip_padding _ d _ (pos + m + 4)) as [[h|e|] pos']; [|lia|exact I].
    destruct I as (I1 & I2 & I3 & _). apply fin; [lia | exact I3 | exact I2].
Qed.
