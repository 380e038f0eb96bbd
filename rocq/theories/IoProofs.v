(** Lemmas about io.cpp. *)
From Verif Require Import Bytes BytesProofs Stream DlisTypes SpecTypes TypesProofs DlisCore SpecCore CoreProofs CoreProofs2
  DlisIo SpecIo.
Local Open Scope Z_scope.
Ltac Zify.zify_post_hook ::= Z.div_mod_to_equations.

(** ** Reading *)
Lemma len_app a b : len (a ++ b) = len a + len b.
Proof. unfold len. rewrite app_length. lia. Qed.
Lemma len_nonneg a : 0 <= len a.
Proof. unfold len. lia. Qed.
Lemma len_cons x a : len (x :: a) = 1 + len a.
Proof. unfold len. cbn [length]. lia. Qed.
Lemma len_nil : len [] = 0.
Proof. reflexivity. Qed.

Lemma skipn_app_len {A} (a b : list A) : skipn (length a) (a ++ b) = b.
Proof. rewrite skipn_app, skipn_all, Nat.sub_diag. reflexivity. Qed.

Lemma read_mid pre mid post hard :
  read (mk_stream (pre ++ mid ++ post) hard) (len pre) (len mid) = Some mid.
Proof.
  unfold read, len. cbn [s_data s_hard].
  destruct (Z.of_nat (length mid) =? 0) eqn:Z0.
  - destruct mid; [reflexivity | cbn [length] in Z0; lia].
  - replace (_ || _) with false by lia.
    rewrite !Nat2Z.id, skipn_app_len, firstn_len, Nat.eqb_refl by reflexivity. reflexivity.
Qed.
Lemma read_mid' pre mid post hard p n : p = len pre -> n = len mid ->
  read (mk_stream (pre ++ mid ++ post) hard) p n = Some mid.
Proof. intros -> ->. apply read_mid. Qed.

(** what a successful read tells *)
Lemma read_Some s p n b : 0 <= p -> read s p n = Some b ->
  len b <= n /\
  (len b < n -> s_hard s = false /\ len (s_data s) <= p + len b) /\
  (0 <= n) /\ (0 < n -> p <= len (s_data s) -> exists pre post, s_data s = pre ++ b ++ post /\ len pre = p).
Proof.
  intros Hp. unfold read. destruct (n =? 0) eqn:N0.
  { intros E. injection E as <-. cbn. split; [lia|]. split; [lia|]. split; lia. }
  destruct ((n <? 0) || (p <? 0)) eqn:NN; [discriminate|].
  set (got := firstn (Z.to_nat n) (skipn (Z.to_nat p) (s_data s))).
  assert (G : got = b -> len b <= n /\ (0 < n -> p <= len (s_data s) -> exists pre post, s_data s = pre ++ b ++ post /\ len pre = p)).
  { intros <-. split.
    - unfold len, got. rewrite firstn_length. lia.
    - intros _ L. exists (firstn (Z.to_nat p) (s_data s)), (skipn (Z.to_nat n) (skipn (Z.to_nat p) (s_data s))).
      unfold got. rewrite firstn_skipn, firstn_skipn. split; [reflexivity|]. unfold len in *. rewrite firstn_length. lia. }
  destruct (length got =? Z.to_nat n)%nat eqn:L.
  - intros E. injection E as E. destruct (G E) as [G1 G2]. subst b. apply Nat.eqb_eq in L.
    split; [exact G1|]. split; [unfold len; lia|]. split; [lia | exact G2].
  - destruct (s_hard s); [discriminate|]. intros E. injection E as E. destruct (G E) as [G1 G2]. subst b.
    apply Nat.eqb_neq in L. split; [exact G1|]. split; [|split; [lia|exact G2]].
    intros H. split; [reflexivity|]. unfold len, got in *. rewrite firstn_length, skipn_length in *. lia.
Qed.

Lemma read_None s p n : 0 <= p -> 0 <= n -> read s p n = None <-> s_hard s = true /\ 0 < n /\ len (s_data s) < p + n.
Proof.
  intros Hp Hn. unfold read. destruct (n =? 0) eqn:N0.
  { split; [discriminate | lia]. }
  replace (_ || _) with false by lia.
  set (got := firstn (Z.to_nat n) (skipn (Z.to_nat p) (s_data s))).
  assert (L : length got = Nat.min (Z.to_nat n) (length (s_data s) - Z.to_nat p)) by (unfold got; rewrite firstn_length, skipn_length; reflexivity).
  destruct (length got =? Z.to_nat n)%nat eqn:E.
  - apply Nat.eqb_eq in E. split; [discriminate|]. unfold len. intros (_ & _ & H). exfalso. lia.
  - apply Nat.eqb_neq in E. destruct (s_hard s); split; try discriminate; try tauto.
    + intros _. split; [reflexivity|]. unfold len. lia.
    + intros (H & _). discriminate.
Qed.

(** ** Segment headers *)
Lemma u16_enc n : 0 <= n < 65536 -> u16 (z2b (n / 256)) (z2b n) = n.
Proof. intros H. unfold u16. rewrite !b2z_z2b. lia. Qed.

Lemma enc_segment_len g : len (enc_segment g) = 4 + len (g_payload g).
Proof. unfold enc_segment. rewrite len_app. reflexivity. Qed.

Lemma read_header pre g post hard : seg_fits g ->
  exists h, length h = 4%nat /\
  read (mk_stream (pre ++ enc_segment g ++ post) hard) (len pre) 4 = Some h /\
  dlis_lrsh h = Some (4 + len (g_payload g), b2z (g_attrs g), b2z (g_type g)).
Proof.
  intros F. unfold enc_segment. set (n := 4 + len (g_payload g)).
  set (h := [z2b (n / 256); z2b n; g_attrs g; g_type g]). exists h. split; [reflexivity|]. split.
  - rewrite <- app_assoc. apply read_mid'; reflexivity.
  - unfold h. rewrite lrsh_decode, u16_enc; [reflexivity|]. unfold seg_fits in F. unfold n.
    pose proof (len_nonneg (g_payload g)). lia.
Qed.

Lemma read_payload pre g post hard :
  read (mk_stream (pre ++ enc_segment g ++ post) hard) (len pre + 4) (len (g_payload g)) = Some (g_payload g).
Proof.
  unfold enc_segment. set (h := [_; _; _; _]).
  replace (pre ++ (h ++ g_payload g) ++ post) with ((pre ++ h) ++ g_payload g ++ post) by (rewrite <- !app_assoc; reflexivity).
  apply read_mid'; [rewrite len_app; reflexivity | reflexivity].
Qed.

(** ** Trimming a payload *)
Lemma trim_segment_spec esc a before p d w :
  payload_data a p d w ->
  trim_segment esc a before p =
    ((if w then [MINOR] else []), if w && esc MINOR then Exn else Ok (len p - len d)) /\
  firstn (length before + length p - Z.to_nat (len p - len d)) (before ++ p) = before ++ d.
Proof.
  intros H.
  assert (PRE : (exists tl, p = d ++ tl) -> firstn (length before + length p - Z.to_nat (len p - len d)) (before ++ p) = before ++ d).
  { intros [tl ->]. rewrite app_assoc. rewrite len_app, !app_length. unfold len.
    replace (_ - _)%nat with (length (before ++ d)) by (rewrite app_length; lia). apply firstn_len. reflexivity. }
  unfold trim_segment. inversion H as [p' E|body pad tail E T P|pre c tail E P T L|p' E P T]; subst.
  - split; [|apply PRE; exists []; rewrite app_nil_r; reflexivity].
    rewrite trim_eq, E. cbn [andb]. unfold ret. rewrite Z.sub_diag. reflexivity.
  - split; [|apply PRE; eauto]. cbn [andb].
    assert (X : dlis_trim_record_segment a before (d ++ pad ++ tail) = Some (DLIS_OK, len pad + len tail)).
    { rewrite trim_eq, E. destruct (Z.testbit a 0).
      - destruct P as (pre & c & Q & C).
        assert (LQ : len d + len pad = len pre + 1) by (rewrite <- !len_app, Q, len_app; reflexivity).
        rewrite (app_assoc d pad tail), Q, <- app_assoc. cbn [app].
        rewrite <- T. cbn zeta. unfold len in *. rewrite !app_length. cbn [length].
        replace (_ <? 0) with false by lia.
        replace (Z.to_nat _) with (length before + length pre)%nat by lia.
        rewrite nth_error_app_r. cbn [obind]. rewrite C. unfold len in *.
        replace (Z.of_nat (length tail) + Z.of_nat (length pad) >? _) with false by lia.
        f_equal. f_equal. lia.
      - subst pad. cbn [app]. rewrite <- T. unfold len. rewrite app_length.
        replace (_ >? _) with false by lia. reflexivity. }
    rewrite X. unfold ret. f_equal. f_equal. rewrite !len_app. lia.
  - split; [|apply PRE; exists (pre ++ c :: tail); reflexivity].
    rewrite trim_eq, E, P. rewrite <- T in *. cbn zeta.
    rewrite len_app, len_cons in L. unfold len in *. rewrite !app_length. cbn [length].
    replace (_ <? 0) with false by lia.
    replace (Z.to_nat _) with (length before + length pre)%nat by lia.
    rewrite nth_error_app_r. cbn [obind].
    replace (Z.of_nat (length tail) + b2z c >? _) with true by lia.
    replace (negb _) with false by lia. cbn [andb bind log].
    destruct (esc MINOR); cbn; [reflexivity|]. rewrite Z.sub_0_r. reflexivity.
  - split; [|apply PRE; exists p; reflexivity].
    rewrite trim_eq, E, P, T. unfold len. replace (_ >? _) with true by lia.
    replace (negb _) with false by lia. cbn [andb bind log].
    destruct (esc MINOR); cbn; [reflexivity|]. rewrite Z.sub_0_r. reflexivity.
Qed.

(** every outcome of trimming: at most the payload goes *)
Lemma trim_segment_Ok esc a before p l t :
  trim_segment esc a before p = (l, Ok t) -> 0 <= t <= len p /\ (l = [] \/ l = [MINOR]).
Proof.
  unfold trim_segment. rewrite trim_eq.
  assert (T : 0 <= tail_size a) by (unfold tail_size; destruct (Z.testbit a 2), (Z.testbit a 1); lia).
  pose proof (len_nonneg p) as LP. unfold len in *.
  assert (G : forall t', 0 <= t' ->
    match Some (if t' >? Z.of_nat (length p) then DLIS_BAD_SIZE else DLIS_OK, t') with
    | Some (DLIS_OK, trim) => ret trim
    | Some (DLIS_BAD_SIZE, trim) => if negb (trim - Z.of_nat (length p) =? 4) then fail
        else let* _ := log esc MINOR in ret (Z.of_nat (length p))
    | Some _ => fail
    | None => ([], UB) end = (l, Ok t) -> 0 <= t <= Z.of_nat (length p) /\ (l = [] \/ l = [MINOR])).
  { intros t' Ht'. destruct (t' >? Z.of_nat (length p)) eqn:G.
    - destruct (negb _); [discriminate|]. cbn. destruct (esc MINOR); cbn; [discriminate|].
      intros H. injection H as <- <-. split; [lia | auto].
    - intros H. injection H as <- <-. split; [lia | auto]. }
  destruct (Z.testbit a 4).
  { intros H. injection H as <- <-. split; [lia | auto]. }
  destruct (Z.testbit a 0).
  - cbn zeta. destruct (_ <? 0); [discriminate|]. destruct (nth_error _ _) as [b|]; [|discriminate].
    cbn [obind]. apply G. pose proof (b2z_range b). lia.
  - apply G. exact T.
Qed.

Lemma trim_segment_limit esc a before p : tail_size a = 0 -> Z.testbit a 0 = false -> trim_segment esc a before p = ret 0.
Proof.
  intros T P. unfold trim_segment. rewrite trim_eq, P, T. destruct (Z.testbit a 4); [reflexivity|].
  replace (0 >? _) with false by lia. reflexivity.
Qed.

(** ** extract *)
Lemma has_bits a :
  has a SEGATTR_PADDING = Z.testbit a 0 /\ has a SEGATTR_TRAILEN = Z.testbit a 1 /\
  has a SEGATTR_CHCKSUM = Z.testbit a 2 /\ has a SEGATTR_ENCRYPT = Z.testbit a 4 /\
  has a SEGATTR_SUCCSEG = Z.testbit a 5 /\ has a SEGATTR_PREDSEG = Z.testbit a 6 /\
  has a SEGATTR_EXFMTLR = Z.testbit a 7.
Proof.
  repeat split; [apply (has_bit a 0) | apply (has_bit a 1) | apply (has_bit a 2) | apply (has_bit a 4)
    | apply (has_bit a 5) | apply (has_bit a 6) | apply (has_bit a 7)]; lia.
Qed.

Definition partial_ok (a : Z) : bool := negb (Z.testbit a 0) && negb (Z.testbit a 1) && negb (Z.testbit a 2).

Lemma extract_step fuel esc s pos limit data first :
  extract_loop (S fuel) esc s pos limit data first =
  match read s pos 4 with
  | None => fail
  | Some buffer =>
      match dlis_lrsh buffer with
      | None => fail
      | Some (seglen, attrs, type) =>
          let first := match first with Some f => f | None => (attrs, type) end in
          let to_read := if partial_ok attrs && (limit - len data <? seglen - 4) then limit - len data else seglen - 4 in
          match read s (pos + 4) to_read with
          | None => fail
          | Some chunk =>
              if len chunk <? to_read then fail
              else
                let* trim := trim_segment esc attrs data chunk in
                let data := firstn (length data + length chunk - Z.to_nat trim) (data ++ chunk) in
                if Z.testbit attrs 5 && (limit - len data >? 0)
                then extract_loop fuel esc s (pos + 4 + to_read) limit data (Some first)
                else ret (mk_record (snd first) (Z.land (fst first) 0x90) true
                            (if limit - len data <? 0 then firstn (Z.to_nat limit) data else data))
          end
      end
  end.
Proof.
  cbn [extract_loop]. destruct (read s pos 4) as [buffer|]; [|reflexivity].
  destruct (dlis_lrsh buffer) as [[[seglen attrs] type]|]; [|reflexivity].
  destruct (has_bits attrs) as (-> & -> & -> & _ & -> & _). reflexivity.
Qed.

Definition warned (esc : severity -> bool) (n : nat) (r : record) : io record :=
  if esc MINOR then match n with O => ([], Ok r) | S _ => ([MINOR], Exn) end
  else (repeat MINOR n, Ok r).

Lemma payload_data_len a p d w : payload_data a p d w -> len d <= len p.
Proof.
  intros H. inversion H; subst.
  - lia.
  - rewrite !len_app. pose proof (len_nonneg pad). pose proof (len_nonneg tail). lia.
  - apply len_nonneg.
  - apply len_nonneg.
Qed.

Lemma extract_chain esc hard segs : forall fuel pre post limit data first ds n,
  chained segs -> Forall seg_fits segs -> record_data segs ds n -> (length segs <= fuel)%nat ->
  len data + len (enc_record segs) <= limit ->
  let f := match first with Some f => f | None =>
             match segs with g :: _ => (b2z (g_attrs g), b2z (g_type g)) | [] => (0, 0) end end in
  extract_loop fuel esc (mk_stream (pre ++ enc_record segs ++ post) hard) (len pre) limit data first =
  warned esc n (mk_record (snd f) (Z.land (fst f) 0x90) true (data ++ ds)).
Proof.
  induction segs as [|g t IH]; intros fuel pre post limit data first ds n C F R Fu L f; [destruct C|].
  destruct fuel as [|fuel]; [cbn [length] in Fu; lia|].
  inversion F as [|? ? Fg Ft]; subst. inversion R as [|? ? d w ds' n' P R']; subst.
  rewrite extract_step. unfold enc_record. cbn [map concat]. rewrite <- app_assoc.
  destruct (read_header pre g (concat (map enc_segment t) ++ post) hard Fg) as (h & _ & -> & ->).
  unfold enc_record in L. cbn [map concat] in L. rewrite len_app, enc_segment_len in L.
  pose proof (len_nonneg (concat (map enc_segment t))) as Lt.
  replace (4 + len (g_payload g) - 4) with (len (g_payload g)) by lia.
  replace (limit - len data <? len (g_payload g)) with false by lia. rewrite andb_false_r.
  rewrite read_payload. replace (len (g_payload g) <? len (g_payload g)) with false by lia.
  destruct (trim_segment_spec esc _ data _ _ _ P) as [-> TD].
  destruct (w && esc MINOR) eqn:WE.
  { apply andb_true_iff in WE as [-> WE]. unfold warned. rewrite WE. reflexivity. }
  unfold bind at 1.
  assert (FE : (match first with Some f0 => f0 | None => (b2z (g_attrs g), b2z (g_type g)) end) = f) by (unfold f; destruct first; reflexivity).
  cbv beta iota zeta. rewrite FE, TD. clear FE TD.
  pose proof (payload_data_len _ _ _ _ P) as LD.
  change (Z.testbit (b2z (g_attrs g)) 5) with (has_succ g).
  assert (NEXT : (let '(l', r) :=
     if has_succ g && (limit - len (data ++ d) >? 0)
     then extract_loop fuel esc (mk_stream (pre ++ enc_segment g ++ concat (map enc_segment t) ++ post) hard)
            (len pre + 4 + len (g_payload g)) limit (data ++ d) (Some f)
     else ret (mk_record (snd f) (Z.land (fst f) 144) true
            (if limit - len (data ++ d) <? 0 then firstn (Z.to_nat limit) (data ++ d) else data ++ d)) in
     ((if w then [MINOR] else []) ++ l', r)) =
     (let '(l', r) := warned esc n' (mk_record (snd f) (Z.land (fst f) 144) true (data ++ d ++ ds')) in
      ((if w then [MINOR] else []) ++ l', r))).
  { destruct t as [|g' t'].
    - cbn [chained] in C. rewrite C. cbn [andb]. inversion R'; subst. rewrite len_app.
      replace (limit - (len data + len d) <? 0) with false by lia.
      rewrite app_nil_r. unfold warned, ret. destruct (esc MINOR); reflexivity.
    - destruct C as [Cs C]. rewrite Cs. cbn [andb]. rewrite len_app.
      assert (L1 : 4 <= len (concat (map enc_segment (g' :: t')))).
      { cbn [map concat]. rewrite len_app, enc_segment_len. pose proof (len_nonneg (g_payload g')).
        pose proof (len_nonneg (concat (map enc_segment t'))). lia. }
      replace (limit - (len data + len d) >? 0) with true by lia.
      specialize (IH fuel (pre ++ enc_segment g) post limit (data ++ d) (Some f) ds' n' C Ft R').
      rewrite <- app_assoc, (len_app pre), enc_segment_len in IH.
      replace (len pre + (4 + len (g_payload g))) with (len pre + 4 + len (g_payload g)) in IH by lia.
      unfold enc_record in IH. rewrite IH.
      + rewrite <- app_assoc. reflexivity.
      + cbn [length] in Fu |- *. lia.
      + rewrite len_app. lia. }
  etransitivity; [exact NEXT|]. unfold warned. destruct w; cbn [andb] in WE.
  - rewrite WE. reflexivity.
  - destruct (esc MINOR); [destruct n'|]; reflexivity.
Qed.

Lemma chain_fuel segs : (length segs <= length (enc_record segs))%nat.
Proof.
  induction segs as [|g t IH]; [cbn; lia|]. unfold enc_record in *. cbn [map concat length]. rewrite app_length.
  pose proof (enc_segment_len g) as E. unfold len in E. lia.
Qed.

Lemma extract_complete esc hard pre segs post ds n :
  chained segs -> Forall seg_fits segs -> record_data segs ds n ->
  len (enc_record segs) < 2 ^ 63 ->
  exists g t, segs = g :: t /\
  extract esc (mk_stream (pre ++ enc_record segs ++ post) hard) (len pre) =
  warned esc n (mk_record (b2z (g_type g)) (Z.land (b2z (g_attrs g)) 0x90) true ds).
Proof.
  intros C F R L. destruct segs as [|g t]; [destruct C|]. exists g, t. split; [reflexivity|].
  unfold extract, extract_n. cbn [s_data].
  rewrite (extract_chain esc hard (g :: t) _ pre post _ [] None ds n C F R).
  - reflexivity.
  - pose proof (chain_fuel (g :: t)). rewrite !app_length. lia.
  - rewrite len_nil. plia.
Qed.

(** ** Soundness on arbitrary streams *)
Lemma lrsh_Some h ln a t : dlis_lrsh h = Some (ln, a, t) ->
  exists l0 l1 a' t' r, h = l0 :: l1 :: a' :: t' :: r /\ ln = u16 l0 l1 /\ a = b2z a' /\ t = b2z t'.
Proof.
  destruct h as [|l0 [|l1 [|a' [|t' r]]]]; try (intros H; rewrite lrsh_short in H by (cbn; lia); discriminate).
  rewrite lrsh_decode. intros H. injection H as <- <- <-. do 5 eexists. repeat split.
Qed.

Lemma u16_range a b : 0 <= u16 a b < 65536.
Proof. unfold u16. pose proof (b2z_range a). pose proof (b2z_range b). lia. Qed.

Lemma header_read s p h ln a t : 0 <= p -> read s p 4 = Some h -> dlis_lrsh h = Some (ln, a, t) ->
  header_at (s_data s) p ln a t /\ p + 4 <= len (s_data s) /\ 0 <= ln < 65536.
Proof.
  intros Hp R L. apply lrsh_Some in L as (l0 & l1 & a' & t' & r & -> & -> & -> & ->).
  assert (HL : p <= len (s_data s)).
  { destruct (Z_le_gt_dec p (len (s_data s))) as [K|K]; [exact K|]. exfalso.
    assert (X : skipn (Z.to_nat p) (s_data s) = []) by (apply skipn_all2; unfold len in K; lia).
    unfold read in R. rewrite X in R. replace ((4 <? 0) || (p <? 0)) with false in R by lia.
    cbn in R. destruct (s_hard s); discriminate. }
  apply read_Some in R as (R1 & R2 & R3 & R4); [|exact Hp].
  destruct R4 as (pre & post & E & Lp); [lia | exact HL |].
  rewrite !len_cons in R1. pose proof (len_nonneg r). assert (len r = 0) by lia.
  assert (r = []) by (destruct r; [reflexivity | rewrite len_cons in *; pose proof (len_nonneg r); lia]). subst r.
  split; [|split].
  - exists pre, post, l0, l1, a', t'. repeat split; auto. unfold u16. lia.
  - rewrite E, len_app, len_app, !len_cons. pose proof (len_nonneg post). cbn [len length] in *. unfold len in *. cbn [length] in *. lia.
  - apply u16_range.
Qed.

Lemma bind_Ok {A B} (m : io A) (k : A -> io B) l b :
  bind m k = (l, Ok b) -> exists l1 a l2, m = (l1, Ok a) /\ k a = (l2, Ok b) /\ l = l1 ++ l2.
Proof.
  destruct m as [l1 [a| | |]]; cbn [bind]; try discriminate. destruct (k a) as [l2 r] eqn:K.
  intros H. injection H as <- ->. eauto 6.
Qed.

(** one successful round *)
Lemma extract_round fuel esc s pos limit data first l r :
  0 <= pos -> extract_loop (S fuel) esc s pos limit data first = (l, Ok r) ->
  exists g pre post chunk trim l1 l2,
    let a := b2z (g_attrs g) in
    let f := match first with Some f => f | None => (a, b2z (g_type g)) end in
    let n := len (g_payload g) in
    let to_read := if partial_ok a && (limit - len data <? n) then limit - len data else n in
    let data' := firstn (length data + length chunk - Z.to_nat trim) (data ++ chunk) in
    len pre = pos /\ seg_fits g /\ 0 <= to_read /\
    (exists rest, s_data s = pre ++ firstn 4 (enc_segment g) ++ chunk ++ rest) /\
    len chunk = to_read /\
    (to_read = n -> s_data s = pre ++ enc_segment g ++ post /\ chunk = g_payload g) /\
    trim_segment esc a data chunk = (l1, Ok trim) /\ l = l1 ++ l2 /\
    (if has_succ g && (limit - len data' >? 0)
     then extract_loop fuel esc s (pos + 4 + to_read) limit data' (Some f)
     else ret (mk_record (snd f) (Z.land (fst f) 0x90) true
                 (if limit - len data' <? 0 then firstn (Z.to_nat limit) data' else data'))) = (l2, Ok r).
Proof.
  intros Hp. rewrite extract_step. destruct (read s pos 4) as [h|] eqn:R; [|discriminate].
  destruct (dlis_lrsh h) as [[[seglen attrs] type]|] eqn:LR; [|discriminate].
  destruct (header_read _ _ _ _ _ _ Hp R LR) as ((pre & post & l0 & l1 & a & t & E & Lp & -> & -> & ->) & H4 & H16).
  cbv zeta. set (ln := 256 * b2z l0 + b2z l1) in *.
  set (tr := if partial_ok (b2z a) && (limit - len data <? ln - 4) then limit - len data else ln - 4).
  destruct (read s (pos + 4) tr) as [chunk|] eqn:RC; [|discriminate].
  destruct (len chunk <? tr) eqn:LC; [discriminate|]. intros H.
  apply bind_Ok in H as (l1' & trim & l2 & T & K & ->).
  apply read_Some in RC as RC'; [|lia]. destruct RC' as (C1 & _ & C3 & C4).
  assert (LT : len chunk = tr) by lia.
  assert (N : 0 <= ln - 4).
  { unfold tr in C3. destruct (partial_ok (b2z a)); cbn [andb] in C3; [|lia].
    destruct (limit - len data <? ln - 4) eqn:Q; lia. }
  (* the payload: what is there of it, completed arbitrarily *)
  set (pl := chunk ++ repeat x00 (Z.to_nat (ln - 4 - tr))).
  assert (LPL : len pl = ln - 4).
  { unfold pl. rewrite len_app, LT. unfold len. rewrite repeat_length. unfold tr.
    destruct (partial_ok (b2z a)); cbn [andb]; [|lia]. destruct (limit - len data <? ln - 4) eqn:Q; lia. }
  assert (HD : forall pl', len pl' = ln - 4 -> enc_segment (mk_seg a t pl') = [l0; l1; a; t] ++ pl').
  { intros pl' Q. unfold enc_segment. cbn [g_attrs g_type g_payload]. rewrite Q. replace (4 + (ln - 4)) with ln by lia.
    f_equal. pose proof (b2z_range l0). pose proof (b2z_range l1).
    replace (z2b (ln / 256)) with l0; [replace (z2b ln) with l1; [reflexivity|]|];
      apply b2z_inj; rewrite b2z_z2b; unfold ln; lia. }
  assert (CH : exists rest, s_data s = pre ++ [l0; l1; a; t] ++ chunk ++ rest).
  { destruct (Z.eq_dec tr 0) as [Q|Q].
    - assert (chunk = []) by (destruct chunk; [reflexivity | rewrite len_cons in LT; pose proof (len_nonneg chunk); lia]).
      subst chunk. exists post. exact E.
    - destruct C4 as (p2 & post2 & E2 & L2); [lia | lia |]. exists post2.
      assert (X : p2 = pre ++ [l0; l1; a; t]).
      { rewrite E in E2.
        apply (f_equal (firstn (length p2))) in E2. rewrite (firstn_len (length p2) p2) in E2 by reflexivity.
        change (pre ++ l0 :: l1 :: a :: t :: post) with (pre ++ [l0; l1; a; t] ++ post) in E2. rewrite app_assoc in E2.
        rewrite (firstn_len (length p2) (pre ++ [l0; l1; a; t])) in E2; [symmetry; exact E2|]. rewrite app_length. cbn [length]. unfold len in *. lia. }
      rewrite E2, X, <- app_assoc. reflexivity. }
  destruct CH as [rest CH].
  exists (mk_seg a t pl), pre, rest, chunk, trim, l1', l2. cbn [g_attrs g_type g_payload]. rewrite LPL. fold tr.
  repeat split.
  - exact Lp.
  - unfold seg_fits. cbn [g_payload]. rewrite LPL. lia.
  - lia.
  - exists rest. rewrite HD by exact LPL. rewrite firstn_len by reflexivity. exact CH.
  - exact LT.
  - rewrite HD by exact LPL. rewrite <- app_assoc. unfold pl.
    replace (Z.to_nat (ln - 4 - tr)) with O by lia. cbn [repeat]. rewrite app_nil_r. exact CH.
  - unfold pl. replace (Z.to_nat (ln - 4 - tr)) with O by lia. cbn [repeat]. rewrite app_nil_r. reflexivity.
  - exact T.
  - exact K.
Qed.

Lemma trim_keeps (data chunk : bytes) t : 0 <= t <= len chunk ->
  firstn (length data + length chunk - Z.to_nat t) (data ++ chunk) = data ++ firstn (length chunk - Z.to_nat t) chunk.
Proof.
  intros H. unfold len in H. rewrite firstn_app. rewrite firstn_all2 by lia. f_equal. f_equal. lia.
Qed.

Lemma split_len (xs : bytes) k : 0 <= k <= len xs -> exists a b, xs = a ++ b /\ len b = k.
Proof.
  intros H. exists (firstn (length xs - Z.to_nat k) xs), (skipn (length xs - Z.to_nat k) xs).
  split; [symmetry; apply firstn_skipn|]. unfold len in *. rewrite skipn_length. lia.
Qed.

Lemma trim_segment_inv esc a before p l t :
  trim_segment esc a before p = (l, Ok t) ->
  (Z.testbit a 4 = false -> Z.testbit a 0 = true -> tail_size a < len p) ->
  exists w, payload_data a p (firstn (length p - Z.to_nat t) p) w /\ l = if w then [MINOR] else [].
Proof.
  intros H Q. pose proof (len_nonneg p) as LP. unfold trim_segment in H. rewrite trim_eq in H.
  assert (T0 : 0 <= tail_size a) by (unfold tail_size; destruct (Z.testbit a 2), (Z.testbit a 1); lia).
  destruct (Z.testbit a 4) eqn:E4.
  { injection H as <- <-. exists false. split; [|reflexivity]. change (Z.to_nat 0) with O.
    rewrite Nat.sub_0_r, firstn_all. apply pd_encrypted. exact E4. }
  destruct (Z.testbit a 0) eqn:E0.
  - specialize (Q eq_refl eq_refl).
    destruct (split_len p (tail_size a)) as (bp & tail & -> & LT); [lia|].
    rewrite len_app in Q. destruct (exists_last (l := bp)) as (pre & c & ->).
    { intros ->. rewrite len_nil in Q. lia. }
    rewrite <- app_assoc in H. cbn [app] in H. cbn zeta in H. rewrite app_length in H. cbn [length] in H. unfold len in LT.
    replace (_ <? 0) with false in H by lia.
    replace (Z.to_nat _) with (length before + length pre)%nat in H by lia.
    rewrite nth_error_app_r in H. cbn [obind] in H.
    pose proof (b2z_range c) as RC.
    destruct (tail_size a + b2z c >? _) eqn:BIG.
    + destruct (negb _) eqn:N4; [discriminate|]. cbn in H. destruct (esc MINOR); cbn in H; [discriminate|].
      injection H as <- <-. exists true. split; [|reflexivity].
      rewrite Nat2Z.id. rewrite !app_length. cbn [length]. replace (_ - _)%nat with O by lia. cbn [firstn].
      rewrite <- app_assoc. cbn [app]. apply pd_overlong; auto. rewrite len_app, len_cons. unfold len. lia.
    + injection H as <- <-. exists false. split; [|reflexivity].
      destruct (split_len (pre ++ [c]) (b2z c)) as (body & pad & BP & LB).
      { rewrite len_app. unfold len. cbn [length]. lia. }
      rewrite BP. rewrite <- app_assoc. unfold len in LB.
      replace (length (body ++ pad ++ tail) - _)%nat with (length body) by (rewrite !app_length; lia).
      rewrite firstn_len by reflexivity. apply pd_trailer; [exact E4 | exact LT |].
      rewrite E0. exists pre, c. split; [symmetry; exact BP | unfold len; lia].
  - destruct (tail_size a >? Z.of_nat (length p)) eqn:BIG.
    + (* trim - size = 4 with no padding needs an empty payload of tail 4 *)
      destruct (negb _) eqn:N4; [discriminate|]. cbn in H. destruct (esc MINOR); cbn in H; [discriminate|].
      injection H as <- <-. exists true. split; [|reflexivity].
      rewrite Nat2Z.id, Nat.sub_diag. cbn [firstn]. apply pd_overlong_nopad; auto. unfold len. lia.
    + injection H as <- <-. exists false. split; [|reflexivity].
      destruct (split_len p (tail_size a)) as (body & tail & -> & LT); [unfold len; lia|].
      unfold len in LT. replace (length (body ++ tail) - _)%nat with (length body) by (rewrite app_length; lia).
      rewrite firstn_len by reflexivity. apply (pd_trailer a body [] tail); auto. rewrite E0. reflexivity.
Qed.


Lemma enc_record_cons g t : enc_record (g :: t) = enc_segment g ++ enc_record t.
Proof. reflexivity. Qed.

Lemma app_eq_len {A} (a b c d : list A) : a ++ b = c ++ d -> length a = length c -> a = c /\ b = d.
Proof.
  revert c. induction a as [|x a IH]; intros [|y c] E L; cbn in *; try discriminate; auto.
  injection E as -> E. injection L as L. destruct (IH c E L) as [-> ->]. auto.
Qed.

Lemma extract_sound_loop fuel : forall esc s pos limit data first l r,
  0 <= pos -> len (s_data s) <= limit -> len data <= pos ->
  extract_loop fuel esc s pos limit data first = (l, Ok r) ->
  exists segs pre post ks,
    s_data s = pre ++ enc_record segs ++ post /\ len pre = pos /\
    chained segs /\ Forall seg_fits segs /\ Forall2 keeps segs ks /\
    rec_data r = data ++ concat ks /\ rec_consistent r = true /\
    (exists g t, segs = g :: t /\
      let f := match first with Some f => f | None => (b2z (g_attrs g), b2z (g_type g)) end in
      rec_type r = snd f /\ rec_attributes r = Z.land (fst f) 0x90) /\
    (Forall trailer_inside segs -> exists n, record_data segs (concat ks) n /\ l = repeat MINOR n).
Proof.
  induction fuel as [|fuel IH]; intros esc s pos limit data first l r Hp HL HD H; [discriminate|].
  apply extract_round in H as (g & pre & post & chunk & trim & l1 & l2 & H); [|exact Hp].
  cbv zeta in H. destruct H as (Lp & Fg & TR & (rest & E) & LC & EQ & T & -> & K).
  set (n := len (g_payload g)) in *.
  set (tr := if partial_ok (b2z (g_attrs g)) && (limit - len data <? n) then limit - len data else n) in *.
  assert (DL : pos + 4 + len chunk <= len (s_data s)).
  { rewrite E, !len_app, Lp. pose proof (len_nonneg rest).
    assert (X : len (firstn 4 (enc_segment g)) = 4) by (unfold enc_segment; rewrite firstn_len by reflexivity; reflexivity). lia. }
  assert (TN : tr = n). { unfold tr. destruct (limit - len data <? n) eqn:Q; [|rewrite andb_false_r; reflexivity].
    destruct (partial_ok _); cbn [andb] in *; [exfalso|reflexivity]. unfold tr in LC. lia. }
  rewrite TN in *. destruct (EQ eq_refl) as [E' ->]. clear EQ E rest.
  apply trim_segment_Ok in T as TO. destruct TO as [TO _].
  rewrite trim_keeps in K by exact TO.
  set (k := firstn (length (g_payload g) - Z.to_nat trim) (g_payload g)) in *.
  assert (KP : keeps g k) by (exists (skipn (length (g_payload g) - Z.to_nat trim) (g_payload g)); unfold k; symmetry; apply firstn_skipn).
  assert (LK : len k <= n). { destruct KP as [dr KP]. unfold n. rewrite KP, len_app. pose proof (len_nonneg dr). lia. }
  assert (LT : limit - len (data ++ k) >= 0). { rewrite len_app. lia. }
  set (f := match first with Some f => f | None => (b2z (g_attrs g), b2z (g_type g)) end) in *.
  destruct (has_succ g && (limit - len (data ++ k) >? 0)) eqn:SU.
  - apply andb_true_iff in SU as [SU _].
    apply IH in K as (segs & pre' & post' & ks & E2 & Lp' & Ch & Fs & KS & RD & RC & (g2 & t2 & G2 & TY) & DATA); [|lia|exact HL|rewrite len_app; lia].
    assert (X : pre' = pre ++ enc_segment g /\ enc_record segs ++ post' = post).
    { rewrite E' in E2. rewrite app_assoc in E2. symmetry in E2. apply app_eq_len in E2; [exact E2|].
      rewrite app_length. pose proof (enc_segment_len g) as EL. unfold len, n in *. lia. }
    destruct X as [-> X].
    exists (g :: segs), pre, post', (k :: ks). rewrite enc_record_cons, <- app_assoc, X.
    split; [exact E'|]. split; [exact Lp|]. split; [destruct segs; [destruct Ch|]; cbn [chained]; auto|].
    split; [constructor; assumption|]. split; [constructor; assumption|].
    split; [rewrite RD, <- app_assoc; reflexivity|]. split; [exact RC|]. split.
    + exists g, segs. split; [reflexivity|]. cbv zeta. fold f. exact TY.
    + intros TI. inversion TI as [|? ? TI1 TI2]; subst. destruct (DATA TI2) as (m & RDm & ->).
      destruct (trim_segment_inv _ _ _ _ _ _ T TI1) as (w & PD & ->). fold k in PD.
      exists ((if w then 1 else 0) + m)%nat. split; [constructor; assumption|]. destruct w; reflexivity.
  - injection K as <- <-. exists [g], pre, post, [k]. unfold enc_record. cbn [map concat]. rewrite !app_nil_r.
    assert (HS : has_succ g = false).
    { destruct (has_succ g); [|reflexivity]. cbn [andb] in SU. exfalso. rewrite len_app in SU.
      rewrite len_app in LT. lia. }
    split; [exact E'|]. split; [exact Lp|]. split; [exact HS|]. split; [auto|]. split; [auto|].
    cbn [rec_data rec_consistent rec_type rec_attributes].
    split; [replace (_ <? 0) with false by lia; reflexivity|]. split; [reflexivity|]. split.
    + exists g, []. split; [reflexivity|]. cbv zeta. fold f. auto.
    + intros TI. inversion TI as [|? ? TI1 TI2]; subst.
      destruct (trim_segment_inv _ _ _ _ _ _ T TI1) as (w & PD & ->). fold k in PD.
      exists ((if w then 1 else 0) + 0)%nat. split.
      * rewrite <- (app_nil_r k). constructor; [exact PD | constructor].
      * destruct w; reflexivity.
Qed.

(** ** The limit only cuts the data *)
Lemma extract_grows fuel : forall esc s pos limit data first l r,
  0 <= pos -> len (s_data s) <= limit -> len data <= pos ->
  extract_loop fuel esc s pos limit data first = (l, Ok r) -> exists more, rec_data r = data ++ more.
Proof.
  intros. eapply extract_sound_loop in H2 as (segs & pre & post & ks & _ & _ & _ & _ & _ & D & _); eauto.
Qed.

Lemma extract_limit_loop fuel : forall esc s pos big n data first l r,
  0 <= pos -> len (s_data s) <= big -> len data <= pos -> len data <= n ->
  extract_loop fuel esc s pos big data first = (l, Ok r) ->
  exists l1 l2, l = l1 ++ l2 /\
  extract_loop fuel esc s pos n data first =
    (l1, Ok (mk_record (rec_type r) (rec_attributes r) (rec_consistent r) (firstn (Z.to_nat n) (rec_data r)))).
Proof.
  induction fuel as [|fuel IH]; intros esc s pos big n data first l r Hp HB HD HN H; [discriminate|].
  pose proof H as H0.
  rewrite extract_step in H. rewrite extract_step.
  destruct (read s pos 4) as [h|] eqn:R; [|discriminate].
  destruct (dlis_lrsh h) as [[[seglen attrs] type]|] eqn:LR; [|discriminate].
  destruct (header_read _ _ _ _ _ _ Hp R LR) as (_ & H4 & H16).
  cbv zeta in *. set (f := match first with Some f => f | None => (attrs, type) end) in *.
  set (tr := if partial_ok attrs && (big - len data <? seglen - 4) then big - len data else seglen - 4) in *.
  destruct (read s (pos + 4) tr) as [chunk|] eqn:RC; [|discriminate].
  destruct (len chunk <? tr) eqn:LC; [discriminate|].
  apply read_Some in RC as RC'; [|lia]. destruct RC' as (C1 & C2 & C3 & C4).
  assert (TRN : tr = seglen - 4).
  { unfold tr. destruct (big - len data <? seglen - 4) eqn:Q; [|rewrite andb_false_r; reflexivity].
    destruct (partial_ok attrs); cbn [andb]; [exfalso|reflexivity].
    unfold tr in *. cbn [andb] in *.
    destruct (Z.eq_dec tr 0) as [Z0|Z0]; unfold tr in Z0.
    - lia.
    - destruct C4 as (pp & po & E & Lpp); [lia | lia |]. rewrite E, !len_app in HB. pose proof (len_nonneg po). lia. }
  rewrite TRN in *. clearbody tr. clear TRN tr.
  apply bind_Ok in H as (l1 & trim & l2 & T & K & ->).
  apply trim_segment_Ok in T as TO. destruct TO as [TO _].
  destruct (partial_ok attrs && (n - len data <? seglen - 4)) eqn:PA.
  - (* partial read *)
    apply andb_true_iff in PA as [PO PL].
    assert (TS : tail_size attrs = 0 /\ Z.testbit attrs 0 = false).
    { unfold partial_ok in PO. unfold tail_size. destruct (Z.testbit attrs 0), (Z.testbit attrs 1), (Z.testbit attrs 2); try discriminate. auto. }
    destruct TS as [TS T0].
    assert (RN : read s (pos + 4) (n - len data) = Some (firstn (Z.to_nat (n - len data)) chunk)).
    { destruct C4 as (pp & po & E & Lpp); [lia | lia |].
      rewrite <- (firstn_skipn (Z.to_nat (n - len data)) chunk) in E.
      destruct s as [sd sh]. cbn [s_data] in E. rewrite E, <- app_assoc.
      apply read_mid'; [lia|]. unfold len in *. rewrite firstn_length. lia. }
    rewrite RN.
    assert (LF : len (firstn (Z.to_nat (n - len data)) chunk) = n - len data) by (unfold len in *; rewrite firstn_length; lia).
    rewrite LF. replace (n - len data <? n - len data) with false by lia.
    rewrite trim_segment_limit by assumption. cbn [bind ret].
    change (Z.to_nat 0) with O. rewrite Nat.sub_0_r.
    rewrite firstn_all2 by (rewrite app_length; lia). rewrite len_app, LF.
    replace (n - (len data + (n - len data)) >? 0) with false by lia. rewrite andb_false_r.
    replace (n - (len data + (n - len data)) <? 0) with false by lia.
    (* the big run: data ++ chunk ++ ... *)
    rewrite trim_segment_limit in T by assumption. injection T as <- <-.
    change (Z.to_nat 0) with O in K. rewrite Nat.sub_0_r in K. rewrite firstn_all2 in K by (rewrite app_length; lia).
    assert (X : rec_type r = snd f /\ rec_attributes r = Z.land (fst f) 144 /\ rec_consistent r = true /\ exists more, rec_data r = (data ++ chunk) ++ more).
    { assert (HC : len chunk = seglen - 4) by lia.
      assert (DL : pos + 4 + len chunk <= len (s_data s)).
      { destruct (Z.eq_dec (seglen - 4) 0) as [Q|Q]; [lia|]. destruct C4 as (pp & po & E & Lpp); [lia | lia|].
        rewrite E, !len_app. pose proof (len_nonneg po). lia. }
      destruct (Z.testbit attrs 5 && (big - len (data ++ chunk) >? 0)).
      - apply extract_sound_loop in K as (segs & pre & post & ks & _ & _ & _ & _ & _ & D & CC & (g & t & _ & TY & AT) & _); [|lia|exact HB|rewrite len_app; lia].
        eauto 8.
      - injection K as <- <-. cbn. rewrite len_app. replace (_ <? 0) with false by lia.
        repeat split. exists []. rewrite app_nil_r. reflexivity. }
    destruct X as (-> & -> & -> & more & ->). exists [], l2. split; [reflexivity|].
    rewrite <- app_assoc, !firstn_app.
    unfold len in *. rewrite (@firstn_all2 _ (Z.to_nat n) data) by lia.
    replace (Z.to_nat n - length data - length chunk)%nat with O by lia. cbn [firstn]. rewrite app_nil_r.
    unfold ret. cbn [app]. replace (Z.to_nat n - length data)%nat with (Z.to_nat (n - Z.of_nat (length data))) by lia. reflexivity.
  - rewrite RC. replace (len chunk <? seglen - 4) with false by lia. rewrite T. cbn [bind].
    rewrite trim_keeps in * by exact TO.
    set (d2 := data ++ firstn (length chunk - Z.to_nat trim) chunk) in *.
    assert (HC : len chunk = seglen - 4) by lia.
    assert (DL : pos + 4 + len chunk <= len (s_data s)).
    { destruct (Z.eq_dec (seglen - 4) 0) as [Q|Q]; [lia|]. destruct C4 as (pp & po & E & Lpp); [lia | lia|].
      rewrite E, !len_app. pose proof (len_nonneg po). lia. }
    assert (LD2 : len d2 <= len data + len chunk).
    { unfold d2. rewrite len_app. unfold len. rewrite firstn_length. lia. }
    destruct (Z.testbit attrs 5) eqn:SU; cbn [andb] in *.
    + replace (big - len d2 >? 0) with true in K by lia.
      destruct (n - len d2 >? 0) eqn:NL.
      * apply (IH _ _ _ _ n) in K as (la & lb & -> & K); [|lia|exact HB|lia|lia].
        exists (l1 ++ la), lb. split; [apply app_assoc|]. rewrite K. reflexivity.
      * apply extract_sound_loop in K as (segs & pre & post & ks & _ & _ & _ & _ & _ & D & CC & (g & t & _ & TY & AT) & _); [|lia|exact HB|lia].
        exists l1, l2. split; [reflexivity|]. cbn [bind ret]. rewrite app_nil_r. f_equal. f_equal.
        rewrite CC, TY, AT, D. f_equal. rewrite firstn_app. unfold len in *.
        replace (Z.to_nat n - length d2)%nat with O by lia. cbn [firstn]. rewrite app_nil_r.
        destruct (n - Z.of_nat (length d2) <? 0) eqn:NN; [reflexivity|]. rewrite firstn_all2 by lia. reflexivity.
    + injection K as <- <-. exists l1, []. rewrite app_nil_r. split; [reflexivity|].
      cbn [bind ret rec_type rec_attributes rec_consistent rec_data]. rewrite app_nil_r. f_equal. f_equal. f_equal.
      replace (big - len d2 <? 0) with false by lia.
      destruct (n - len d2 <? 0) eqn:NN; [reflexivity|]. unfold len in *. rewrite firstn_all2 by lia. reflexivity.
Qed.

(** ** The recursion budget is never exhausted *)
Lemma extract_loop_fuel fuel : forall esc s pos limit data first l,
  0 <= pos -> (0 < fuel)%nat -> len (s_data s) - pos < Z.of_nat fuel ->
  extract_loop fuel esc s pos limit data first <> (l, Fuel).
Proof.
  induction fuel as [|fuel IH]; intros esc s pos limit data first l Hp F0 HF; [lia|].
  rewrite extract_step. destruct (read s pos 4) as [h|] eqn:R; [|discriminate].
  destruct (dlis_lrsh h) as [[[seglen attrs] type]|] eqn:LR; [|discriminate].
  destruct (header_read _ _ _ _ _ _ Hp R LR) as (_ & H4 & H16). cbv zeta.
  match goal with |- context [read s (pos + 4) ?e] => set (tr := e) end. destruct (read s (pos + 4) tr) as [chunk|] eqn:RC; [|discriminate].
  destruct (len chunk <? tr); [discriminate|].
  apply read_Some in RC as (_ & _ & C3 & _); [|lia].
  unfold trim_segment. destruct (dlis_trim_record_segment _ _ _) as [[e t]|]; [|discriminate].
  assert (G : forall l0 t0, bind (l0, Ok t0) (fun trim =>
     if Z.testbit attrs 5 && (limit - len (firstn (length data + length chunk - Z.to_nat trim) (data ++ chunk)) >? 0)
     then extract_loop fuel esc s (pos + 4 + tr) limit (firstn (length data + length chunk - Z.to_nat trim) (data ++ chunk))
            (Some match first with Some f => f | None => (attrs, type) end)
     else ret (mk_record (snd match first with Some f => f | None => (attrs, type) end)
        (Z.land (fst match first with Some f => f | None => (attrs, type) end) 144) true
        (if limit - len (firstn (length data + length chunk - Z.to_nat trim) (data ++ chunk)) <? 0
         then firstn (Z.to_nat limit) (firstn (length data + length chunk - Z.to_nat trim) (data ++ chunk))
         else firstn (length data + length chunk - Z.to_nat trim) (data ++ chunk)))) <> (l, Fuel)).
  { intros l0 t0. cbn [bind]. destruct (Z.testbit attrs 5 && _); [|discriminate].
    match goal with |- (let '(_, _) := ?e in _) <> _ => destruct e as [l' r'] eqn:K end.
    intros Q. injection Q as Q1 ->. apply IH in K; [exact K | lia | lia | lia]. }
  destruct e; try discriminate; [apply (G [])|].
  destruct (negb _); [discriminate|]. cbn [bind log]. destruct (esc MINOR); [discriminate|]. apply (G [MINOR]).
Qed.

Lemma extract_n_fuel esc s tell limit l : 0 <= tell -> extract_n esc s tell limit <> (l, Fuel).
Proof. intros H. apply extract_loop_fuel; [exact H | lia | unfold len; lia]. Qed.
