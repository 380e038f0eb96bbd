(** Proofs about the memory of a frame's curves (DlisFrame.v). *)
From Verif Require Import Bytes BytesProofs Stream DlisTypes SpecTypes DlisCore SpecIo DlisIo DlisRecords SpecRecords PyBase DlisFdata SpecFdata
  FdataProofs FdataProofs2 FdataProofs3 DlisFrame SpecDlisFrame DlisFrameProofs DlisFrameProofs2 DlisFrameProofs3.
From Coq Require Import ZifyBool ZifyNat.
Local Open Scope Z_scope.

Section layout.
Variable maxdims : nat.
Variable fmtlabel : ustr -> Z -> Z -> option ustr.

(** the format of each channel's samples *)
Definition fmt_of (c : column) (g : bytes) : Prop :=
  exists ch, char_of (cl_reprc c) ch /\ g = repeat ch (Z.to_nat (elements (cl_dim c))).

Lemma join_ok cs ts : Forall2 (fun c t => channel_dtype maxdims c = Some t) cs ts -> forall f, join_fmtstr (map Some cs) = Some f ->
  exists fs, f = concat fs /\ Forall2 fmt_of cs fs /\ Forall2 (fun t g => row_width g (type_size t)) ts fs.
Proof.
  induction 1 as [|c t cs ts T _ IH]; intros f E; cbn [map join_fmtstr] in E.
  - injection E as <-. exists []. repeat split; constructor.
  - destruct (channel_fmtstr c) as [g|] eqn:G; [|discriminate]. cbn [obind] in E. destruct (join_fmtstr (map Some cs)) as [f'|]; [|discriminate]. cbn [obind] in E.
    injection E as <-. destruct (IH f' eq_refl) as (fs & -> & F1 & F2). exists (g :: fs). split; [reflexivity|].
    split; constructor; [|exact F1| |exact F2]; [exact (fmtstr_char maxdims c t g T G) | exact (fmtstr_width maxdims c t g T G)].
Qed.
Lemma row_width_concat ts fs : Forall2 (fun t g => row_width g (type_size t)) ts fs -> row_width (concat fs) (fold_right (fun t n => type_size t + n) 0 ts).
Proof. induction 1 as [|t g ts fs H _ IH]; cbn [concat fold_right]; [constructor|]. apply row_width_app; assumption. Qed.
Lemma itemsize_types d : itemsize d = fold_right (fun t n => type_size t + n) 0 (map fd_type d).
Proof. unfold itemsize. induction d as [|f d IH]; [reflexivity|]. cbn [map fold_right]. rewrite IH. reflexivity. Qed.
Lemma i_width : row_width ["i"%byte] 4.
Proof. apply (rw_cons "i" 4 [] 0); [exists 17%nat; split; reflexivity | constructor]. Qed.

Lemma forall2_map_l {A B C} (g : A -> B) (R : B -> C -> Prop) l m : Forall2 R (map g l) m <-> Forall2 (fun a c => R (g a) c) l m.
Proof.
  revert m. induction l as [|x l IH]; intros m; cbn [map].
  - split; intros H; inversion H; constructor.
  - split; intros H; inversion H; subst; constructor; try assumption; apply IH; assumption.
Qed.
Lemma layout_ok strict cs d f : frame_dtype maxdims fmtlabel strict (map Some cs) = Some d -> frame_fmtstr (map Some cs) = Some f ->
  row_width f (itemsize d) /\ packed 0 d (itemsize d) /\
  exists fs, f = ["i"%byte] ++ concat fs /\ Forall2 fmt_of cs fs /\ Forall2 (fun fd g => row_width g (type_size (fd_type fd))) d (["i"%byte] :: fs).
Proof.
  intros D F. apply dtype_layout in D as (es & ts & -> & M & _ & T). unfold frame_fmtstr in F.
  destruct (join_fmtstr (map Some cs)) as [g|] eqn:J; [|discriminate]. cbn [obind] in F. injection F as <-.
  destruct (join_ok cs ts T g J) as (fs & -> & F1 & F2).
  assert (Forall2 (fun t g => row_width g (type_size t)) ((text "i4", []) :: ts) (["i"%byte] :: fs)) as F3 by (constructor; [exact i_width | exact F2]).
  split; [|split].
  - rewrite itemsize_types, fields_types, M. apply (row_width_concat _ _ F3).
  - pose proof (fields_packed es 0) as P. rewrite Z.add_0_l in P. exact P.
  - exists fs. split; [reflexivity|]. split; [exact F1|]. apply (forall2_map_l fd_type (fun t g => row_width g (type_size t))). rewrite fields_types, M. exact F3.
Qed.

(** ** The values *)
Lemma row_app f1 f2 e1 k1 e2 k2 : row f1 e1 k1 -> row f2 e2 k2 -> row (f1 ++ f2) (e1 ++ e2) (k1 ++ k2).
Proof. intros H. induction H as [|c e k f e' k' S H IH]; intros H2; [exact H2|]. rewrite <- !app_assoc. cbn [app]. constructor; [exact S | apply IH, H2]. Qed.
Lemma char_of_fun rc a b : char_of rc a -> char_of rc b -> a = b.
Proof. intros [_ A] [_ B]. congruence. Qed.
Lemma samples_row cs e ks : channel_samples cs e ks -> forall fs, Forall2 fmt_of cs fs -> row (concat fs) e (concat ks) /\ Forall2 (fun g k => exists e, row g e k) fs ks.
Proof.
  induction 1 as [|c ch e k cs e' ks C R _ IH]; intros fs F; inversion F as [|? g ? fs' (ch' & C' & ->) F']; subst; cbn [concat].
  - split; constructor.
  - rewrite (char_of_fun _ _ _ C' C). destruct (IH fs' F') as [I1 I2]. split; [apply row_app; assumption|]. constructor; [eauto | exact I2].
Qed.
Lemma frame_row_row cs fs e ks : Forall2 fmt_of cs fs -> frame_row cs e ks ->
  row (["i"%byte] ++ concat fs) e (concat ks) /\ Forall2 (fun g k => exists e, row g e k) (["i"%byte] :: fs) ks.
Proof.
  intros F [e0 k0 e' ks' S C]. assert (row ["i"%byte] e0 k0) as R0.
  { rewrite <- (app_nil_r e0), <- (app_nil_r k0). constructor; [exact S | constructor]. }
  destruct (samples_row _ _ _ C fs F) as [I1 I2]. split; [cbn [concat]; apply row_app; assumption|]. constructor; [eauto | exact I2].
Qed.
Lemma frame_rows_rows cs fs e rs : Forall2 fmt_of cs fs -> frame_rows cs e rs ->
  rows [] (["i"%byte] ++ concat fs) [] e (map (@concat cell) rs).
Proof.
  intros F. induction 1 as [|e k e' ks H _ IH]; cbn [map]; [constructor|].
  destruct (frame_row_row cs fs e k F H) as [R _].
  rewrite <- (app_nil_l e), <- (app_nil_r e). apply rows_cons; [constructor | exact R | constructor | exact IH].
Qed.
Lemma frame_rows_all cs fs e rs r row : Forall2 fmt_of cs fs -> frame_rows cs e rs -> nth_error rs r = Some row ->
  Forall2 (fun g k => exists e, SpecFdata.row g e k) (["i"%byte] :: fs) row.
Proof.
  intros F H. revert r. induction H as [|e k e' ks H _ IH]; intros [|r] E; try discriminate; cbn in E; [|exact (IH r E)].
  injection E as <-. apply (frame_row_row cs fs e k F H).
Qed.

(** a row in the middle of memory *)
Lemma row_at w (rs : list (list cell)) r row : Forall (fun k => Z.of_nat (length k) = w) rs -> nth_error rs r = Some row ->
  exists rest, skipn (Z.to_nat (Z.of_nat r * w)) (concat rs) = row ++ rest.
Proof.
  intros F. revert r. induction F as [|k rs K F IH]; intros [|r] E; try discriminate; cbn in E.
  - injection E as ->. exists (concat rs). reflexivity.
  - destruct (IH r E) as [rest R]. exists rest. rewrite <- R. cbn [concat].
    replace (Z.to_nat (Z.of_nat (S r) * w)) with (length k + Z.to_nat (Z.of_nat r * w))%nat by nia.
    rewrite skipn_app. replace (length k + Z.to_nat (Z.of_nat r * w) - length k)%nat with (Z.to_nat (Z.of_nat r * w)) by lia.
    rewrite skipn_all2 by lia. reflexivity.
Qed.
(** a column in the middle of a row *)
Lemma column_at d row : Forall2 (fun fd (k : list cell) => Z.of_nat (length k) = type_size (fd_type fd)) d row ->
  forall o n rest j fd k, packed o d n -> 0 <= o -> nth_error d j = Some fd -> nth_error row j = Some k ->
  o <= fd_offset fd /\ columns (fd_offset fd - o) (type_size (fd_type fd)) (concat row ++ rest) = k.
Proof.
  induction 1 as [|fd k d row L F IH]; intros o n rest j fd' k' P O E1 E2; [destruct j; discriminate|].
  inversion P as [|? ? ? ? Eo P']; subst. destruct j as [|j]; cbn in E1, E2.
  - injection E1 as <-. injection E2 as <-. split; [lia|]. rewrite Z.sub_diag. unfold columns. cbn [skipn Z.to_nat concat].
    rewrite <- app_assoc. rewrite <- L, Nat2Z.id, firstn_app, Nat.sub_diag, firstn_all, firstn_O, app_nil_r. reflexivity.
  - destruct (IH _ n rest j fd' k' P' ltac:(lia) E1 E2) as [B C]. split; [lia|]. rewrite <- C. unfold columns. f_equal. cbn [concat].
    rewrite <- app_assoc.
    replace (Z.to_nat (fd_offset fd' - fd_offset fd)) with (length k + Z.to_nat (fd_offset fd' - (fd_offset fd + type_size (fd_type fd))))%nat by lia.
    rewrite skipn_app. rewrite skipn_all2 by lia. cbn [app]. f_equal. lia.
Qed.

Lemma concat_map_concat {A B} (g : A -> B) (l : list (list A)) : concat (map (map g) l) = map g (concat l).
Proof. symmetry. apply concat_map. Qed.
Lemma firstn_within {A} n m (l : list A) : (m <= n)%nat -> firstn m (firstn n l) = firstn m l.
Proof. intros H. rewrite firstn_firstn. f_equal. lia. Qed.

Lemma curves_ok esc data hard after strict cs d f tells rowss :
  frame_dtype maxdims fmtlabel strict (map Some cs) = Some d -> frame_fmtstr (map Some cs) = Some f -> len data < 2 ^ 63 ->
  Forall2 (frame_data_in data cs) tells rowss ->
  exists cells, frame_curves maxdims fmtlabel esc (mk_stream data hard) after strict (map Some cs) tells =
                  ([], Ok (d, cells, Z.of_nat (length (concat rowss)))) /\
    Z.of_nat (length cells) = Z.of_nat (length (concat rowss)) * itemsize d /\
    forall r j row fd k, nth_error (concat rowss) r = Some row -> nth_error d j = Some fd -> nth_error row j = Some k ->
      cell_at d cells r fd = k.
Proof.
  intros D F L R. destruct (layout_ok strict cs d f D F) as (W & P & fs & Ef & Fs & Ws).
  assert (Forall2 (frame_record_in data [] f []) tells (map (map (@concat cell)) rowss)) as R'.
  { clear - R Fs Ef. induction R as [|t rs tells rowss (ds & en & o & c & i & es & Pl & -> & On & H) _ IH]; cbn [map]; constructor; [|exact IH].
    exists (en ++ es). split; [exact Pl|]. exists en, o, c, i, es. split; [reflexivity|]. split; [exact On|].
    rewrite Ef. apply (frame_rows_rows cs fs es rs Fs H). }
  assert ([] ++ f ++ [] <> []) as Nf by (rewrite Ef; discriminate).
  pose proof (read_ok esc data hard after [] f [] (itemsize d) tells _ W Nf L R') as Q.
  rewrite concat_map_concat, map_length in Q. set (rs := concat rowss) in *.
  assert (forall r row, nth_error rs r = Some row -> Forall2 (fun fd k => Z.of_nat (length k) = type_size (fd_type fd)) d row) as Wr.
  { intros r row E. assert (Forall2 (fun g k => exists e, SpecFdata.row g e k) (["i"%byte] :: fs) row) as G.
    { assert (In row rs) as I by (eapply nth_error_In; exact E). apply in_concat in I as (l & Il & Ir).
      clear - R Il Ir Fs. induction R as [|t l' tells rowss (ds & en & o & c & i & es & _ & _ & _ & H) _ IH]; [destruct Il|].
      destruct Il as [->|Il]; [|exact (IH Il)]. apply In_nth_error in Ir as [n Ir]. exact (frame_rows_all cs fs es l n row Fs H Ir). }
    clear - Ws G. revert Ws G. generalize (["i"%byte] :: fs). intros gs Ws. revert row. induction Ws as [|fd g d' gs W _ IH]; intros row G; inversion G as [|? k ? row' [e Rk] G']; subst; constructor; [|apply IH, G'].
    exact (row_length g _ e k W Rk). }
  assert (Forall (fun k => Z.of_nat (length k) = itemsize d) (map (@concat cell) rs)) as Fr.
  { apply Forall_forall. intros k I. apply in_map_iff in I as (row & <- & I). apply In_nth_error in I as [r I]. specialize (Wr r row I).
    clear - Wr. unfold itemsize. induction Wr as [|fd k d row Lk _ IH]; [reflexivity|]. cbn [concat fold_right]. rewrite app_length. lia. }
  exists (concat (map (@concat cell) rs)). split; [|split].
  - unfold frame_curves. rewrite D, F, Q. reflexivity.
  - clear - Fr. rewrite <- (map_length (@concat cell) rs). induction Fr as [|k l K _ IH]; [reflexivity|]. cbn [concat]. rewrite app_length. cbn [length]. lia.
  - intros r j row fd k Er Ed Ek. unfold cell_at.
    destruct (row_at (itemsize d) (map (@concat cell) rs) r (concat row) Fr) as [rest Rest]; [rewrite nth_error_map, Er; reflexivity|].
    destruct (column_at d row (Wr r row Er) 0 (itemsize d) rest j fd k P ltac:(lia) Ed Ek) as [B C]. rewrite Z.sub_0_r in C. rewrite <- C. unfold columns. f_equal.
    pose proof (row_width_nonneg f _ W) as W0.
    rewrite Z2Nat.inj_add by nia. rewrite <- Rest. rewrite skipn_skipn. reflexivity.
Qed.
End layout.
