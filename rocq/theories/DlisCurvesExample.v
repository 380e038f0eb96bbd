(** A small writer of DLIS files, to make files for the examples of C65-C68.  It is not
    part of the model; it writes some of what the specification allows. *)
From Verif Require Import Bytes BytesProofs Stream DlisTypes SpecTypes SpecCore DlisCore DlisIo SpecIo IoProofs DlisRecords SpecRecords Lfp SpecDlisLoad DlisFdata PyBase SpecFdata DlisFrame SpecDlisFrame PropDlisFrame PropDlisObject.
From Verif Require PropFdata.
From Coq Require Import ZifyBool.
Local Open Scope Z_scope.

Definition small (z bound : Z) : bool := (0 <=? z) && (z <? bound).

Definition w_ident (s : bytes) : option bytes := if small (len s) 256 then Some (z2b (len s) :: s) else None.
Definition w_uvari (z : Z) : option bytes := if small z 128 then Some [z2b z] else None.
Definition w_name (o c : Z) (i : bytes) : option bytes :=
  do eo <- w_uvari o; do ei <- w_ident i; if small c 256 then Some (eo ++ z2b c :: ei) else None.
Definition w_value (rc : Z) (v : value) : option bytes :=
  match v with
  | VNum z => if (rc =? 15) && small z 256 then Some [z2b z] else None
  | VText s => if rc =? 19 then w_ident s else if rc =? 20 then do e <- w_uvari (Z.of_nat (length s)); Some (e ++ s) else None
  | VName (mk_obname o c i) => if rc =? 23 then w_name o c i else None
  | _ => None
  end.
Fixpoint w_list {A} (w : A -> option bytes) (xs : list A) : option bytes :=
  match xs with [] => Some [] | x :: xs => do e <- w x; do f <- w_list w xs; Some (e ++ f) end.
Definition w_optional {A} (w : A -> option bytes) (o : option A) : option bytes := match o with Some x => w x | None => Some [] end.
Definition w_chars (n rc : Z) (c : chars) : option bytes :=
  do ec <- w_optional w_uvari (c_count c);
  do er <- w_optional (fun z => if (1 <=? z) && (z <=? 27) then Some [z2b z] else None) (c_reprc c);
  do eu <- w_optional w_ident (c_units c);
  do ev <- w_optional (fun vs => if Z.of_nat (length vs) =? or_else (c_count c) n then w_list (w_value (or_else (c_reprc c) rc)) vs else None) (c_value c);
  Some (ec ++ er ++ eu ++ ev).
Definition w_tattr (t : tattr) : option bytes :=
  do el <- w_ident (ta_label t); do ec <- w_chars 1 19 (ta_chars t);
  Some (z2b ((if ta_invariant t then 64 else 32) + 16 + char_bits (ta_chars t)) :: el ++ ec).
Fixpoint w_comps (ts : list tattr) (cs : list comp) : option bytes :=
  match ts, cs with
  | _, [] => Some []
  | t :: ts, Given c :: cs =>
      if ta_invariant t then None
      else do ec <- w_chars (or_else (c_count (ta_chars t)) 1) (or_else (c_reprc (ta_chars t)) 19) c; do e <- w_comps ts cs; Some (z2b (32 + char_bits c) :: ec ++ e)
  | _, _ => None
  end.
Definition w_object (ts : list tattr) (o : wobject) : option bytes :=
  do en <- w_name (wo_origin o) (wo_copy o) (wo_id o); do ec <- w_comps ts (wo_comps o); Some (x70 :: en ++ ec).
Definition w_set (w : wset) : option bytes :=
  do et <- w_ident (ws_type w); do en <- w_optional w_ident (ws_name w); do em <- w_list w_tattr (ws_tmpl w); do eo <- w_list (w_object (ws_tmpl w)) (ws_objects w);
  Some (z2b (kind_bits (ws_kind w) + 16 + bit (given (ws_name w)) 8) :: et ++ en ++ em ++ eo).

Ltac bound := match goal with H : (if ?b then Some _ else None) = Some _ |- _ => let E := fresh "B" in destruct b eqn:E; [injection H as <-|discriminate H] end.
Ltac step := match goal with H : obind ?m _ = Some _ |- _ => let e := fresh "e" in let E := fresh "E" in destruct m as [e|] eqn:E; [cbn [obind] in H|discriminate H] end.
Lemma some_inj {A} (a b : A) : Some a = Some b -> a = b.
Proof. congruence. Qed.
Lemma small_iff z b : small z b = true <-> 0 <= z < b.
Proof. unfold small. lia. Qed.
Lemma w_ident_ok s e : w_ident s = Some e -> rp66_ident e s.
Proof. unfold w_ident. intros H. bound. apply small_iff in B. constructor. rewrite b2z_z2b, Z.mod_small by exact B. reflexivity. Qed.
Lemma w_uvari_ok z e : w_uvari z = Some e -> rp66_uvari e z.
Proof.
  unfold w_uvari. intros H. bound. apply small_iff in B. rewrite <- (Z.mod_small z 256) at 2 by lia. rewrite <- b2z_z2b. apply uvari_1. rewrite b2z_z2b, Z.mod_small; lia.
Qed.
Lemma w_name_ok o c i e : w_name o c i = Some e -> rp66_obname e o c i.
Proof.
  unfold w_name. intros H. do 2 step. bound. apply small_iff in B. apply w_uvari_ok in E. apply w_ident_ok in E0.
  pose proof (obname_enc _ _ (z2b c) _ _ E E0) as N. rewrite b2z_z2b, Z.mod_small in N by exact B. exact N.
Qed.
Lemma w_value_ok rc v e : w_value rc v = Some e -> rp66_value rc e v.
Proof.
  destruct v as [z| |s| |[o c i]| |]; cbn [w_value]; try discriminate; intros H.
  - bound. apply andb_true_iff in B as [-> % Z.eqb_eq B]. apply small_iff in B. rewrite <- (Z.mod_small z 256) at 2 by exact B. rewrite <- b2z_z2b. apply v_ushort.
  - destruct (Z.eqb_spec rc 19) as [->|]; [apply v_ident, w_ident_ok, H|]. destruct (Z.eqb_spec rc 20) as [->|]; [|discriminate]. step. injection H as <-. apply v_ascii, ascii_enc, w_uvari_ok. assumption.
  - destruct (Z.eqb_spec rc 23) as [->|]; [|discriminate]. apply v_obname, w_name_ok, H.
Qed.
Lemma w_values_ok rc vs : forall e, w_list (w_value rc) vs = Some e -> rp66_values rc e vs.
Proof. induction vs as [|v vs IH]; intros e H; cbn [w_list] in H; [injection H as <-; constructor|]. do 2 step. injection H as <-. constructor; [apply w_value_ok; assumption|apply IH; reflexivity]. Qed.
Lemma w_list_ok {A} (w : A -> option bytes) (P : bytes -> A -> Prop) : (forall e x, w x = Some e -> P e x) -> forall xs e, w_list w xs = Some e -> enc_list P e xs.
Proof. intros OK. induction xs as [|x xs IH]; intros e H; cbn [w_list] in H; [injection H as <-; constructor|]. do 2 step. injection H as <-. constructor; [apply OK; assumption|apply IH; reflexivity]. Qed.
Lemma w_optional_ok {A} (w : A -> option bytes) (P : bytes -> A -> Prop) o e : (forall e x, w x = Some e -> P e x) -> w_optional w o = Some e -> optional P e o.
Proof. intros OK H. destruct o; cbn [w_optional optional] in *; [apply OK, H|congruence]. Qed.
Lemma w_chars_ok n rc c e : w_chars n rc c = Some e -> enc_chars n rc e c.
Proof.
  unfold w_chars. intros H. do 4 step. injection H as <-. exists e0, e1, e2, e3. split; [reflexivity|].
  split; [eapply w_optional_ok; [|exact E]; intros; apply w_uvari_ok; assumption|].
  split. { eapply w_optional_ok; [|exact E0]. cbn beta. intros e z H. bound. exists (z2b z). split; [reflexivity|]. rewrite b2z_z2b, Z.mod_small by lia. lia. }
  split; [eapply w_optional_ok; [|exact E1]; intros; apply w_ident_ok; assumption|].
  eapply w_optional_ok; [|exact E2]. cbn beta. intros e vs H. destruct (Z.eqb_spec (Z.of_nat (length vs)) (or_else (c_count c) n)) as [L|]; [|discriminate]. split; [exact L|apply w_values_ok, H].
Qed.
Lemma char_bits_small c : 0 <= char_bits c < 16.
Proof. unfold char_bits, bit. destruct (given _), (given _), (given _), (given _); lia. Qed.
Lemma w_tattr_ok t e : w_tattr t = Some e -> enc_tattr e t.
Proof.
  unfold w_tattr. intros H. do 2 step. apply some_inj in H; subst e. eexists _, _, _. split; [reflexivity|]. split; [|split; [apply w_ident_ok; eassumption|apply w_chars_ok; assumption]].
  pose proof (char_bits_small (ta_chars t)). rewrite b2z_z2b, Z.mod_small; [reflexivity|]. destruct (ta_invariant t); lia.
Qed.
Lemma w_comps_ok cs : forall ts e, w_comps ts cs = Some e -> enc_comps ts e cs.
Proof.
  induction cs as [|c cs IH]; intros ts e H; [destruct ts; injection H as <-; constructor|]. destruct ts as [|t ts]; [discriminate|]. cbn [w_comps] in H. destruct c as [|c]; [discriminate|].
  destruct (ta_invariant t) eqn:I; [discriminate|]. do 2 step. apply some_inj in H; subst e. apply comps_given; [exact I| |apply w_chars_ok; assumption|apply IH; assumption].
  pose proof (char_bits_small c). rewrite b2z_z2b, Z.mod_small; [reflexivity|lia].
Qed.
Lemma w_object_ok ts e o : w_object ts o = Some e -> enc_object ts e o.
Proof.
  unfold w_object. intros H. do 2 step. injection H as <-. exists x70, e0, e1. split; [reflexivity|]. split; [cbn; lia|]. split; [apply w_name_ok; assumption|apply w_comps_ok; assumption].
Qed.
Lemma w_set_ok w e : w_set w = Some e -> enc_set e w.
Proof.
  unfold w_set. intros H. do 4 step. apply some_inj in H; subst e. eexists _, e0, e1, e2, e3. split; [reflexivity|]. split.
  { exists 0. split; [lia|]. rewrite b2z_z2b, Z.mod_small; [lia|]. unfold bit, kind_bits. destruct (ws_kind w), (given _); lia. }
  split; [apply w_ident_ok; assumption|]. split; [eapply w_optional_ok; [|eassumption]; intros; apply w_ident_ok; assumption|].
  split; [eapply w_list_ok; [|eassumption]; intros; apply w_tattr_ok; assumption|]. eapply w_list_ok; [|eassumption]. intros. apply w_object_ok. assumption.
Qed.

(** records of one segment *)
Definition set_record (ty : byte) (w : wset) : bool * list segment := (true, [mk_seg x80 ty (match w_set w with Some e => e | None => [] end)]).
Definition data_record_of (ty : byte) (name data : bytes) : bool * list segment := (false, [mk_seg x00 ty (name ++ data)]).
Lemma whole_payload a b : Z.testbit a 4 = false -> Z.testbit a 0 = false -> tail_size a = 0 -> payload_data a b b false.
Proof. intros H1 H2 H3. pose proof (pd_trailer a b [] [] H1) as P. rewrite H2, H3, app_nil_r in P. apply P; reflexivity. Qed.
Lemma one_part a t p : Z.testbit (b2z a) 4 = false -> Z.testbit (b2z a) 0 = false -> tail_size (b2z a) = 0 -> record_data [mk_seg a t p] p 0.
Proof. intros H1 H2 H3. rewrite <- (app_nil_r p) at 2. apply (rd_cons (mk_seg a t p) [] p false [] 0); [apply whole_payload; assumption|constructor]. Qed.
Lemma set_holds ty w : w_set w <> None -> wf_set w -> holds (set_record ty w) (Meta w).
Proof.
  intros H W. unfold set_record. destruct (w_set w) as [e|] eqn:E; [|contradiction]. apply h_meta with (ds := e); [reflexivity|apply one_part; reflexivity|apply w_set_ok, E|exact W].
Qed.
Lemma data_holds ty name data o c i kind : (ty = x00 /\ kind = text "FRAME" \/ ty = x01 /\ kind = text "NO-FORMAT") -> 4 + len (name ++ data) < 65536 -> rp66_obname name o c i ->
  holds (data_record_of ty name data) (Data (Some (kind, o, c, i))).
Proof.
  intros K B N. apply h_data. eapply (dr_owned _ _ (mk_seg x00 ty (name ++ data)) [] (name ++ data) name data); [|reflexivity|exact K|reflexivity|exact N].
  exists [], []. split; [rewrite app_nil_r; reflexivity|]. split; [reflexivity|]. split; [reflexivity|]. split; [constructor; [exact B|constructor]|]. apply one_part; reflexivity.
Qed.

(** ** A file *)

(** a header, two channels, a frame of the given name that lists both, an object without
    format; two records of the frame with a row each, two of the object without format,
    and one that belongs to another frame and holds nothing sensible *)
Definition value_of (vs : list value) : comp := Given (mk_chars None None None (Some vs)).
Definition label_code (l : bytes) (rc : Z) : tattr := mk_tattr l false (mk_chars None (Some rc) None None).
Definition header_w : wset :=
  mk_wset Normal (text "FILE-HEADER") None [label_code (text "ID") 20] [mk_wobject 1 0 (text "0") [value_of [VText (text "x")]]].
Definition channels_w : wset :=
  mk_wset Normal (text "CHANNEL") None [label_code (text "REPRESENTATION-CODE") 15; label_code (text "DIMENSION") 15]
    [mk_wobject 1 0 (text "A") [value_of [VNum 15]; value_of [VNum 1]]; mk_wobject 1 0 (text "B") [value_of [VNum 13]; value_of [VNum 2]]].
Definition frame_w (nm : bytes) : wset :=
  mk_wset Normal (text "FRAME") None [label_code (text "CHANNELS") 23; label_code (text "INDEX-TYPE") 19]
    [mk_wobject 1 0 nm [Given (mk_chars (Some 2) None None (Some [VName (mk_obname 1 0 (text "A")); VName (mk_obname 1 0 (text "B"))])); value_of [VText (text "TIME")]]].
Definition noformat_w : wset :=
  mk_wset Normal (text "NO-FORMAT") None [label_code (text "DESCRIPTION") 20] [mk_wobject 1 0 (text "N") [value_of [VText (text "image")]]].
Definition name_of (nm : bytes) : bytes := match w_name 1 0 nm with Some e => e | None => [] end.
Definition file_records (nm : bytes) : list (bool * list segment) :=
  [set_record x00 header_w; set_record x03 channels_w; set_record x04 (frame_w nm); set_record x07 noformat_w;
   data_record_of x00 (name_of nm) [x01; x07; x00; x02; xff; xfe]; data_record_of x01 (name_of (text "N")) (text "PNG");
   data_record_of x00 (name_of (text "other")) (text "?"); data_record_of x00 (name_of nm) [x02; x08; x00; x03; x00; x04];
   data_record_of x01 (name_of (text "N")) (text "...")].
Definition file_contents (nm : bytes) : list content :=
  [Meta header_w; Meta channels_w; Meta (frame_w nm); Meta noformat_w;
   Data (Some (text "FRAME", 1, 0, nm)); Data (Some (text "NO-FORMAT", 1, 0, text "N")); Data (Some (text "FRAME", 1, 0, text "other"));
   Data (Some (text "FRAME", 1, 0, nm)); Data (Some (text "NO-FORMAT", 1, 0, text "N"))].
Definition wfile_of (nm : bytes) : wfile :=
  mk_wfile (file_records nm) (file_contents nm) [firstn 60 (enc_records (file_records nm)); skipn 60 (enc_records (file_records nm))].
Definition label_bytes : bytes := text "   1V1.00RECORD 8192" ++ repeat " "%byte 60.
Definition bytes_of (nm : bytes) : bytes := label_bytes ++ enc_files [wfile_of nm].
Definition rows_of : list (list (list cell)) :=
  [ [PropFdata.raw [x01; x00; x00; x00]; PropFdata.raw [x07]; PropFdata.raw [x02; x00; xfe; xff]]; [PropFdata.raw [x02; x00; x00; x00]; PropFdata.raw [x08]; PropFdata.raw [x03; x00; x04; x00]] ].
Definition cols_of : list column := [channel (text "A") 1 0 15 [1]; channel (text "B") 1 0 13 [2]].

Lemma label_is : storage_label label_bytes.
Proof. exists (text "   1"), (text " 8192" ++ repeat " "%byte 60). repeat split. repeat constructor; vm_compute; discriminate. Qed.
Definition plain_name (nm : bytes) : Prop := w_name 1 0 nm = Some (name_of nm) /\ (len nm <= 20).
Lemma name_is nm : plain_name nm -> rp66_obname (name_of nm) 1 0 nm.
Proof. intros [E _]. apply w_name_ok, E. Qed.
Ltac set_ := apply set_holds; [vm_compute; discriminate|split; [repeat constructor; cbn; intuition discriminate|discriminate]].
Ltac data_ H := apply data_holds; [first [left; split; reflexivity|right; split; reflexivity]|vm_compute; reflexivity|apply name_is; H].
Ltac wf_ P := split;
  [eexists _, _; split; [reflexivity|repeat split; reflexivity]|]; split;
  [cbn [SpecIo.logical_file wfile_of wf_recs file_records orb set_record data_record_of]; repeat match goal with |- wf_record _ _ => split; [reflexivity|]; split; [constructor; [vm_compute; reflexivity|constructor]|]; split; repeat constructor | |- _ /\ _ => split | |- True => exact I end; intros X; try discriminate X; intros (_ & X1 & X2); first [discriminate X1|discriminate X2]|];
  split; [repeat (apply Forall2_cons; [first [set_|data_ P]|]); apply Forall2_nil|];
  split; [reflexivity|]; split; [repeat constructor; vm_compute; try reflexivity; discriminate|]; split; vm_compute; discriminate.
Definition nul_name : bytes := ["F"%byte; x00; "G"%byte].
Ltac plain_ := split; [vm_compute; reflexivity|vm_compute; discriminate].
Lemma file_F : wf_file (wfile_of (text "F")).
Proof. wf_ plain_. Qed.
Lemma file_nul : wf_file (wfile_of nul_name).
Proof. wf_ plain_. Qed.
