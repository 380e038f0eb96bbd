(** Lemmas about records.cpp: templates, objects, sets; termination. *)
From Verif Require Import Bytes BytesProofs DlisTypes SpecTypes TypesProofs TypesProofs2
  DlisCore CoreProofs CoreProofs2 Stream DlisRecords SpecRecords RecordsProofs.
Local Open Scope Z_scope.
Ltac Zify.zify_post_hook ::= Z.div_mod_to_equations.

(** ** Template *)

Lemma template_step fuel acc lg e t rest :
  enc_tattr e t ->
  parse_template (S fuel) acc lg (e ++ rest) =
  match rest with
  | [] => (acc ++ [template_attribute t], lg ++ [P_no_objects], Ok [])
  | _ => parse_template fuel (acc ++ [template_attribute t]) lg rest
  end.
Proof.
  intros (d & el & ec & -> & Hd & Hl & Hc). cbn [app parse_template].
  assert (Ed : parse_attribute_descriptor d = DAttr (flags_of (ta_chars t) true (ta_invariant t))).
  { apply attr_descriptor. cbn [bit]. unfold char_bits in Hd. lia. }
  rewrite Ed. cbn [f_label flags_of f_invariant]. rewrite <- app_assoc.
  rewrite (proj2 (ident_read_spec (el ++ ec ++ rest) (ta_label t) (ec ++ rest))) by eauto.
  cbn [unchecked rbind].
  rewrite (read_fields_read (with_label new_attribute (ta_label t)) 1 19 ec (ta_chars t)) by (auto; lia).
  reflexivity.
Qed.

Lemma template_read ts em : enc_list enc_tattr em ts ->
  forall fuel acc lg rest, (length ts < fuel)%nat ->
  parse_template fuel acc lg (em ++ rest) =
  match rest with
  | [] => match ts with
          | [] => (acc, lg, Exn)
          | _ => (acc ++ map template_attribute ts, lg ++ [P_no_objects], Ok [])
          end
  | _ => parse_template (fuel - length ts) (acc ++ map template_attribute ts) lg rest
  end.
Proof.
  induction 1 as [|e t f ts He Hts IH]; intros fuel acc lg rest Hf.
  - cbn [app map length]. rewrite app_nil_r, Nat.sub_0_r.
    destruct rest; [destruct fuel; [lia|reflexivity]|reflexivity].
  - destruct fuel as [|fuel]; [lia|]. cbn [length] in Hf.
    rewrite <- app_assoc, (template_step fuel acc lg e t (f ++ rest)) by exact He.
    cbn [map length]. replace (S fuel - S (length ts))%nat with (fuel - length ts)%nat by lia.
    destruct (f ++ rest) as [|x y] eqn:E.
    + apply app_eq_nil in E as [-> ->]. inversion Hts; subst.
      * reflexivity.
      * match goal with H : enc_tattr ?e _, H' : _ ++ _ = [] |- _ =>
          apply app_eq_nil in H' as [-> _]; destruct H as (? & ? & ? & H & _); discriminate H end.
    + rewrite <- E, IH by lia.
      rewrite <- app_assoc. cbn [app].
      destruct rest; [|reflexivity].
      destruct ts; [|reflexivity].
      inversion Hts; subst. discriminate E.
Qed.

Lemma template_then_object ts em d r fuel acc lg :
  enc_list enc_tattr em ts -> (length ts < fuel)%nat -> 112 <= b2z d < 128 ->
  parse_template fuel acc lg (em ++ d :: r) = (acc ++ map template_attribute ts, lg, Ok (d :: r)).
Proof.
  intros He Hf Hd. rewrite (template_read ts em He) by exact Hf.
  destruct (fuel - length ts)%nat as [|k] eqn:E; [lia|]. cbn [parse_template].
  rewrite (proj1 (object_descriptor d Hd)). reflexivity.
Qed.

Lemma enc_list_length {A} (enc : bytes -> A -> Prop) e xs :
  (forall e x, enc e x -> (1 <= length e)%nat) -> enc_list enc e xs -> (length xs <= length e)%nat.
Proof.
  intros He. induction 1 as [|e x f xs H _ IH]; cbn [length]; [lia|].
  rewrite app_length. apply He in H. lia.
Qed.
Lemma tattr_nonempty e t : enc_tattr e t -> (1 <= length e)%nat.
Proof. intros (d & el & ec & -> & _). cbn [length]. lia. Qed.
Lemma object_nonempty ts e o : enc_object ts e o -> (1 <= length e)%nat.
Proof. intros (d & en & ec & -> & _). cbn [length]. lia. Qed.

(** ** Objects *)

Lemma enc_list_In {A} (enc : bytes -> A -> Prop) e xs :
  enc_list enc e xs -> forall x, In x xs -> exists f, enc f x.
Proof. induction 1 as [|e y f xs H _ IH]; cbn [In]; [tauto|]. intros x [<- | Hx]; eauto. Qed.

Lemma object_read w em e o rest :
  enc_list enc_tattr em (ws_tmpl w) -> NoDup (map ta_label (ws_tmpl w)) ->
  enc_object (ws_tmpl w) e o ->
  next_object rest \/ complete (ws_tmpl w) (wo_comps o) ->
  exists d e' x, e = d :: e' /\
    parse_object (ws_type w) (map template_attribute (ws_tmpl w)) d (e' ++ rest) = Ok (x, rest) /\
    reads_as w o x.
Proof.
  intros Hm Hnd (d & en & ec & -> & Hd & Hn & Hc) Hrest.
  destruct (object_attrs_read (ws_tmpl w) ec (wo_comps o) Hc (enc_list_In _ _ _ Hm) [] true rest Hnd Hrest)
    as (r & E & R).
  cbn [app] in E.
  exists d, (en ++ ec). eexists. split; [reflexivity|]. unfold parse_object.
  rewrite (proj2 (object_descriptor d Hd)).
  rewrite <- app_assoc.
  rewrite (proj2 (obname_read_spec (en ++ ec ++ rest) (mk_obname (wo_origin o) (wo_copy o) (wo_id o)) (ec ++ rest))) by eauto.
  cbn [unchecked rbind]. unfold defaulted_object.
  rewrite (defaulted_object_template (ws_tmpl w) [] Hnd). cbn [app]. rewrite E. cbn [rbind andb].
  split; [reflexivity|].
  split; [reflexivity|]. split; [reflexivity|]. split; [exact R|].
  cbn [obj_log obj_attrs]. unfold clean. destruct (forallb _ r); reflexivity.
Qed.

Lemma enc_list_next ts f os :
  enc_list (enc_object ts) f os -> os <> [] -> forall rest, next_object (f ++ rest).
Proof.
  intros H Hne rest. destruct H as [|e o f os H _]; [congruence|].
  destruct H as (d & en & ec & -> & Hd & _). right. cbn [app]. eauto.
Qed.

(** all objects but the last are followed by an object; the last one by [rest] *)
Lemma objects_read w em eo : enc_list enc_tattr em (ws_tmpl w) -> NoDup (map ta_label (ws_tmpl w)) ->
  forall os, enc_list (enc_object (ws_tmpl w)) eo os ->
  forall rest fuel acc,
  next_object rest \/ Forall (fun o => complete (ws_tmpl w) (wo_comps o)) os ->
  (length os <= fuel)%nat ->
  exists xs, Forall2 (reads_as w) os xs /\
    parse_objects fuel (ws_type w) (map template_attribute (ws_tmpl w)) acc (eo ++ rest) =
    parse_objects (fuel - length os) (ws_type w) (map template_attribute (ws_tmpl w)) (acc ++ xs) rest.
Proof.
  intros Hm Hnd os H. induction H as [|e o f os He Hos IH]; intros rest fuel acc Hrest Hf.
  - exists []. rewrite app_nil_r. cbn [length app]. rewrite Nat.sub_0_r. split; [constructor|reflexivity].
  - destruct fuel as [|fuel]; [cbn [length] in Hf; lia|]. cbn [length] in Hf.
    destruct (object_read w em e o (f ++ rest) Hm Hnd He) as (d & e' & x & -> & Ex & Rx).
    { destruct Hrest as [Hr | Hr]; [|right; inversion Hr; assumption].
      destruct os as [|o' os]; [|left; apply (enc_list_next _ f _ Hos); congruence].
      inversion Hos; subst. left. exact Hr. }
    destruct (IH rest fuel (acc ++ [x])) as (xs & F & E).
    { destruct Hrest as [Hr | Hr]; [left; exact Hr | right; inversion Hr; assumption]. }
    { lia. }
    exists (x :: xs). split; [constructor; assumption|].
    rewrite <- app_assoc. cbn [app parse_objects]. rewrite Ex, E.
    rewrite <- app_assoc. cbn [length]. replace (S fuel - S (length os))%nat with (fuel - length os)%nat by lia.
    reflexivity.
Qed.

(** ** Sets *)

Lemma set_component_read w d et en rest r :
  0 <= r < 8 -> b2z d = kind_bits (ws_kind w) + 16 + bit (given (ws_name w)) 8 + r ->
  rp66_ident et (ws_type w) -> optional rp66_ident en (ws_name w) ->
  parse_set_component (d :: et ++ en ++ rest) =
  (kind_log (ws_kind w), Ok (kind_role (ws_kind w), ws_type w, or_else (ws_name w) [], rest)).
Proof.
  intros Hr Hd Ht Hn. unfold parse_set_component.
  rewrite (set_descriptor d (ws_kind w) (given (ws_name w)) r Hr Hd).
  destruct (et ++ en ++ rest) as [|y ys] eqn:E.
  { inversion Ht; subst. discriminate E. }
  rewrite <- E. clear E.
  rewrite (proj2 (ident_read_spec (et ++ en ++ rest) (ws_type w) (en ++ rest))) by eauto.
  cbn [unchecked rbind]. f_equal.
  - destruct (ws_kind w); reflexivity.
  - destruct (ws_name w) as [n|]; cbn [given or_else optional] in *.
    + rewrite (proj2 (ident_read_spec (en ++ rest) n rest)) by eauto. reflexivity.
    + rewrite Hn. reflexivity.
Qed.

Lemma set_read w e tail :
  wf_set w -> enc_set e w ->
  (tail = [] \/
   exists d r, tail = d :: r /\ b2z d / 32 <> 3 /\ ws_objects w <> [] /\
     Forall (fun o => complete (ws_tmpl w) (wo_comps o)) (ws_objects w)) ->
  exists s s' xs,
    new_set (e ++ tail) = Ok s /\ os_type s = ws_type w /\ parse_set s = Ok s' /\
    os_type s' = ws_type w /\ os_name s' = or_else (ws_name w) [] /\
    os_role s' = kind_role (ws_kind w) /\
    os_objs s' = xs /\ Forall2 (reads_as w) (ws_objects w) xs /\
    os_parsed s' = true /\
    os_log s' = kind_log (ws_kind w)
                ++ (match ws_objects w with [] => [P_no_objects] | _ => [] end)
                ++ (match tail with [] => [] | _ => [P_interrupted] end).
Proof.
  intros [Hnd Hne] (d & et & en & em & eo & -> & (r & Hr & Hd) & Ht & Hn & Hm & Ho) Htail.
  assert (Ec : parse_set_component ((d :: et ++ en ++ em ++ eo) ++ tail) =
     (kind_log (ws_kind w),
      Ok (kind_role (ws_kind w), ws_type w, or_else (ws_name w) [], em ++ eo ++ tail))).
  { cbn [app]. rewrite <- !app_assoc. apply (set_component_read w d et en _ r); assumption. }
  set (data := (d :: et ++ en ++ em ++ eo) ++ tail) in *.
  exists (mk_set (kind_role (ws_kind w)) (ws_type w) (or_else (ws_name w) []) (kind_log (ws_kind w)) data [] false).
  unfold new_set. rewrite Ec.
  unfold parse_set. cbn [os_parsed os_data os_objs os_type]. rewrite Ec.
  pose proof (enc_list_length enc_tattr em (ws_tmpl w) tattr_nonempty Hm) as Lm.
  pose proof (enc_list_length _ eo (ws_objects w) (object_nonempty (ws_tmpl w)) Ho) as Lo.
  assert (Hobjs : next_object tail \/ Forall (fun o => complete (ws_tmpl w) (wo_comps o)) (ws_objects w)).
  { destruct Htail as [-> | (d' & r' & -> & _ & _ & Hc)]; [left; left; reflexivity|right; exact Hc]. }
  destruct (objects_read w em eo Hm Hnd (ws_objects w) Ho tail (length (eo ++ tail)) [] Hobjs) as (xs & F & E).
  { rewrite app_length. lia. }
  cbn [app] in E.
  destruct (ws_objects w) as [|o os] eqn:Eos.
  - (* no objects *)
    inversion Ho; subst eo. assert (tail = []) as ->.
    { destruct Htail as [H | (? & ? & _ & _ & H & _)]; [exact H|congruence]. }
    cbn [app]. rewrite (template_read (ws_tmpl w) em Hm) by (rewrite app_length; cbn [length]; lia).
    destruct (ws_tmpl w) as [|t ts] eqn:Et; [exfalso; apply Hne; reflexivity|].
    cbn [parse_objects length app].
    eexists. exists []. repeat split; try reflexivity. constructor.
  - assert (exists d0 r0, eo = d0 :: r0 /\ 112 <= b2z d0 < 128) as (d0 & r0 & -> & Hd0).
    { inversion Ho as [|e1 x1 f1 xs1 H1 _]; subst. destruct H1 as (d1 & en1 & ec1 & -> & Hd1 & _).
      cbn [app]. eauto. }
    cbn [app] in *.
    rewrite (template_then_object (ws_tmpl w) em d0 (r0 ++ tail)) by
      (try assumption; rewrite app_length; cbn [length]; lia).
    cbn [app]. rewrite E.
    destruct Htail as [-> | (d' & r' & -> & Hd' & _ & _)].
    + cbn [parse_objects]. destruct (length _ - _)%nat; cbn [parse_objects];
        eexists; exists xs; repeat split; try reflexivity; try assumption;
        cbn [os_log]; rewrite app_nil_r; reflexivity.
    + assert (Ed : parse_object_descriptor d' = None).
      { unfold parse_object_descriptor. pose proof (b2z_range d').
        rewrite (proj1 (proj2 (component_flags (b2z d') ltac:(lia)))).
        replace (b2z d' / 32 =? 3) with false by lia. reflexivity. }
      cbn [length] in Lo |- *. rewrite app_length. cbn [length].
      destruct (S (length r0 + S (length r')) - S (length os))%nat as [|k] eqn:Ek; [lia|].
      cbn [parse_objects]. unfold parse_object. rewrite Ed.
      eexists; exists xs; repeat split; try reflexivity; assumption.
Qed.
