From Verif Require Import Bytes Stream SpecHandler HandlerProofs HandlerProofs2.
From Verif Require Import PyBase DlisTypes DlisCore DlisIo DlisRecords CommonPy DlisStore DlisSchema DlisObject DlisFrame Dimensional DlisCurves DlisClasses DlisDescribe.
Local Open Scope Z_scope.

Section handler.
Variable esc : severity -> bool.
Variable ok : Prop.
Variable echo : list severity -> Prop.
Variable maxdims : nat.
Variable dec : bytes -> pystr.
Variable enc : pystr -> bytes.
Variable set_order : list pystr -> list pystr.
Notation "x ~> y" := (follows esc ok echo x y) (at level 70).
Ltac quietly := apply f_silent; reflexivity.

Lemma describe_dict_silent ex d : silent (describe_dict ex d).
Proof. unfold silent, describe_dict. destruct (existsb (fun e => unprintable (fst (snd e))) d); [ reflexivity|]. cbv zeta. now destruct (existsb (fun e => match fst e with Raw _ => true | Str _ => false end) _). Qed.
Lemma describe_array_silent v : silent (describe_array v).
Proof. unfold describe_array. destruct v as [[| |[]|]| |[]| |]; try reflexivity; now destruct (unprintable _). Qed.
Lemma replist_silent r : silent (replist dec r).
Proof.
  unfold silent, replist. destruct r as [|v| |]; try reflexivity. destruct v as [| |s| | | | | |]; try reflexivity; [|now destruct s].
  match goal with |- context [if ?b then _ else _] => now destruct b end.
Qed.
Lemma item_follows x key st : item dec enc never set_order x key st ~> item dec enc esc set_order x key st.
Proof. unfold item. apply f_let; [ apply getitem_follows|]. intros [r|]; quietly. Qed.
Lemma eval_follows x e st : eval dec enc never set_order x e st ~> eval dec enc esc set_order x e st.
Proof.
  destruct e as [l|l|t a b|l|]; cbn [eval].
  - apply f_chain; [ apply item_follows|intros st' r; quietly].
  - apply f_chain; [ apply item_follows|intros st' r; apply f_silent, replist_silent].
  - apply f_chain; [ apply item_follows|intros st' ra]. apply f_chain; [ apply item_follows|intros st2 rb; quietly].
  - apply f_chain; [ apply item_follows|intros st' r]. destruct r; quietly.
  - apply f_chain; [ apply group_objects_follows|intros st' r]. destruct r; quietly.
Qed.
Lemma eval_rows_follows x rows : forall st, eval_rows dec enc never set_order x rows st ~> eval_rows dec enc esc set_order x rows st.
Proof.
  induction rows as [|(c & e) rows IH]; intros st; [ quietly|]. cbn [eval_rows].
  apply f_chain; [ apply eval_follows|intros st' v]. apply f_chain; [ apply IH|intros st2 d; quietly].
Qed.
Lemma retrieve_follows x g st : retrieve dec enc never set_order x g st ~> retrieve dec enc esc set_order x g st.
Proof.
  destruct g as [label|v]; cbn [retrieve]; [|quietly]. destruct (existsb _ (keys _ _)).
  - apply f_chain; [ apply item_follows|intros st' r]. destruct (attic_get enc (po_attic x) label); quietly.
  - destruct (existsb _ (sc_attributes _)); [|quietly]. apply f_chain; [ apply item_follows|intros st' r; quietly].
Qed.
Lemma retrieve_all_follows x d : forall st, retrieve_all dec enc never set_order x d st ~> retrieve_all dec enc esc set_order x d st.
Proof.
  induction d as [|(c & g) d IH]; intros st; [ quietly|]. cbn [retrieve_all].
  apply f_chain; [ apply retrieve_follows|intros st' v]. apply f_chain; [ apply IH|intros st2 r; quietly].
Qed.
Lemma describe_attributes_follows ex x d st : describe_attributes dec enc never set_order ex x d st ~> describe_attributes dec enc esc set_order ex x d st.
Proof. apply f_chain; [ apply retrieve_all_follows|intros st' r; apply f_silent, describe_dict_silent]. Qed.
Lemma describe_sampled_silent o shape caption label single acc : silent (describe_sampled maxdims dec enc o shape caption label single acc).
Proof.
  destruct acc as ((valids & invs) & now). unfold describe_sampled. destruct (attic_get enc o (lit label)) as [a|]; [|reflexivity].
  destruct (attribute_value dec a) as [value|]; [|destruct now as [(v & u)|]; reflexivity]. destruct (sample _ _ _ _); reflexivity.
Qed.
Lemma describe_sampled_all_silent o shape single extras : forall acc, silent (describe_sampled_all maxdims dec enc o shape extras single acc).
Proof.
  induction extras as [|(c & l) extras IH]; intros acc; [ reflexivity|]. cbn [describe_sampled_all].
  apply silent_bind; [ apply describe_sampled_silent|exact IH].
Qed.
Lemma describe_sampled_attrs_silent ex o shape valuekey extras single : silent (describe_sampled_attrs maxdims dec enc ex o shape valuekey extras single).
Proof.
  unfold describe_sampled_attrs. apply silent_bind; [ apply describe_sampled_silent|intros acc].
  apply silent_bind; [ apply describe_sampled_all_silent|intros ((valids & invs) & now)].
  apply silent_bind; [ apply describe_dict_silent|intros p]. destruct (_ && _); [|reflexivity].
  apply silent_bind; [ apply describe_dict_silent|intros q; reflexivity].
Qed.
Lemma samplecount_follows x st : samplecount maxdims dec enc never set_order x st ~> samplecount maxdims dec enc esc set_order x st.
Proof.
  unfold samplecount. destruct (attic_get enc (po_attic x) _) as [a|]; [|quietly]. destruct (attribute_value dec a) as [data|]; [|quietly].
  apply f_chain; [ apply item_follows|intros st' r]. destruct (sample _ _ _ _) as [[]| |]; quietly.
Qed.
Lemma hand_over_follows x rows : forall st, hand_over maxdims dec enc never set_order x rows st ~> hand_over maxdims dec enc esc set_order x rows st.
Proof.
  induction rows as [|(c & h) rows IH]; intros st; [ quietly|]. cbn [hand_over]. apply f_chain.
  - destruct h as [l|l|]; [ quietly| |]; (apply f_chain; [ first [ apply item_follows|apply samplecount_follows]|intros st' r; quietly]).
  - intros st' g. apply f_chain; [ apply IH|intros st2 d; quietly].
Qed.
Lemma describe_description_follows ex r st : describe_description dec enc never set_order ex r st ~> describe_description dec enc esc set_order ex r st.
Proof.
  unfold describe_description. destruct (_ && _); [ quietly|].
  assert (D : forall d, (st, describe_dict ex d) ~> (st, describe_dict ex d)) by (intros d; apply f_silent, describe_dict_silent).
  destruct r as [|v| |]; try apply D. destruct v; try apply D. clear D.
  apply f_chain; [|intros st' p; quietly].
  destruct longname_steps as [|[ | |rows| | | | |] []]; try quietly.
  apply f_chain; [ apply eval_rows_follows|intros st' d; apply f_silent, describe_dict_silent].
Qed.
Lemma describe_channels_follows ex x st : describe_channels dec enc never set_order ex x st ~> describe_channels dec enc esc set_order ex x st.
Proof.
  unfold describe_channels. apply f_chain; [ apply frame_channels_follows|intros st1 [|ch chs]]; [ quietly|].
  apply f_chain; [ apply item_follows|intros st2 index_type]. apply f_chain.
  - destruct index_type; try quietly; (destruct ch; try quietly;
      apply f_chain; [ apply item_follows|intros st3 units]; apply f_chain; [ apply describe_attributes_follows|intros st4 p; quietly]).
  - intros st3 p. apply f_silent. apply silent_bind; [ apply describe_array_silent|intros q; reflexivity].
Qed.
Lemma first_value_silent o l : silent (first_value dec enc o l).
Proof. unfold first_value. destruct (attic_get enc o (lit l)) as [a|]; [|reflexivity]. destruct (attribute_value dec a) as [[[|]|]|]; reflexivity. Qed.
Lemma coordinates_silent o : silent (wellref_coordinates dec enc o).
Proof.
  unfold wellref_coordinates.
  assert (C : forall name value custom d, silent (let* k := first_value dec enc o name in
       let* key := match k with None => ret (lit custom) | Some (PText t) => ret t | Some _ => fail end in
       let* v := first_value dec enc o value in ret (dict_put key (match v with Some v => v | None => PNone end) d))).
  { intros name value custom d. apply silent_bind; [ apply first_value_silent|intros k]. apply silent_bind; [ now destruct k as [[]|]|intros key].
    apply silent_bind; [ apply first_value_silent|intros v; reflexivity]. }
  apply silent_bind; [ apply C|intros d]. apply silent_bind; [ apply C|intros d']. apply C.
Qed.
Lemma run_follows ex x s st : run maxdims dec enc never set_order ex x s st ~> run maxdims dec enc esc set_order ex x s st.
Proof.
  destruct s as [l|rows|rows|[dims|] valuekey extras single|t|l| |]; cbn [run].
  - apply f_chain; [ apply item_follows|intros st' r; apply describe_description_follows].
  - apply f_chain; [ apply hand_over_follows|intros st' d; apply describe_attributes_follows].
  - apply f_chain; [ apply eval_rows_follows|intros st' d; apply f_silent, describe_dict_silent].
  - apply f_chain; [ apply item_follows|intros st' r; apply f_silent, describe_sampled_attrs_silent].
  - apply f_silent, describe_sampled_attrs_silent.
  - quietly.
  - apply f_chain; [ apply item_follows|intros st' r; apply f_silent, describe_array_silent].
  - apply f_silent. apply silent_bind; [ apply coordinates_silent|intros d; apply describe_dict_silent].
  - apply describe_channels_follows.
Qed.
Lemma run_all_follows ex x steps : forall st, run_all maxdims dec enc never set_order ex x steps st ~> run_all maxdims dec enc esc set_order ex x steps st.
Proof.
  induction steps as [|s steps IH]; intros st; [ quietly|]. cbn [run_all].
  apply f_chain; [ apply run_follows|intros st' p]. apply f_chain; [ apply IH|intros st2 q; quietly].
Qed.
Lemma describe_follows st x exclude : describe maxdims dec enc never set_order st x exclude ~> describe maxdims dec enc esc set_order st x exclude.
Proof.
  unfold describe. apply f_chain.
  - destruct (x_head _); [ quietly|]. apply f_silent. apply silent_bind; [ apply describe_dict_silent|intros p; reflexivity].
  - intros st1 p1. apply f_chain; [ destruct (x_attr _); [ quietly|apply run_all_follows]|]. intros st2 p2.
    apply f_chain; [|intros st3 p3; quietly]. destruct (x_stash _); [ quietly|]. unfold describe_stash.
    destruct (stash dec enc (schema_of x) (po_attic x)) as [[|e d]|]; try quietly.
    apply f_chain; [ apply describe_attributes_follows|intros st3 p; quietly].
Qed.
Lemma count_types_follows ts : forall st known unknown,
  count_types dec enc never set_order st ts known unknown ~> count_types dec enc esc set_order st ts known unknown.
Proof.
  induction ts as [|t ts IH]; intros st known unknown; [ quietly|]. cbn [count_types].
  apply f_chain; [ apply store_find_follows|intros st' objs]. destruct (existsb _ known_types); apply IH.
Qed.
Lemma file_rows_follows st : file_rows dec enc never set_order st ~> file_rows dec enc esc set_order st.
Proof.
  unfold file_rows. apply f_chain.
  - unfold file_repr. apply f_chain; [ apply fileheader_follows|intros st' [x|]]; [|quietly].
    apply f_chain; [ apply item_follows|intros st2 r; quietly].
  - intros st1 name. apply f_chain; [ apply f_chain; [ apply objects_of_type_follows|intros st' l; quietly]|intros st2 frames].
    apply f_chain; [ apply f_chain; [ apply objects_of_type_follows|intros st' l; quietly]|intros st3 channels].
    apply f_silent, describe_dict_silent.
Qed.
Lemma describe_file_follows st : describe_file dec enc never set_order st ~> describe_file dec enc esc set_order st.
Proof.
  unfold describe_file. apply f_chain; [ apply file_rows_follows|intros st1 p0].
  apply f_chain; [ apply count_types_follows|intros st2 ku]. apply f_silent.
  assert (C : forall title (d : list entry), silent match d with [] => ret [] | _ => let* p := describe_dict (parseoptions []) d in ret (Section (lit title) :: p) end).
  { intros title [|e d]; [ reflexivity|]. apply silent_bind; [ apply describe_dict_silent|intros p; reflexivity]. }
  apply silent_bind; [ apply C|intros p1]. apply silent_bind; [ apply C|intros p2]. reflexivity.
Qed.
Lemma describe_each_follows sts : describe_each dec enc never set_order sts ~> describe_each dec enc esc set_order sts.
Proof.
  induction sts as [|st sts IH]; [ quietly|]. cbn [describe_each].
  set (K := fun h st p => (st :: fst (describe_each dec enc h set_order sts), let* q := snd (describe_each dec enc h set_order sts) in ret (p ++ q))).
  apply (f_then esc ok echo (fun st => st :: sts) _ _ (K never) (K esc) (_ : list store * io _) _ (file_rows_follows st)).
  - intros st' p. unfold K. apply (f_put esc ok echo (fun sts => st' :: sts)); [ exact IH|intros q; quietly].
  - destruct (file_rows dec enc never set_order st) as (st' & l & [ p| | | ]); try reflexivity. unfold K.
    destruct (describe_each dec enc never set_order sts) as (sts' & l' & [ q| | | ]); cbn; try reflexivity. now rewrite app_nil_r.
  - destruct (file_rows dec enc esc set_order st) as (st' & l & [ p| | | ]); try reflexivity. unfold K.
    destruct (describe_each dec enc esc set_order sts) as (sts' & l' & [ q| | | ]); cbn; try reflexivity. now rewrite app_nil_r.
Qed.
Lemma describe_physical_follows sts : describe_physical dec enc never set_order sts ~> describe_physical dec enc esc set_order sts.
Proof.
  unfold describe_physical. pose proof (describe_dict_silent (parseoptions []) [(lit (text "Number of Logical Files"), (SInt (Z.of_nat (length sts)), None))]) as Q.
  destruct (describe_dict _ _) as (l & [ p| | | ]); unfold silent in Q; cbn [fst] in Q; subst l; try quietly.
  assert (E : forall h, (let '(sts, (l', r)) := describe_each dec enc h set_order sts in
      (sts, ([] ++ l', let! q := r in Ok (Title (lit (text "Physical File")) :: p ++ q))))
    = (fst (describe_each dec enc h set_order sts), let* q := snd (describe_each dec enc h set_order sts) in ret (Title (lit (text "Physical File")) :: p ++ q))).
  { intros h. destruct (describe_each dec enc h set_order sts) as (sts' & l' & [ q| | | ]); cbn; try reflexivity. now rewrite app_nil_r. }
  rewrite !E. apply (f_put esc ok echo (fun sts => sts)); [ apply describe_each_follows|intros q; quietly].
Qed.
End handler.
