From Verif Require Import Bytes Stream SpecHandler HandlerProofs.
From Verif Require Import PyBase DlisTypes DlisCore DlisIo DlisRecords DlisFdata CommonPy DlisStore DlisSchema DlisObject DlisFrame Dimensional DlisCurves DlisClasses DlisDescribe.
Local Open Scope Z_scope.

Section handler.
Variable esc : severity -> bool.
Variable ok : Prop.
Variable echo : list severity -> Prop.
Notation "x ~> y" := (follows esc ok echo x y) (at level 70).

Lemma f_then {S S' A B} (g : S -> S') (x0 x : S * io A) (k0 k : S -> A -> S' * io B) y0 y :
  x0 ~> x -> (forall s a, k0 s a ~> k s a) ->
  y0 = match x0 with
       | (s, (l, Ok a)) => (fst (k0 s a), (l ++ fst (snd (k0 s a)), snd (snd (k0 s a))))
       | (s, (l, Exn)) => (g s, (l, Exn)) | (s, (l, UB)) => (g s, (l, UB)) | (s, (l, Fuel)) => (g s, (l, Fuel))
       end ->
  y = match x with
      | (s, (l, Ok a)) => (fst (k s a), (l ++ fst (snd (k s a)), snd (snd (k s a))))
      | (s, (l, Exn)) => (g s, (l, Exn)) | (s, (l, UB)) => (g s, (l, UB)) | (s, (l, Fuel)) => (g s, (l, Fuel))
      end ->
  y0 ~> y.
Proof.
  intros X K E0 E. apply (f_joins esc ok echo g x0 x k0 k); try assumption.
  - subst y0. now destruct x0 as (s & l & [ a| | | ]).
  - subst y. now destruct x as (s & l & [ a| | | ]).
  - subst y0. now destruct x0 as (s & l & [ a| | | ]).
  - subst y. now destruct x as (s & l & [ a| | | ]).
Qed.
Lemma f_chain {A B} (x0 x : store * io A) (k0 k : store -> A -> store * io B) :
  x0 ~> x -> (forall st a, k0 st a ~> k st a) -> chain x0 k0 ~> chain x k.
Proof.
  intros X K. apply (f_then (fun s => s) x0 x k0 k); try assumption.
  - destruct x0 as (s & l & [ a| | | ]); cbn; try reflexivity. now destruct (k0 s a) as (s' & l' & r).
  - destruct x as (s & l & [ a| | | ]); cbn; try reflexivity. now destruct (k s a) as (s' & l' & r).
Qed.
(** [let '(st, r) := x in (st, let* a := r in k a)] *)
Lemma f_let {A B} (x0 x : store * io A) (k0 k : A -> io B) :
  x0 ~> x -> (forall a, follow esc ok echo (k0 a) (k a)) ->
  (let '(st, r) := x0 in (st, bind r k0)) ~> (let '(st, r) := x in (st, bind r k)).
Proof.
  intros X K. assert (E : forall (x : store * io A) (k : A -> io B), (let '(st, r) := x in (st, bind r k)) = (fst x, bind (snd x) k)) by now intros (s & m).
  rewrite !E. now apply (f_put esc ok echo (fun s => s)).
Qed.
Ltac quietly := apply f_silent; reflexivity.

Lemma report_set_errors_follows l : follow esc ok echo (report_set_errors never l) (report_set_errors esc l).
Proof. induction l as [|p l IH]; [ quietly|]. cbn [report_set_errors]. apply f_bind; [ apply f_log|intros _; exact IH]. Qed.
Lemma report_set_errors_cases h l : (exists m, report_set_errors h l = (m, Ok tt)) \/ (exists m, report_set_errors h l = (m, Exn)).
Proof.
  induction l as [|p l IH]; [ left; now exists []|]. cbn [report_set_errors]. unfold log.
  destruct (h (severity_of p)); [ right; now exists [severity_of p]|].
  destruct IH as [(m & ->) | (m & ->)]; [ left|right]; cbn; now exists (severity_of p :: m).
Qed.


Lemma pool_get_follows m type name p : pool_get never m type name p ~> pool_get esc m type name p.
Proof.
  induction p as [|s t IH]; [ quietly|]. cbn [pool_get].
  assert (Nx : (let '(t', r) := pool_get never m type name t in (s :: t', r)) ~> (let '(t', r) := pool_get esc m type name t in (s :: t', r))).
  { eapply (f_then (fun t' => s :: t') _ _ (fun t' a => (s :: t', ret a)) (fun t' a => (s :: t', ret a)));
      [ exact IH|intros; quietly| | ].
    - destruct (pool_get never m type name t) as (t' & l & [ a| | | ]); cbn; try reflexivity. now rewrite app_nil_r.
    - destruct (pool_get esc m type name t) as (t' & l & [ a| | | ]); cbn; try reflexivity. now rewrite app_nil_r. }
  destruct (m type (os_type s)) as [[]|]; [|exact Nx|quietly].
  destruct (parse_set s) as [s'| | | ]; [|quietly|quietly|quietly].
  destruct (match name with None => _ | Some n => _ end) as [objs|]; [|quietly].
  set (K := fun h (x : list object_set) (_ : unit) =>
              (s' :: fst (pool_get h m type name t), let* rest := snd (pool_get h m type name t) in ret (objs ++ rest))).
  apply (f_then (fun _ : list object_set => s' :: t) ([], report_set_errors never (os_log s')) ([], report_set_errors esc (os_log s')) (K never) (K esc)).
  - apply (proj1 (follow_iff esc ok echo [] _ _)). apply report_set_errors_follows.
  - intros x u. unfold K. apply (f_put esc ok echo (fun t' => s' :: t')); [ exact IH|intros a; quietly].
  - destruct (report_set_errors_cases never (os_log s')) as [(l & ->) | (l & ->)]; [|reflexivity]. unfold K.
    destruct (pool_get never m type name t) as (t' & r). cbn [fst snd].
    cbn [bind]. now destruct (bind r _) as (l' & r').
  - destruct (report_set_errors_cases esc (os_log s')) as [(l & ->) | (l & ->)]; [|reflexivity]. unfold K.
    destruct (pool_get esc m type name t) as (t' & r). cbn [fst snd].
    cbn [bind]. now destruct (bind r _) as (l' & r').
Qed.

Section store.
Variable dec : bytes -> pystr.
Variable enc : pystr -> bytes.
Variable set_order : list pystr -> list pystr.

Lemma get_item_follows st t : get_item dec enc never st t ~> get_item dec enc esc st t.
Proof.
  unfold get_item. destruct (dict_get t (st_cache st)) as [objects|]; [ quietly|].
  set (K := fun pool attics =>
        let st := with_pool st pool in
        let objects := by_name dec (map (promote dec) attics) in
          (if st_caching st then with_cache st (dict_put t objects (st_cache st)) else st, ret objects)).
  apply (f_then (with_pool st) _ _ K K (_ : store * io _) _ (pool_get_follows (in_pool dec exact) (enc t) None (st_pool st))).
  - intros pool a. unfold K. quietly.
  - destruct (pool_get never _ _ _ _) as (p & l & [ a| | | ]); try reflexivity. cbn. now rewrite app_nil_r.
  - destruct (pool_get esc _ _ _ _) as (p & l & [ a| | | ]); try reflexivity. cbn. now rewrite app_nil_r.
Qed.
Lemma collect_follows m name ts : forall st, collect dec enc never m name ts st ~> collect dec enc esc m name ts st.
Proof.
  induction ts as [|t ts IH]; intros st; [ quietly|]. cbn [collect].
  set (K := fun h st objects =>
          match filter_raising (fun e => match name with None => Some true | Some n => pm_match m n (fst e) end) objects with
          | None => (st, fail)
          | Some found => let '(st, r) := collect dec enc h m name ts st in (st, let* rest := r in ret (flat_map snd found ++ rest))
          end).
  apply (f_then (fun st => st) _ _ (K never) (K esc) (_ : store * io _) _ (get_item_follows st t)).
  - intros st' objects. unfold K. destruct (filter_raising _ objects) as [found|]; [|quietly].
    apply f_let; [ apply IH|intros rest; quietly].
  - destruct (get_item dec enc never st t) as (st' & l & [ objects| | | ]); try reflexivity. unfold K.
    destruct (filter_raising _ objects) as [found|]; [|cbn; now rewrite app_nil_r].
    destruct (collect dec enc never m name ts st') as (st2 & r). cbn [bind fst snd]. now destruct (bind r _).
  - destruct (get_item dec enc esc st t) as (st' & l & [ objects| | | ]); try reflexivity. unfold K.
    destruct (filter_raising _ objects) as [found|]; [|cbn; now rewrite app_nil_r].
    destruct (collect dec enc esc m name ts st') as (st2 & r). cbn [bind fst snd]. now destruct (bind r _).
Qed.
Lemma store_find_follows st type name matcher :
  store_find dec enc never set_order st type name matcher ~> store_find dec enc esc set_order st type name matcher.
Proof.
  unfold store_find. set (m := match matcher with Some m => m | None => exact end). destruct (negb (st_caching st)).
  - set (nm := match name with Some n => _ | None => _ end).
    assert (E : forall h, (let '(pool, r) := pool_get h (in_pool dec m) (enc type) nm (st_pool st) in
                   (with_pool st pool, let* attics := r in ret (map (promote dec) attics)))
                = (with_pool st (fst (pool_get h (in_pool dec m) (enc type) nm (st_pool st))),
                   let* attics := snd (pool_get h (in_pool dec m) (enc type) nm (st_pool st)) in ret (map (promote dec) attics)))
      by (intros h; now destruct (pool_get h (in_pool dec m) (enc type) nm (st_pool st))).
    rewrite !E. apply f_put; [ apply pool_get_follows|intros a; quietly].
  - destruct (pm_exact m).
    + destruct name as [n|].
      * set (K := fun st objects =>
            match dict_get n objects with
            | Some found => (st, ret found)
            | None => (with_cache st (dict_put type (dict_put n [] objects) (st_cache st)), ret [])
            end).
        apply (f_then (fun st => st) _ _ K K (_ : store * io (list pyobject)) _ (get_item_follows st type)).
        -- intros st' objects. unfold K. destruct (dict_get n objects); quietly.
        -- destruct (get_item dec enc never st type) as (st' & l & [ objects| | | ]); try reflexivity. unfold K.
           destruct (dict_get n objects); cbn; now rewrite app_nil_r.
        -- destruct (get_item dec enc esc st type) as (st' & l & [ objects| | | ]); try reflexivity. unfold K.
           destruct (dict_get n objects); cbn; now rewrite app_nil_r.
      * destruct (filter_raising _ _) as [ts|]; [ apply collect_follows|quietly].
    + destruct (filter_raising _ _) as [ts|]; [ apply collect_follows|quietly].
Qed.
Lemma lf_object_follows st type name origin copynr :
  lf_object dec enc never set_order st type name origin copynr ~> lf_object dec enc esc set_order st type name origin copynr.
Proof. unfold lf_object. apply f_let; [ apply store_find_follows|intros a; quietly]. Qed.
Lemma fileheader_follows st : fileheader dec enc never set_order st ~> fileheader dec enc esc set_order st.
Proof. unfold fileheader. apply f_let; [ apply store_find_follows|intros a; quietly]. Qed.
Lemma objects_of_type_follows st t : objects_of_type dec enc never set_order st t ~> objects_of_type dec enc esc set_order st t.
Proof. apply store_find_follows. Qed.

(** ** Objects *)
Lemma report_follows o lg : follow esc ok echo (report dec enc never o lg) (report dec enc esc o lg).
Proof.
  unfold report. destruct lg as [|p lg]; [ quietly|]. destruct (py_fingerprint _ _ _ _); first [ quietly|apply report_set_errors_follows].
Qed.
Lemma lookup_follows st l v : lookup dec enc never set_order st l v ~> lookup dec enc esc set_order st l v.
Proof.
  unfold lookup. destruct l; destruct v; try quietly; (apply f_let; [ apply lf_object_follows|intros a; quietly]).
Qed.
Lemma lookups_follows l vs : forall st, lookups dec enc never set_order st l vs ~> lookups dec enc esc set_order st l vs.
Proof.
  induction vs as [|v vs IH]; intros st; [ quietly|]. cbn [lookups].
  set (K := fun h st (x : pyval) => let '(st, r) := lookups dec enc h set_order st l vs in (st, let* xs := r in ret (x :: xs))).
  apply (f_then (fun st => st) _ _ (K never) (K esc) (_ : store * io _) _ (lookup_follows st l v)).
  - intros st' x. unfold K. apply f_let; [ apply IH|intros xs; quietly].
  - destruct (lookup dec enc never set_order st l v) as (st' & lg & [ x| | | ]); try reflexivity. unfold K.
    destruct (lookups dec enc never set_order st' l vs) as (st2 & r). cbn [bind fst snd]. now destruct (bind r _).
  - destruct (lookup dec enc esc set_order st l v) as (st' & lg & [ x| | | ]); try reflexivity. unfold K.
    destruct (lookups dec enc esc set_order st' l vs) as (st2 & r). cbn [bind fst snd]. now destruct (bind r _).
Qed.
Lemma getitem_follows st sc o key : getitem dec enc never set_order st sc o key ~> getitem dec enc esc set_order st sc o key.
Proof.
  unfold getitem. destruct (_ && _); [ quietly|].
  set (parse_as := match dict_get key (sc_attributes sc) with Some r => r | None => Vector end).
  set (K2 := fun h (a : attribute) rp66value (st : store) (_ : unit) =>
       match rp66value with
       | None | Some [] => (st, ret (Some (defaultvalue parse_as)))
       | Some ((v :: _) as vs) =>
           match dict_get key (sc_linkage sc), isreference v with
           | Some reftype, true =>
               let '(st, r) := lookups dec enc h set_order st reftype vs in
               (st, let* value := r in ret (Some (parsevalue value parse_as)))
           | _, _ => (st, ret (Some (parsevalue (map stripped vs) parse_as)))
           end
       end).
  set (K1 := fun h (st : store) (_ : unit) =>
       match attic_get enc o key with
       | None => (st, ret (Some (defaultvalue parse_as)))
       | Some a =>
           match attribute_value dec a with
           | None => (st, fail)
           | Some rp66value => chain (st, report dec enc h o (at_log a)) (K2 h a rp66value)
           end
       end).
  assert (E : forall h, match report dec enc h o (obj_log o) with
    | (l1, Ok _) =>
        match attic_get enc o key with
        | None => (st, (l1, Ok (Some (defaultvalue parse_as))))
        | Some a =>
            match attribute_value dec a with
            | None => (st, (l1, Exn))
            | Some rp66value =>
                match report dec enc h o (at_log a) with
                | (l2, Ok _) =>
                    match rp66value with
                    | None | Some [] => (st, (l1 ++ l2, Ok (Some (defaultvalue parse_as))))
                    | Some ((v :: _) as vs) =>
                        match dict_get key (sc_linkage sc), isreference v with
                        | Some reftype, true =>
                            let '(st, r) := lookups dec enc h set_order st reftype vs in
                            (st, let* _ := (l1 ++ l2, Ok tt) in let* value := r in ret (Some (parsevalue value parse_as)))
                        | _, _ => (st, (l1 ++ l2, Ok (Some (parsevalue (map stripped vs) parse_as))))
                        end
                    end
                | (l2, Exn) => (st, (l1 ++ l2, Exn))
                | (l2, UB) => (st, (l1 ++ l2, UB))
                | (l2, Fuel) => (st, (l1 ++ l2, Fuel))
                end
            end
        end
    | (l1, Exn) => (st, (l1, Exn))
    | (l1, UB) => (st, (l1, UB))
    | (l1, Fuel) => (st, (l1, Fuel))
    end = chain (st, report dec enc h o (obj_log o)) (K1 h)).
  { intros h. destruct (report dec enc h o (obj_log o)) as (l1 & [ []| | | ]); try reflexivity. cbn [chain]. unfold K1.
    destruct (attic_get enc o key) as [a|]; [|cbn; now rewrite app_nil_r].
    destruct (attribute_value dec a) as [rp66value|]; [|cbn; now rewrite app_nil_r].
    destruct (report dec enc h o (at_log a)) as (l2 & [ []| | | ]); try reflexivity. cbn [chain]. unfold K2.
    destruct rp66value as [[|v vs]|]; [ cbn; now rewrite app_nil_r| |cbn; now rewrite app_nil_r].
    destruct (dict_get key (sc_linkage sc)) as [reftype|]; [|cbn; now rewrite app_nil_r].
    destruct (isreference v); [|cbn; now rewrite app_nil_r].
    destruct (lookups dec enc h set_order st reftype (v :: vs)) as (st' & r). cbn [bind].
    destruct (bind r _) as (l' & r'). now rewrite app_assoc. }
  rewrite !E. apply f_chain; [ apply (proj1 (follow_iff esc ok echo st _ _)), report_follows|]. intros st1 u1. unfold K1.
  destruct (attic_get enc o key) as [a|]; [|quietly]. destruct (attribute_value dec a) as [rp66value|]; [|quietly].
  apply f_chain; [ apply (proj1 (follow_iff esc ok echo st1 _ _)), report_follows|]. intros st2 u2. unfold K2.
  destruct rp66value as [[|v vs]|]; [ quietly| |quietly]. destruct (dict_get key (sc_linkage sc)) as [reftype|]; [|quietly].
  destruct (isreference v); [|quietly]. apply f_let; [ apply lookups_follows|intros value; quietly].
Qed.
Lemma frame_channels_follows st frame : frame_channels dec enc never set_order st frame ~> frame_channels dec enc esc set_order st frame.
Proof. unfold frame_channels. apply f_let; [ apply getitem_follows|]. intros [[]|]; quietly. Qed.
Lemma claiming_follows self fs : forall st found, claiming dec enc never set_order self st fs found ~> claiming dec enc esc set_order self st fs found.
Proof.
  induction fs as [|frame fs IH]; intros st found; [ quietly|]. cbn [claiming].
  set (K := fun h st channels =>
      match claims self channels with
      | None => (st, fail)
      | Some c => claiming dec enc h set_order self st fs
                    (if c && negb (existsb (fun f => object_eqb (po_attic f) (po_attic frame)) found) then found ++ [frame] else found)
      end).
  apply (f_then (fun st => st) _ _ (K never) (K esc) (_ : store * io _) _ (frame_channels_follows st frame)).
  - intros st' channels. unfold K. destruct (claims self channels); [ apply IH|quietly].
  - destruct (frame_channels dec enc never set_order st frame) as (st' & l & [ channels| | | ]); try reflexivity. unfold K.
    destruct (claims self channels) as [c|]; [|cbn; now rewrite app_nil_r].
    destruct (claiming dec enc never set_order self st' fs _) as (st2 & l' & r). reflexivity.
  - destruct (frame_channels dec enc esc set_order st frame) as (st' & l & [ channels| | | ]); try reflexivity. unfold K.
    destruct (claims self channels) as [c|]; [|cbn; now rewrite app_nil_r].
    destruct (claiming dec enc esc set_order self st' fs _) as (st2 & l' & r). reflexivity.
Qed.
Lemma channel_frame_follows st self : channel_frame dec enc never set_order st self ~> channel_frame dec enc esc set_order st self.
Proof.
  unfold channel_frame.
  set (K := fun h st fs => let '(st, r) := claiming dec enc h set_order (obj_name self) st fs [] in
                           (st, let* found := r in ret match found with [f] => Some f | _ => None end)).
  apply (f_then (fun st => st) _ _ (K never) (K esc) (_ : store * io _) _ (objects_of_type_follows st (text "FRAME"))).
  - intros st' fs. unfold K. apply f_let; [ apply claiming_follows|intros a; quietly].
  - destruct (objects_of_type dec enc never set_order st (text "FRAME")) as (st' & l & [ fs| | | ]); try reflexivity. unfold K.
    destruct (claiming dec enc never set_order (obj_name self) st' fs []) as (st2 & r). cbn [bind fst snd]. now destruct (bind r _).
  - destruct (objects_of_type dec enc esc set_order st (text "FRAME")) as (st' & l & [ fs| | | ]); try reflexivity. unfold K.
    destruct (claiming dec enc esc set_order (obj_name self) st' fs []) as (st2 & r). cbn [bind fst snd]. now destruct (bind r _).
Qed.

(** ** Properties with dimensions, groups, listings *)
Variable maxdims : nat.
Lemma listing_follows st sc o key : listing dec enc never set_order st sc o key ~> listing dec enc esc set_order st sc o key.
Proof. unfold listing. apply f_let; [ apply getitem_follows|]. intros [[]|]; quietly. Qed.
Lemma sampled_follows st sc o key zoned single :
  sampled maxdims dec enc never set_order st sc o key zoned single ~> sampled maxdims dec enc esc set_order st sc o key zoned single.
Proof.
  unfold sampled. destruct (attic_get enc o (lit key)) as [a|]; [|quietly]. destruct (attribute_value dec a) as [data|]; [|quietly].
  set (K := fun h st dims =>
      if zoned then
        let '(st, r) := listing dec enc h set_order st sc o (text "ZONES") in
        (st, let* zones := r in match structured maxdims data dims (Some (Z.of_nat (length zones))) single with Some x => ret x | None => fail end)
      else (st, match structured maxdims data dims None single with Some x => ret x | None => fail end)).
  apply (f_then (fun st => st) _ _ (K never) (K esc) (_ : store * io _) _ (listing_follows st sc o (text "DIMENSION"))).
  - intros st' dims. unfold K. destruct zoned.
    + apply f_let; [ apply listing_follows|]. intros zones. destruct (structured maxdims data dims _ single); quietly.
    + destruct (structured maxdims data dims None single); quietly.
  - destruct (listing dec enc never set_order st sc o (text "DIMENSION")) as (st' & l & [ dims| | | ]); try reflexivity. unfold K.
    destruct zoned; [|cbn [bind fst snd]; now destruct (structured maxdims data dims None single)].
    destruct (listing dec enc never set_order st' sc o (text "ZONES")) as (st2 & r). cbn [bind fst snd]. now destruct (bind r _).
  - destruct (listing dec enc esc set_order st sc o (text "DIMENSION")) as (st' & l & [ dims| | | ]); try reflexivity. unfold K.
    destruct zoned; [|cbn [bind fst snd]; now destruct (structured maxdims data dims None single)].
    destruct (listing dec enc esc set_order st' sc o (text "ZONES")) as (st2 & r). cbn [bind fst snd]. now destruct (bind r _).
Qed.
Lemma group_objects_follows st sc self :
  snd (group_objects dec enc never set_order st sc self) ~> snd (group_objects dec enc esc set_order st sc self).
Proof.
  unfold group_objects. destruct (attic_get enc self (lit (text "OBJECT-LIST"))) as [a|]; [|quietly].
  destruct (attribute_value dec a) as [[[| v vs]|]|]; try quietly.
  assert (G := getitem_follows st sc self (lit (text "OBJECT-LIST"))).
  destruct v; try exact G. clear G.
  set (K := fun h st (x : option result) =>
      match x with
      | Some (ROne (PText t)) => getitem dec enc h set_order st (linked_to sc t) self (lit (text "OBJECT-LIST"))
      | _ => (st, fail)
      end).
  apply (f_then (fun st => st) _ _ (K never) (K esc) (_ : store * io _) _ (getitem_follows st sc self (lit (text "OBJECT-TYPE")))).
  - intros st' x. unfold K. destruct x as [[|[]| |]|]; try quietly. apply getitem_follows.
  - destruct (getitem dec enc never set_order st sc self (lit (text "OBJECT-TYPE"))) as (st' & l & [ x| | | ]); try reflexivity. unfold K.
    destruct x as [[|[]| |]|]; cbn [fst snd]; try (now rewrite app_nil_r).
    now destruct (getitem dec enc never set_order st' (linked_to sc s) self (lit (text "OBJECT-LIST"))) as (st2 & l' & r).
  - destruct (getitem dec enc esc set_order st sc self (lit (text "OBJECT-TYPE"))) as (st' & l & [ x| | | ]); try reflexivity. unfold K.
    destruct x as [[|[]| |]|]; cbn [fst snd]; try (now rewrite app_nil_r).
    now destruct (getitem dec enc esc set_order st' (linked_to sc s) self (lit (text "OBJECT-LIST"))) as (st2 & l' & r).
Qed.
Definition silent {A} (m : io A) : Prop := fst m = [].
Lemma silent_bind {A B} (m : io A) (k : A -> io B) : silent m -> (forall a, silent (k a)) -> silent (bind m k).
Proof.
  intros M K. destruct m as (l & [ a| | | ]); try exact M. unfold silent in *. cbn in M. subst l. specialize (K a). cbn. destruct (k a) as (l' & r). exact K.
Qed.
Lemma fingerprint_silent o : silent (fingerprint dec enc o).
Proof. unfold fingerprint. now destruct (py_fingerprint _ _ _ _). Qed.
Lemma by_fingerprint_silent objects : forall d, silent (by_fingerprint dec enc objects d).
Proof. induction objects as [|x objects IH]; intros d; [ reflexivity|]. apply silent_bind; [ apply fingerprint_silent|intros fp; apply IH]. Qed.
Lemma unknowns_follows ts : forall st d, unknowns_loop dec enc never set_order st ts d ~> unknowns_loop dec enc esc set_order st ts d.
Proof.
  induction ts as [|t ts IH]; intros st d; [ quietly|]. cbn [unknowns_loop]. destruct (existsb _ known_types); [ apply IH|].
  apply f_chain; [ apply store_find_follows|]. intros st' objects. apply f_chain; [ apply f_silent, by_fingerprint_silent|]. intros st2 e. apply IH.
Qed.
Lemma load_all_follows ts : forall st, load_loop dec enc never set_order st ts ~> load_loop dec enc esc set_order st ts.
Proof. induction ts as [|t ts IH]; intros st; [ quietly|]. cbn [load_loop]. apply f_chain; [ apply store_find_follows|]. intros st' _. apply IH. Qed.

(** ** Channels and frames *)
Lemma channel_reprc_follows st o : channel_reprc dec enc never set_order st o ~> channel_reprc dec enc esc set_order st o.
Proof. unfold channel_reprc. apply f_let; [ apply getitem_follows|]. intros [[|[]| |]|]; try quietly. destruct (integer_code _); quietly. Qed.
Lemma channel_dimension_follows st o : channel_dimension dec enc never set_order st o ~> channel_dimension dec enc esc set_order st o.
Proof. unfold channel_dimension. apply f_let; [ apply listing_follows|]. intros l. destruct (dims_of l); quietly. Qed.
Lemma column_of_follows st ch : column_of dec enc never set_order st ch ~> column_of dec enc esc set_order st ch.
Proof.
  unfold column_of. destruct ch; try quietly. apply f_chain; [ apply channel_reprc_follows|]. intros st1 reprc.
  apply f_chain; [ apply channel_dimension_follows|]. intros st2 dim. apply f_silent. apply silent_bind; [ apply fingerprint_silent|].
  intros fp. destruct (po_name dec o); destruct fp; reflexivity.
Qed.
Lemma columns_of_follows chs : forall st, columns_of dec enc never set_order st chs ~> columns_of dec enc esc set_order st chs.
Proof.
  induction chs as [|ch chs IH]; intros st; [ quietly|]. cbn [columns_of]. apply f_chain; [ apply column_of_follows|]. intros st1 c.
  apply f_chain; [ apply IH|]. intros st2 cs. quietly.
Qed.
Lemma frame_index_follows st frame : frame_index dec enc never set_order st frame ~> frame_index dec enc esc set_order st frame.
Proof.
  unfold frame_index. apply f_chain; [ apply frame_channels_follows|]. intros st1 [|ch chs]; [ quietly|].
  apply f_let; [ apply getitem_follows|]. intros [[]|]; try quietly; destruct ch; quietly.
Qed.
End store.
End handler.

Section curves.
Variable esc : severity -> bool.
Variable dec : bytes -> pystr.
Variable enc : pystr -> bytes.
Variable set_order : list pystr -> list pystr.
Variable maxdims : nat.
Variable fmtlabel : ustr -> Z -> Z -> option ustr.
Notation "x ~> y" := (follows esc (monotone esc) reported x y) (at level 70).
Lemma frame_curves_follows s after strict chs indices :
  follow esc (monotone esc) reported (frame_curves maxdims fmtlabel never s after strict chs indices) (frame_curves maxdims fmtlabel esc s after strict chs indices).
Proof.
  unfold frame_curves. destruct (frame_dtype maxdims fmtlabel strict chs) as [d|]; [|now apply f_silent].
  destruct (frame_fmtstr chs) as [f|]; [|now apply f_silent].
  apply f_bind; [ apply read_fdata_follows|]. intros (cells & rows). now apply f_silent.
Qed.
Lemma curves_follows st s after idx frame strict :
  curves dec enc never set_order maxdims fmtlabel st s after idx frame strict ~> curves dec enc esc set_order maxdims fmtlabel st s after idx frame strict.
Proof.
  unfold curves. apply f_chain; [ apply frame_channels_follows|]. intros st1 chs. apply f_chain; [ apply columns_of_follows|]. intros st2 cols.
  apply f_bind; [ apply f_silent, fingerprint_silent|]. intros fp. apply (proj1 (follow_iff esc _ _ st2 _ _)). apply frame_curves_follows.
Qed.
Lemma channel_curves_follows st s after idx self :
  channel_curves dec enc never set_order maxdims fmtlabel st s after idx self ~> channel_curves dec enc esc set_order maxdims fmtlabel st s after idx self.
Proof.
  unfold channel_curves. apply f_chain; [ apply channel_frame_follows|]. intros st1 [fr|]; [|now apply f_silent].
  apply f_chain; [ apply curves_follows|]. intros st2 ((d & cells) & rows). apply f_silent. apply silent_bind; [ apply fingerprint_silent|].
  intros [fp|fp]; [|reflexivity]. now destruct (np_field d fp).
Qed.
Lemma noformat_follows s idx self : follow esc (monotone esc) reported (noformat_data dec enc never s idx self) (noformat_data dec enc esc s idx self).
Proof. unfold noformat_data. apply f_bind; [ apply f_silent, fingerprint_silent|intros fp; apply read_noform_follows]. Qed.
End curves.
