(** Proofs about the non-interactive part of edit-properties. *)
From Coq Require Import Lia.
From Verif Require Import PyBase PyBaseProofs PyDict PyDictProofs XmlModel XmlSpec XmlProofs NamesModel ProfileSpec NetworkModel PropArgModel
  ChooseModel ChooseSpec ChooseProofs EnvPropModel EnvPropSpec EnvPropProofs ConfigPropProofs EditPropModel EditPropSpec.
Local Open Scope nat_scope.

(** ** One step *)

Lemma filter_all_out : forall (A : Type) (f : A -> bool) l, (forall x, In x l -> f x = false) -> filter f l = [].
Proof. intros A f l. induction l as [|x l IH]; intros H; [reflexivity|]. cbn. rewrite (H x (or_introl eq_refl)). apply IH. intros y Hy. apply H. now right. Qed.

Lemma edited_with_key : forall v vs vs' key nw p p', edited_at v vs vs' key nw p p' -> key_of v p = Some key ->
  with_key v vs' key = [p'] /\ with_key v vs key = (if nw then [] else [p]) /\ (nw = true -> p = new_property v key).
Proof.
  intros v vs vs' key nw p p' (pre & post & E & Hk & Hno & Hold) Hp. unfold with_key.
  assert (Hn : forall x, In x (pre ++ post) -> has_key v key x = false).
  { intros x Hx. destruct (has_key v key x) eqn:F; [|reflexivity]. apply has_key_spec in F. now apply Hno in F. }
  assert (H1 : filter (has_key v key) pre = []) by (apply filter_all_out; intros x Hx; apply Hn, in_or_app; now left).
  assert (H2 : filter (has_key v key) post = []) by (apply filter_all_out; intros x Hx; apply Hn, in_or_app; now right).
  rewrite E, filter_app. cbn [filter]. rewrite (proj2 (has_key_spec v key p') Hk), H1, H2. split; [reflexivity|].
  destruct nw.
  - destruct Hold as (-> & -> & ->). rewrite H1. now split.
  - rewrite Hold, filter_app. cbn [filter]. rewrite (proj2 (has_key_spec v key p) Hp), H1, H2. split; [reflexivity|discriminate].
Qed.

(** What a successful setting did, without the place of the property. *)
Definition set_from (v : version) (vs vs' : elem) (key : str) (value : option str) (uc : option bool)
    (ty label desc : option str) : Prop :=
  exists nw p p' w, with_key v vs' key = [p'] /\ with_key v vs key = (if nw : bool then [] else [p]) /\
    (nw = true -> p = new_property v key) /\
    property_set v uc (type_set nw ty) label desc w p p' /\
    let T := get_attr_or p' (PROP_TYPE v) [] in
    let Q := get_attr_or p' (PROP_QUAL v) [] in
    match value_checked v nw ty value p with
    | None => w = None
    | Some x => exists y, w = Some y /\ stored_as T x y /\ conforms T Q y
    end.

Lemma set_from_ok : forall v vs key value uc ty label desc vs' w,
  set_property v vs key value uc ty label desc = (vs', Ok w) -> set_from v vs vs' key value uc ty label desc.
Proof.
  intros v vs key value uc ty label desc vs' w H.
  destruct (set_ok _ _ _ _ _ _ _ _ _ _ H) as (nw & p & p' & He & Hps & _ & Hw).
  assert (Hkp : key_of v p = Some key).
  { destruct He as (pre & post & _ & Hk & _). destruct (tags_differ v) as (D1 & D2 & D3 & D4 & D5 & D6 & _).
    rewrite <- Hk. symmetry. apply (ps_attr _ _ _ _ _ _ _ _ Hps); assumption. }
  destruct (edited_with_key _ _ _ _ _ _ _ He Hkp) as (E1 & E2 & E3).
  exists nw, p, p', w. now repeat (split; [assumption|]).
Qed.

(** ** The chain of settings *)

Inductive chain (v : version) (uc : option bool) (labels descs : list str) : nat -> elem -> list property -> elem -> Prop :=
| ch_nil : forall i vs, chain v uc labels descs i vs [] vs
| ch_cons : forall i vs key value ty vs1 w todo vs', 
    (labels = [] \/ nth_error labels i <> None) -> (descs = [] \/ nth_error descs i <> None) ->
    set_property v vs key value uc ty (nth_error labels i) (nth_error descs i) = (vs1, Ok w) ->
    chain v uc labels descs (S i) vs1 todo vs' ->
    chain v uc labels descs i vs ((key, value, ty) :: todo) vs'.

Lemma note_ok : forall l i n, note_at l i = Ok n -> n = nth_error l i /\ (l = [] \/ nth_error l i <> None).
Proof.
  intros [|a l] i n H; cbn [note_at] in H.
  - injection H as <-. split; [now destruct i|now left].
  - destruct (nth_error (a :: l) i); [|discriminate]. injection H as <-. split; [reflexivity|]. right. discriminate.
Qed.

Lemma set_each_chain : forall force v uc labels descs todo vs typed i,
  o_result (set_each force v uc labels descs vs typed i todo) = Ok tt ->
  chain v uc labels descs i vs todo (o_doc (set_each force v uc labels descs vs typed i todo)).
Proof.
  intros force v uc labels descs. induction todo as [|[[key value] ty] todo IH]; intros vs typed i H.
  - constructor.
  - cbn [set_each] in H |- *.
    destruct (note_at labels i) as [lb|] eqn:El; [|discriminate].
    destruct (note_at descs i) as [ds|] eqn:Ed; [|discriminate].
    destruct (note_ok _ _ _ El) as [-> Hl]. destruct (note_ok _ _ _ Ed) as [-> Hd].
    destruct (get_property_value v vs key) as [[c|]|] eqn:Eg; [| |discriminate].
    + destruct (set_property v vs key value uc ty (nth_error labels i) (nth_error descs i)) as [vs1 [w|e]] eqn:Es; [|discriminate].
      apply ch_cons with vs1 w; auto. cbn [o_result o_doc] in *. now apply IH.
    + destruct (confirm force typed) as [[[|] typed']|] eqn:Ec; [|discriminate|discriminate].
      destruct (set_property v vs key value uc ty (nth_error labels i) (nth_error descs i)) as [vs1 [w|e]] eqn:Es; [|discriminate].
      apply ch_cons with vs1 w; auto. cbn [o_result o_doc] in *. now apply IH.
Qed.

Lemma chain_other : forall v uc labels descs i vs todo vs', chain v uc labels descs i vs todo vs' ->
  forall k, (forall j x t, nth_error todo j <> Some (k, x, t)) -> with_key v vs' k = with_key v vs k.
Proof.
  intros v uc labels descs i vs todo vs' H. induction H as [|i vs key value ty vs1 w todo vs' Hl Hd Hs Hc IH]; intros k Hk; [reflexivity|].
  rewrite IH.
  - apply (with_key_other _ _ _ _ _ _ _ _ _ _ _ Hs). intros ->. now apply (Hk 0 value ty).
  - intros j x t. apply (Hk (S j)).
Qed.

Lemma chain_nth : forall v uc labels descs i vs todo vs', chain v uc labels descs i vs todo vs' ->
  forall j key value ty, nth_error todo j = Some (key, value, ty) ->
  exists va vb w, chain v uc labels descs i vs (firstn j todo) va /\
    (labels = [] \/ nth_error labels (i + j) <> None) /\ (descs = [] \/ nth_error descs (i + j) <> None) /\
    set_property v va key value uc ty (nth_error labels (i + j)) (nth_error descs (i + j)) = (vb, Ok w) /\
    chain v uc labels descs (S (i + j)) vb (skipn (S j) todo) vs'.
Proof.
  intros v uc labels descs i vs todo vs' H. induction H as [|i vs key value ty vs1 w todo vs' Hl Hd Hs Hc IH]; intros j k x t Hj.
  - destruct j; discriminate.
  - destruct j as [|j].
    + cbn in Hj. injection Hj as -> -> ->. exists vs, vs1, w. rewrite Nat.add_0_r. cbn [firstn skipn]. split; [constructor|]. auto.
    + cbn [nth_error] in Hj. destruct (IH j k x t Hj) as (va & vb & w' & C1 & A1 & A2 & Es & C2).
      exists va, vb, w'. replace (i + S j) with (S i + j) by lia. cbn [firstn skipn].
      split; [now apply ch_cons with vs1 w|]. auto.
Qed.

Lemma nth_firstn : forall (A : Type) (l : list A) n j x, nth_error (firstn n l) j = Some x -> j < n /\ nth_error l j = Some x.
Proof.
  induction l as [|a l IH]; intros [|n] [|j] x H; cbn in *; try discriminate.
  - split; [lia|exact H].
  - apply IH in H as [H1 H2]. split; [lia|exact H2].
Qed.
Lemma nth_skipn : forall (A : Type) n (l : list A) j, nth_error (skipn n l) j = nth_error l (n + j).
Proof. induction n as [|n IH]; intros l j; [reflexivity|]. destruct l; [now destruct j|]. cbn. apply IH. Qed.

Lemma chain_rest : forall v uc labels descs i vs todo vs', chain v uc labels descs i vs todo vs' ->
  same_but_children vs vs' /\ outside_product v vs' = outside_product v vs.
Proof.
  intros v uc labels descs i vs todo vs' H. induction H as [|i vs key value ty vs1 w todo vs' Hl Hd Hs Hc IH].
  - split; [repeat split|reflexivity].
  - destruct (others_untouched _ _ _ _ _ _ _ _ _ _ Hs) as (_ & H1 & H2 & _). destruct IH as [I1 I2].
    split; [now apply sbc_trans with vs1|now rewrite I2].
Qed.

(** Other content of the product section: as it was, unless there was none. *)
Definition rest_kept (v : version) (vs vs' : elem) : Prop :=
  other_product_content v vs' = other_product_content v vs \/
  ((forall x, In x (echildren vs) -> ~ answers (PRODUCT_SECTION v) (PRODUCT_SECTION_ATTRIB v) x) /\
   other_product_content v vs' = [Elem (INFO v) [] (Some (L "Product Information")) None []]).

Lemma no_section_properties : forall v vs,
  (forall x, In x (echildren vs) -> ~ answers (PRODUCT_SECTION v) (PRODUCT_SECTION_ATTRIB v) x) -> properties v vs = [].
Proof. intros v vs H. unfold properties. now rewrite (sections_none v vs H). Qed.

Lemma chain_content : forall v uc labels descs i vs todo vs', chain v uc labels descs i vs todo vs' -> rest_kept v vs vs'.
Proof.
  intros v uc labels descs i vs todo vs' H. induction H as [|i vs key value ty vs1 w todo vs' Hl Hd Hs Hc IH]; [now left|].
  destruct (others_untouched _ _ _ _ _ _ _ _ _ _ Hs) as (_ & _ & _ & H1).
  destruct (set_from_ok _ _ _ _ _ _ _ _ _ _ Hs) as (nw & p & p' & w' & Ek & _).
  destruct IH as [E|[N _]].
  - destruct H1 as [E1|[N1 E1]]; [left|right; split; [exact N1|]]; congruence.
  - exfalso. unfold with_key in Ek. rewrite (no_section_properties v vs1 N) in Ek. discriminate.
Qed.

(** ** The configuration file *)

Lemma import_with_key : forall v literal uc ms vs num vs' r, import_kept v vs literal uc num ms = (vs', r) ->
  forall k, (forall i, k <> config_key literal (num + 1 + N.of_nat i)) -> with_key v vs' k = with_key v vs k.
Proof.
  intros v literal uc. induction ms as [|m ms IH]; intros vs num vs' r H k Hk; cbn [import_kept] in H.
  - now injection H as <-.
  - destruct (set_property v vs (config_key literal (num + 1)) (Some m) uc None None None) as [vs1 [q|e]] eqn:E.
    + transitivity (with_key v vs1 k).
      * apply (IH vs1 (num + 1)%N vs' r H). intros i. specialize (Hk (S i)).
        replace (num + 1 + 1 + N.of_nat i)%N with (num + 1 + N.of_nat (S i))%N by lia. exact Hk.
      * apply (with_key_other _ _ _ _ _ _ _ _ _ _ _ E). specialize (Hk 0). now rewrite N.add_0_r in Hk.
    + injection H as <- _. apply (with_key_other _ _ _ _ _ _ _ _ _ _ _ E). specialize (Hk 0). now rewrite N.add_0_r in Hk.
Qed.

Lemma import_rest : forall v literal uc ms vs num vs', import_kept v vs literal uc num ms = (vs', Ok tt) ->
  same_but_children vs vs' /\ outside_product v vs' = outside_product v vs /\ rest_kept v vs vs' /\
  (vs' = vs \/ properties v vs' <> []).
Proof.
  intros v literal uc. induction ms as [|m ms IH]; intros vs num vs' H; cbn [import_kept] in H.
  - injection H as <-. split; [repeat split|]. split; [reflexivity|]. split; now left.
  - destruct (set_property v vs (config_key literal (num + 1)) (Some m) uc None None None) as [vs1 [q|e]] eqn:E; [|discriminate].
    destruct (IH _ _ _ H) as (I1 & I2 & I3 & I4).
    destruct (others_untouched _ _ _ _ _ _ _ _ _ _ E) as (_ & H1 & H2 & H3).
    destruct (set_from_ok _ _ _ _ _ _ _ _ _ _ E) as (nw & p & p' & w' & Ek & _).
    split; [now apply sbc_trans with vs1|]. split; [now rewrite I2|].
    assert (NE : properties v vs1 <> []) by (intros F; unfold with_key in Ek; rewrite F in Ek; discriminate).
    split; [|right; destruct I4 as [->|I4]; assumption].
    destruct I3 as [E3|[N _]].
    + destruct H3 as [E1|[N1 E1]]; [left|right; split; [exact N1|]]; congruence.
    + exfalso. unfold with_key in Ek. rewrite (no_section_properties v vs1 N) in Ek. discriminate.
Qed.

Lemma config_with_key : forall v literal uc text vs vs' r a,
  config_file_to_properties v vs literal uc text = (vs', r) -> a_config a = Some text ->
  forall k, ~ config_sets literal a k -> with_key v vs' k = with_key v vs k.
Proof.
  intros v [l|] uc text vs vs' r a H Ha k Hk; cbn [config_file_to_properties] in H.
  - rewrite import_as_kept in H. apply (import_with_key _ _ _ _ _ _ _ _ H). intros i ->. apply Hk.
    split; [rewrite Ha; discriminate|]. exists l, (S i). split; [reflexivity|]. split; [lia|].
    replace (0 + 1 + N.of_nat i)%N with (N.of_nat (S i)) by lia. apply key_numbered.
  - now injection H as <-.
Qed.

Lemma config_rest : forall v literal uc text vs vs',
  config_file_to_properties v vs literal uc text = (vs', Ok tt) ->
  same_but_children vs vs' /\ outside_product v vs' = outside_product v vs /\ rest_kept v vs vs' /\
  (vs' = vs \/ properties v vs' <> []).
Proof.
  intros v [l|] uc text vs vs' H; cbn [config_file_to_properties] in H; [|discriminate].
  rewrite import_as_kept in H. now apply import_rest in H.
Qed.

(** ** The transports *)

Lemma transports_ok : forall v vs ts vs', set_environment_transports v vs ts = (vs', Ok tt) ->
  v <> V0 /\ transport_set v (join (L " ") ts) vs vs'.
Proof.
  intros v vs ts vs' H. assert (Hv : v <> V0) by (intros ->; discriminate). split; [exact Hv|].
  unfold set_environment_transports in H.
  assert (E0 : forall (A : Type) (a b : A), match v with V0 => a | _ => b end = b).
  { intros A a b. destruct v; [contradiction| |]; reflexivity. }
  rewrite E0 in H. unfold virtual_hw_section in H.
  remember (join (L " ") ts) as txt eqn:Etxt. clear Etxt.
  pose proof (find_child_spec vs (VIRTUAL_HW_SECTION v) (VIRTUAL_HW_SECTION_ATTRIB v) true) as F.
  destruct (find_child vs (VIRTUAL_HW_SECTION v) (VIRTUAL_HW_SECTION_ATTRIB v) true) as [[sec|]|]; [|discriminate|discriminate].
  injection H as <-. destruct F as (A & B & E & Ha & Hn).
  assert (Ea : VIRTUAL_HW_SECTION_ATTRIB v = []) by (destruct v; [contradiction| |]; reflexivity).
  assert (Tag : forall x, answers (VIRTUAL_HW_SECTION v) (VIRTUAL_HW_SECTION_ATTRIB v) x <-> etag x = VIRTUAL_HW_SECTION v).
  { intros x. rewrite Ea. unfold answers. split; [now intros []|]. intros Et. split; [exact Et|]. intros k y []. }
  split; [destruct vs; repeat split|].
  exists A, sec, (set_attr (ENVIRONMENT_TRANSPORT v) txt sec), B.
  split; [exact E|]. split.
  { assert (EC : forall cs e, echildren (set_children cs e) = cs) by (intros cs []; reflexivity). rewrite EC.
    rewrite E. clear E. induction A as [|a A IH]; cbn [app update_first].
    - assert (M : child_match (VIRTUAL_HW_SECTION v) (VIRTUAL_HW_SECTION_ATTRIB v) sec = true) by now apply child_match_spec.
      rewrite M. reflexivity.
    - destruct (child_match (VIRTUAL_HW_SECTION v) (VIRTUAL_HW_SECTION_ATTRIB v) a) eqn:Em.
      + exfalso. apply (Hn a); [apply in_or_app; left; left; reflexivity|]. now apply child_match_spec.
      + f_equal. apply IH. intros x Hx. apply Hn. right. exact Hx. }
  split; [apply (proj1 (Tag sec)); exact Ha|]. split; [intros x Hx F; apply (Hn x Hx); apply (proj2 (Tag x)); exact F|].
  do 4 (split; [now destruct sec|]). split; [apply attr_same|]. intros k Hk. now apply attr_other.
Qed.

Lemma hw_not_product : forall v, v <> V0 -> VIRTUAL_HW_SECTION v <> PRODUCT_SECTION v.
Proof. intros v Hv. destruct v; [contradiction| |]; intros F; vm_compute in F; discriminate. Qed.

Lemma transport_kept : forall v text vs vs', v <> V0 -> transport_set v text vs vs' ->
  properties v vs' = properties v vs /\ other_product_content v vs' = other_product_content v vs.
Proof.
  intros v text vs vs' Hv (_ & A & sec & sec' & B & E & E' & Ht & _ & Ht' & _).
  assert (F : filter (is_prod_b v) (echildren vs') = filter (is_prod_b v) (echildren vs)).
  { rewrite E, E', !filter_app. cbn [filter].
    assert (G : forall x, etag x = VIRTUAL_HW_SECTION v -> is_prod_b v x = false).
    { intros x Hx. unfold child_match. rewrite Hx, eqb_false; [reflexivity|now apply hw_not_product]. }
    now rewrite (G sec Ht), (G sec' (eq_trans Ht' Ht)). }
  unfold properties, other_product_content. now rewrite F.
Qed.


(** ** The whole run *)

Definition prepared (v : version) (literal : option str) (vs : elem) (a : edit_args) : elem * result unit :=
  match a_config a with
  | Some text => config_file_to_properties v vs literal (a_user a) text
  | None => (vs, Ok tt)
  end.

Lemma run_ok : forall force ready v literal vs typed a, something_given a ->
  o_result (run force ready v literal vs typed a) = Ok tt ->
  exists vs1, prepared v literal vs a = (vs1, Ok tt) /\
    let e := a_edit a in
    let o := set_each force v (a_user a) (ep_labels e) (ep_descriptions e) vs1 typed 0 (ep_properties e) in
    o_result o = Ok tt /\ o_asked (run force ready v literal vs typed a) = o_asked o /\
    o_left (run force ready v literal vs typed a) = o_left o /\
    ((ep_transports e = [] /\ o_doc (run force ready v literal vs typed a) = o_doc o) \/
     (ep_transports e <> [] /\
      set_environment_transports v (o_doc o) (ep_transports e) = (o_doc (run force ready v literal vs typed a), Ok tt))).
Proof.
  intros force ready v literal vs typed a G H. unfold run in *. fold (prepared v literal vs a) in *.
  destruct (negb (ready_to_run ready (a_edit a))); [discriminate|].
  destruct (prepared v literal vs a) as [vs1 [[]|x]]; [|discriminate]. exists vs1. split; [reflexivity|]. cbn zeta.
  set (o := set_each force v (a_user a) (ep_labels (a_edit a)) (ep_descriptions (a_edit a)) vs1 typed 0 (ep_properties (a_edit a))) in *.
  destruct (o_result o) as [[]|x] eqn:Er; [|congruence]. split; [reflexivity|].
  unfold something_given in G.
  destruct (ep_transports (a_edit a)) as [|t ts].
  - destruct (a_config a) as [text|], (ep_properties (a_edit a)) as [|q qs];
      try (split; [reflexivity|]; split; [reflexivity|]; left; split; reflexivity).
    exfalso. destruct G as [G|[G|G]]; now apply G.
  - destruct (set_environment_transports v (o_doc o) (t :: ts)) as [vs2 [[]|x]] eqn:Et; [|discriminate].
    destruct (a_config a) as [text|], (ep_properties (a_edit a)) as [|q qs];
      (split; [reflexivity|]; split; [reflexivity|]; right; split; [discriminate|reflexivity]).
Qed.

Lemma prepared_with_key : forall v literal vs a vs1 r, prepared v literal vs a = (vs1, r) ->
  forall k, ~ config_sets literal a k -> with_key v vs1 k = with_key v vs k.
Proof.
  intros v literal vs a vs1 r H k Hk. unfold prepared in H. destruct (a_config a) as [text|] eqn:E.
  - now apply (config_with_key _ _ _ _ _ _ _ a H E).
  - now injection H as <-.
Qed.

Lemma final_with_key : forall v vs vs' ts k,
  (ts = [] /\ vs' = vs) \/ (ts <> [] /\ set_environment_transports v vs ts = (vs', Ok tt)) ->
  with_key v vs' k = with_key v vs k.
Proof.
  intros v vs vs' ts k [[_ ->]|[_ H]]; [reflexivity|]. apply transports_ok in H as [Hv H].
  unfold with_key. now rewrite (proj1 (transport_kept _ _ _ _ Hv H)).
Qed.

(** A property named once. *)
Lemma run_once : forall force ready v literal vs typed a i key value ty,
  o_result (run force ready v literal vs typed a) = Ok tt ->
  nth_error (ep_properties (a_edit a)) i = Some (key, value, ty) ->
  (forall j x t, nth_error (ep_properties (a_edit a)) j = Some (key, x, t) -> j = i) ->
  ~ config_sets literal a key ->
  set_from v vs (o_doc (run force ready v literal vs typed a)) key value (a_user a) ty
    (nth_error (ep_labels (a_edit a)) i) (nth_error (ep_descriptions (a_edit a)) i).
Proof.
  intros force ready v literal vs typed a i key value ty H Hi Hu Hc.
  assert (G : something_given a).
  { right. left. intros F. rewrite F in Hi. destruct i; discriminate. }
  destruct (run_ok _ _ _ _ _ _ _ G H) as (vs1 & Hp & Hr & _ & _ & Hd). cbn zeta in *.
  apply set_each_chain in Hr. destruct (chain_nth _ _ _ _ _ _ _ _ Hr i key value ty Hi) as (va & vb & w & C1 & _ & _ & Es & C2).
  cbn [plus] in *. apply set_from_ok in Es. destruct Es as (nw & p & p' & w' & E1 & E2 & Es).
  exists nw, p, p', w'. rewrite (final_with_key _ _ _ _ key Hd).
  split.
  { rewrite <- E1. apply (chain_other _ _ _ _ _ _ _ _ C2). intros j x t F. rewrite nth_skipn in F. apply Hu in F. lia. }
  split; [|exact Es]. rewrite <- E2, <- (prepared_with_key _ _ _ _ _ _ Hp key Hc). symmetry.
  apply (chain_other _ _ _ _ _ _ _ _ C1). intros j x t F. apply nth_firstn in F as [F1 F2]. apply Hu in F2. lia.
Qed.

(** The last time a property is named. *)
Lemma run_last : forall force ready v literal vs typed a i key value ty,
  o_result (run force ready v literal vs typed a) = Ok tt ->
  nth_error (ep_properties (a_edit a)) i = Some (key, value, ty) ->
  (forall j x t, nth_error (ep_properties (a_edit a)) j = Some (key, x, t) -> j <= i) ->
  exists p', with_key v (o_doc (run force ready v literal vs typed a)) key = [p'] /\
    (forall x, value = Some x -> exists y, value_of v p' = Some y /\
       stored_as (get_attr_or p' (PROP_TYPE v) []) x y /\
       conforms (get_attr_or p' (PROP_TYPE v) []) (get_attr_or p' (PROP_QUAL v) []) y) /\
    (forall t, ty = Some t -> get_attr p' (PROP_TYPE v) = Some t) /\
    (forall b, a_user a = Some b -> get_attr p' (PROP_USER_CONFIGABLE v) = Some (if b then L "true" else L "false")) /\
    (forall n, nth_error (ep_labels (a_edit a)) i = Some n ->
       exists e, with_tag (PROPERTY_LABEL v) p' = [e] /\ etext e = Some n) /\
    (forall n, nth_error (ep_descriptions (a_edit a)) i = Some n ->
       exists e, with_tag (PROPERTY_DESC v) p' = [e] /\ etext e = Some n).
Proof.
  intros force ready v literal vs typed a i key value ty H Hi Hu.
  assert (G : something_given a).
  { right. left. intros F. rewrite F in Hi. destruct i; discriminate. }
  destruct (run_ok _ _ _ _ _ _ _ G H) as (vs1 & Hp & Hr & _ & _ & Hd). cbn zeta in *.
  apply set_each_chain in Hr. destruct (chain_nth _ _ _ _ _ _ _ _ Hr i key value ty Hi) as (va & vb & w & C1 & _ & _ & Es & C2).
  cbn [plus] in *. apply set_from_ok in Es. destruct Es as (nw & p & p' & w' & E1 & E2 & _ & Hps & Hw). cbn zeta in Hw.
  exists p'. rewrite (final_with_key _ _ _ _ key Hd). split.
  { rewrite <- E1. apply (chain_other _ _ _ _ _ _ _ _ C2). intros j x t F. rewrite nth_skipn in F. apply Hu in F. lia. }
  split.
  { intros x ->. cbn [value_checked] in Hw. destruct Hw as (y & -> & Hs & Hcf). exists y.
    split; [apply (ps_value _ _ _ _ _ _ _ _ Hps)|]. now split. }
  split; [intros t ->; apply (ps_type _ _ _ _ _ _ _ _ Hps)|].
  split; [intros b Hb; rewrite (ps_user _ _ _ _ _ _ _ _ Hps), Hb; now destruct b|].
  split; intros n Hn.
  - pose proof (ps_label _ _ _ _ _ _ _ _ Hps) as L1. now rewrite Hn in L1.
  - pose proof (ps_desc _ _ _ _ _ _ _ _ Hps) as L1. now rewrite Hn in L1.
Qed.

Lemma run_others : forall force ready v literal vs typed a key, something_given a ->
  o_result (run force ready v literal vs typed a) = Ok tt ->
  (forall j x t, nth_error (ep_properties (a_edit a)) j <> Some (key, x, t)) ->
  ~ config_sets literal a key ->
  with_key v (o_doc (run force ready v literal vs typed a)) key = with_key v vs key.
Proof.
  intros force ready v literal vs typed a key G H Hn Hc.
  destruct (run_ok _ _ _ _ _ _ _ G H) as (vs1 & Hp & Hr & _ & _ & Hd). cbn zeta in *.
  rewrite (final_with_key _ _ _ _ key Hd). apply set_each_chain in Hr.
  rewrite (chain_other _ _ _ _ _ _ _ _ Hr key Hn). apply (prepared_with_key _ _ _ _ _ _ Hp key Hc).
Qed.

Lemma run_rest : forall force ready v literal vs typed a, something_given a ->
  o_result (run force ready v literal vs typed a) = Ok tt ->
  exists vs2, same_but_children vs vs2 /\ outside_product v vs2 = outside_product v vs /\ rest_kept v vs vs2 /\
    (forall k, with_key v (o_doc (run force ready v literal vs typed a)) k = with_key v vs2 k) /\
    match ep_transports (a_edit a) with
    | [] => o_doc (run force ready v literal vs typed a) = vs2
    | ts => transport_set v (join (L " ") ts) vs2 (o_doc (run force ready v literal vs typed a))
    end.
Proof.
  intros force ready v literal vs typed a G H.
  destruct (run_ok _ _ _ _ _ _ _ G H) as (vs1 & Hp & Hr & _ & _ & Hd). cbn zeta in *.
  apply set_each_chain in Hr.
  assert (P : same_but_children vs vs1 /\ outside_product v vs1 = outside_product v vs /\ rest_kept v vs vs1 /\
    (vs1 = vs \/ properties v vs1 <> [])).
  { unfold prepared in Hp. destruct (a_config a) as [text|].
    - now apply config_rest in Hp.
    - injection Hp as <-. split; [repeat split|]. split; [reflexivity|]. split; now left. }
  destruct P as (P1 & P2 & P3 & P4). destruct (chain_rest _ _ _ _ _ _ _ _ Hr) as [Q1 Q2]. pose proof (chain_content _ _ _ _ _ _ _ _ Hr) as Q3.
  exists (o_doc (set_each force v (a_user a) (ep_labels (a_edit a)) (ep_descriptions (a_edit a)) vs1 typed 0 (ep_properties (a_edit a)))).
  split; [now apply sbc_trans with vs1|]. split; [now rewrite Q2|]. split.
  { destruct Q3 as [E|[N E]].
    - destruct P3 as [E1|[N1 E1]]; [left|right; split; [exact N1|]]; congruence.
    - destruct P4 as [->|P4]; [now right|]. exfalso. apply P4. now apply no_section_properties. }
  split; [intros k; apply (final_with_key _ _ _ _ k Hd)|].
  destruct Hd as [[-> Hd]|[Hne Hd]]; [exact Hd|]. apply transports_ok in Hd as [_ Hd].
  destruct (ep_transports (a_edit a)) as [|t ts]; [contradiction|exact Hd].
Qed.

(** ** The questions *)

Lemma confirm_lines_spec : forall typed b rest, confirm_lines typed = Some (b, rest) <->
  exists before t, typed = before ++ t :: rest /\ (forall t', In t' before -> ~ means (yes ++ no) t') /\
    means (if b then yes else no) t.
Proof.
  assert (A : forall t, means (yes ++ no) t <-> exists b, confirm_once t = Some b).
  { intros t. split.
    - intros (u & c & w & E & Hu & Hw & Hi). apply in_app_iff in Hi as [Hi|Hi]; [exists true|exists false];
        apply confirm_once_spec; exists u, c, w; auto.
    - intros (b & H). apply confirm_once_spec in H as (u & c & w & E & Hu & Hw & Hi). exists u, c, w.
      do 3 (split; [assumption|]). apply in_or_app. destruct b; [now left|now right]. }
  induction typed as [|t typed IH]; intros b rest; cbn [confirm_lines].
  - split; [discriminate|]. intros (before & t & E & _). destruct before; discriminate.
  - destruct (confirm_once t) as [b'|] eqn:E.
    + split.
      * intros H. injection H as -> ->. exists [], t. split; [reflexivity|]. split; [intros t' []|]. now apply confirm_once_spec.
      * intros (before & t' & E' & Hb & Ht). destruct before as [|x before].
        -- cbn in E'. injection E' as <- <-. apply confirm_once_spec in Ht. congruence.
        -- exfalso. cbn in E'. injection E' as <- _. apply (Hb t); [now left|]. apply A. now exists b'.
    + rewrite IH. split.
      * intros (before & t' & -> & Hb & Ht). exists (t :: before), t'. split; [reflexivity|]. split; [|exact Ht].
        intros x [<-|Hx]; [|now apply Hb]. intros F. apply A in F as [b' F]. congruence.
      * intros (before & t' & E' & Hb & Ht). destruct before as [|x before].
        -- cbn in E'. injection E' as <- _. apply confirm_once_spec in Ht. congruence.
        -- cbn in E'. injection E' as <- ->. exists before, t'. split; [reflexivity|]. split; [|exact Ht].
           intros y Hy. apply Hb. now right.
Qed.

Lemma agreed_step : forall force typed k typed' ks rest, confirm force typed = Some (true, typed') ->
  agreed force typed' ks rest -> agreed force typed (k :: ks) rest.
Proof.
  intros force typed k typed' ks rest H Ha. unfold confirm in H. destruct force.
  - injection H as ->. now apply ag_force.
  - apply confirm_lines_spec in H as (before & t & -> & Hb & Ht). now apply ag_yes.
Qed.

Lemma set_each_asked : forall force v uc labels descs todo vs typed i,
  let o := set_each force v uc labels descs vs typed i todo in
  match o_result o with
  | Ok _ => agreed force typed (o_asked o) (o_left o)
  | Err ESystemExit => exists ks k before t, o_asked o = ks ++ [k] /\ force = false /\
      agreed force typed ks (before ++ t :: o_left o) /\ (forall t', In t' before -> ~ means (yes ++ no) t') /\ means no t
  | Err _ => True
  end.
Proof.
  intros force v uc labels descs. induction todo as [|[[key value] ty] todo IH]; intros vs typed i; cbn zeta.
  - constructor.
  - cbn [set_each].
    destruct (note_at labels i) as [lb|e] eqn:El.
    2:{ unfold note_at in El. destruct labels; [discriminate|]. destruct (nth_error _ _); [discriminate|]. now injection El as <-. }
    destruct (note_at descs i) as [ds|e] eqn:Ed.
    2:{ unfold note_at in Ed. destruct descs; [discriminate|]. destruct (nth_error _ _); [discriminate|]. now injection Ed as <-. }
    destruct (get_property_value v vs key) as [curr|e] eqn:Eg.
    2:{ cbn [o_result]. destruct (version_V0 v) as [->|Hv]; [discriminate|]. rewrite (get_spec v vs key Hv) in Eg.
        assert (e = ELookupError) as ->; [|exact I].
        destruct (filter (is_prod_b v) (echildren vs)) as [|a [|b r]];
          try (destruct (filter (has_key v key) (properties v vs)) as [|a' [|b' r']]); congruence. }
    assert (Bad : forall vs1 e, set_property v vs key value uc ty lb ds = (vs1, Err e) -> e <> ESystemExit).
    { intros vs1 e E F. subst e. destruct (set_refused _ _ _ _ _ _ _ _ _ _ E) as [[F _]|[[F _]|[F _]]]; discriminate. }
    destruct curr as [c|].
    + destruct (set_property v vs key value uc ty lb ds) as [vs1 [w|e]] eqn:Es.
      * cbn [o_result o_asked o_left app]. apply IH.
      * cbn [o_result]. specialize (Bad _ _ eq_refl). destruct e; try exact I. congruence.
    + destruct (confirm force typed) as [[[|] typed']|] eqn:Ec.
      * destruct (set_property v vs key value uc ty lb ds) as [vs1 [w|e]] eqn:Es.
        -- cbn [o_result o_asked o_left app]. specialize (IH vs1 typed' (S i)). cbn zeta in IH.
           destruct (o_result (set_each force v uc labels descs vs1 typed' (S i) todo)) as [u|e]; [now apply agreed_step with typed'|].
           destruct e; try exact I. destruct IH as (ks & k & before & t & E & Ef & Ha & Hb & Ht).
           exists (key :: ks), k, before, t. rewrite E. split; [reflexivity|]. split; [exact Ef|]. split; [now apply agreed_step with typed'|]. now split.
        -- cbn [o_result]. specialize (Bad _ _ eq_refl). destruct e; try exact I. congruence.
      * cbn [o_result o_asked o_left]. unfold confirm in Ec. destruct force; [discriminate|].
        apply confirm_lines_spec in Ec as (before & t & -> & Hb & Ht).
        exists [], key, before, t. split; [reflexivity|]. split; [reflexivity|]. split; [constructor|]. now split.
      * exact I.
Qed.

Lemma set_get_self : forall v vs key value uc ty label desc vs' w,
  set_property v vs key value uc ty label desc = (vs', Ok w) -> forall c, get_property_value v vs key = Ok (Some c) ->
  exists c', get_property_value v vs' key = Ok (Some c').
Proof.
  intros v vs key value uc ty label desc vs' w H c Hc.
  destruct (version_V0 v) as [->|Hv]; [discriminate|].
  destruct (set_ok _ _ _ _ _ _ _ _ _ _ H) as (nw & p & p' & He & Hps & Hg & _). rewrite Hg.
  rewrite (ps_value _ _ _ _ _ _ _ _ Hps). destruct w as [x|]; [now exists x|].
  assert (Hkp : key_of v p = Some key).
  { destruct He as (pre & post & _ & Hk & _). destruct (tags_differ v) as (D1 & D2 & D3 & D4 & D5 & D6 & _).
    rewrite <- Hk. symmetry. apply (ps_attr _ _ _ _ _ _ _ _ Hps); assumption. }
  destruct (edited_with_key _ _ _ _ _ _ _ He Hkp) as (_ & E2 & _). unfold with_key in E2.
  rewrite (get_spec v vs key Hv), E2 in Hc.
  destruct (filter (is_prod_b v) (echildren vs)) as [|a [|b r]]; [| |discriminate];
    (destruct nw; [discriminate|]; injection Hc as ->; now exists c).
Qed.

(** Asked about are the keys given that have no value when their turn comes. *)
Lemma asked_no_value : forall force v uc labels descs todo vs typed i k,
  In k (o_asked (set_each force v uc labels descs vs typed i todo)) ->
  (exists j x t, nth_error todo j = Some (k, x, t)) /\ (forall c, get_property_value v vs k <> Ok (Some c)).
Proof.
  intros force v uc labels descs. induction todo as [|[[key value] ty] todo IH]; intros vs typed i k H; [destruct H|].
  cbn [set_each] in H.
  destruct (note_at labels i) as [lb|]; [|destruct H]. destruct (note_at descs i) as [ds|]; [|destruct H].
  destruct (get_property_value v vs key) as [curr|] eqn:Eg; [|destruct H].
  assert (Later : forall vs1 w typed', set_property v vs key value uc ty lb ds = (vs1, Ok w) ->
    In k (o_asked (set_each force v uc labels descs vs1 typed' (S i) todo)) ->
    (exists j x t, nth_error ((key, value, ty) :: todo) j = Some (k, x, t)) /\
    (forall c, get_property_value v vs k <> Ok (Some c))).
  { intros vs1 w typed' Es Hin. destruct (IH _ _ _ _ Hin) as [(j & x & t & Hj) Hn]. split; [now exists (S j), x, t|].
    intros c Hc. destruct (str_eqb k key) eqn:Ek.
    - apply str_eqb_eq in Ek as ->. destruct (set_get_self _ _ _ _ _ _ _ _ _ _ Es c Hc) as [c' Hc']. now apply (Hn c').
    - apply (Hn c). rewrite <- Hc. apply (get_other _ _ _ _ _ _ _ _ _ _ k Es). intros ->. now rewrite str_eqb_refl in Ek. }
  destruct curr as [c|].
  - destruct (set_property v vs key value uc ty lb ds) as [vs1 [w|e]] eqn:Es; cbn [o_asked app] in H; [|destruct H].
    now apply (Later _ _ _ eq_refl H).
  - assert (Now : k = key -> (exists j x t, nth_error ((key, value, ty) :: todo) j = Some (k, x, t)) /\
      (forall c, get_property_value v vs k <> Ok (Some c))).
    { intros ->. split; [now exists 0, value, ty|]. intros c Hc. congruence. }
    destruct (confirm force typed) as [[[|] typed']|].
    + destruct (set_property v vs key value uc ty lb ds) as [vs1 [w|e]] eqn:Es; cbn [o_asked app] in H.
      * destruct H as [<-|H]; [now apply Now|]. now apply (Later _ _ _ eq_refl H).
      * destruct H as [<-|[]]. now apply Now.
    + destruct H as [<-|[]]. now apply Now.
    + destruct H as [<-|[]]. now apply Now.
Qed.

Lemma set_each_value_asked : forall force v uc labels descs todo vs typed i,
  o_result (set_each force v uc labels descs vs typed i todo) = Ok tt ->
  forall j k x t, nth_error todo j = Some (k, x, t) -> get_property_value v vs k = Ok None ->
  In k (o_asked (set_each force v uc labels descs vs typed i todo)).
Proof.
  intros force v uc labels descs. induction todo as [|[[key value] ty] todo IH]; intros vs typed i H j k x t Hj Hk; [destruct j; discriminate|].
  cbn [set_each] in H |- *.
  destruct (note_at labels i) as [lb|]; [|discriminate]. destruct (note_at descs i) as [ds|]; [|discriminate].
  destruct (get_property_value v vs key) as [curr|] eqn:Eg; [|discriminate].
  destruct (str_eqb k key) eqn:Ek.
  - apply str_eqb_eq in Ek as ->. rewrite Hk in Eg. injection Eg as <-.
    destruct (confirm force typed) as [[[|] typed']|]; [|discriminate|discriminate].
    destruct (set_property v vs key value uc ty lb ds) as [vs1 [w|e]]; cbn [o_result o_asked app] in *; [now left|discriminate].
  - assert (Hne : k <> key) by (intros ->; now rewrite str_eqb_refl in Ek).
    destruct j as [|j]; [cbn in Hj; congruence|]. cbn [nth_error] in Hj.
    assert (Step : forall vs1 w typed', set_property v vs key value uc ty lb ds = (vs1, Ok w) ->
      o_result (set_each force v uc labels descs vs1 typed' (S i) todo) = Ok tt ->
      In k (o_asked (set_each force v uc labels descs vs1 typed' (S i) todo))).
    { intros vs1 w typed' Es Ho. apply (IH _ _ _ Ho j k x t Hj). rewrite <- Hk. now apply (get_other _ _ _ _ _ _ _ _ _ _ k Es). }
    destruct curr as [c|].
    + destruct (set_property v vs key value uc ty lb ds) as [vs1 [w|e]] eqn:Es; cbn [o_result o_asked app] in *; [|discriminate].
      now apply (Step _ _ _ eq_refl).
    + destruct (confirm force typed) as [[[|] typed']|]; [|discriminate|discriminate].
      destruct (set_property v vs key value uc ty lb ds) as [vs1 [w|e]] eqn:Es; cbn [o_result o_asked app] in *; [|discriminate].
      right. now apply (Step _ _ _ eq_refl).
Qed.
