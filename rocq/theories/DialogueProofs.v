(** Proofs about the interactive mode of edit-properties. *)
From Coq Require Import Lia.
From Verif Require Import PyBase PyBaseProofs PyDict PyDictProofs XmlModel XmlSpec XmlProofs NamesModel ProfileSpec ProfileModel
  NetworkModel PropArgModel ChooseModel ChooseSpec ChooseProofs EnvPropModel EnvPropSpec EnvPropProofs EditPropModel EditPropSpec EditPropProofs.
Local Open Scope nat_scope.

(** ** Only keys and values matter *)

Definition kv (p : prop_info) : option str * option str := (pi_key p, pi_value p).

Lemma key_list_kv : forall pa pb, map kv pa = map kv pb -> key_list pa = key_list pb.
Proof.
  induction pa as [|a pa IH]; intros [|b pb] H; try discriminate; [reflexivity|].
  cbn [map] in H. injection H as E1 E2 E3. cbn [key_list]. now rewrite E1, (IH pb E3).
Qed.

Lemma find_kv : forall k pa pb, map kv pa = map kv pb ->
  match find (key_is k) pa, find (key_is k) pb with
  | Some p, Some q => kv p = kv q
  | None, None => True
  | _, _ => False
  end.
Proof.
  intros k. induction pa as [|a pa IH]; intros [|b pb] H; try discriminate; [exact I|].
  cbn [map] in H. injection H as E1 E2 E3. cbn [find].
  assert (E : key_is k a = key_is k b) by (unfold key_is; now rewrite E1).
  rewrite E. destruct (key_is k b); [unfold kv; now rewrite E1, E2|]. now apply IH.
Qed.

Lemma dialogue_kv : forall v uc typed vs pa pb, map kv pa = map kv pb ->
  dialogue v uc vs pa Choosing typed = dialogue v uc vs pb Choosing typed /\
  forall p q, kv p = kv q -> dialogue v uc vs pa (Editing p) typed = dialogue v uc vs pb (Editing q) typed.
Proof.
  intros v uc. induction typed as [|t typed IH]; intros vs pa pb H.
  - split; [|reflexivity]. cbn [dialogue]. now rewrite (key_list_kv pa pb H).
  - split.
    + cbn [dialogue]. rewrite (key_list_kv pa pb H). destruct (key_list pb) as [keys|]; [|reflexivity].
      destruct (choose_once keys (L "q") (get_input false (L "q") t)) as [k|]; [|now apply IH].
      destruct (str_eqb k (L "q") || str_eqb k (L "Q")); [reflexivity|].
      pose proof (find_kv k pa pb H) as F. destruct (find (key_is k) pa), (find (key_is k) pb); try contradiction; [|reflexivity].
      now apply IH.
    + intros p q E. injection E as E1 E2. cbn [dialogue]. rewrite E1, E2.
      destruct (same_value match t with [] => pi_value q | _ :: _ => Some t end (pi_value q)); [now apply IH|].
      destruct (set_property v vs match pi_key q with Some k => k | None => [] end
                  match t with [] => pi_value q | _ :: _ => Some t end uc None None None) as [vs' [w|e]].
      * reflexivity.
      * destruct (is_value_unsupported e); [|reflexivity]. apply IH; [exact H|]. unfold kv. now rewrite E1, E2.
Qed.

(** ** The properties that are presented *)

Lemma presentable_sections : forall v vs, presentable v vs -> length (filter (is_prod_b v) (echildren vs)) <= 1.
Proof.
  intros v vs (_ & _ & H).
  destruct (filter (is_prod_b v) (echildren vs)) as [|a [|b r]] eqn:E; cbn [length]; try lia. exfalso.
  assert (S : forall l a r, filter (is_prod_b v) l = a :: r -> exists A B, l = A ++ a :: B /\ is_product v a /\ filter (is_prod_b v) B = r).
  { induction l as [|x l IH]; intros a0 r0 F; [discriminate|]. cbn [filter] in F. destruct (is_prod_b v x) eqn:Ex.
    - injection F as -> <-. exists [], l. split; [reflexivity|]. split; [apply (proj1 (child_match_spec _ _ _)); exact Ex|reflexivity].
    - destruct (IH _ _ F) as (A & B & -> & Ha & Hr). exists (x :: A), B. split; [reflexivity|]. split; [exact Ha|exact Hr]. }
  destruct (S _ _ _ E) as (A & B & E1 & Ha & Hr). destruct (S _ _ _ Hr) as (M & B' & -> & Hb & _).
  exact (H A a M b B' E1 Ha Hb).
Qed.

Lemma sections_presentable : forall v vs, length (filter (is_prod_b v) (echildren vs)) <= 1 ->
  forall A x M y B, echildren vs = A ++ x :: M ++ y :: B -> is_product v x -> ~ is_product v y.
Proof.
  intros v vs H A x M y B E Hx Hy. rewrite E, filter_app in H. cbn [filter] in H.
  rewrite (proj2 (child_match_spec _ _ _) Hx), filter_app in H. cbn [filter] in H.
  rewrite (proj2 (child_match_spec _ _ _) Hy) in H. rewrite !app_length in H. cbn [length] in H. rewrite app_length in H. cbn [length] in H. lia.
Qed.

Lemma env_props : forall v vs, presentable v vs -> environment_properties v vs = Ok (map (info_of v) (properties v vs)).
Proof.
  intros v vs H. pose proof (presentable_sections v vs H) as Hl. destruct H as (Hv & _ & _).
  unfold environment_properties, properties, product_section.
  assert (E0 : forall (A : Type) (a b : A), match v with V0 => a | _ => b end = b).
  { intros A a b. destruct v; [contradiction| |]; reflexivity. }
  rewrite E0. unfold find_child. rewrite find_all_one.
  destruct (filter (is_prod_b v) (echildren vs)) as [|s [|s2 r]]; cbn [rbind flat_map length] in *; [reflexivity| |lia].
  now rewrite app_nil_r.
Qed.

Lemma shown_kv : forall v vs, map kv (map (info_of v) (properties v vs)) = shown v vs.
Proof. intros v vs. unfold shown. rewrite map_map. reflexivity. Qed.

Lemma key_list_shown : forall v vs pa, presentable v vs -> map kv pa = shown v vs -> key_list pa = Some (keys_of v vs).
Proof.
  intros v vs pa (_ & Hk & _) E. unfold shown, keys_of in *. revert pa E. induction (properties v vs) as [|p l IH]; intros [|a pa] E; try discriminate.
  - reflexivity.
  - cbn [map] in E. injection E as E1 E2 E3. cbn [key_list flat_map]. rewrite E1.
    rewrite (IH (fun x Hx => Hk x (or_intror Hx)) pa E3).
    specialize (Hk p (or_introl eq_refl)). destruct (key_of v p) as [k|]; [reflexivity|contradiction].
Qed.

Lemma keys_shown : forall v vs vs', map (key_of v) (properties v vs') = map (key_of v) (properties v vs) -> keys_of v vs' = keys_of v vs.
Proof.
  intros v vs vs'. unfold keys_of. generalize (properties v vs). induction (properties v vs') as [|p l IH]; intros [|q l'] E; try discriminate; [reflexivity|].
  cbn [map flat_map] in *. injection E as E1 E2. now rewrite E1, (IH l' E2).
Qed.

Lemma keys_In : forall v vs k, In k (keys_of v vs) <-> exists p, In p (properties v vs) /\ key_of v p = Some k.
Proof.
  intros v vs k. unfold keys_of. rewrite in_flat_map. split.
  - intros (p & Hp & Hk). exists p. split; [exact Hp|]. destruct (key_of v p) as [k'|]; [|destruct Hk]. destruct Hk as [->|[]]. reflexivity.
  - intros (p & Hp & Hk). exists p. split; [exact Hp|]. rewrite Hk. now left.
Qed.

(** ** One setting in the dialogue *)

Lemma update_count : forall (p : elem -> bool) (f : elem -> elem) l, (forall x, p x = true -> p (f x) = true) ->
  length (filter p (update_first p f l)) = length (filter p l).
Proof.
  intros p f l H. induction l as [|x l IH]; [reflexivity|]. cbn [update_first filter].
  destruct (p x) eqn:E; cbn [filter].
  - rewrite (H x E). reflexivity.
  - now rewrite E.
Qed.

Lemma put_sections : forall v vs sec key old prop, is_product v sec ->
  length (filter (is_prod_b v) (echildren (put_property v vs sec key old prop))) = length (filter (is_prod_b v) (echildren vs)).
Proof.
  intros v vs sec key old prop Hs. unfold put_property.
  assert (EC : forall cs e, echildren (set_children cs e) = cs) by (intros cs []; reflexivity). rewrite EC.
  apply update_count. intros _ _. apply child_match_spec. destruct sec, old; exact Hs.
Qed.

Lemma set_sections : forall v vs key value uc ty label desc vs' r, v <> V0 ->
  length (filter (is_prod_b v) (echildren vs)) = 1 ->
  set_property v vs key value uc ty label desc = (vs', r) ->
  length (filter (is_prod_b v) (echildren vs')) = 1.
Proof.
  intros v vs key value uc ty label desc vs' r Hv H1 H. unfold set_property in H.
  assert (E0 : forall (A : Type) (a b : A), match v with V0 => a | _ => b end = b).
  { intros A a b. destruct v; [contradiction| |]; reflexivity. }
  rewrite E0 in H. clear E0. unfold ensure_section, find_child at 1 in H. rewrite find_all_one in H.
  destruct (filter (is_prod_b v) (echildren vs)) as [|sec [|x l]] eqn:E; [discriminate| |discriminate].
  assert (Hs : is_product v sec).
  { apply (proj1 (child_match_spec _ _ _)). assert (In sec (filter (is_prod_b v) (echildren vs))) as Hi by (rewrite E; now left).
    now apply filter_In in Hi. }
  assert (P : forall old prop, length (filter (is_prod_b v) (echildren (put_property v vs sec key old prop))) = 1).
  { intros old prop. rewrite put_sections, E; [reflexivity|exact Hs]. }
  destruct (find_child sec (PROPERTY v) [(PROP_KEY v, key)] false) as [old|]; [|injection H as <- _; now rewrite E].
  match type of H with context [match ?m with Ok _ => _ | Err _ => _ end] => destruct m as [w|] end; [|injection H as <- _; apply P].
  match type of H with context [set_note ?a ?b ?c] => destruct (set_note a b c) end; [|injection H as <- _; apply P].
  match type of H with context [set_note ?a ?b ?c] => destruct (set_note a b c) end; injection H as <- _; apply P.
Qed.

Lemma set_lookup_same : forall v vs key value uc ty vs', v <> V0 ->
  length (filter (is_prod_b v) (echildren vs)) = 1 ->
  set_property v vs key value uc ty None None = (vs', Err ELookupError) -> vs' = vs.
Proof.
  intros v vs key value uc ty vs' Hv H1 H. unfold set_property in H.
  assert (E0 : forall (A : Type) (a b : A), match v with V0 => a | _ => b end = b).
  { intros A a b. destruct v; [contradiction| |]; reflexivity. }
  rewrite E0 in H. clear E0. unfold ensure_section, find_child at 1 in H. rewrite find_all_one in H.
  destruct (filter (is_prod_b v) (echildren vs)) as [|sec [|x l]] eqn:E; [discriminate| |discriminate].
  destruct (find_child sec (PROPERTY v) [(PROP_KEY v, key)] false) as [old|]; [|now injection H as <- _].
  exfalso. cbn [set_note] in H.
  match type of H with context [match ?m with Ok _ => _ | Err _ => _ end] => destruct m as [w|e] eqn:Em end; [discriminate|].
  injection H as _ ->.
  match type of Em with context [match ?m with Some _ => _ | None => _ end] => destruct m as [z|] end; [|discriminate].
  match type of Em with context [validate_value ?a ?b ?c] => destruct (validate_value a b c) as [y|e] eqn:Ev end; [discriminate|].
  apply validate_err in Ev as ->. discriminate.
Qed.

Lemma set_lookup_dup : forall v vs key value uc ty vs', v <> V0 ->
  length (filter (is_prod_b v) (echildren vs)) = 1 ->
  set_property v vs key value uc ty None None = (vs', Err ELookupError) -> 1 < length (with_key v vs key).
Proof.
  intros v vs key value uc ty vs' Hv H1 H.
  assert (G : exists e, get_property_value v vs key = Err e).
  { unfold set_property in H. unfold get_property_value, product_section.
    assert (E0 : forall (A : Type) (a b : A), match v with V0 => a | _ => b end = b).
    { intros A a b. destruct v; [contradiction| |]; reflexivity. }
    rewrite E0 in H. rewrite E0. clear E0. unfold find_child at 1. unfold ensure_section, find_child at 1 in H. rewrite find_all_one in H. rewrite find_all_one.
    destruct (filter (is_prod_b v) (echildren vs)) as [|sec [|x l]] eqn:E; [discriminate| |discriminate]. cbn [rbind].
    destruct (find_child sec (PROPERTY v) [(PROP_KEY v, key)] false) as [old|e]; [|now exists e].
    exfalso. cbn [set_note] in H.
    match type of H with context [match ?m with Ok _ => _ | Err _ => _ end] => destruct m as [w|e] eqn:Em end; [discriminate|].
    injection H as _ ->.
    match type of Em with context [match ?m with Some _ => _ | None => _ end] => destruct m as [z|] end; [|discriminate].
    match type of Em with context [validate_value ?a ?b ?c] => destruct (validate_value a b c) as [y|e] eqn:Ev end; [discriminate|].
    apply validate_err in Ev as ->. discriminate. }
  destruct G as [e G]. rewrite (get_spec v vs key Hv) in G.
  destruct (filter (is_prod_b v) (echildren vs)) as [|sec [|x l]]; [discriminate| |discriminate].
  unfold with_key. destruct (filter (has_key v key) (properties v vs)) as [|a [|b r]]; [discriminate|discriminate|]. cbn [length]. lia.
Qed.

(** What a setting of an existing property does to the document. *)
Record gentle (v : version) (vs vs' : elem) : Prop := {
  ge_keys : map (key_of v) (properties v vs') = map (key_of v) (properties v vs);
  ge_same : same_but_children vs vs';
  ge_out : outside_product v vs' = outside_product v vs;
  ge_rest : other_product_content v vs' = other_product_content v vs;
  ge_conf : (forall p, In p (properties v vs) -> prop_conforms v p) -> forall p, In p (properties v vs') -> prop_conforms v p;
  ge_attr : Forall2 (fun p p' => etag p' = etag p /\ etext p' = etext p /\ etail p' = etail p /\
                 (forall k, k <> PROP_VALUE v -> k <> PROP_USER_CONFIGABLE v -> get_attr p' k = get_attr p k) /\
                 forall t, with_tag t p' = with_tag t p) (properties v vs) (properties v vs') }.

Lemma F2_refl : forall (A : Type) (R : A -> A -> Prop) l, (forall x, R x x) -> Forall2 R l l.
Proof. intros A R l H. induction l; constructor; auto. Qed.
Lemma F2_trans : forall (A : Type) (R : A -> A -> Prop), (forall x y z, R x y -> R y z -> R x z) ->
  forall a b c, Forall2 R a b -> Forall2 R b c -> Forall2 R a c.
Proof.
  intros A R HR a b c H. revert c. induction H as [|x y a b Hxy H IH]; intros c Hc; inversion Hc; subst; constructor; eauto.
Qed.

Lemma gentle_refl : forall v vs, gentle v vs vs.
Proof. intros v vs. constructor; auto; [repeat split|]. apply F2_refl. intros x. auto. Qed.

Lemma gentle_trans : forall v a b c, gentle v a b -> gentle v b c -> gentle v a c.
Proof.
  intros v a b c [A1 A2 A3 A4 A5 A6] [B1 B2 B3 B4 B5 B6]. constructor; try congruence; auto; [now apply sbc_trans with b|].
  apply F2_trans with (b := properties v b); auto.
  intros x y z (X1 & X2 & X3 & X4 & X5) (Y1 & Y2 & Y3 & Y4 & Y5). do 3 (split; [congruence|]).
  split; [intros k H1 H2; now rewrite Y4, X4|intros t; now rewrite Y5, X5].
Qed.

Lemma gentle_presentable : forall v vs vs', presentable v vs -> map (key_of v) (properties v vs') = map (key_of v) (properties v vs) ->
  length (filter (is_prod_b v) (echildren vs')) <= 1 -> presentable v vs'.
Proof.
  intros v vs vs' (Hv & Hk & _) E Hl. split; [exact Hv|]. split.
  - intros p Hp F. apply (in_map (key_of v)) in Hp. rewrite E, F in Hp. apply in_map_iff in Hp as (q & Eq & Hq). now apply (Hk q).
  - now apply sections_presentable.
Qed.

Lemma set_existing : forall v vs key x uc vs' r, presentable v vs -> In key (keys_of v vs) ->
  set_property v vs key (Some x) uc None None None = (vs', r) ->
  presentable v vs' /\ gentle v vs vs' /\
  match r with
  | Err e => shown v vs' = shown v vs /\ (e = EValueUnsupported \/ (e = ELookupError /\ 1 < length (with_key v vs key)))
  | Ok _ => True
  end.
Proof.
  intros v vs key x uc vs' r Hp Hin H. pose proof Hp as (Hv & Hk & Hs).
  apply keys_In in Hin as (p0 & Hp0 & Hk0).
  assert (H1 : length (filter (is_prod_b v) (echildren vs)) = 1).
  { pose proof (presentable_sections v vs Hp) as Hl. unfold properties in Hp0.
    destruct (filter (is_prod_b v) (echildren vs)) as [|a [|b l]]; [destruct Hp0|reflexivity|cbn [length] in Hl; lia]. }
  pose proof (set_sections _ _ _ _ _ _ _ _ _ _ Hv H1 H) as H2.
  destruct (set_property_cases _ _ _ _ _ _ _ _ _ _ Hv H) as
    [(-> & -> & Hu)|(nw & p & p' & He & Ht & Hkp & Hsb & Ho & Hc & Hr)].
  { split; [exact Hp|]. split; [apply gentle_refl|]. split; [reflexivity|]. right. split; [reflexivity|]. exact (set_lookup_dup _ _ _ _ _ _ _ Hv H1 H). }
  destruct (tags_differ v) as (D1 & D2 & D3 & D4 & D5 & D6 & D7 & D8 & D9 & D10).
  assert (nw = false) as ->.
  { destruct nw; [|reflexivity]. exfalso. destruct He as (pre & post & _ & _ & Hno & -> & E & _).
    rewrite E in Hp0. apply (Hno p0); [|exact Hk0]. now rewrite app_nil_r. }
  assert (Hc' : other_product_content v vs' = other_product_content v vs).
  { destruct Hc as [Hc|[Hc _]]; [exact Hc|]. exfalso. rewrite (no_section_properties v vs Hc) in Hp0. destruct Hp0. }
  cbn zeta in Hr. cbn [type_set] in Hr.
  assert (LK : r = Err ELookupError \/ exists w, property_set v uc None None None w p p' /\
    match r with
    | Ok _ => exists y, w = Some y /\ conforms (get_attr_or p (PROP_TYPE v) []) (get_attr_or p (PROP_QUAL v) []) y
    | Err e => w = None /\ e = EValueUnsupported end).
  { destruct r as [w|e].
    - right. destruct Hr as (Hps & _ & y & -> & _ & Hcf). exists (Some y). split; [exact Hps|]. now exists y.
    - destruct e; try contradiction; [|now left]. right. destruct Hr as (Hps & _). exists None. split; [exact Hps|now split]. }
  destruct LK as [->|(w & Hps & Hw)].
  { rewrite (set_lookup_same _ _ _ _ _ _ _ Hv H1 H). split; [exact Hp|]. split; [apply gentle_refl|]. split; [reflexivity|]. right. split; [reflexivity|]. exact (set_lookup_dup _ _ _ _ _ _ _ Hv H1 H). }
  destruct He as (pre & post & E' & Hk' & Hno & E). cbn iota in E.
  assert (EK : key_of v p' = key_of v p) by congruence.
  assert (KE : map (key_of v) (properties v vs') = map (key_of v) (properties v vs)).
  { rewrite E, E', !map_app. cbn [map]. now rewrite EK. }
  split; [apply gentle_presentable with vs; auto; lia|]. split.
  - constructor; auto.
    + intros Hall q Hq. rewrite E' in Hq. apply in_app_iff in Hq as [Hq|[<-|Hq]].
      * apply Hall. rewrite E. apply in_or_app. now left.
      * intros y Hy.
        assert (ET : get_attr_or p' (PROP_TYPE v) [] = get_attr_or p (PROP_TYPE v) []) by (unfold get_attr_or; now rewrite (ps_type _ _ _ _ _ _ _ _ Hps)).
        assert (EQ : get_attr_or p' (PROP_QUAL v) [] = get_attr_or p (PROP_QUAL v) []) by (unfold get_attr_or; now rewrite (ps_attr _ _ _ _ _ _ _ _ Hps)).
        rewrite ET, EQ. rewrite (ps_value _ _ _ _ _ _ _ _ Hps) in Hy. destruct r as [w'|e].
        -- destruct Hw as (z & -> & Hcf). now injection Hy as <-.
        -- destruct Hw as [-> _]. apply (Hall p); [|exact Hy]. rewrite E. apply in_elt.
      * apply Hall. rewrite E. apply in_or_app. right. now right.
    + rewrite E, E'. apply Forall2_app; [apply F2_refl; intros q; auto|]. constructor; [|apply F2_refl; intros q; auto].
      split; [apply Hps|]. split; [apply Hps|]. split; [apply Hps|]. split.
      * intros k K1 K2. destruct (str_eqb k (PROP_TYPE v)) eqn:Ek.
        -- apply str_eqb_eq in Ek as ->. apply (ps_type _ _ _ _ _ _ _ _ Hps).
        -- apply (ps_attr _ _ _ _ _ _ _ _ Hps); auto. intros ->. now rewrite str_eqb_refl in Ek.
      * intros t. destruct (str_eqb t (PROPERTY_LABEL v)) eqn:E1; [apply str_eqb_eq in E1 as ->; apply (ps_label _ _ _ _ _ _ _ _ Hps)|].
        destruct (str_eqb t (PROPERTY_DESC v)) eqn:E2; [apply str_eqb_eq in E2 as ->; apply (ps_desc _ _ _ _ _ _ _ _ Hps)|].
        apply (ps_rest _ _ _ _ _ _ _ _ Hps); intros ->; [rewrite str_eqb_refl in E1|rewrite str_eqb_refl in E2]; discriminate.
  - destruct r as [w'|e]; [exact I|]. destruct Hw as [-> ->]. split; [|now left].
    unfold shown. rewrite E, E', !map_app. cbn [map]. rewrite EK. f_equal. f_equal. f_equal. apply (ps_value _ _ _ _ _ _ _ _ Hps).
Qed.

(** ** The dialogue *)

Lemma with_key_length : forall v vs vs' k, map (key_of v) (properties v vs') = map (key_of v) (properties v vs) ->
  length (with_key v vs' k) = length (with_key v vs k).
Proof.
  intros v vs vs' k. unfold with_key. generalize (properties v vs).
  induction (properties v vs') as [|a l IH]; intros [|b l'] G; try discriminate; [reflexivity|].
  cbn [map] in G. injection G as G1 G2. cbn [filter].
  assert (HH : has_key v k a = has_key v k b) by (unfold has_key; now rewrite G1).
  rewrite HH. destruct (has_key v k b); cbn [length]; now rewrite (IH l' G2).
Qed.

Definition ready_at (v : version) (vs : elem) (pa : list prop_info) (at_ : place) : Prop :=
  presentable v vs /\ map kv pa = shown v vs /\ match at_ with Choosing => True | Editing p => In p pa end.

Lemma editing_key : forall v vs pa p, presentable v vs -> map kv pa = shown v vs -> In p pa ->
  exists k, pi_key p = Some k /\ In k (keys_of v vs).
Proof.
  intros v vs pa p (_ & Hk & _) E Hp. apply (in_map kv) in Hp. rewrite E in Hp. unfold shown in Hp.
  apply in_map_iff in Hp as (q & Eq & Hq). injection Eq as E1 _.
  destruct (key_of v q) as [k|] eqn:Ek; [|now apply Hk in Ek]. exists k. split; [now rewrite <- E1|].
  apply keys_In. now exists q.
Qed.

Lemma dialogue_gentle : forall v uc typed vs pa at_, ready_at v vs pa at_ ->
  gentle v vs (fst (dialogue v uc vs pa at_ typed)) /\ presentable v (fst (dialogue v uc vs pa at_ typed)) /\
  forall e, snd (dialogue v uc vs pa at_ typed) = Err e ->
    e = EEOFError \/ (e = ELookupError /\ exists k, In k (keys_of v vs) /\ 1 < length (with_key v vs k)).
Proof.
  intros v uc. induction typed as [|t typed IH]; intros vs pa at_ (Hp & E & Hat).
  - destruct at_; cbn [dialogue]; rewrite ?(key_list_shown v vs pa Hp E); cbn [fst snd];
      (split; [apply gentle_refl|]; split; [exact Hp|]; intros e F; injection F as <-; now left).
  - destruct at_ as [|p]; cbn [dialogue].
    + rewrite (key_list_shown v vs pa Hp E).
      destruct (choose_once (keys_of v vs) (L "q") (get_input false (L "q") t)) as [k|] eqn:Ec; [|apply IH; split; [exact Hp|]; split; [exact E|exact I]].
      destruct (str_eqb k (L "q") || str_eqb k (L "Q")) eqn:Eq.
      { cbn [fst snd]. split; [apply gentle_refl|]. split; [exact Hp|]. discriminate. }
      destruct (find (key_is k) pa) as [p|] eqn:Ef.
      * apply IH. split; [exact Hp|]. split; [exact E|]. exact (proj1 (find_some _ _ Ef)).
      * exfalso. (* the choice is one of the keys *)
        assert (Hk : In k (keys_of v vs)).
        { apply choose_once_spec in Ec. apply selects_range in Ec as [->|Hk]; [|exact Hk]. discriminate. }
        apply keys_In in Hk as (q & Hq & Hkq). assert (Hq' : In (key_of v q, value_of v q) (map kv pa)).
        { rewrite E. unfold shown. apply in_map_iff. now exists q. }
        apply in_map_iff in Hq' as (i & Ei & Hi). pose proof (find_none _ _ Ef i Hi) as F. unfold key_is in F.
        injection Ei as Ei _. rewrite Ei, Hkq, str_eqb_refl in F. discriminate.
    + set (nv := match t with [] => pi_value p | _ => Some t end).
      destruct (same_value nv (pi_value p)) eqn:Esv; [apply IH; split; [exact Hp|]; split; [exact E|exact I]|].
      destruct (editing_key v vs pa p Hp E Hat) as (k & Ek & Hin). rewrite Ek.
      assert (exists x, nv = Some x) as [x Ex].
      { unfold nv in *. destruct t; [|now eexists]. destruct (pi_value p); [now eexists|discriminate]. }
      rewrite Ex. destruct (set_property v vs k (Some x) uc None None None) as [vs' r] eqn:Es.
      destruct (set_existing _ _ _ _ _ _ _ Hp Hin Es) as (Hp' & Hg & Hr).
      assert (CK : forall k0, In k0 (keys_of v vs') /\ 1 < length (with_key v vs' k0) -> In k0 (keys_of v vs) /\ 1 < length (with_key v vs k0)).
      { intros k0 [A1 A2]. rewrite (keys_shown v vs vs' (ge_keys _ _ _ Hg)) in A1. split; [exact A1|].
        now rewrite (with_key_length v vs vs' k0 (ge_keys _ _ _ Hg)) in A2. }
      destruct r as [w|e].
      * rewrite (env_props v vs' Hp').
        destruct (IH vs' (map (info_of v) (properties v vs')) Choosing) as (I1 & I2 & I3); [split; [exact Hp'|]; split; [apply shown_kv|exact I]|].
        split; [apply gentle_trans with vs'; assumption|]. split; [exact I2|].
        intros e He. destruct (I3 e He) as [->|(-> & k0 & A)]; [now left|]. right. split; [reflexivity|]. exists k0. now apply CK.
      * destruct Hr as (Hsh & Hr). destruct Hr as [->|[-> Hu]]; cbn [is_value_unsupported].
        -- destruct (IH vs' pa (Editing p)) as (I1 & I2 & I3); [split; [exact Hp'|]; split; [now rewrite Hsh|exact Hat]|].
           split; [apply gentle_trans with vs'; assumption|]. split; [exact I2|].
           intros e He. destruct (I3 e He) as [->|(-> & k0 & A)]; [now left|]. right. split; [reflexivity|]. exists k0. now apply CK.
        -- cbn [fst snd]. split; [exact Hg|]. split; [exact Hp'|]. intros e He. injection He as <-. right. split; [reflexivity|].
           exists k. now split.
Qed.

(** ** Step by step *)

Notation talk v uc vs typed := (edit_properties_interactive false v uc vs typed).

Lemma talk_is : forall v uc vs typed, presentable v vs -> forall pa, map kv pa = shown v vs ->
  talk v uc vs typed = dialogue v uc vs pa Choosing typed.
Proof.
  intros v uc vs typed Hp pa E. unfold edit_properties_interactive. rewrite (env_props v vs Hp).
  apply dialogue_kv. now rewrite shown_kv.
Qed.

Lemma quits : forall v uc vs (rest : list str) (t : str), presentable v vs -> t = [] \/ t = L "q" \/ (t = L "Q" /\ In (L "Q") (keys_of v vs)) ->
  talk v uc vs (t :: rest) = (vs, Ok tt).
Proof.
  intros v uc vs rest t Hp Ht. rewrite (talk_is v uc vs _ Hp _ (shown_kv v vs)). cbn [dialogue].
  rewrite (key_list_shown v vs _ Hp (shown_kv v vs)).
  destruct Ht as [->|[->|[-> Hi]]]; [reflexivity|reflexivity|].
  assert (C : choose_once (keys_of v vs) (L "q") (get_input false (L "q") (L "Q")) = Some (L "Q")).
  { apply choose_once_spec. apply sel_exact. right. exact Hi. }
  rewrite C. reflexivity.
Qed.

Lemma not_understood : forall v uc vs (rest : list str) (t : str), presentable v vs -> t <> [] ->
  (forall r, ~ selects (keys_of v vs) (L "q") t r) -> talk v uc vs (t :: rest) = talk v uc vs rest.
Proof.
  intros v uc vs rest t Hp Ht Hn. rewrite !(talk_is v uc vs _ Hp _ (shown_kv v vs)). cbn [dialogue].
  rewrite (key_list_shown v vs _ Hp (shown_kv v vs)).
  assert (G : get_input false (L "q") t = t) by (destruct t; [contradiction|reflexivity]). rewrite G.
  destruct (choose_once (keys_of v vs) (L "q") t) as [r|] eqn:C; [|reflexivity].
  exfalso. apply choose_once_spec in C. now apply (Hn r).
Qed.

(** The state in which the value of the first property with this key is asked for *)
Lemma chosen : forall v uc vs (rest : list str) (t k : str), presentable v vs -> t <> [] -> k <> L "q" -> k <> L "Q" ->
  selects (keys_of v vs) (L "q") t k ->
  exists p l, with_key v vs k = p :: l /\
    talk v uc vs (t :: rest) = dialogue v uc vs (map (info_of v) (properties v vs)) (Editing (info_of v p)) rest.
Proof.
  intros v uc vs rest t k Hp Ht Hq HQ Hs. rewrite (talk_is v uc vs _ Hp _ (shown_kv v vs)).
  cbn [dialogue]. rewrite (key_list_shown v vs _ Hp (shown_kv v vs)).
  assert (G : get_input false (L "q") t = t) by (destruct t; [contradiction|reflexivity]). rewrite G.
  rewrite (proj2 (choose_once_spec _ _ _ _) Hs).
  rewrite (proj2 (str_eqb_neq k (L "q")) Hq), (proj2 (str_eqb_neq k (L "Q")) HQ). cbn [orb].
  assert (Hk : In k (keys_of v vs)).
  { apply selects_range in Hs as [->|Hk]; [contradiction|exact Hk]. }
  apply keys_In in Hk as (q & Hqi & Hkq). unfold with_key.
  assert (F : exists p l, filter (has_key v k) (properties v vs) = p :: l /\
    find (key_is k) (map (info_of v) (properties v vs)) = Some (info_of v p)).
  { clear -Hqi Hkq. induction (properties v vs) as [|a l IH]; [destruct Hqi|]. cbn [filter map find].
    assert (Ea : key_is k (info_of v a) = has_key v k a) by reflexivity. rewrite Ea.
    destruct (has_key v k a) eqn:E; [now exists a, (filter (has_key v k) l)|].
    apply IH. destruct Hqi as [->|Hqi]; [|exact Hqi]. apply has_key_spec in Hkq. congruence. }
  destruct F as (p & l & F1 & F2). exists p, l. split; [exact F1|]. now rewrite F2.
Qed.

Lemma unchanged : forall v uc vs (rest : list str) (t x k : str) p l, presentable v vs -> t <> [] -> k <> L "q" -> k <> L "Q" ->
  selects (keys_of v vs) (L "q") t k -> with_key v vs k = p :: l -> x = [] \/ value_of v p = Some x ->
  talk v uc vs (t :: x :: rest) = talk v uc vs rest.
Proof.
  intros v uc vs rest t x k p l Hp Ht Hq HQ Hs Hw Hx.
  destruct (chosen v uc vs (x :: rest) t k Hp Ht Hq HQ Hs) as (p' & l' & E & ->). rewrite E in Hw. injection Hw as -> ->.
  rewrite (talk_is v uc vs _ Hp _ (shown_kv v vs)). cbn [dialogue].
  assert (S : same_value match x with [] => pi_value (info_of v p) | _ :: _ => Some x end (pi_value (info_of v p)) = true).
  { change (pi_value (info_of v p)) with (value_of v p). destruct Hx as [->|Hx].
    - destruct (value_of v p); [apply str_eqb_refl|reflexivity].
    - rewrite Hx. destruct x; apply str_eqb_refl. }
  now rewrite S.
Qed.

Lemma edits : forall v uc vs (rest : list str) (t x k : str) p l, presentable v vs -> t <> [] -> k <> L "q" -> k <> L "Q" ->
  selects (keys_of v vs) (L "q") t k -> with_key v vs k = p :: l -> x <> [] -> value_of v p <> Some x ->
  talk v uc vs (t :: x :: rest) =
    match set_property v vs k (Some x) uc None None None with
    | (vs', Ok _) => talk v uc vs' rest
    | (vs', Err EValueUnsupported) => talk v uc vs' (t :: rest)
    | (vs', Err e) => (vs', Err e)
    end.
Proof.
  intros v uc vs rest t x k p l Hp Ht Hq HQ Hs Hw Hx Hne.
  destruct (chosen v uc vs (x :: rest) t k Hp Ht Hq HQ Hs) as (p' & l' & E & ->). rewrite E in Hw. injection Hw as -> ->.
  assert (Hk : In k (keys_of v vs)).
  { apply selects_range in Hs as [->|Hk]; [contradiction|exact Hk]. }
  cbn [dialogue].
  assert (NV : match x with [] => pi_value (info_of v p) | _ :: _ => Some x end = Some x) by (destruct x; [contradiction|reflexivity]).
  rewrite NV. change (pi_value (info_of v p)) with (value_of v p).
  assert (S : same_value (Some x) (value_of v p) = false).
  { destruct (value_of v p) as [y|]; [|reflexivity]. cbn [same_value]. apply str_eqb_neq. congruence. }
  rewrite S. assert (EK : pi_key (info_of v p) = Some k).
  { change (key_of v p = Some k). assert (Hi : In p (with_key v vs k)) by (rewrite E; now left).
    apply filter_In in Hi as [_ Hi]. now apply has_key_spec. }
  rewrite EK. destruct (set_property v vs k (Some x) uc None None None) as [vs' r] eqn:Es.
  destruct (set_existing _ _ _ _ _ _ _ Hp Hk Es) as (Hp' & Hg & Hr). destruct r as [w|e].
  - rewrite (env_props v vs' Hp'). symmetry. now apply talk_is; [|apply shown_kv].
  - destruct Hr as (Hsh & Hr). destruct Hr as [->|[-> _]]; cbn [is_value_unsupported]; [|reflexivity].
    assert (Hs' : selects (keys_of v vs') (L "q") t k).
    { now rewrite (keys_shown v vs vs' (ge_keys _ _ _ Hg)). }
    destruct (chosen v uc vs' rest t k Hp' Ht Hq HQ Hs') as (p2 & l2 & E2 & ->).
    apply dialogue_kv; [now rewrite !shown_kv|].
    unfold shown, with_key in *. clear -Hsh E E2. revert Hsh E E2. generalize (properties v vs).
    induction (properties v vs') as [|a la IH]; intros [|b lb] Hsh E E2; try discriminate.
    cbn [map] in Hsh. injection Hsh as S1 S2 S3. cbn [filter] in E, E2.
    assert (HH : has_key v k a = has_key v k b) by (unfold has_key; now rewrite S1).
    rewrite HH in E2. destruct (has_key v k b).
    + injection E as <- _. injection E2 as <- _. unfold kv, info_of. cbn [pi_key pi_value]. unfold key_of, value_of in *. now rewrite S1, S2.
    + now apply (IH lb).
Qed.

(** An empty line or two end every dialogue. *)
Lemma ends : forall v uc (typed : list str) vs pa at_, ready_at v vs pa at_ ->
  snd (dialogue v uc vs pa at_ (typed ++ [[] : str; [] : str])) <> Err EEOFError.
Proof.
  intros v uc. induction typed as [|t typed IH]; intros vs pa at_ (Hp & E & Hat).
  - cbn [app]. destruct at_ as [|p]; cbn [dialogue]; rewrite ?(key_list_shown v vs pa Hp E); [discriminate|].
    assert (S : same_value (pi_value p) (pi_value p) = true) by (destruct (pi_value p); [apply str_eqb_refl|reflexivity]).
    rewrite S. discriminate.
  - cbn [app]. destruct at_ as [|p]; cbn [dialogue].
    + rewrite (key_list_shown v vs pa Hp E).
      destruct (choose_once (keys_of v vs) (L "q") (get_input false (L "q") t)) as [k|] eqn:Ec.
      2:{ apply IH. split; [exact Hp|]. now split. }
      destruct (str_eqb k (L "q") || str_eqb k (L "Q")); [discriminate|].
      destruct (find (key_is k) pa) as [p|] eqn:Ef; [|discriminate].
      apply IH. split; [exact Hp|]. split; [exact E|]. exact (proj1 (find_some _ _ Ef)).
    + set (nv := match t with [] => pi_value p | _ => Some t end).
      destruct (same_value nv (pi_value p)) eqn:Esv.
      { apply IH. split; [exact Hp|]. now split. }
      destruct (editing_key v vs pa p Hp E Hat) as (k & Ek & Hin). rewrite Ek.
      assert (exists x, nv = Some x) as [x Ex].
      { unfold nv in *. destruct t; [|now eexists]. destruct (pi_value p); [now eexists|discriminate]. }
      rewrite Ex. destruct (set_property v vs k (Some x) uc None None None) as [vs' r] eqn:Es.
      destruct (set_existing _ _ _ _ _ _ _ Hp Hin Es) as (Hp' & Hg & Hr). destruct r as [w|e].
      * rewrite (env_props v vs' Hp'). apply IH. split; [exact Hp'|]. split; [apply shown_kv|exact I].
      * destruct Hr as (Hsh & Hr). destruct Hr as [->|[-> _]]; cbn [is_value_unsupported]; [|discriminate].
        apply IH. split; [exact Hp'|]. split; [now rewrite Hsh|exact Hat].
Qed.

Lemma interactive_run : forall force ready v literal vs typed a, ~ something_given a ->
  ready_to_run ready (a_edit a) = true ->
  o_doc (run force ready v literal vs typed a) = fst (edit_properties_interactive force v (a_user a) vs typed) /\
  o_result (run force ready v literal vs typed a) = snd (edit_properties_interactive force v (a_user a) vs typed) /\
  o_asked (run force ready v literal vs typed a) = [].
Proof.
  intros force ready v literal vs typed a G Hr. unfold run. rewrite Hr. cbn [negb]. unfold something_given in G.
  destruct (a_config a); [exfalso; apply G; left; discriminate|].
  destruct (ep_properties (a_edit a)); [|exfalso; apply G; right; left; discriminate].
  destruct (ep_transports (a_edit a)); [|exfalso; apply G; right; right; discriminate].
  cbn [set_each o_result o_doc o_left o_asked]. destruct (edit_properties_interactive force v (a_user a) vs typed). auto.
Qed.

Lemma interactive_gentle : forall force v uc vs typed, presentable v vs ->
  gentle v vs (fst (edit_properties_interactive force v uc vs typed)) /\
  forall e, snd (edit_properties_interactive force v uc vs typed) = Err e ->
    e = EEOFError \/ (e = ELookupError /\ exists k, In k (keys_of v vs) /\ 1 < length (with_key v vs k)).
Proof.
  intros force v uc vs typed Hp. unfold edit_properties_interactive. rewrite (env_props v vs Hp). destruct force.
  - rewrite (key_list_shown v vs _ Hp (shown_kv v vs)). split; [apply gentle_refl|discriminate].
  - destruct (dialogue_gentle v uc typed vs (map (info_of v) (properties v vs)) Choosing) as (H1 & _ & H2).
    + split; [exact Hp|]. split; [apply shown_kv|exact I].
    + now split.
Qed.

Lemma interactive_force : forall v uc vs typed, presentable v vs ->
  edit_properties_interactive true v uc vs typed = (vs, Ok tt).
Proof.
  intros v uc vs typed Hp. unfold edit_properties_interactive. rewrite (env_props v vs Hp).
  now rewrite (key_list_shown v vs _ Hp (shown_kv v vs)).
Qed.

Lemma interactive_ends : forall v uc vs (typed : list str), presentable v vs ->
  snd (edit_properties_interactive false v uc vs (typed ++ [[] : str; [] : str])) <> Err EEOFError.
Proof.
  intros v uc vs typed Hp. unfold edit_properties_interactive. rewrite (env_props v vs Hp).
  apply ends. split; [exact Hp|]. split; [apply shown_kv|exact I].
Qed.
