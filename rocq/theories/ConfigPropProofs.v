(** Proofs about importing a configuration file into properties. *)
From Coq Require Import Lia.
From Verif Require Import PyBase PyBaseProofs PyDict PyDictProofs XmlModel XmlSpec XmlProofs
  NamesModel ValidationModel ValidationSpec ValidationProofs ProfileSpec ProfileDocProofs SectionProofs
  NetworkModel NetworkProofs EnvPropModel EnvPropSpec EnvPropProofs.

(** ** Lines *)

Definition kept (ls : list str) : list str := filter (fun l => negb (skipped l)) (map strip ls).

Lemma strip_blank : forall l, trimmed_of l [] -> strip l = [].
Proof.
  intros l (a & b & E & Ha & Hb & _). cbn [app] in E.
  destruct (strip_trimmed_of l) as (a' & b' & E' & _ & _ & Hh & _).
  destruct (strip l) as [|c t]; [reflexivity|]. exfalso.
  assert (Hc : In c (a ++ b)). { rewrite <- E, E'. apply in_or_app. right. now left. }
  specialize (Hh c t eq_refl). apply in_app_iff in Hc as [Hc|Hc]; [apply Ha in Hc|apply Hb in Hc]; congruence.
Qed.

Lemma meaningful_kept : forall ls ms, meaningful ls ms -> ms = kept ls.
Proof.
  unfold kept. induction 1 as [|l ls ms Ht H IH|l t ls ms Ht H IH|l c t ls ms Ht Hc H IH]; cbn [map filter].
  - reflexivity.
  - rewrite (strip_blank l Ht). exact IH.
  - rewrite (trimmed_of_strip l ("!"%char :: t)); [exact IH|discriminate|exact Ht].
  - rewrite (trimmed_of_strip l (c :: t)); [|discriminate|exact Ht]. cbn [skipped].
    destruct (Ascii.eqb c "!"%char) eqn:E; [apply Ascii.eqb_eq in E; contradiction|]. cbn [negb]. now rewrite IH.
Qed.

Lemma kept_meaningful : forall ls, meaningful ls (kept ls).
Proof.
  unfold kept. induction ls as [|l ls IH]; [constructor|]. cbn [map filter].
  pose proof (strip_trimmed_of l) as Ht. destruct (strip l) as [|c t]; cbn [skipped negb].
  - now apply mf_blank.
  - destruct (Ascii.eqb c "!"%char) eqn:E; cbn [negb].
    + apply Ascii.eqb_eq in E. subst c. now apply mf_comment with t.
    + apply mf_line; auto. intros F. subst c. discriminate.
Qed.

Definition plain (s : str) : Prop := forall c, In c s -> c <> ascii_of_nat 10 /\ c <> ascii_of_nat 13.

Lemma un_plain : forall s r, plain s -> universal_newlines (s ++ r) = s ++ universal_newlines r.
Proof.
  induction s as [|c s IH]; intros r H; [reflexivity|]. cbn [app universal_newlines].
  destruct (Ascii.eqb c CR) eqn:E.
  - apply Ascii.eqb_eq in E. destruct (H c (or_introl eq_refl)) as [_ F]. now contradiction F.
  - f_equal. apply IH. intros x Hx. apply H. now right.
Qed.

Lemma plain_no_nl : forall s, plain s -> forallb (fun c => negb (Ascii.eqb c NL)) s = true.
Proof.
  intros s H. apply forallb_forall. intros c Hc. apply negb_true_iff. destruct (Ascii.eqb c NL) eqn:E; [|reflexivity].
  apply Ascii.eqb_eq in E. destruct (H c Hc) as [F _]. now contradiction F.
Qed.

Lemma file_lines_nl : forall r, file_lines (NL :: r) = [] :: file_lines r.
Proof. intros r. reflexivity. Qed.

Lemma un_cr : forall r, universal_newlines (CR :: r) =
  NL :: match r with d :: r' => if Ascii.eqb d NL then universal_newlines r' else universal_newlines r | [] => [] end.
Proof. intros r. reflexivity. Qed.

Lemma kept_cons : forall a l, kept (a :: l) = kept [a] ++ kept l.
Proof. intros a l. unfold kept. cbn [map filter]. destruct (negb (skipped (strip a))); reflexivity. Qed.

Lemma cut_kept : forall text ls, cut text ls -> kept (file_lines text) = kept ls.
Proof.
  induction 1 as [s H|s c rest ls H Hc Hr IH].
  - unfold file_lines. rewrite <- (app_nil_r s) at 1. rewrite un_plain by exact H. cbn [universal_newlines].
    rewrite app_nil_r. unfold split_on. rewrite split_on_aux_last; [reflexivity|]. now apply plain_no_nl.
  - transitivity (kept [s] ++ kept ls); [|symmetry; apply kept_cons]. rewrite <- IH.
    transitivity (kept ((s : str) :: file_lines rest)); [|apply kept_cons].
    assert (Hs : forall u, split_on NL (s ++ NL :: u) = s :: split_on NL u).
    { intros u. unfold split_on at 1. rewrite split_on_aux_app; [reflexivity|now apply plain_no_nl]. }
    destruct Hc as [->| ->].
    + unfold file_lines at 1. rewrite un_plain by exact H.
      change (universal_newlines (ascii_of_nat 10 :: rest)) with (NL :: universal_newlines rest). now rewrite Hs.
    + unfold file_lines at 1. rewrite un_plain by exact H. change (ascii_of_nat 13) with CR. rewrite un_cr.
      destruct rest as [|d r'].
      * now rewrite Hs.
      * destruct (Ascii.eqb d NL) eqn:E.
        -- apply Ascii.eqb_eq in E. subst d. rewrite Hs, file_lines_nl, (kept_cons s), (kept_cons s ([] :: _)).
           reflexivity.
        -- now rewrite Hs.
Qed.

Lemma cut_exists : forall text, exists ls, cut text ls.
Proof.
  assert (G : forall text s, plain s -> exists ls, cut (s ++ text) ls).
  { induction text as [|c text IH]; intros s Hs.
    - exists [s]. rewrite app_nil_r. now apply cut_last.
    - destruct (Ascii.eqb c NL) eqn:E1; [|destruct (Ascii.eqb c CR) eqn:E2].
      + apply Ascii.eqb_eq in E1. destruct (IH [] (fun x (F : In x []) => match F with end)) as [ls Hl]. exists (s :: ls).
        apply cut_more; [exact Hs|now left|exact Hl].
      + apply Ascii.eqb_eq in E2. destruct (IH [] (fun x (F : In x []) => match F with end)) as [ls Hl]. exists (s :: ls).
        apply cut_more; [exact Hs|now right|exact Hl].
      + destruct (IH (s ++ [c])) as [ls Hl].
        * intros x Hx. apply in_app_iff in Hx as [Hx|[<-|[]]]; [now apply Hs|].
          split; intros F; subst c; discriminate.
        * exists ls. rewrite <- app_assoc in Hl. exact Hl. }
  intros text. apply (G text []). intros c [].
Qed.

(** ** Keys *)

Lemma repeat_digits : forall k, forallb is_digit (repeat "0"%char k) = true.
Proof. induction k as [|k IH]; [reflexivity|]. cbn. exact IH. Qed.

Lemma digits_val_zeros : forall k s, digits_val (repeat "0"%char k ++ s) = digits_val s.
Proof.
  intros k s. unfold digits_val. rewrite digits_val_from_app. f_equal.
  induction k as [|k IH]; [reflexivity|]. cbn [repeat]. exact IH.
Qed.

Lemma key_numbered : forall literal n, numbered_key literal n (config_key literal (N.of_nat n)).
Proof.
  intros literal n. set (m := N.of_nat n). exists (repeat "0"%char (4 - length (dec m)) ++ dec m).
  split; [reflexivity|]. split.
  { apply all_digits_forallb. rewrite forallb_app, repeat_digits. apply dec_digits. }
  split; [rewrite digits_val_zeros; apply digits_val_dec|].
  rewrite app_length, repeat_length. split; [lia|].
  destruct (Nat.le_gt_cases (length (dec m)) 4) as [Hl|Hl]; [left; lia|right].
  replace (4 - length (dec m)) with 0 by lia. cbn [repeat app]. intros d t E.
  destruct (dec_spec m) as (_ & _ & _ & Hh). apply (Hh d t E). intros ->. rewrite E in Hl. cbn in Hl. lia.
Qed.

Lemma numbered_inj : forall literal n m key, numbered_key literal n key -> numbered_key literal m key -> n = m.
Proof.
  intros literal n m key (d & E & _ & Hn & _) (d' & E' & _ & Hm & _). rewrite E in E'.
  apply app_inv_head in E'. apply app_inv_head in E'. subst d'. lia.
Qed.

Lemma key_inj : forall literal a b, config_key literal a = config_key literal b -> a = b.
Proof.
  intros literal a b H. pose proof (key_numbered literal (N.to_nat a)) as Ka. pose proof (key_numbered literal (N.to_nat b)) as Kb.
  rewrite N2Nat.id in Ka, Kb. rewrite H in Ka. pose proof (numbered_inj _ _ _ _ Ka Kb). lia.
Qed.

Lemma key_splits : forall literal n key, no_digits literal -> numbered_key literal n key ->
  splits key [TText (literal ++ L "-"); TNum (N.of_nat n); TText []].
Proof.
  intros literal n key Hl (ds & -> & Hd & Hv & H4 & _). apply splits_text. rewrite <- Hv.
  replace (literal ++ L "-" ++ ds) with ((literal ++ L "-") ++ ds ++ []) by (rewrite app_nil_r, <- app_assoc; reflexivity).
  apply splits_more.
  - intros c Hc. apply in_app_iff in Hc as [Hc|[<-|[]]]; [now apply Hl|reflexivity].
  - now destruct literal.
  - exact Hd.
  - intros ->. cbn in H4. lia.
  - apply splits_end. intros c [].
Qed.

Lemma keys_ordered : forall literal i j ki kj, no_digits literal ->
  numbered_key literal i ki -> numbered_key literal j kj -> (i < j -> natural_lt ki kj).
Proof.
  intros literal i j ki kj Hl Hi Hj Hlt.
  exists [TText (literal ++ L "-"); TNum (N.of_nat i); TText []], [TText (literal ++ L "-"); TNum (N.of_nat j); TText []].
  split; [now apply key_splits|]. split; [now apply key_splits|]. apply klt_tail, klt_num. lia.
Qed.

(** ** The import *)

(** The import is the loop over the lines kept. *)
Fixpoint import_kept (v : version) (vs : elem) (literal : str) (uc : option bool) (num : N) (ms : list str)
    : elem * result unit :=
  match ms with
  | [] => (vs, Ok tt)
  | m :: ms' => match set_property v vs (config_key literal (num + 1)) (Some m) uc None None None with
                | (vs', Err e) => (vs', Err e)
                | (vs', Ok _) => import_kept v vs' literal uc (num + 1) ms'
                end
  end.

Lemma import_as_kept : forall v literal uc ls vs num,
  import_lines v vs literal uc num ls = import_kept v vs literal uc num (kept ls).
Proof.
  intros v literal uc. induction ls as [|l ls IH]; intros vs num; [reflexivity|].
  cbn [import_lines]. unfold kept. cbn [map filter]. destruct (skipped (strip l)); cbn [negb].
  - apply IH.
  - cbn [import_kept].
    destruct (set_property v vs (config_key literal (num + 1)) (Some (strip l)) uc None None None) as [vs' [r|e]]; [|reflexivity].
    apply IH.
Qed.

Lemma set_line : forall v vs key m uc vs' r, set_property v vs key (Some m) uc None None None = (vs', Ok r) ->
  exists y, get_property_value v vs' key = Ok (Some y) /\ stored_as (declared_type v vs key) m y.
Proof.
  intros v vs key m uc vs' r H.
  destruct (set_ok _ _ _ _ _ _ _ _ _ _ H) as (nw & p & p' & He & Hps & Hg & Hw). cbn [value_checked] in Hw.
  destruct Hw as (y & -> & Hs & _). exists y. split.
  - rewrite Hg. f_equal. apply (ps_value _ _ _ _ _ _ _ _ Hps).
  - assert (ET : get_attr_or p' (PROP_TYPE v) [] = declared_type v vs key); [|now rewrite <- ET].
    unfold get_attr_or. rewrite (ps_type _ _ _ _ _ _ _ _ Hps). unfold declared_type.
    destruct He as (pre & post & _ & Hk & Hno & Hold).
    assert (Hkp : key_of v p = Some key).
    { destruct (tags_differ v) as (D1 & D2 & D3 & D4 & D5 & D6 & _). rewrite <- Hk. symmetry.
      apply (ps_attr _ _ _ _ _ _ _ _ Hps); assumption. }
    assert (Hn : forall x, In x (pre ++ post) -> has_key v key x = false).
    { intros x Hx. destruct (has_key v key x) eqn:E; [|reflexivity]. apply has_key_spec in E. now apply Hno in E. }
    destruct nw; cbn [type_set].
    + destruct Hold as (-> & -> & _). rewrite filter_out; [reflexivity|]. intros x Hx. apply Hn, in_or_app. now left.
    + rewrite Hold, filter_app. cbn [filter]. rewrite (proj2 (has_key_spec _ _ _) Hkp), filter_out; [reflexivity|].
      intros x Hx. apply Hn, in_or_app. now left.
Qed.

Lemma import_get_other : forall v literal uc ms vs num vs', import_kept v vs literal uc num ms = (vs', Ok tt) ->
  forall k, (forall i, i < length ms -> k <> config_key literal (num + 1 + N.of_nat i)) ->
  get_property_value v vs' k = get_property_value v vs k.
Proof.
  intros v literal uc. induction ms as [|m ms IH]; intros vs num vs' H k Hk; cbn [import_kept] in H.
  - now injection H as <-.
  - destruct (set_property v vs (config_key literal (num + 1)) (Some m) uc None None None) as [vs1 [r|]] eqn:E; [|discriminate].
    rewrite (IH vs1 (num + 1)%N vs' H).
    + apply (get_other _ _ _ _ _ _ _ _ _ _ k E). specialize (Hk 0). cbn [length] in Hk.
      rewrite N.add_0_r in Hk. apply Hk. lia.
    + intros i Hi. specialize (Hk (S i)). cbn [length] in Hk.
      replace (num + 1 + 1 + N.of_nat i)%N with (num + 1 + N.of_nat (S i))%N by lia. apply Hk. lia.
Qed.

Lemma import_values : forall v literal uc ms vs num vs', import_kept v vs literal uc num ms = (vs', Ok tt) ->
  forall i m, nth_error ms i = Some m ->
  exists y, get_property_value v vs' (config_key literal (num + 1 + N.of_nat i)) = Ok (Some y) /\
    stored_as (declared_type v vs (config_key literal (num + 1 + N.of_nat i))) m y.
Proof.
  intros v literal uc. induction ms as [|m0 ms IH]; intros vs num vs' H i m Hi; [destruct i; discriminate|].
  cbn [import_kept] in H.
  destruct (set_property v vs (config_key literal (num + 1)) (Some m0) uc None None None) as [vs1 [r|]] eqn:E; [|discriminate].
  destruct i as [|i]; cbn [nth_error] in Hi.
  - injection Hi as <-. rewrite N.add_0_r. destruct (set_line _ _ _ _ _ _ _ E) as (y & Hy & Hs). exists y. split; [|exact Hs].
    rewrite <- Hy. apply (import_get_other _ _ _ _ _ _ _ H). intros j Hj F. apply key_inj in F. lia.
  - destruct (IH vs1 (num + 1)%N vs' H i m Hi) as (y & Hy & Hs). exists y.
    replace (num + 1 + N.of_nat (S i))%N with (num + 1 + 1 + N.of_nat i)%N by lia. split; [exact Hy|].
    unfold declared_type in *. rewrite (with_key_other _ _ _ _ _ _ _ _ _ _ _ E) in Hs; [exact Hs|].
    intros F. apply key_inj in F. lia.
Qed.

(** No key of the import is there before: the import succeeds and appends. *)
Lemma set_fresh : forall v vs key m uc, v <> V0 -> length (filter (is_prod_b v) (echildren vs)) <= 1 ->
  (forall p, In p (properties v vs) -> key_of v p <> Some key) ->
  exists vs' p, set_property v vs key (Some m) uc None None None = (vs', Ok (Some m)) /\
    properties v vs' = properties v vs ++ [p] /\ length (filter (is_prod_b v) (echildren vs')) <= 1 /\
    key_of v p = Some key /\ value_of v p = Some m /\ get_attr p (PROP_TYPE v) = Some (L "string") /\
    get_attr p (PROP_USER_CONFIGABLE v) = match uc with Some true => Some (L "true") | Some false => Some (L "false") | None => None end.
Proof.
  intros v vs key m uc Hv Hs Hno.
  destruct (set_property v vs key (Some m) uc None None None) as [vs' [w|e]] eqn:E.
  - destruct (set_ok _ _ _ _ _ _ _ _ _ _ E) as (nw & p & p' & He & Hps & _ & Hw). cbn [value_checked] in Hw.
    destruct Hw as (y & -> & [_ Hst] & _). destruct He as (pre & post & Hp & Hk & Hn & Hold).
    destruct (tags_differ v) as (D1 & D2 & D3 & D4 & D5 & D6 & _).
    destruct nw.
    + destruct Hold as (-> & Hpre & Ep).
      assert (ET : get_attr_or p' (PROP_TYPE v) [] = L "string").
      { unfold get_attr_or. now rewrite (ps_type _ _ _ _ _ _ _ _ Hps). }
      assert (y = m) as ->. { apply Hst. rewrite ET. discriminate. }
      exists vs', p'. split; [reflexivity|]. split; [rewrite Hp, Hpre; reflexivity|].
      split; [apply (ok_sections _ _ _ _ _ _ _ _ _ _ E)|]. split; [exact Hk|].
      split; [apply (ps_value _ _ _ _ _ _ _ _ Hps)|]. split; [apply (ps_type _ _ _ _ _ _ _ _ Hps)|].
      rewrite (ps_user _ _ _ _ _ _ _ _ Hps), Ep. destruct uc as [[]|]; try reflexivity.
      unfold get_attr, new_property. cbn [eattrib dget]. rewrite (eqb_false (PROP_USER_CONFIGABLE v)) by congruence. reflexivity.
    + exfalso. apply (Hno p); [rewrite Hold; apply in_elt|]. rewrite <- Hk. symmetry.
      apply (ps_attr _ _ _ _ _ _ _ _ Hps); assumption.
  - exfalso. destruct (set_refused _ _ _ _ _ _ _ _ _ _ E) as [(_ & F & _)|[(_ & F)|(_ & nw & p & p' & x & He & Hps & Hx & F)]].
    + contradiction.
    + apply F. split; [|split].
      * intros A x M y B Hc Hx Hy. rewrite Hc in Hs. rewrite filter_app in Hs. cbn [filter] in Hs.
        rewrite (proj2 (child_match_spec _ _ _) Hx), filter_app in Hs. cbn [filter] in Hs.
        rewrite (proj2 (child_match_spec _ _ _) Hy), app_length in Hs. cbn [length] in Hs.
        rewrite app_length in Hs. cbn [length] in Hs. lia.
      * intros A x M y B Hc Hx. exfalso. apply (Hno x); [rewrite Hc; apply in_elt|exact Hx].
      * intros x Hin Hk. exfalso. now apply (Hno x).
    + cbn [value_checked] in Hx. injection Hx as <-. destruct He as (pre & post & Hp & Hk & Hn & Hold).
      destruct (tags_differ v) as (D1 & D2 & D3 & D4 & D5 & D6 & D7 & D8 & D9 & _).
      destruct nw.
      * destruct Hold as (_ & _ & Ep). apply F. exists m.
        assert (ET : get_attr_or p' (PROP_TYPE v) [] = L "string").
        { unfold get_attr_or. now rewrite (ps_type _ _ _ _ _ _ _ _ Hps). }
        assert (EQ : get_attr_or p' (PROP_QUAL v) [] = []).
        { unfold get_attr_or. rewrite (ps_attr _ _ _ _ _ _ _ _ Hps (PROP_QUAL v)) by assumption. rewrite Ep.
          unfold get_attr, new_property. cbn [eattrib dget].
          assert (K : PROP_QUAL v <> PROP_KEY v).
          { clear. destruct v; intros E; assert (F : str_eqb (PROP_QUAL V0) (PROP_KEY V0) = false) by reflexivity;
              apply str_eqb_eq in E; vm_compute in E; discriminate. }
          now rewrite (eqb_false _ _ K). }
        rewrite ET, EQ. split; [split; [discriminate|reflexivity]|]. split.
        -- discriminate.
        -- intros n (a & ds & b & E2 & _ & Hne & _). exfalso. destruct a; [|discriminate].
           cbn in E2. discriminate.
        -- intros n (a & ds & b & E2 & _ & Hne & _). exfalso. destruct a; [|discriminate].
           cbn in E2. discriminate.
      * apply (Hno p); [rewrite Hold; apply in_elt|]. rewrite <- Hk. symmetry.
        apply (ps_attr _ _ _ _ _ _ _ _ Hps); assumption.
Qed.

Lemma import_fresh : forall v literal uc ms vs num, v <> V0 ->
  length (filter (is_prod_b v) (echildren vs)) <= 1 ->
  (forall p i, In p (properties v vs) -> i < length ms -> key_of v p <> Some (config_key literal (num + 1 + N.of_nat i))) ->
  exists vs' ps, import_kept v vs literal uc num ms = (vs', Ok tt) /\
    properties v vs' = properties v vs ++ ps /\ length ps = length ms /\
    forall i m p, nth_error ms i = Some m -> nth_error ps i = Some p ->
      key_of v p = Some (config_key literal (num + 1 + N.of_nat i)) /\ value_of v p = Some m /\
      get_attr p (PROP_TYPE v) = Some (L "string") /\
      get_attr p (PROP_USER_CONFIGABLE v) =
        match uc with Some true => Some (L "true") | Some false => Some (L "false") | None => None end.
Proof.
  intros v literal uc. induction ms as [|m ms IH]; intros vs num Hv Hs Hno; cbn [import_kept].
  - exists vs, []. split; [reflexivity|]. split; [now rewrite app_nil_r|]. split; [reflexivity|].
    intros i m p Hi. destruct i; discriminate.
  - destruct (set_fresh v vs (config_key literal (num + 1)) m uc Hv Hs) as (vs1 & p1 & E & Hp & Hs1 & K1 & K2 & K3 & K4).
    { intros p Hp. specialize (Hno p 0 Hp). cbn [length] in Hno. rewrite N.add_0_r in Hno. apply Hno. lia. }
    rewrite E. destruct (IH vs1 (num + 1)%N Hv Hs1) as (vs' & ps & E' & Hp' & Hl & Hps).
    { intros p i Hin Hi F. rewrite Hp in Hin. apply in_app_iff in Hin as [Hin|[<-|[]]].
      - specialize (Hno p (S i) Hin). cbn [length] in Hno.
        replace (num + 1 + N.of_nat (S i))%N with (num + 1 + 1 + N.of_nat i)%N in Hno by lia. apply Hno; [lia|exact F].
      - rewrite K1 in F. injection F as F. apply key_inj in F. lia. }
    exists vs', (p1 :: ps). split; [exact E'|]. split; [rewrite Hp', Hp, <- app_assoc; reflexivity|].
    split; [cbn [length]; lia|]. intros [|i] m' p' Hm Hp2; cbn [nth_error] in *.
    + injection Hm as <-. injection Hp2 as <-. rewrite N.add_0_r. now repeat split.
    + replace (num + 1 + N.of_nat (S i))%N with (num + 1 + 1 + N.of_nat i)%N by lia. now apply Hps.
Qed.

Lemma config_values : forall v vs literal uc text vs' ls ms,
  config_file_to_properties v vs (Some literal) uc text = (vs', Ok tt) -> cut text ls -> meaningful ls ms ->
  forall i m, nth_error ms i = Some m -> exists key y, numbered_key literal (S i) key /\
    get_property_value v vs' key = Ok (Some y) /\ stored_as (declared_type v vs key) m y.
Proof.
  intros v vs literal uc text vs' ls ms H Hc Hm i m Hi. cbn [config_file_to_properties] in H.
  rewrite import_as_kept, (cut_kept text ls Hc), <- (meaningful_kept ls ms Hm) in H.
  destruct (import_values _ _ _ _ _ _ _ H i m Hi) as (y & Hy & Hs).
  exists (config_key literal (N.of_nat (S i))), y. split; [apply key_numbered|].
  replace (N.of_nat (S i)) with (0 + 1 + N.of_nat i)%N by lia. now split.
Qed.

Lemma config_others : forall v vs literal uc text vs' ls ms,
  config_file_to_properties v vs (Some literal) uc text = (vs', Ok tt) -> cut text ls -> meaningful ls ms ->
  forall k, (forall i, 1 <= i <= length ms -> ~ numbered_key literal i k) ->
  get_property_value v vs' k = get_property_value v vs k.
Proof.
  intros v vs literal uc text vs' ls ms H Hc Hm k Hk. cbn [config_file_to_properties] in H.
  rewrite import_as_kept, (cut_kept text ls Hc), <- (meaningful_kept ls ms Hm) in H.
  apply (import_get_other _ _ _ _ _ _ _ H). intros i Hi F. apply (Hk (S i)); [lia|]. subst k.
  replace (0 + 1 + N.of_nat i)%N with (N.of_nat (S i)) by lia. apply key_numbered.
Qed.

Lemma config_fresh : forall v vs literal uc text ls ms, v <> V0 ->
  (forall A x M y B, echildren vs = A ++ x :: M ++ y :: B ->
     answers (PRODUCT_SECTION v) (PRODUCT_SECTION_ATTRIB v) x ->
     ~ answers (PRODUCT_SECTION v) (PRODUCT_SECTION_ATTRIB v) y) ->
  cut text ls -> meaningful ls ms ->
  (forall p i k, In p (properties v vs) -> 1 <= i <= length ms -> numbered_key literal i k -> key_of v p <> Some k) ->
  exists vs' ps, config_file_to_properties v vs (Some literal) uc text = (vs', Ok tt) /\
    properties v vs' = properties v vs ++ ps /\ length ps = length ms /\
    forall i m p, nth_error ms i = Some m -> nth_error ps i = Some p ->
      (exists key, numbered_key literal (S i) key /\ key_of v p = Some key) /\ value_of v p = Some m /\
      get_attr p (PROP_TYPE v) = Some (L "string") /\
      get_attr p (PROP_USER_CONFIGABLE v) =
        match uc with Some true => Some (L "true") | Some false => Some (L "false") | None => None end.
Proof.
  intros v vs literal uc text ls ms Hv Hone Hc Hm Hno. cbn [config_file_to_properties].
  rewrite import_as_kept, (cut_kept text ls Hc), <- (meaningful_kept ls ms Hm).
  destruct (import_fresh v literal uc ms vs 0%N Hv) as (vs' & ps & E & Hp & Hl & Hps).
  - clear - Hone. destruct (filter (is_prod_b v) (echildren vs)) as [|a [|b r]] eqn:E; cbn [length]; try lia. exfalso.
    destruct (find_child vs (PRODUCT_SECTION v) (PRODUCT_SECTION_ATTRIB v) false) as [o|e] eqn:Ef.
    + unfold find_child in Ef. rewrite find_all_one, E in Ef. discriminate.
    + pose proof (find_child_spec vs (PRODUCT_SECTION v) (PRODUCT_SECTION_ATTRIB v) false) as Hf. rewrite Ef in Hf.
      destruct e; try contradiction; [destruct Hf; discriminate|].
      destruct Hf as (A & x & M & y & B & Hc & Hx & Hy). now apply (Hone A x M y B).
  - intros p i Hin Hi F. apply (Hno p (S i) (config_key literal (0 + 1 + N.of_nat i)) Hin); [lia| |exact F].
    replace (0 + 1 + N.of_nat i)%N with (N.of_nat (S i)) by lia. apply key_numbered.
  - exists vs', ps. split; [exact E|]. split; [exact Hp|]. split; [exact Hl|]. intros i m p Hi Hpi.
    destruct (Hps i m p Hi Hpi) as (K1 & K2 & K3 & K4). split; [|now repeat split].
    exists (config_key literal (N.of_nat (S i))). split; [apply key_numbered|]. rewrite K1.
    do 2 f_equal. lia.
Qed.
