(** Proofs about item.py:280-353 and 623-648: a text that is set is reported. *)
From Coq Require Import Lia.
From Verif Require Import PyBase PyBaseProofs PyDict PyDictProofs XmlModel NamesModel
  ItemModel ItemSpec PsetProofs ItemProofs ItemSetProofs ItemProfileProofs ItemReachProofs
  ItemEffectProofs LookupProofs WildcardProofs.

Lemma plain_pattern_inv : forall x, plain_pattern x = true ->
  x <> [] /\ plain_repl x = true.
Proof.
  intros x H. unfold plain_pattern in H. apply andb_true_iff in H as [H1 H2]. split.
  - intros ->. discriminate.
  - unfold plain_repl. rewrite forallb_forall in *. intros c Hc. specialize (H2 c Hc).
    destruct (Ascii.eqb_spec c "\"%char) as [->|]; [discriminate|reflexivity].
Qed.

Lemma word_facts : forall w, In w placeholder_words ->
  noU w /\ w <> [] /\ plain_pattern (mk w) = true.
Proof.
  assert (H : forallb (fun w => negb (existsb (Ascii.eqb U) w) && negb (is_nil w)
                                && plain_pattern (mk w)) placeholder_words = true) by reflexivity.
  rewrite forallb_forall in H. intros w Hw. specialize (H w Hw).
  apply andb_true_iff in H as [H H3]. apply andb_true_iff in H as [H1 H2].
  split; [|split; [|exact H3]].
  - intros Hin. apply negb_true_iff in H1.
    assert (existsb (Ascii.eqb U) w = true); [|congruence].
    apply existsb_exists. exists U. split; [exact Hin|reflexivity].
  - intros ->. discriminate.
Qed.

Lemma re_sub_plain : forall E pat r s, plain_pattern pat = true -> plain_repl r = true ->
  re_sub E pat r s = Ok (replace_all pat r s).
Proof. intros E pat r s H1 H2. unfold re_sub. now rewrite H1, H2. Qed.

(** What each word stands for. *)
Definition value_text (o : option value) (f : value -> str) : str :=
  match o with Some v => f v | None => [] end.
Definition fits (E : env) (ps : props) (P : list profile) (en : str) (rho : str -> str) : Prop :=
  rho (L "EN") = en /\
  (forall v, get_raw ps RESOURCE_SUB_TYPE (Some P) = Some v -> rho (L "RST") = slashed v) /\
  (forall v, get_raw ps VIRTUAL_QUANTITY (Some P) = Some v -> rho (L "VQ") = vtext E v) /\
  (forall v, get_raw ps CONNECTION (Some P) = Some v -> rho (L "CONN") = vtext E v).
Definition the_rho (E : env) (ps : props) (P : list profile) (en : str) (w : str) : str :=
  if str_eqb w (L "EN") then en
  else if str_eqb w (L "RST") then value_text (get_raw ps RESOURCE_SUB_TYPE (Some P)) slashed
  else if str_eqb w (L "VQ") then value_text (get_raw ps VIRTUAL_QUANTITY (Some P)) (vtext E)
  else value_text (get_raw ps CONNECTION (Some P)) (vtext E).
Lemma the_rho_fits : forall E ps P en, fits E ps P en (the_rho E ps P en).
Proof.
  intros E ps P en. unfold fits, the_rho. cbn.
  split; [reflexivity|]. repeat split; intros v ->; reflexivity.
Qed.

(** ** Setting *)
Lemma sub_value_step : forall E ps tag f w P rho ts o,
  get_value E ps tag (Some P) = Ok o -> In w placeholder_words ->
  (forall x, o = Some x -> harmless_value (f x) /\ rho w = f x) ->
  (forall m, In (Mark m) ts -> In m placeholder_words) ->
  exists ts', sub_value E ps tag f (mk w) P (VStr (flat ts)) = Ok (VStr (flat ts')) /\
    expand rho ts' = expand rho ts /\
    (forall m, In (Mark m) ts' -> (m = w /\ o <> None) \/ In (Mark m) ts).
Proof.
  intros E ps tag f w P rho ts o Ho Hw Hx Hm. unfold sub_value. rewrite Ho. cbn [rbind].
  destruct o as [x|]; [|exists ts; split; [reflexivity|]; split; [reflexivity|auto]].
  destruct (Hx x eq_refl) as [(H1 & H2 & H3) Hr].
  destruct (mark_step rho (f x) w) with (n := length ts) (ts := ts) as (ts' & E1 & E2 & E3).
  - now apply plain_pattern_inv.
  - exact H2.
  - exact Hr.
  - lia.
  - intros m Hin. specialize (Hm m Hin). split; [now apply word_facts|now apply H3].
  - exists ts'. cbn [vtext]. rewrite re_sub_plain.
    + rewrite E1. split; [reflexivity|]. split; [exact E2|].
      intros m Hin. destruct (E3 m Hin) as [->|H]; [left; split; [reflexivity|discriminate]|now right].
    + exact H1.
    + apply plain_pattern_inv. now apply word_facts.
Qed.

(** ** Reporting *)

(** No placeholder word stands between two marks. *)
Definition apart (rho : str -> str) (ts : list tok) : Prop :=
  forall w, In w placeholder_words ->
  forall a m1 m2 b, ts <> a ++ Mark m1 :: map Lit w ++ Mark m2 :: b.

Lemma sub_opt_step : forall E w r rho ts tr,
  In w placeholder_words ->
  (forall s, r = Some s -> plain_repl s = true) ->
  noU (expand rho ts) -> (forall m, In (Mark m) ts -> In m placeholder_words) -> apart rho ts ->
  (In (Mark w) ts -> r = Some (flat tr) /\ expand rho tr = rho w) ->
  exists ts', sub_opt E (mk w) r (Ok (VStr (flat ts))) = Ok (VStr (flat ts')) /\
    expand rho ts' = expand rho ts /\
    (forall m, In (Mark m) ts' -> (In (Mark m) ts /\ m <> w) \/ (In (Mark m) tr /\ In (Mark w) ts)).
Proof.
  intros E w r rho ts tr Hw Hp HU Hm Ha Hr.
  assert (Hdec : In (Mark w) ts \/ ~ In (Mark w) ts).
  { clear. induction ts as [|[c|m] ts IH].
    - now right.
    - destruct IH as [H|H]; [left; now right|]. right. intros [E|E]; [discriminate|now apply H].
    - destruct (str_eqb m w) eqn:E.
      + apply str_eqb_eq in E. subst. left. now left.
      + destruct IH as [H|H]; [left; now right|]. right. intros [E'|E']; [|now apply H].
        injection E' as ->. rewrite (proj2 (str_eqb_eq w w)) in E; congruence. }
  assert (Hstep : forall tr', replace_all (mk w) (flat tr') (flat ts) = flat (subst_mark w tr' ts)).
  { intros tr'. apply render_step.
    - now apply word_facts.
    - intros c Hc. now apply (lits_noU rho ts).
    - intros m Hin. apply word_facts. now apply Hm.
    - now apply Ha. }
  destruct Hdec as [Hin|Hno].
  - destruct (Hr Hin) as [-> He]. cbn [sub_opt rbind vtext].
    rewrite re_sub_plain; [|now apply word_facts|now apply Hp]. cbn [rbind].
    exists (subst_mark w tr ts). rewrite Hstep. split; [reflexivity|].
    split; [now apply expand_subst|]. intros m Hmin. apply marks_subst in Hmin as [H|H]; auto.
  - exists ts. split; [|split; [reflexivity|]].
    + destruct r as [s|]; [|reflexivity]. cbn [sub_opt rbind vtext].
      rewrite re_sub_plain; [|now apply word_facts|now apply Hp]. cbn [rbind].
      rewrite <- (flat_lits s), Hstep. do 2 f_equal.
      f_equal. clear - Hno. induction ts as [|[c|m] ts IH]; [reflexivity| |].
      * cbn. f_equal. apply IH. intros H. apply Hno. now right.
      * cbn. destruct (str_eqb m w) eqn:E.
        -- apply str_eqb_eq in E. subst. exfalso. apply Hno. now left.
        -- cbn. f_equal. apply IH. intros H. apply Hno. now right.
    + intros m Hin. left. split; [exact Hin|]. intros ->. contradiction.
Qed.

Lemma has_wildcard_noU : forall s, noU s -> has_wildcard s = false.
Proof.
  intros s H. unfold has_wildcard.
  assert (K : forall w, contains (U :: w) s = false).
  { intros w. destruct (contains (U :: w) s) eqn:E; [|reflexivity].
    apply contains_spec in E as (a & b & ->). exfalso. apply H. apply in_or_app. right. now left. }
  change (L "_RST_") with (U :: L "RST_"). change (L "_VQ_") with (U :: L "VQ_").
  change (L "_CONN_") with (U :: L "CONN_"). change (L "_EN_") with (U :: L "EN_").
  now rewrite !K.
Qed.

(** ** The three common steps *)

Definition present (E : env) (ps : props) (P : list profile) (m : str) : Prop :=
  (m = L "RST" /\ get_raw ps RESOURCE_SUB_TYPE (Some P) <> None) \/
  (m = L "VQ" /\ get_raw ps VIRTUAL_QUANTITY (Some P) <> None) \/
  (m = L "CONN" /\ get_raw ps CONNECTION (Some P) <> None).
Lemma present_word : forall E ps P m, present E ps P m -> In m placeholder_words.
Proof.
  intros E ps P m [[-> _]|[[-> _]|[-> _]]]; cbn; tauto.
Qed.
Lemma present_not_en : forall E ps P m, present E ps P m -> m <> L "EN".
Proof. intros E ps P m [[-> _]|[[-> _]|[-> _]]]; discriminate. Qed.

Lemma plain_tags : forall E, is_text E RESOURCE_SUB_TYPE = false /\
  is_text E VIRTUAL_QUANTITY = false /\ is_text E CONNECTION = false.
Proof. intros E. unfold is_text. destruct (e_ver E); vm_compute; auto. Qed.

(** The three values, if there, are harmless. *)
Definition harmless_three (E : env) (ps : props) (P : list profile) : Prop :=
  (forall v, get_raw ps RESOURCE_SUB_TYPE (Some P) = Some v -> harmless_value (slashed v)) /\
  (forall v, get_raw ps VIRTUAL_QUANTITY (Some P) = Some v -> harmless_value (vtext E v)) /\
  (forall v, get_raw ps CONNECTION (Some P) = Some v -> harmless_value (vtext E v)).

Lemma add_three : forall E ps P en rho ts, fits E ps P en rho -> harmless_three E ps P ->
  (forall m, In (Mark m) ts -> In m placeholder_words) ->
  exists ts',
    (do v1 <- sub_value E ps VIRTUAL_QUANTITY (vtext E) (L "_VQ_") P (VStr (flat ts));
     do v2 <- sub_value E ps RESOURCE_SUB_TYPE slashed (L "_RST_") P v1;
     sub_value E ps CONNECTION (vtext E) (L "_CONN_") P v2) = Ok (VStr (flat ts')) /\
    expand rho ts' = expand rho ts /\
    (forall m, In (Mark m) ts' -> In (Mark m) ts \/ present E ps P m).
Proof.
  intros E ps P en rho ts (_ & Fr & Fv & Fc) (Hr & Hv & Hc) Hm.
  destruct (plain_tags E) as (Tr & Tv & Tc).
  destruct (sub_value_step E ps VIRTUAL_QUANTITY (vtext E) (L "VQ") P rho ts
              (get_raw ps VIRTUAL_QUANTITY (Some P))) as (t1 & E1 & X1 & M1).
  { now apply get_value_plain. } { cbn; tauto. } { intros x Hx. split; auto. } { exact Hm. }
  change (mk (L "VQ")) with (L "_VQ_") in E1. rewrite E1. cbn [rbind].
  assert (W1 : forall m, In (Mark m) t1 -> In m placeholder_words).
  { intros m Hin. destruct (M1 m Hin) as [[-> _]|H]; [cbn; tauto|now apply Hm]. }
  destruct (sub_value_step E ps RESOURCE_SUB_TYPE slashed (L "RST") P rho t1
              (get_raw ps RESOURCE_SUB_TYPE (Some P))) as (t2 & E2 & X2 & M2).
  { now apply get_value_plain. } { cbn; tauto. } { intros x Hx. split; auto. } { exact W1. }
  change (mk (L "RST")) with (L "_RST_") in E2. rewrite E2. cbn [rbind].
  assert (W2 : forall m, In (Mark m) t2 -> In m placeholder_words).
  { intros m Hin. destruct (M2 m Hin) as [[-> _]|H]; [cbn; tauto|now apply W1]. }
  destruct (sub_value_step E ps CONNECTION (vtext E) (L "CONN") P rho t2
              (get_raw ps CONNECTION (Some P))) as (t3 & E3 & X3 & M3).
  { now apply get_value_plain. } { cbn; tauto. } { intros x Hx. split; auto. } { exact W2. }
  change (mk (L "CONN")) with (L "_CONN_") in E3. exists t3. split; [exact E3|].
  split; [congruence|]. intros m Hin.
  destruct (M3 m Hin) as [[-> H]|H]; [right; right; right; auto|].
  destruct (M2 m H) as [[-> H']|H']; [right; left; auto|].
  destruct (M1 m H') as [[-> H'']|H'']; [right; right; left; auto|]. now left.
Qed.

(** Rendering with the values of one profile, which include those of the set. *)
Definition agrees (ps ps' : props) (P Q : list profile) : Prop :=
  forall tag v, tag = RESOURCE_SUB_TYPE \/ tag = VIRTUAL_QUANTITY \/ tag = CONNECTION ->
    get_raw ps tag (Some P) = Some v -> get_raw ps' tag (Some Q) = Some v.

Lemma harmless_repl : forall x, harmless_value x -> plain_repl x = true.
Proof. intros x (H & _). now apply plain_pattern_inv. Qed.

Lemma present_value : forall E ps P en rho ps' Q w tag f,
  fits E ps P en rho -> agrees ps ps' P Q ->
  (w = L "RST" /\ tag = RESOURCE_SUB_TYPE /\ f = slashed) \/
  (w = L "VQ" /\ tag = VIRTUAL_QUANTITY /\ f = vtext E) \/
  (w = L "CONN" /\ tag = CONNECTION /\ f = vtext E) ->
  present E ps P w ->
  option_map f (get_raw ps' tag (Some Q)) = Some (flat (map Lit (rho w))) /\
  expand rho (map Lit (rho w)) = rho w.
Proof.
  intros E ps P en rho ps' Q w tag f (_ & Fr & Fv & Fc) Ha Hk Hp.
  split; [|apply expand_lits]. rewrite flat_lits.
  assert (K : forall v, get_raw ps tag (Some P) = Some v -> rho w = f v ->
    (tag = RESOURCE_SUB_TYPE \/ tag = VIRTUAL_QUANTITY \/ tag = CONNECTION) ->
    option_map f (get_raw ps' tag (Some Q)) = Some (rho w)).
  { intros v Hv Hr Ht. rewrite (Ha tag v Ht Hv). cbn. now rewrite Hr. }
  destruct Hk as [(-> & -> & ->)|[(-> & -> & ->)|(-> & -> & ->)]];
    destruct Hp as [[E1 Hp]|[[E1 Hp]|[E1 Hp]]]; try discriminate E1;
    match goal with Hn : get_raw ?a ?b ?c <> None |- _ => destruct (get_raw a b c) as [v|] eqn:Ev;
      [|contradiction] end; apply (K v); auto.
Qed.

Lemma render_three : forall E ps P en rho ps' Q ts,
  fits E ps P en rho -> agrees ps ps' P Q -> harmless_three E ps' Q ->
  noU (expand rho ts) -> (forall ts', expand rho ts' = expand rho ts ->
      (forall m, In (Mark m) ts' -> present E ps P m) -> apart rho ts') ->
  (forall m, In (Mark m) ts -> present E ps P m) ->
  (let a := sub_opt E (L "_RST_")
              (option_map slashed (get_raw ps' RESOURCE_SUB_TYPE (Some Q))) (Ok (VStr (flat ts))) in
   let b := sub_opt E (L "_VQ_")
              (option_map (vtext E) (get_raw ps' VIRTUAL_QUANTITY (Some Q))) a in
   sub_opt E (L "_CONN_")
     (option_map (vtext E) (get_raw ps' CONNECTION (Some Q))) b) = Ok (VStr (expand rho ts)).
Proof.
  intros E ps P en rho ps' Q ts HF Ha (Hr & Hv & Hc) HU Hap Hm.
  assert (Hlit : forall w m, ~ In (Mark m) (map Lit (rho w))).
  { intros w m H. apply in_map_iff in H as (c & H & _). discriminate. }
  destruct (sub_opt_step E (L "RST") (option_map slashed (get_raw ps' RESOURCE_SUB_TYPE (Some Q)))
              rho ts (map Lit (rho (L "RST")))) as (t1 & E1 & X1 & M1).
  { cbn; tauto. }
  { intros s Hs. destruct (get_raw ps' RESOURCE_SUB_TYPE (Some Q)); [|discriminate].
    injection Hs as <-. apply harmless_repl. now apply Hr. }
  { exact HU. } { intros m Hin. apply (present_word E ps P). now apply Hm. }
  { now apply Hap. }
  { intros Hin. apply (present_value E ps P en rho ps' Q (L "RST") RESOURCE_SUB_TYPE slashed); auto. }
  change (mk (L "RST")) with (L "_RST_") in E1. cbv zeta. rewrite E1.
  assert (P1 : forall m, In (Mark m) t1 -> present E ps P m /\ m <> L "RST").
  { intros m Hin. destruct (M1 m Hin) as [[H H']|[H _]]; [split; [now apply Hm|exact H']|].
    now apply Hlit in H. }
  destruct (sub_opt_step E (L "VQ") (option_map (vtext E) (get_raw ps' VIRTUAL_QUANTITY (Some Q)))
              rho t1 (map Lit (rho (L "VQ")))) as (t2 & E2 & X2 & M2).
  { cbn; tauto. }
  { intros s Hs. destruct (get_raw ps' VIRTUAL_QUANTITY (Some Q)); [|discriminate].
    injection Hs as <-. apply harmless_repl. now apply Hv. }
  { now rewrite X1. } { intros m Hin. apply (present_word E ps P). now apply P1. }
  { apply Hap; [exact X1|]. intros m Hin. now apply P1. }
  { intros Hin. apply (present_value E ps P en rho ps' Q (L "VQ") VIRTUAL_QUANTITY (vtext E)); auto.
    now apply P1. }
  change (mk (L "VQ")) with (L "_VQ_") in E2. rewrite E2.
  assert (P2 : forall m, In (Mark m) t2 -> present E ps P m /\ m <> L "RST" /\ m <> L "VQ").
  { intros m Hin. destruct (M2 m Hin) as [[H H']|[H _]].
    - destruct (P1 m H). auto.
    - now apply Hlit in H. }
  destruct (sub_opt_step E (L "CONN") (option_map (vtext E) (get_raw ps' CONNECTION (Some Q)))
              rho t2 (map Lit (rho (L "CONN")))) as (t3 & E3 & X3 & M3).
  { cbn; tauto. }
  { intros s Hs. destruct (get_raw ps' CONNECTION (Some Q)); [|discriminate].
    injection Hs as <-. apply harmless_repl. now apply Hc. }
  { now rewrite X2, X1. } { intros m Hin. apply (present_word E ps P). now apply P2. }
  { apply Hap; [congruence|]. intros m Hin. now apply P2. }
  { intros Hin. apply (present_value E ps P en rho ps' Q (L "CONN") CONNECTION (vtext E)); auto.
    now apply P2. }
  change (mk (L "CONN")) with (L "_CONN_") in E3. rewrite E3. do 2 f_equal.
  assert (N3 : forall m, ~ In (Mark m) t3).
  { intros m Hin. destruct (M3 m Hin) as [[H H']|[H _]]; [|now apply Hlit in H].
    destruct (P2 m H) as (Hp & H1 & H2). destruct Hp as [[-> _]|[[-> _]|[-> _]]]; contradiction. }
  rewrite <- X1, <- X2, <- X3. clear - N3.
  induction t3 as [|[c|m] t3 IH]; [reflexivity| |].
  - cbn. f_equal. apply IH. intros m H. apply (N3 m). now right.
  - exfalso. apply (N3 m). now left.
Qed.

(** A recorded element name and what it renders to. *)
Lemma tokenise_name : forall E ps P en rho raw,
  fits E ps P en rho -> harmless_three E ps P ->
  forall y,
  (let a := sub_opt E (L "_RST_")
              (option_map slashed (get_raw ps RESOURCE_SUB_TYPE (Some P))) (Ok (VStr raw)) in
   let b := sub_opt E (L "_VQ_")
              (option_map (vtext E) (get_raw ps VIRTUAL_QUANTITY (Some P))) a in
   sub_opt E (L "_CONN_")
     (option_map (vtext E) (get_raw ps CONNECTION (Some P))) b) = Ok y ->
  exists ts, flat ts = raw /\ y = VStr (expand rho ts) /\
    forall m, In (Mark m) ts -> present E ps P m.
Proof.
  intros E ps P en rho raw (_ & Fr & Fv & Fc) (Hr & Hv & Hc) y Hy. cbv zeta in Hy.
  assert (Step : forall S w tag f ts, In w placeholder_words ->
    (forall v, get_raw ps tag (Some P) = Some v -> harmless_value (f v) /\ rho w = f v) ->
    (forall m, In (Mark m) ts -> In m S /\ harmless_value (rho m)) ->
    exists ts' S',
      sub_opt E (mk w) (option_map f (get_raw ps tag (Some P))) (Ok (VStr (view rho S ts)))
        = Ok (VStr (view rho S' ts')) /\ flat ts' = flat ts /\
      (forall m, In (Mark m) ts' -> In m S' /\ harmless_value (rho m)) /\
      (forall m, In (Mark m) ts' -> In (Mark m) ts \/ (m = w /\ get_raw ps tag (Some P) <> None))).
  { intros S w tag f ts Hw Hx Hm. destruct (get_raw ps tag (Some P)) as [v|] eqn:Ev.
    - destruct (Hx v eq_refl) as [Hh Hrw]. cbn [option_map sub_opt rbind vtext].
      rewrite re_sub_plain; [|now apply word_facts|now apply harmless_repl].
      destruct (word_facts w Hw) as (W1 & W2 & _).
      destruct (tokenise_step rho S w W1 W2 (length ts) ts (le_n _)) as (ts' & E1 & E2 & E3).
      { intros m Hin. destruct (Hm m Hin) as [HS (H1 & H2 & H3)]. split; [exact HS|].
        split; [exact H2|]. split; [now apply plain_pattern_inv|now apply H3]. }
      exists ts', (w :: S). cbn [rbind]. rewrite <- Hrw, E1. split; [reflexivity|].
      split; [exact E2|]. split.
      + intros m Hin. destruct (E3 m Hin) as [-> |H].
        * split; [now left|]. now rewrite Hrw.
        * destruct (Hm m H). split; [now right|assumption].
      + intros m Hin. destruct (E3 m Hin) as [-> |H]; [right; split; [reflexivity|discriminate]|now left].
    - exists ts, S. split; [reflexivity|]. split; [reflexivity|]. split; [exact Hm|auto]. }
  assert (V0 : view rho [] (map Lit raw) = raw).
  { clear. induction raw as [|c raw IH]; [reflexivity|]. cbn. now f_equal. }
  destruct (Step [] (L "RST") RESOURCE_SUB_TYPE slashed (map Lit raw)) as (t1 & S1 & E1 & F1 & M1 & N1).
  { cbn; tauto. } { intros v H. split; auto. }
  { intros m H. apply in_map_iff in H as (c & H & _). discriminate. }
  rewrite V0 in E1. change (mk (L "RST")) with (L "_RST_") in E1. rewrite E1 in Hy.
  destruct (Step S1 (L "VQ") VIRTUAL_QUANTITY (vtext E) t1) as (t2 & S2 & E2 & F2 & M2 & N2).
  { cbn; tauto. } { intros v H. split; auto. } { exact M1. }
  change (mk (L "VQ")) with (L "_VQ_") in E2. rewrite E2 in Hy.
  destruct (Step S2 (L "CONN") CONNECTION (vtext E) t2) as (t3 & S3 & E3 & F3 & M3 & N3).
  { cbn; tauto. } { intros v H. split; auto. } { exact M2. }
  change (mk (L "CONN")) with (L "_CONN_") in E3. rewrite E3 in Hy. injection Hy as <-.
  exists t3. split; [|split].
  - rewrite F3, F2, F1. apply flat_lits.
  - f_equal. apply view_all. intros m Hin. now apply M3.
  - intros m Hin. destruct (N3 m Hin) as [H|[-> H]]; [|right; right; auto].
    destruct (N2 m H) as [H'|[-> H']]; [|right; left; auto].
    destruct (N1 m H') as [H''|[-> H'']]; [|left; auto].
    apply in_map_iff in H'' as (c & H'' & _). discriminate.
Qed.

(** No word between two values gives no word between two marks. *)
Lemma apart_text : forall rho ts (K : str -> Prop),
  (forall m, In (Mark m) ts -> K (rho m)) ->
  (forall a x w y b, K x -> K y -> In w placeholder_words ->
     expand rho ts <> a ++ x ++ w ++ y ++ b) ->
  apart rho ts.
Proof.
  intros rho ts K Hm Ht w Hw a m1 m2 b E.
  apply (Ht (expand rho a) (rho m1) w (rho m2) (expand rho b)).
  - apply Hm. rewrite E. apply in_or_app. right. now left.
  - apply Hm. rewrite E. apply in_or_app. right. right. apply in_or_app. right. now left.
  - exact Hw.
  - rewrite E, expand_app. cbn [expand flat_map]. f_equal.
    fold (expand rho (map Lit w ++ Mark m2 :: b)). rewrite expand_app, expand_lits. reflexivity.
Qed.

Lemma plain_repl_flat : forall rho ts, plain_repl (expand rho ts) = true ->
  (forall m, In (Mark m) ts -> In m placeholder_words) -> plain_repl (flat ts) = true.
Proof.
  intros rho ts. unfold plain_repl. rewrite !forallb_forall. intros H Hm c Hc.
  unfold flat in Hc. apply in_flat_map in Hc as (t & Ht & Hc). destruct t as [d|m].
  - destruct Hc as [->|[]]. apply H. unfold expand. apply in_flat_map.
    exists (Lit c). split; [exact Ht|now left].
  - destruct (word_facts m (Hm m Ht)) as (_ & _ & Hp). apply plain_pattern_inv in Hp as [_ Hp].
    unfold plain_repl in Hp. rewrite forallb_forall in Hp. now apply Hp.
Qed.

Lemma name_not_desc : forall ver, is_desc (ELEMENT_NAME ver) = false.
Proof. intros []; reflexivity. Qed.
Lemma name_is_text : forall E, is_text E (ELEMENT_NAME (e_ver E)) = true.
Proof. intros E. apply text_property_is_text. now left. Qed.
Lemma desc_is_text : forall E, is_text E ITEM_DESCRIPTION = true.
Proof. intros E. apply text_property_is_text. now right. Qed.

Lemma get_value_name : forall E ps P raw y,
  get_raw ps (ELEMENT_NAME (e_ver E)) (Some P) = Some (VStr raw) -> raw <> [] ->
  get_value E ps (ELEMENT_NAME (e_ver E)) (Some P) = Ok (Some y) ->
  (let a := sub_opt E (L "_RST_")
              (option_map slashed (get_raw ps RESOURCE_SUB_TYPE (Some P))) (Ok (VStr raw)) in
   let b := sub_opt E (L "_VQ_")
              (option_map (vtext E) (get_raw ps VIRTUAL_QUANTITY (Some P))) a in
   sub_opt E (L "_CONN_")
     (option_map (vtext E) (get_raw ps CONNECTION (Some P))) b) = Ok y.
Proof.
  intros E ps P raw y Hraw Hne H. unfold get_value, replace_wildcards in H. rewrite Hraw in H.
  rewrite name_not_desc, name_is_text in H.
  assert (Ht : truthy (VStr raw) = true) by (destruct raw; [contradiction|reflexivity]).
  rewrite Ht in H. cbn [negb] in H. cbv zeta in *.
  destruct (sub_opt E (L "_CONN_") (option_map (vtext E) (get_raw ps CONNECTION (Some P)))
    (sub_opt E (L "_VQ_") (option_map (vtext E) (get_raw ps VIRTUAL_QUANTITY (Some P)))
      (sub_opt E (L "_RST_") (option_map slashed (get_raw ps RESOURCE_SUB_TYPE (Some P)))
        (Ok (VStr raw))))) as [z|e]; [|discriminate].
  cbn [rbind andb] in H. destruct (has_wildcard (vtext E z)); [discriminate|]. congruence.
Qed.

Lemma get_value_three : forall E ps P tag,
  tag = RESOURCE_SUB_TYPE \/ tag = VIRTUAL_QUANTITY \/ tag = CONNECTION ->
  get_value E ps tag (Some P) = Ok (get_raw ps tag (Some P)).
Proof.
  intros E ps P tag H. apply get_value_plain. destruct (plain_tags E) as (H1 & H2 & H3).
  destruct H as [->|[->| ->]]; assumption.
Qed.

Lemma harmless_three_of : forall E ps n P Q, safe_values E ps n P -> Q <> [] ->
  (forall q, In q Q -> requested ps n P q) -> harmless_three E ps Q.
Proof.
  intros E ps n P Q H HQ Hq. split; [|split]; intros v Hv.
  - apply (H Q (L "RST")); auto. apply embeds_rst. rewrite get_value_three by auto. exact (f_equal Ok Hv).
  - apply (H Q (L "VQ")); auto. apply embeds_vq. rewrite get_value_three by auto. exact (f_equal Ok Hv).
  - apply (H Q (L "CONN")); auto. apply embeds_conn. rewrite get_value_three by auto. exact (f_equal Ok Hv).
Qed.

Lemma present_embeds : forall E ps P n en rho m, fits E ps P en rho -> present E ps P m ->
  embeds E ps P n m (rho m).
Proof.
  intros E ps P n en rho m (_ & Fr & Fv & Fc) [[-> H]|[[-> H]|[-> H]]].
  - destruct (get_raw ps RESOURCE_SUB_TYPE (Some P)) as [v|] eqn:Ev; [|contradiction].
    rewrite (Fr v eq_refl). apply embeds_rst. rewrite get_value_three by auto. exact (f_equal Ok Ev).
  - destruct (get_raw ps VIRTUAL_QUANTITY (Some P)) as [v|] eqn:Ev; [|contradiction].
    rewrite (Fv v eq_refl). apply embeds_vq. rewrite get_value_three by auto. exact (f_equal Ok Ev).
  - destruct (get_raw ps CONNECTION (Some P)) as [v|] eqn:Ev; [|contradiction].
    rewrite (Fc v eq_refl). apply embeds_conn. rewrite get_value_three by auto. exact (f_equal Ok Ev).
Qed.

Lemma flat_nonempty : forall rho ts, expand rho ts <> [] -> flat ts <> [].
Proof. intros rho [|[c|m] ts] H; [exact H|discriminate|discriminate]. Qed.

Lemma own_truthy : forall ver ps n p v, good_props ver ps -> own ps n p v -> truthy v = true.
Proof.
  intros ver ps n p v (_ & G & _) (d & s & Hd & Hs & _). destruct (G n d Hd) as (_ & H & _).
  now apply (H v s).
Qed.
Lemma holds_truthy : forall ver ps n p v, good_props ver ps -> holds ps n p v -> truthy v = true.
Proof. intros ver ps n p v G [H|[_ H]]; exact (own_truthy _ _ _ _ _ G H). Qed.
Lemma holds_own : forall ps n p v, holds ps n p v -> exists q, own ps n q v.
Proof. intros ps n p v [H|[_ H]]; eauto. Qed.

(** The recorded element name of [P] is text. *)
Lemma raw_name : forall E i P p v, reachable (e_ver E) i ->
  get_raw (i_props i) (ELEMENT_NAME (e_ver E)) (Some P) = Some v -> In p P ->
  exists raw, v = VStr raw /\ raw <> [] /\ holds (i_props i) (ELEMENT_NAME (e_ver E)) p v.
Proof.
  intros E i P p v R H Hp. apply reachable_good in R as G. apply reachable_typed in R as T.
  assert (HP : P <> []) by (intros ->; contradiction).
  pose proof (proj1 (get_raw_set _ _ _ _ _ G HP) H p Hp) as Hh.
  pose proof (holds_truthy _ _ _ _ _ G Hh) as Ht.
  destruct (holds_own _ _ _ _ Hh) as (q & Ho). specialize (T _ _ _ Ho).
  assert (En : str_eqb (ELEMENT_NAME (e_ver E)) RESOURCE_SUB_TYPE = false)
    by (destruct (e_ver E); reflexivity).
  rewrite En in T. destruct T as [raw ->]. exists raw. split; [reflexivity|]. split; [|exact Hh].
  intros ->. discriminate.
Qed.

(** A text that is set is reported unchanged. *)
Theorem text_roundtrip : forall E i n t P ow i',
  reachable (e_ver E) i -> text_property (e_ver E) n -> t <> [] ->
  safe_values E (i_props i) n P -> safe_text E (i_props i) n P t ->
  (n = ITEM_DESCRIPTION -> forall q, requested (i_props i) n P q ->
     exists o, reports E i (ELEMENT_NAME (e_ver E)) q = Ok o) ->
  set_property E i n (IStr t) P ow = Ok i' ->
  forall p, requested (i_props i) n P p -> reports E i' n p = Ok (Some (VStr t)).
Proof.
  intros E i n t P ow i' R Hn Ht Hsv [HU Hst] Hrep H p Hp.
  apply reachable_good in R as G.
  assert (R' : reachable (e_ver E) i') by exact (R_set _ E i n _ P ow i' eq_refl R H).
  apply reachable_good in R' as G'.
  apply set_property_effect in H as (v & Hv & He & _ & _ & Hoth); [|exact R].
  set (ps := i_props i) in *. set (ps' := i_props i') in *. set (Q := profs_of ps n P) in *.
  assert (HQ : forall q, In q Q <-> requested ps n P q) by (intros; now apply (requested_profs E)).
  assert (HpQ : In p Q) by now apply HQ.
  assert (HQne : Q <> []) by (intros E0; now rewrite E0 in HpQ).
  assert (Hval : to_value E n (IStr t) = VStr t).
  { unfold to_value. assert (str_eqb n RESOURCE_SUB_TYPE = false) as ->; [|reflexivity].
    destruct Hn as [->| ->]; [destruct (e_ver E)|]; reflexivity. }
  rewrite Hval in Hv.
  assert (H3n : forall tag, tag = RESOURCE_SUB_TYPE \/ tag = VIRTUAL_QUANTITY \/ tag = CONNECTION -> tag <> n).
  { intros tag Ht3 ->. destruct Hn as [->| ->]; destruct Ht3 as [E0|[E0|E0]];
      try discriminate E0; destruct (e_ver E); discriminate E0. }
  assert (Hsame : forall m, m <> n -> get_raw ps' m (Some [p]) = get_raw ps m (Some [p])).
  { intros m Hm. apply (get_raw_agree (e_ver E)); auto. intros w. apply holds_agree.
    intros q u _. now apply Hoth. }
  assert (Hag : agrees ps ps' Q [p]).
  { intros tag w Htag Hw. rewrite Hsame by now apply H3n.
    apply (get_raw_holds _ _ _ _ _ G). exact (proj1 (get_raw_set _ _ _ _ _ G HQne) Hw p HpQ). }
  assert (Hh3 : harmless_three E ps Q).
  { apply (harmless_three_of E ps n P Q Hsv HQne). intros q. apply HQ. }
  assert (Hh3' : harmless_three E ps' [p]).
  { pose proof (harmless_three_of E ps n P [p] Hsv) as K. unfold harmless_three in *.
    rewrite !Hsame by (apply H3n; auto). apply K; [discriminate|]. intros q [<-|[]]. exact Hp. }
  assert (Hrender : forall en rho ts, fits E ps Q en rho -> expand rho ts = t ->
    (forall m, In (Mark m) ts -> present E ps Q m) ->
    (let a := sub_opt E (L "_RST_")
              (option_map slashed (get_raw ps' RESOURCE_SUB_TYPE (Some [p]))) (Ok (VStr (flat ts))) in
     let b := sub_opt E (L "_VQ_")
              (option_map (vtext E) (get_raw ps' VIRTUAL_QUANTITY (Some [p]))) a in
     sub_opt E (L "_CONN_")
       (option_map (vtext E) (get_raw ps' CONNECTION (Some [p]))) b) = Ok (VStr t)).
  { intros en rho ts HF Hx Hm. rewrite <- Hx.
    apply (render_three E ps Q en rho ps' [p] ts HF Hag Hh3').
    - rewrite Hx. exact HU.
    - intros ts' Hx' Hm'. apply (apart_text rho ts' (fun x => exists w, embeds E ps Q n w x)).
      + intros m Hin. exists m. apply (present_embeds E ps Q n en); auto.
      + intros a x w y b (w1 & K1) (w2 & K2) Hw. rewrite Hx', Hx.
        apply (Hst Q a w1 x w w2 y b); auto. intros q. apply HQ.
    - exact Hm. }
  assert (Hfinal : forall ts, v = VStr (flat ts) -> flat ts <> [] ->
    (let r0 := if is_desc n then sub_opt E (L "_EN_")
                 (option_map (vtext E) (get_raw ps' (ELEMENT_NAME (e_ver E)) (Some [p])))
                 (Ok (VStr (flat ts))) else Ok (VStr (flat ts)) in
     let a := sub_opt E (L "_RST_")
              (option_map slashed (get_raw ps' RESOURCE_SUB_TYPE (Some [p]))) r0 in
     let b := sub_opt E (L "_VQ_")
              (option_map (vtext E) (get_raw ps' VIRTUAL_QUANTITY (Some [p]))) a in
     sub_opt E (L "_CONN_")
       (option_map (vtext E) (get_raw ps' CONNECTION (Some [p]))) b) = Ok (VStr t) ->
    reports E i' n p = Ok (Some (VStr t))).
  { intros ts -> Hne Hr.
    assert (Htr : truthy (VStr (flat ts)) = true) by (destruct (flat ts); [contradiction|reflexivity]).
    assert (Hraw : get_raw ps' n (Some [p]) = Some (VStr (flat ts))).
    { apply (get_raw_holds _ _ _ _ _ G'). apply He; [exact Htr|now left|reflexivity]. }
    unfold reports, get_value, replace_wildcards. fold ps'. rewrite Hraw, Htr.
    assert (is_text E n = true) as -> by now apply text_property_is_text.
    cbn [negb]. cbv zeta in *. rewrite Hr. cbn [rbind andb vtext].
    rewrite has_wildcard_noU by exact HU. reflexivity. }
  destruct Hn as [Hn|Hn].
  - (* the element name *)
    assert (Hd : is_desc n = false) by (rewrite Hn; apply name_not_desc).
    unfold add_wildcards in Hv. rewrite Hd in Hv. cbn [rbind] in Hv.
    assert (is_text E n = true) as Htx by (rewrite Hn; apply name_is_text). rewrite Htx in Hv.
    set (rho := the_rho E ps Q []). pose proof (the_rho_fits E ps Q []) as HF. fold rho in HF.
    destruct (add_three E ps Q [] rho (map Lit t) HF Hh3) as (ts & E1 & X1 & M1).
    { intros m Hin. apply in_map_iff in Hin as (c & F & _). discriminate. }
    rewrite flat_lits in E1. rewrite E1 in Hv. injection Hv as <-. rewrite expand_lits in X1.
    apply (Hfinal ts eq_refl).
    + apply (flat_nonempty rho). now rewrite X1.
    + rewrite Hd. apply (Hrender [] rho ts HF X1). intros m Hin.
      destruct (M1 m Hin) as [F|F]; [|exact F]. apply in_map_iff in F as (c & F & _). discriminate.
  - (* the description *)
    assert (Hd : is_desc n = true) by (rewrite Hn; reflexivity).
    unfold add_wildcards in Hv. rewrite Hd in Hv.
    assert (is_text E n = true) as Htx by (rewrite Hn; apply desc_is_text). rewrite Htx in Hv.
    destruct (get_value E ps (ELEMENT_NAME (e_ver E)) (Some Q)) as [oen|e] eqn:Een;
      [|unfold sub_value in Hv; rewrite Een in Hv; discriminate].
    set (en := value_text oen (vtext E)).
    set (rho := the_rho E ps Q en). pose proof (the_rho_fits E ps Q en) as HF. fold rho in HF.
    assert (Hen : rho (L "EN") = en) by apply HF.
    destruct (sub_value_step E ps (ELEMENT_NAME (e_ver E)) (vtext E) (L "EN") Q rho (map Lit t) oen)
      as (t0 & E0 & X0 & M0).
    { exact Een. } { cbn; tauto. }
    { intros x ->. split; [|exact Hen].
      apply (Hsv Q (L "EN")); [exact HQne|intros q; apply HQ|]. rewrite Hn. now apply embeds_en. }
    { intros m Hin. apply in_map_iff in Hin as (c & F & _). discriminate. }
    assert (M0' : forall m, In (Mark m) t0 -> m = L "EN" /\ oen <> None).
    { intros m Hin. destruct (M0 m Hin) as [F|F]; [exact F|].
      apply in_map_iff in F as (c & F & _). discriminate. }
    rewrite flat_lits in E0. change (mk (L "EN")) with (L "_EN_") in E0. rewrite E0 in Hv.
    cbn [rbind] in Hv. rewrite expand_lits in X0.
    destruct (add_three E ps Q en rho t0 HF Hh3) as (ts & E1 & X1 & M1).
    { intros m Hin. destruct (M0' m Hin) as [-> _]. cbn; tauto. }
    rewrite E1 in Hv. injection Hv as <-. rewrite X0 in X1.
    assert (Mts : forall m, In (Mark m) ts -> (m = L "EN" /\ oen <> None) \/ present E ps Q m).
    { intros m Hin. destruct (M1 m Hin) as [F|F]; [left; now apply M0'|now right]. }
    assert (Kts : forall m, In (Mark m) ts -> exists w, embeds E ps Q n w (rho m)).
    { intros m Hin. destruct (Mts m Hin) as [[-> F]|F].
      - exists (L "EN"). rewrite Hen. unfold en. destruct oen as [x|]; [|contradiction].
        rewrite Hn. now apply embeds_en.
      - exists m. now apply (present_embeds E ps Q n en). }
    apply (Hfinal ts eq_refl); [apply (flat_nonempty rho); now rewrite X1|].
    rewrite Hd. cbv zeta.
    assert (Hneq : ELEMENT_NAME (e_ver E) <> n) by (rewrite Hn; destruct (e_ver E); discriminate).
    rewrite (Hsame _ Hneq).
    (* the recorded name under [p] *)
    assert (Hrawp : forall s, option_map (vtext E) (get_raw ps (ELEMENT_NAME (e_ver E)) (Some [p])) = Some s ->
      plain_repl s = true).
    { intros s Hs. destruct (get_raw ps (ELEMENT_NAME (e_ver E)) (Some [p])) as [w|] eqn:Ew; [|discriminate].
      injection Hs as <-. destruct (raw_name E i [p] p w R Ew (or_introl eq_refl)) as (raw & -> & Hne & _).
      destruct (Hrep Hn p Hp) as [o Ho]. unfold reports in Ho. fold ps in Ho.
      destruct o as [y|].
      - pose proof (get_value_name E ps [p] raw y Ew Hne Ho) as H3.
        assert (Hhp : harmless_three E ps [p]).
        { apply (harmless_three_of E ps n P [p] Hsv); [discriminate|]. intros q [<-|[]]. exact Hp. }
        destruct (tokenise_name E ps [p] [] (the_rho E ps [p] []) raw (the_rho_fits E ps [p] []) Hhp y H3)
          as (te & F1 & F2 & F3).
        cbn [vtext]. rewrite <- F1. apply (plain_repl_flat (the_rho E ps [p] [])).
        + assert (Hy : harmless_value (vtext E y)).
          { apply (Hsv [p] (L "EN")); [discriminate|intros q [<-|[]]; exact Hp|]. rewrite Hn. now apply embeds_en. }
          rewrite F2 in Hy. now apply harmless_repl.
        + intros m Hin. apply (present_word E ps [p]). now apply F3.
      - exfalso. unfold get_value, replace_wildcards in Ho. rewrite Ew in Ho.
        destruct (negb (truthy (VStr raw))) eqn:En0.
        + destruct raw; [contradiction|discriminate].
        + cbv zeta in Ho. match type of Ho with
            rbind (rbind ?r _) _ = _ => destruct r as [z|e0]; [|discriminate] end.
          cbn [rbind] in Ho. destruct (is_text E (ELEMENT_NAME (e_ver E)) && has_wildcard (vtext E z));
            discriminate. }
    assert (Hte : exists te, (In (Mark (L "EN")) ts ->
        option_map (vtext E) (get_raw ps (ELEMENT_NAME (e_ver E)) (Some [p])) = Some (flat te) /\
        expand rho te = rho (L "EN")) /\ forall m, In (Mark m) te -> present E ps Q m).
    { destruct oen as [y|].
      - destruct (get_raw ps (ELEMENT_NAME (e_ver E)) (Some Q)) as [w|] eqn:Ew.
        + destruct (raw_name E i Q p w R Ew HpQ) as (raw & -> & Hne & Hh).
          pose proof (get_value_name E ps Q raw y Ew Hne Een) as H3.
          destruct (tokenise_name E ps Q en rho raw HF Hh3 y H3) as (te & F1 & F2 & F3).
          exists te. split; [|exact F3]. intros _. split.
          * fold ps in Hh. apply (get_raw_holds _ _ _ _ _ G) in Hh. rewrite Hh. cbn. now rewrite F1.
          * rewrite Hen. unfold en. rewrite F2. reflexivity.
        + unfold get_value, replace_wildcards in Een. rewrite Ew in Een. discriminate.
      - exists []. split; [|intros m []]. intros Hin. exfalso.
        destruct (Mts _ Hin) as [[_ F]|F]; [contradiction|]. now apply present_not_en in F. }
    destruct Hte as (te & Hte & Mte).
    destruct (sub_opt_step E (L "EN")
      (option_map (vtext E) (get_raw ps (ELEMENT_NAME (e_ver E)) (Some [p]))) rho ts te)
      as (t1 & E2 & X2 & M2).
    { cbn; tauto. } { exact Hrawp. } { rewrite X1. exact HU. }
    { intros m Hin. destruct (Mts m Hin) as [[-> _]|F]; [cbn; tauto|now apply present_word in F]. }
    { apply (apart_text rho ts (fun x => exists w, embeds E ps Q n w x)); [exact Kts|].
      intros a x w y b (w1 & K1) (w2 & K2) Hw. rewrite X1.
      apply (Hst Q a w1 x w w2 y b); auto. intros q. apply HQ. }
    { exact Hte. }
    change (mk (L "EN")) with (L "_EN_") in E2. rewrite E2.
    apply (Hrender en rho t1 HF); [congruence|].
    intros m Hin. destruct (M2 m Hin) as [[F F']|[F _]]; [|now apply Mte].
    destruct (Mts m F) as [[-> _]|F'']; [contradiction|exact F''].
Qed.

(** ** One wildcard in a recorded text *)

Lemma replace_none : forall pat r s, contains pat s = false -> replace_all pat r s = s.
Proof.
  intros pat r. induction s as [|c s IH]; intros H; [reflexivity|].
  cbn [contains] in H. apply orb_false_iff in H as [H1 H2].
  rewrite replace_miss by exact H1. now rewrite IH.
Qed.

Lemma contains_other : forall w w' a b, noU w -> noU w' -> noU a -> noU b -> w <> w' ->
  contains (mk w') (a ++ mk w ++ b) = false.
Proof.
  intros w w' a b Hw Hw' Ha Hb Hne.
  destruct (contains (mk w') (a ++ mk w ++ b)) eqn:E; [|reflexivity]. exfalso.
  apply contains_spec in E as (c & d & E). unfold mk in E. cbn [app] in E.
  rewrite <- !app_assoc in E. cbn [app] in E.
  destruct (in_dec ascii_dec U c) as [Hc|Hc].
  - (* the first underscore lies before *)
    apply in_split in Hc as (c1 & c2 & ->). rewrite <- app_assoc in E. cbn [app] in E.
    assert (Hmin : exists c1' c2', c1 ++ U :: c2 = c1' ++ U :: c2' /\ noU c1').
    { clear. revert c2. induction c1 as [|x c1 IH]; intros c2; [exists [], c2; split; [reflexivity|intros []]|].
      destruct (ascii_dec x U) as [->|Hx]; [exists [], (c1 ++ U :: c2); split; [reflexivity|intros []]|].
      destruct (IH c2) as (c1' & c2' & E & Hn). exists (x :: c1'), c2'. split; [cbn; now f_equal|].
      intros [H|H]; [congruence|contradiction]. }
    destruct Hmin as (c1' & c2' & Ec & Hn1).
    assert (E' : a ++ U :: w ++ U :: b = c1' ++ U :: c2' ++ U :: w' ++ U :: d).
    { rewrite E. change (c1 ++ U :: c2 ++ U :: w' ++ U :: d) with (c1 ++ (U :: c2) ++ (U :: w' ++ U :: d)).
      rewrite app_assoc, Ec, <- app_assoc. reflexivity. }
    clear E Ec. pose proof (cut_unique _ _ _ _ Ha Hn1 E') as ->.
    apply app_inv_head in E'. injection E' as E'.
    assert (Hcount : forall l r, noU l -> w ++ U :: b = l ++ U :: r -> r = b).
    { intros l r Hl El. pose proof (cut_unique _ _ _ _ Hw Hl El) as ->.
      apply app_inv_head in El. now injection El. }
    destruct (in_dec ascii_dec U c2') as [H2|H2].
    + (* two more underscores after [w] *)
      assert (Hmin : exists e1 e2, c2' = e1 ++ U :: e2 /\ noU e1).
      { clear - H2. induction c2' as [|x l IH]; [contradiction|].
        destruct (ascii_dec x U) as [->|Hx]; [exists [], l; split; [reflexivity|intros []]|].
        destruct IH as (e1 & e2 & -> & Hn). { destruct H2; [congruence|assumption]. }
        exists (x :: e1), e2. split; [reflexivity|]. intros [H|H]; [congruence|contradiction]. }
      destruct Hmin as (e1 & e2 & -> & He1). rewrite <- app_assoc in E'. cbn [app] in E'.
      pose proof (Hcount e1 _ He1 E') as Er. apply Hb. rewrite <- Er. apply in_or_app. right. now left.
    + pose proof (Hcount c2' _ H2 E') as Er. apply Hb. rewrite <- Er. apply in_or_app. right. now left.
  - pose proof (cut_unique _ _ _ _ Ha Hc E) as <-. apply app_inv_head in E. injection E as E.
    now apply cut_unique in E.
Qed.

Lemma not_In_plain : forall s, ~ In "\"%char s -> plain_repl s = true.
Proof.
  intros s H. unfold plain_repl. apply forallb_forall. intros c Hc.
  destruct (Ascii.eqb_spec c "\"%char) as [->|]; [contradiction|reflexivity].
Qed.

Lemma opt_id : forall E w r s, In w placeholder_words -> (forall x, r = Some x -> plain_repl x = true) ->
  contains (mk w) s = false -> sub_opt E (mk w) r (Ok (VStr s)) = Ok (VStr s).
Proof.
  intros E w r s Hw Hp Hc. destruct r as [x|]; [|reflexivity]. cbn [sub_opt rbind vtext].
  rewrite re_sub_plain; [|now apply word_facts|now apply Hp]. cbn [rbind]. now rewrite replace_none.
Qed.

Lemma opt_hit : forall E w x a b, In w placeholder_words -> plain_repl x = true -> noU a -> noU b ->
  sub_opt E (mk w) (Some x) (Ok (VStr (a ++ mk w ++ b))) = Ok (VStr (a ++ x ++ b)).
Proof.
  intros E w x a b Hw Hx Ha Hb. cbn [sub_opt rbind vtext].
  rewrite re_sub_plain; [|now apply word_facts|exact Hx]. cbn [rbind]. do 2 f_equal.
  assert (Hp : forall u s, noU u -> replace_all (mk w) x (u ++ s) = u ++ replace_all (mk w) x s).
  { intros u s Hu. apply replace_pass. intros a' c b' ->. apply starts_mk_char. intros ->.
    apply Hu. apply in_or_app. right. now left. }
  rewrite Hp by exact Ha. rewrite replace_hit by discriminate.
  rewrite <- (app_nil_r b), Hp by exact Hb. reflexivity.
Qed.

Lemma contains_noU : forall w s, noU s -> contains (mk w) s = false.
Proof.
  intros w s H. destruct (contains (mk w) s) eqn:E; [|reflexivity].
  apply contains_spec in E as (a & b & ->). exfalso. apply H. apply in_or_app. right. now left.
Qed.

Lemma noU_app : forall a b, noU a -> noU b -> noU (a ++ b).
Proof. intros a b Ha Hb H. apply in_app_iff in H as [H|H]; contradiction. Qed.

(** The text of a value as it is put in. *)
Lemma typed_text : forall E i tag p v, reachable (e_ver E) i -> holds (i_props i) tag p v ->
  (if str_eqb tag RESOURCE_SUB_TYPE then True else vtext E v = slashed v).
Proof.
  intros E i tag p v R H. destruct (holds_own _ _ _ _ H) as (q & Ho).
  apply reachable_typed in R as T. specialize (T _ _ _ Ho).
  destruct (str_eqb tag RESOURCE_SUB_TYPE); [exact I|]. destruct T as [s ->]. reflexivity.
Qed.

Lemma opt_text : forall E i w p (f : value -> str), reachable (e_ver E) i ->
  In w placeholder_words ->
  no_backslashes (e_ver E) (i_props i) p ->
  (f = slashed \/ (f = vtext E /\ property_of (e_ver E) w <> RESOURCE_SUB_TYPE)) ->
  option_map f (get_raw (i_props i) (property_of (e_ver E) w) (Some [p])) =
    option_map slashed (get_raw (i_props i) (property_of (e_ver E) w) (Some [p])) /\
  (forall x, option_map slashed (get_raw (i_props i) (property_of (e_ver E) w) (Some [p])) = Some x ->
     plain_repl x = true).
Proof.
  intros E i w p f R Hw Hb Hf. apply reachable_good in R as G.
  destruct (get_raw (i_props i) (property_of (e_ver E) w) (Some [p])) as [v|] eqn:Ev;
    [|split; [reflexivity|discriminate]].
  apply (get_raw_holds _ _ _ _ _ G) in Ev. split.
  - destruct Hf as [->|[-> Hf]]; [reflexivity|]. cbn. f_equal.
    pose proof (typed_text E i _ p v R Ev) as Ht.
    destruct (str_eqb (property_of (e_ver E) w) RESOURCE_SUB_TYPE) eqn:Es; [|exact Ht].
    apply str_eqb_eq in Es. contradiction.
  - intros x Hx. injection Hx as <-. apply not_In_plain. now apply (Hb w).
Qed.

Theorem one_wildcard : forall E i n p w a b,
  reachable (e_ver E) i -> text_property (e_ver E) n -> no_backslashes (e_ver E) (i_props i) p ->
  In w placeholder_words -> (w = L "EN" -> n = ITEM_DESCRIPTION) ->
  noU a -> noU b -> holds (i_props i) n p (VStr (a ++ mk w ++ b)) ->
  (forall v, holds (i_props i) (property_of (e_ver E) w) p v -> noU (slashed v) ->
     reports E i n p = Ok (Some (VStr (a ++ slashed v ++ b)))) /\
  ((forall v, ~ holds (i_props i) (property_of (e_ver E) w) p v) ->
     reports E i n p = Err EOVFItemData).
Proof.
  intros E i n p w a b R Hn Hb Hw Hwn Ha Hbb Hh. apply reachable_good in R as G.
  set (ps := i_props i) in *.
  set (g := fun w => option_map slashed (get_raw ps (property_of (e_ver E) w) (Some [p]))).
  assert (Htr : truthy (VStr (a ++ mk w ++ b)) = true) by (now destruct a).
  assert (Hplain : forall w, In w placeholder_words -> forall x, g w = Some x -> plain_repl x = true).
  { intros w' Hw' x Hx. apply (opt_text E i w' p slashed R Hw' Hb (or_introl eq_refl)). exact Hx. }
  (* all steps with [slashed] *)
  assert (Hform : reports E i n p =
    do y <- sub_opt E (mk (L "CONN")) (g (L "CONN")) (sub_opt E (mk (L "VQ")) (g (L "VQ"))
          (sub_opt E (mk (L "RST")) (g (L "RST"))
            (if is_desc n then sub_opt E (mk (L "EN")) (g (L "EN")) (Ok (VStr (a ++ mk w ++ b)))
             else Ok (VStr (a ++ mk w ++ b)))));
    if has_wildcard (vtext E y) then Err EOVFItemData else Ok (Some y)).
  { unfold reports, get_value, replace_wildcards. fold ps.
    rewrite (proj2 (get_raw_holds _ ps n p _ G) Hh), Htr. cbn [negb].
    assert (is_text E n = true) as -> by now apply text_property_is_text.
    pose proof (opt_text E i (L "EN") p (vtext E) R) as O1.
    pose proof (opt_text E i (L "VQ") p (vtext E) R) as O2.
    pose proof (opt_text E i (L "CONN") p (vtext E) R) as O3. fold ps in O1, O2, O3.
    assert (Hnn : ELEMENT_NAME (e_ver E) <> RESOURCE_SUB_TYPE) by (destruct (e_ver E); discriminate).
    destruct O1 as [O1 _]; [cbn; tauto|exact Hb|right; split; [reflexivity|exact Hnn]|].
    destruct O2 as [O2 _]; [cbn; tauto|exact Hb|right; split; [reflexivity|discriminate]|].
    destruct O3 as [O3 _]; [cbn; tauto|exact Hb|right; split; [reflexivity|discriminate]|].
    change (property_of (e_ver E) (L "EN")) with (ELEMENT_NAME (e_ver E)) in O1.
    change (property_of (e_ver E) (L "VQ")) with VIRTUAL_QUANTITY in O2.
    change (property_of (e_ver E) (L "CONN")) with CONNECTION in O3.
    rewrite O1, O2, O3. unfold g.
    change (property_of (e_ver E) (L "EN")) with (ELEMENT_NAME (e_ver E)).
    change (property_of (e_ver E) (L "VQ")) with VIRTUAL_QUANTITY.
    change (property_of (e_ver E) (L "CONN")) with CONNECTION.
    change (property_of (e_ver E) (L "RST")) with RESOURCE_SUB_TYPE.
    change (mk (L "EN")) with (L "_EN_"). change (mk (L "VQ")) with (L "_VQ_").
    change (mk (L "CONN")) with (L "_CONN_"). change (mk (L "RST")) with (L "_RST_").
    cbv zeta.
    match goal with |- rbind (rbind ?r _) _ = rbind ?r' _ => change r' with r; destruct r end; reflexivity. }
  assert (Hstep : forall w' s, In w' placeholder_words -> contains (mk w') s = false ->
    sub_opt E (mk w') (g w') (Ok (VStr s)) = Ok (VStr s)).
  { intros w' s Hw' Hc. apply opt_id; [exact Hw'|exact (Hplain w' Hw')|exact Hc]. }
  assert (Hwords : forall w', In w' placeholder_words -> w' <> w ->
    sub_opt E (mk w') (g w') (Ok (VStr (a ++ mk w ++ b))) = Ok (VStr (a ++ mk w ++ b))).
  { intros w' Hw' Hne. apply Hstep; [exact Hw'|].
    apply contains_other; [now apply word_facts|now apply word_facts|exact Ha|exact Hbb|congruence]. }
  assert (I1 : In (L "EN") placeholder_words) by (cbn; tauto).
  assert (I2 : In (L "RST") placeholder_words) by (cbn; tauto).
  assert (I3 : In (L "VQ") placeholder_words) by (cbn; tauto).
  assert (I4 : In (L "CONN") placeholder_words) by (cbn; tauto).
  split.
  - intros v Hv HU. set (x := slashed v).
    assert (Hg : g w = Some x).
    { unfold g. rewrite (proj2 (get_raw_holds _ ps _ p v G) Hv). reflexivity. }
    assert (Hhit : sub_opt E (mk w) (g w) (Ok (VStr (a ++ mk w ++ b))) = Ok (VStr (a ++ x ++ b))).
    { rewrite Hg. apply opt_hit; auto. now apply (Hplain w). }
    assert (HUx : noU (a ++ x ++ b)) by (apply noU_app; [exact Ha|now apply noU_app]).
    assert (Hafter : forall w', In w' placeholder_words ->
      sub_opt E (mk w') (g w') (Ok (VStr (a ++ x ++ b))) = Ok (VStr (a ++ x ++ b))).
    { intros w' Hw'. apply Hstep; [exact Hw'|]. now apply contains_noU. }
    rewrite Hform.
    assert (Hall : sub_opt E (mk (L "CONN")) (g (L "CONN")) (sub_opt E (mk (L "VQ")) (g (L "VQ"))
          (sub_opt E (mk (L "RST")) (g (L "RST"))
            (if is_desc n then sub_opt E (mk (L "EN")) (g (L "EN")) (Ok (VStr (a ++ mk w ++ b)))
             else Ok (VStr (a ++ mk w ++ b))))) = Ok (VStr (a ++ x ++ b))).
    { destruct Hw as [<-|[<-|[<-|[<-|[]]]]].
      - rewrite (Hwn eq_refl). cbn [is_desc]. change (is_desc ITEM_DESCRIPTION) with true. cbn iota.
        rewrite Hhit, !Hafter by assumption. reflexivity.
      - assert (Er : (if is_desc n then sub_opt E (mk (L "EN")) (g (L "EN")) (Ok (VStr (a ++ mk (L "RST") ++ b)))
             else Ok (VStr (a ++ mk (L "RST") ++ b))) = Ok (VStr (a ++ mk (L "RST") ++ b))).
        { destruct (is_desc n); [|reflexivity]. apply Hwords; [exact I1|discriminate]. }
        rewrite Er, Hhit, !Hafter by assumption. reflexivity.
      - assert (Er : (if is_desc n then sub_opt E (mk (L "EN")) (g (L "EN")) (Ok (VStr (a ++ mk (L "VQ") ++ b)))
             else Ok (VStr (a ++ mk (L "VQ") ++ b))) = Ok (VStr (a ++ mk (L "VQ") ++ b))).
        { destruct (is_desc n); [|reflexivity]. apply Hwords; [exact I1|discriminate]. }
        rewrite Er, (Hwords (L "RST") I2), Hhit, Hafter by (assumption || discriminate). reflexivity.
      - assert (Er : (if is_desc n then sub_opt E (mk (L "EN")) (g (L "EN")) (Ok (VStr (a ++ mk (L "CONN") ++ b)))
             else Ok (VStr (a ++ mk (L "CONN") ++ b))) = Ok (VStr (a ++ mk (L "CONN") ++ b))).
        { destruct (is_desc n); [|reflexivity]. apply Hwords; [exact I1|discriminate]. }
        rewrite Er, (Hwords (L "RST") I2), (Hwords (L "VQ") I3), Hhit by discriminate. reflexivity. }
    rewrite Hall. cbn [rbind vtext]. rewrite has_wildcard_noU by exact HUx. reflexivity.
  - intros Hno.
    assert (Hg : g w = None).
    { unfold g. destruct (get_raw ps (property_of (e_ver E) w) (Some [p])) as [v|] eqn:Ev; [|reflexivity].
      apply (get_raw_holds _ _ _ _ _ G) in Ev. now apply Hno in Ev. }
    assert (Hsame : forall w', In w' placeholder_words ->
      sub_opt E (mk w') (g w') (Ok (VStr (a ++ mk w ++ b))) = Ok (VStr (a ++ mk w ++ b))).
    { intros w' Hw'. destruct (str_eqb w' w) eqn:Ew.
      - apply str_eqb_eq in Ew. subst w'. rewrite Hg. reflexivity.
      - apply Hwords; [exact Hw'|]. intros ->. rewrite (proj2 (str_eqb_eq w w)) in Ew; congruence. }
    rewrite Hform.
    assert (Er : (if is_desc n then sub_opt E (mk (L "EN")) (g (L "EN")) (Ok (VStr (a ++ mk w ++ b)))
             else Ok (VStr (a ++ mk w ++ b))) = Ok (VStr (a ++ mk w ++ b))).
    { destruct (is_desc n); [now apply Hsame|reflexivity]. }
    rewrite Er, !Hsame by assumption. cbn [rbind vtext].
    assert (has_wildcard (a ++ mk w ++ b) = true) as ->; [|reflexivity].
    unfold has_wildcard.
    assert (Hc : contains (mk w) (a ++ mk w ++ b) = true) by (apply contains_spec; eauto).
    destruct Hw as [<-|[<-|[<-|[<-|[]]]]]; change (L "_RST_") with (mk (L "RST"));
      change (L "_VQ_") with (mk (L "VQ")); change (L "_CONN_") with (mk (L "CONN"));
      change (L "_EN_") with (mk (L "EN")); rewrite Hc; now rewrite ?orb_true_r.
Qed.
