From Coq Require Import Lia.
From Verif Require Import PyBase PyBaseProofs PyRegex PyRegexProofs PropArgModel PropArgSpec.

Lemma word_char_iff : forall c, word_char c = true <-> c <> "="%char /\ c <> "+"%char.
Proof.
  intros c. unfold word_char.
  destruct (Ascii.eqb_spec c "="%char), (Ascii.eqb_spec c "+"%char); cbn; split; intros H;
    try discriminate; try tauto; try (now split).
Qed.

Lemma word_forallb : forall w, word w <-> w <> [] /\ forallb word_char w = true.
Proof.
  intros w. unfold word. rewrite forallb_forall. split.
  - intros (H1 & H2 & H3). split; [exact H1|]. intros c Hc. apply word_char_iff.
    split; intros ->; auto.
  - intros (H1 & H2). split; [exact H1|]. split; intros Hc; apply H2, word_char_iff in Hc; tauto.
Qed.

(** after the last "+" or "=" *)
Lemma word_tail : forall v : str, exists a w, v = a ++ w /\ forallb word_char w = true /\
  (a = [] \/ exists a' c, a = a' ++ [c] /\ word_char c = false).
Proof.
  induction v as [|c v (a & w & -> & Hw & Ha)].
  - exists [], []. auto.
  - destruct Ha as [->|(a' & d & -> & Hd)].
    + destruct (word_char c) eqn:Ec.
      * exists [], (c :: w). cbn. rewrite Ec. auto.
      * exists [c], w. split; [reflexivity|]. split; [exact Hw|]. right. now exists [], c.
    + exists (c :: a' ++ [d]), w. split; [reflexivity|]. split; [exact Hw|]. right.
      now exists (c :: a'), d.
Qed.

Lemma word_tail_unique : forall (a1 w1 a2 w2 : str) c1 c2,
  a1 ++ c1 :: w1 = a2 ++ c2 :: w2 -> forallb word_char w1 = true -> forallb word_char w2 = true ->
  word_char c1 = false -> word_char c2 = false -> a1 = a2 /\ c1 = c2 /\ w1 = w2.
Proof.
  intros a1 w1 a2 w2 c1 c2 E H1 H2 Hc1 Hc2.
  apply (f_equal (@rev ascii)) in E. rewrite !rev_app_distr in E. cbn in E.
  rewrite <- !app_assoc in E. cbn in E.
  apply (span_unique _ word_char) in E as [Ew Ea].
  - injection Ea as -> Ea. apply (f_equal (@rev ascii)) in Ew, Ea. rewrite !rev_involutive in *. auto.
  - now rewrite forallb_rev.
  - now rewrite forallb_rev.
  - now injection 1 as <- _.
  - now injection 1 as <- _.
Qed.

Lemma ends_typed_dec : forall v, (exists v' t, v = v' ++ "+"%char :: t /\ word t) \/ ~ ends_typed v.
Proof.
  intros v. destruct (word_tail v) as (a & w & -> & Hw & Ha).
  destruct Ha as [->|(a' & c & -> & Hc)].
  - right. intros (v' & t & E & Ht). cbn in E. subst w.
    rewrite forallb_forall in Hw. specialize (Hw "+"%char (in_elt _ _ _)). discriminate.
  - rewrite <- app_assoc. cbn [app].
    destruct (Ascii.eqb_spec c "+"%char) as [->|Hp].
    + destruct w as [|x w].
      * right. intros (v' & t & E & Ht). apply word_forallb in Ht as [Hn Ht].
        apply (word_tail_unique a' [] v' t) in E; [|reflexivity|exact Ht|reflexivity|reflexivity].
        destruct E as (_ & _ & <-). now apply Hn.
      * left. exists a', (x :: w). split; [reflexivity|]. apply word_forallb. split; [discriminate|exact Hw].
    + right. intros (v' & t & E & Ht). apply word_forallb in Ht as [Hn Ht].
      apply (word_tail_unique a' w v' t) in E; [|exact Hw|exact Ht|exact Hc|reflexivity].
      now destruct E as (_ & E & _).
Qed.

(** ** What the two optional parts match *)
Definition nonl (s : str) : Prop := ~ In NL s.

Lemma mt_lazy_chr : forall p s t, mt (RLazy (RChr p)) s t -> exists w, s = w ++ t /\ forallb p w = true.
Proof.
  intros p s t H. remember (RLazy (RChr p)) as r eqn:E. induction H; try discriminate; injection E as ->.
  - now exists [].
  - destruct (IHmt2 eq_refl) as (w & -> & Hw). inversion H; subst. exists (c :: w). cbn. now rewrite H3, Hw.
Qed.

Definition re_type : re := ROpt (RGroup 3 (RSeq (RLit "+"%char) (RPlusLazy (RChr word_char)))).
Definition re_value : re := ROpt (RGroup 2 (RSeq (RLit "="%char) (RLazy RDot))).

Lemma mtc_lazy_chr : forall p s g t g', mtc (RLazy (RChr p)) s g t g' ->
  g' = g /\ exists w, s = w ++ t /\ forallb p w = true.
Proof.
  intros p s g t g' H. apply mtc_plain in H as [E H]; [|reflexivity]. split; [exact E|].
  now apply mt_lazy_chr.
Qed.

Lemma mtc_lit : forall c s g t g', mtc (RLit c) s g t g' -> g' = g /\ s = c :: t.
Proof.
  intros c s g t g' H. unfold RLit in H. inversion H; subst.
  match goal with H : (_ =? _)%char = true |- _ => apply Ascii.eqb_eq in H as -> end. auto.
Qed.

Lemma mtc_type : forall s g t g', mtc re_type s g t g' ->
  (g' = g /\ s = t) \/ (exists w, g' = (3, "+"%char :: w) :: g /\ s = ("+"%char :: w) ++ t /\ word w).
Proof.
  intros s g t g' H. apply mtc_alt_inv in H as [H|H].
  - right. apply mtc_group_inv in H as (w & g1 & -> & Es & H).
    apply mtc_seq_inv in H as (s1 & g2 & H1 & H2). apply mtc_lit in H1 as [-> E1].
    apply mtc_seq_inv in H2 as (s2 & g3 & H2 & H3). remember s1 as s1' eqn:Es1 in H2.
    inversion H2 as [|p c u g5 Hc| | | | | | | | | |]; subst p s1' g5 g3 u.
    apply mtc_lazy_chr in H3 as (E3 & w' & E4 & Hw'). subst g1. rewrite <- H0, E4 in E1.
    exists (c :: w'). assert (w = "+"%char :: c :: w').
    { apply (mt_app_cancel _ _ t). rewrite <- Es, E1. reflexivity. }
    subst w. split; [reflexivity|]. split; [exact Es|].
    apply word_forallb. split; [discriminate|]. cbn. now rewrite Hw', Hc.
  - left. inversion H; subst. auto.
Qed.

Lemma mtc_value : forall s g t g', mtc re_value s g t g' ->
  (g' = g /\ s = t) \/ (exists v, g' = (2, "="%char :: v) :: g /\ s = ("="%char :: v) ++ t /\ nonl v).
Proof.
  intros s g t g' H. apply mtc_alt_inv in H as [H|H].
  - right. apply mtc_group_inv in H as (w & g1 & -> & Es & H).
    apply mtc_seq_inv in H as (s1 & g2 & H1 & H2). apply mtc_lit in H1 as [-> E1].
    apply mtc_lazy_chr in H2 as (-> & w' & -> & Hw').
    assert (w = "="%char :: w').
    { apply (mt_app_cancel _ _ t). rewrite <- Es, E1. reflexivity. }
    subst w. exists w'. split; [reflexivity|]. split; [exact Es|].
    intros HN. rewrite forallb_forall in Hw'. apply Hw' in HN. now rewrite Ascii.eqb_refl in HN.
  - left. inversion H; subst. auto.
Qed.

Lemma mtc_end : forall s g t g', mtc REnd s g t g' -> g' = g /\ s = t /\ (t = [] \/ t = [NL]).
Proof. inversion 1; subst; auto. Qed.

Lemma mtc_property : forall prop t g, mtc re_property prop [] t g ->
  exists key value type,
    group 1 g = Some key /\ tail_of (group 2 g) = value /\ tail_of (group 3 g) = type /\
    prop = prop_text key value type ++ t /\ (t = [] \/ t = [NL]) /\
    word key /\ (forall w, type = Some w -> word w) /\ (forall v, value = Some v -> nonl v).
Proof.
  intros prop t g H. apply mtc_seq_inv in H as (s1 & g1 & H1 & H).
  apply mtc_group_inv in H1 as (key & g0 & -> & -> & H1).
  apply mtc_plain in H1 as [-> H1]; [|reflexivity]. apply mt_plus_chr in H1 as (k' & E & Hn & Hk).
  apply app_inv_tail in E as <-.
  apply mtc_seq_inv in H as (s2 & g2 & H2 & H). apply mtc_seq_inv in H as (s3 & g3 & H3 & H).
  apply mtc_end in H as (-> & -> & Ht). apply mtc_value in H2. apply mtc_type in H3.
  assert (Wk : word key) by (apply word_forallb; auto).
  destruct H2 as [[-> ->]|(v & -> & -> & Hv)], H3 as [[-> ->]|(w & -> & -> & Hw)].
  - exists key, None, None. do 3 (split; [reflexivity|]). unfold prop_text.
    split; [now rewrite <- !app_assoc|]. split; [exact Ht|]. split; [exact Wk|].
    split; intros x Hx; (discriminate Hx || (injection Hx as <-; assumption)).
  - exists key, None, (Some w). do 3 (split; [reflexivity|]). unfold prop_text.
    split; [now rewrite <- !app_assoc|]. split; [exact Ht|]. split; [exact Wk|].
    split; intros x Hx; (discriminate Hx || (injection Hx as <-; assumption)).
  - exists key, (Some v), None. do 3 (split; [reflexivity|]). unfold prop_text.
    split; [now rewrite <- !app_assoc|]. split; [exact Ht|]. split; [exact Wk|].
    split; intros x Hx; (discriminate Hx || (injection Hx as <-; assumption)).
  - exists key, (Some v), (Some w). do 3 (split; [reflexivity|]). unfold prop_text.
    split; [now rewrite <- !app_assoc|]. split; [exact Ht|]. split; [exact Wk|].
    split; intros x Hx; (discriminate Hx || (injection Hx as <-; assumption)).
Qed.

Lemma parse_sound : forall prop key value type, parse_property prop = Ok (key, value, type) ->
  word key /\ (forall t, type = Some t -> word t) /\ (forall v, value = Some v -> ~ In NLc v) /\
  (prop = prop_text key value type \/ prop = prop_text key value type ++ [NLc]).
Proof.
  intros prop key value type H. unfold parse_property in H.
  destruct (re_match re_property prop) as [g|] eqn:E; [|discriminate].
  apply re_match_mtc in E as [t E].
  apply mtc_property in E as (k & v & w & Hk & Hv & Hw & Hp & Ht & Wk & Ww & Nv).
  rewrite Hk in H. injection H as <- <- <-. subst v w.
  do 3 (split; [assumption|]). destruct Ht as [->| ->]; [left|right; exact Hp].
  now rewrite app_nil_r in Hp.
Qed.

(** ** The first match *)
Lemma nonl_app : forall a b, nonl (a ++ b) <-> nonl a /\ nonl b.
Proof. intros a b. unfold nonl. rewrite in_app_iff. tauto. Qed.

Lemma end_fails : forall B (k : st -> list B) (s : str) g, s <> [] -> nonl s -> flat_map k (run REnd (mkst s g)) = [].
Proof.
  intros B k s g Hs Hn. apply no_mt_fails. intros [t H]. cbn in H. inversion H; subst; [now apply Hs|].
  apply Hn. now left.
Qed.

Lemma type_end_fails : forall (s : str) g, s <> [] -> nonl s ->
  (forall t, s = "+"%char :: t -> ~ word t) -> run (RSeq re_type REnd) (mkst s g) = [].
Proof.
  intros s g Hs Hn Hw.
  destruct (run (RSeq re_type REnd) (mkst s g)) as [|y ys] eqn:E; [reflexivity|exfalso].
  assert (Hy : In y (y :: ys)) by now left. rewrite <- E in Hy.
  apply run_mtc in Hy. apply mtc_seq_inv in Hy as (t & g1 & Hx & Hz). cbn [rest caps] in Hx.
  apply mtc_end in Hz as (_ & E1 & Hz). rewrite <- E1 in Hz.
  apply mtc_type in Hx as [[_ Hx]|(w & _ & Hx & Hww)].
  - rewrite <- Hx in Hz. destruct Hz as [->| ->]; [now apply Hs|]. apply Hn. now left.
  - destruct Hz as [Hz|Hz]; rewrite Hz in Hx.
    + rewrite app_nil_r in Hx. now apply (Hw w).
    + rewrite Hx in Hn. apply nonl_app in Hn as [_ Hn]. apply Hn. now left.
Qed.

(** the final part when there is a type *)
Lemma wins_type : forall (w : str) g, word w -> nonl w ->
  wins (RSeq re_type REnd) (fun x => [x]) (mkst ("+"%char :: w) g) (mkst [] ((3, "+"%char :: w) :: g)).
Proof.
  intros w g Hw Hn. apply word_forallb in Hw as [He Hw]. apply wins_seq, wins_altl, wins_group.
  cbn [rest]. apply wins_seq, wins_lit. destruct w as [|c w]; [now elim He|].
  cbn in Hw. apply andb_true_iff in Hw as [Hc Hw].
  apply nonl_app with (a := [c]) in Hn as [Hn1 Hn].
  cbn [caps rest]. apply (wins_seq _ (RChr word_char)). apply wins_chr; [exact Hc|].
  replace (mkst w g) with (mkst (w ++ []) g) by now rewrite app_nil_r.
  eapply (lazy_first _ word_char w [] g _ (length w)); auto.
  - discriminate.
  - intros i Hi. cbn [caps rest]. apply end_fails.
    + rewrite app_nil_r. intros E. apply (f_equal (@length ascii)) in E. rewrite skipn_length in E. cbn in E. lia.
    + rewrite app_nil_r. intros HN. apply Hn. rewrite <- (firstn_skipn i w). apply in_or_app. now right.
  - cbn [caps rest]. rewrite skipn_all. cbn [app]. change (length (@nil ascii)) with 0.
    rewrite Nat.sub_0_r, firstn_all. reflexivity.
Qed.

Lemma wins_no_type : forall g,
  wins (RSeq re_type REnd) (fun x => [x]) (mkst [] g) (mkst [] g).
Proof.
  intros g. apply wins_seq, wins_altr.
  - apply no_mt_fails. intros [t H]. cbn in H. apply mt_group_inv, mt_seq_inv in H as (s1 & H & _). inversion H.
  - eapply wins_eps. reflexivity.
Qed.

(** the value: lazily up to the point where the rest is a type or nothing *)
Lemma wins_value : forall (v rest' : str) g y, nonl v -> nonl rest' ->
  (forall a b, v = a ++ b -> b <> [] -> forall t, b ++ rest' = "+"%char :: t -> ~ word t) ->
  (exists ys, run (RSeq re_type REnd) (mkst rest' ((2, "="%char :: v) :: g)) = y :: ys) ->
  wins re_value (fun x => run (RSeq re_type REnd) x)
       (mkst ("="%char :: v ++ rest') g) y.
Proof.
  intros v r g y Hv Hr Hno [ys Hy]. apply wins_altl, wins_group. cbn [rest caps].
  apply wins_seq, wins_lit.
  set (s := v ++ r).
  replace (mkst s g) with (mkst (s ++ []) g) by now rewrite app_nil_r.
  assert (Hs : nonl s) by (apply nonl_app; auto).
  eapply (lazy_first _ _ s [] g _ (length v)).
  - apply forallb_forall. intros c Hc. destruct (Ascii.eqb_spec c NL) as [->|]; [now elim Hs|reflexivity].
  - discriminate.
  - unfold s. rewrite app_length. lia.
  - intros i Hi. rewrite app_nil_r. cbn [caps rest].
    assert (Es : skipn i s = skipn i v ++ r).
    { unfold s. rewrite skipn_app. replace (i - length v) with 0 by lia. reflexivity. }
    assert (Hsk : skipn i v <> []).
    { intros E. apply (f_equal (@length ascii)) in E. rewrite skipn_length in E. cbn in E. lia. }
    apply type_end_fails.
    + rewrite Es. destruct (skipn i v); [now elim Hsk|discriminate].
    + intros HN. apply Hs. rewrite <- (firstn_skipn i s). apply in_or_app. now right.
    + intros t E. rewrite Es in E. apply (Hno (firstn i v) (skipn i v)); auto. now rewrite firstn_skipn.
  - rewrite app_nil_r. cbn [caps rest].
    assert (Es : skipn (length v) s = r).
    { unfold s. rewrite skipn_app, skipn_all, Nat.sub_diag. reflexivity. }
    rewrite Es.
    assert (Ef : firstn (length ("="%char :: s) - length r) ("="%char :: s) = "="%char :: v).
    { unfold s. cbn [length]. rewrite app_length.
      replace (S (length v + length r) - length r) with (S (length v)) by lia. cbn [firstn].
      rewrite firstn_app, firstn_all, Nat.sub_diag. cbn. now rewrite app_nil_r. }
    match goal with |- run _ (mkst r ((2, ?f) :: g)) = _ => replace f with ("="%char :: v) end.
    exact Hy.
Qed.

Lemma wins_no_value : forall (s : str) g y, (forall t, s <> "="%char :: t) ->
  (exists ys, run (RSeq re_type REnd) (mkst s g) = y :: ys) ->
  wins re_value (fun x => run (RSeq re_type REnd) x) (mkst s g) y.
Proof.
  intros s g y Hs [ys Hy]. apply wins_altr.
  - apply no_mt_fails. intros [t H]. cbn [rest] in H. apply mt_group_inv, mt_seq_inv in H as (s1 & H & _).
    apply mt_lit_inv in H. now apply (Hs s1).
  - eapply wins_eps. exact Hy.
Qed.

Lemma flat_map_single : forall l : list st, flat_map (fun x => [x]) l = l.
Proof. induction l as [|x l IH]; [reflexivity|]. cbn. now rewrite IH. Qed.

Lemma wins_run : forall r s y, wins r (fun x => [x]) s y -> exists ys, run r s = y :: ys.
Proof.
  intros r s y [ys H]. exists ys. rewrite <- H. generalize (run r s). intros l.
  induction l as [|x l IH]; [reflexivity|]. cbn. now rewrite <- IH.
Qed.

Lemma match_property : forall key rest' t g, word key -> (forall c u, rest' = c :: u -> word_char c = false) ->
  wins re_value (fun x => run (RSeq re_type REnd) x) (mkst rest' [(1, key)]) (mkst t g) ->
  re_match re_property (key ++ rest') = Some g.
Proof.
  intros key r t g Hk Hr H. apply (wins_match _ _ t). apply wins_seq.
  apply word_forallb in Hk as [Hn Hk].
  apply wins_group_plus_munch; [exact Hk|exact Hr|exact Hn|].
  destruct H as [ys H]. exists ys. rewrite <- H.
  apply (flat_map_single (run (RSeq re_value (RSeq re_type REnd)) (mkst r [(1, key)]))).
Qed.

Lemma parse_complete : forall prop key value type, ~ In NLc prop -> means prop key value type ->
  parse_property prop = Ok (key, value, type).
Proof.
  intros prop key value type HN (-> & Hk & Ht). unfold prop_text in *.
  apply nonl_app in HN as [N1 HN]. apply nonl_app in HN as [N2 N3].
  unfold parse_property.
  destruct value as [v|].
  - assert (Nv : nonl v) by (intros X; apply N2; now right).
    destruct type as [w|].
    + assert (Nw : nonl w) by (intros X; apply N3; now right).
      rewrite (match_property key _ [] [(3, "+"%char :: w); (2, "="%char :: v); (1, key)]); auto.
      * intros c u E. injection E as <- _. reflexivity.
      * apply (wins_value v ("+"%char :: w)); auto.
        -- intros a b -> Hb t E (Et & _ & Ep). destruct b as [|c b]; [now elim Hb|].
           injection E as -> <-. apply Ep. apply in_elt.
        -- now apply wins_run, wins_type.
    + rewrite (match_property key _ [] [(2, "="%char :: v); (1, key)]); auto.
      * intros c u E. injection E as <- _. reflexivity.
      * apply (wins_value v []); auto.
        -- intros a b -> Hb t E Wt. rewrite app_nil_r in E. subst b.
           apply (Ht _ eq_refl). now exists a, t.
        -- apply wins_run, wins_no_type.
  - destruct type as [w|].
    + assert (Nw : nonl w) by (intros X; apply N3; now right).
      rewrite (match_property key _ [] [(3, "+"%char :: w); (1, key)]); auto.
      * intros c u E. injection E as <- _. reflexivity.
      * apply wins_no_value; [discriminate|]. now apply wins_run, wins_type.
    + rewrite (match_property key _ [] [(1, key)]); auto.
      * discriminate.
      * apply wins_no_value; [discriminate|]. apply wins_run, wins_no_type.
Qed.

Lemma means_exists : forall key value type, word key -> (forall t, type = Some t -> word t) ->
  exists value' type', means (prop_text key value type) key value' type'.
Proof.
  intros key value type Hk Ht. destruct type as [t|].
  - exists value, (Some t). split; [reflexivity|]. split; [exact Hk|]. now apply Ht.
  - destruct value as [v|].
    + destruct (ends_typed_dec v) as [(v' & t & -> & Wt)|Hno].
      * exists (Some v'), (Some t). split; [|now split].
        unfold prop_text. rewrite app_nil_r. reflexivity.
      * exists (Some v), None. split; [reflexivity|]. split; [exact Hk|]. now injection 1 as <-.
    + exists None, None. split; [reflexivity|]. split; [exact Hk|]. discriminate.
Qed.

Lemma parse_spec : forall prop key value type, ~ In NLc prop ->
  (parse_property prop = Ok (key, value, type) <-> means prop key value type).
Proof.
  intros prop key value type HN. split; [|now apply parse_complete].
  intros H. assert (H0 := H). apply parse_sound in H as (Wk & Wt & _ & Hp).
  destruct Hp as [Hp|Hp].
  - destruct (means_exists key value type Wk Wt) as (v' & t' & M).
    rewrite <- Hp in M. assert (X := parse_complete _ _ _ _ HN M). rewrite H0 in X.
    now injection X as -> ->.
  - exfalso. apply HN. rewrite Hp. apply in_or_app. right. now left.
Qed.

Lemma means_unique : forall prop k1 v1 t1 k2 v2 t2, ~ In NLc prop ->
  means prop k1 v1 t1 -> means prop k2 v2 t2 -> (k1, v1, t1) = (k2, v2, t2).
Proof.
  intros prop k1 v1 t1 k2 v2 t2 HN H1 H2. apply parse_spec in H1, H2; auto.
  rewrite H1 in H2. now injection H2 as -> -> ->.
Qed.

Lemma parse_total : forall prop, (exists p, parse_property prop = Ok p) \/ parse_property prop = Err EInvalidInput.
Proof.
  intros prop. unfold parse_property. destruct (re_match re_property prop) as [g|] eqn:E; [|auto].
  left. apply re_match_mtc in E as [t E]. apply mtc_property in E as (k & v & w & Hk & _).
  rewrite Hk. eauto.
Qed.

Lemma parse_invalid : forall prop, ~ In NLc prop ->
  (parse_property prop = Err EInvalidInput <-> forall k v t, ~ means prop k v t).
Proof.
  intros prop HN. split.
  - intros H k v t M. apply parse_spec in M; auto. congruence.
  - intros H. destruct (parse_total prop) as [[[[k v] t] Hp]|Hp]; [|exact Hp].
    apply parse_spec in Hp; auto. now elim (H k v t).
Qed.

Lemma parse_properties_spec : forall value,
  (exists l, parse_properties value = Ok l /\ Forall2 (fun p q => parse_property p = Ok q) value l) \/
  (parse_properties value = Err EInvalidInput /\ exists p, In p value /\ parse_property p = Err EInvalidInput).
Proof.
  induction value as [|p value IH].
  - left. exists []. auto.
  - cbn. destruct (parse_total p) as [[q Hq]|Hq]; rewrite Hq; cbn.
    + destruct IH as [(l & -> & Hl)|(-> & p' & Hi & Hp')]; cbn.
      * left. exists (q :: l). auto.
      * right. split; [reflexivity|]. exists p'. auto.
    + right. split; [reflexivity|]. exists p. auto.
Qed.

Lemma set_properties_ok : forall value e, (forall p, In p value -> ~ In NLc p) ->
  (forall p, In p value -> exists k v t, means p k v t) ->
  exists l, set_properties value e = (mkep l (ep_transports e) (ep_labels e) (ep_descriptions e), Ok tt) /\
    Forall2 (fun p q => means p (fst (fst q)) (snd (fst q)) (snd q)) value l.
Proof.
  intros value e HN HM. unfold set_properties.
  destruct (parse_properties_spec value) as [(l & -> & Hl)|(_ & p & Hi & Hp)].
  - exists l. split; [reflexivity|]. clear HM. induction Hl as [|p [[k v] t] value l H Hl IH]; constructor.
    + apply parse_spec; [apply HN; now left|exact H].
    + apply IH. intros q Hq. apply HN. now right.
  - destruct (HM p Hi) as (k & v & t & M). apply parse_spec in M; [congruence|auto].
Qed.

Lemma set_properties_bad : forall value e p, In p value -> ~ In NLc p ->
  (forall k v t, ~ means p k v t) -> set_properties value e = (e, Err EInvalidInput).
Proof.
  intros value e p Hi HN HM. unfold set_properties.
  destruct (parse_properties_spec value) as [(l & _ & Hl)|(-> & _)]; [exfalso|reflexivity].
  clear e. revert Hi. induction Hl as [|p' [[k v] t] value l H Hl IH]; intros Hi; [contradiction|].
  destruct Hi as [->|Hi]; [|auto]. apply parse_spec in H; auto. now elim (HM k v t).
Qed.

Lemma ready_spec : forall e s, ready_to_run s e = true <->
  s = true /\ (ep_labels e = [] \/ length (ep_labels e) = length (ep_properties e)) /\
  (ep_descriptions e = [] \/ length (ep_descriptions e) = length (ep_properties e)).
Proof.
  intros [p t la de] s. unfold ready_to_run. cbn [ep_properties ep_labels ep_descriptions].
  destruct (Nat.eqb_spec (length la) (length p)), (Nat.eqb_spec (length de) (length p));
    destruct la as [|x la], de as [|y de], p as [|z p]; cbn [nonempty andb negb] in *;
    try discriminate; intuition (try discriminate; try congruence; auto).
Qed.

Lemma alias_means : forall v, means_transport v (alias known_transports v).
Proof.
  intros v. cbn [alias known_transports].
  destruct (str_eqb v (L "iso")) eqn:A; [apply str_eqb_eq in A as ->; constructor|].
  destruct (str_eqb v (L "vmware")) eqn:B; [apply str_eqb_eq in B as ->; constructor|].
  destruct (str_eqb v (L "ibm")) eqn:C; [apply str_eqb_eq in C as ->; constructor|].
  apply t_other. intros [<-|[<-|[<-|[]]]]; rewrite str_eqb_refl in *; discriminate.
Qed.
Lemma transports : forall l e,
  Forall2 means_transport l (ep_transports (set_transports l e)) /\
  ep_properties (set_transports l e) = ep_properties e /\ ep_labels (set_transports l e) = ep_labels e /\
  ep_descriptions (set_transports l e) = ep_descriptions e.
Proof.
  intros l e. split; [|now repeat split]. cbn [set_transports ep_transports]. induction l as [|x l IH]; constructor; [apply alias_means|exact IH].
Qed.
