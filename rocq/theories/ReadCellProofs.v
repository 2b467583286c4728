(** Reading back one generated element: COT/vm_description/ovf/item.py:207-278. *)
From Coq Require Import Lia.
From Verif Require Import PyBase PyBaseProofs PyDict PyDictProofs XmlModel NamesModel
  ItemModel ItemSpec PsetProofs ItemProofs ItemSetProofs ItemProfileProofs ItemReachProofs
  ItemAddProofs ItemEffectProofs LookupProofs WildcardProofs WildcardItemProofs CellProofs.

(** A harmless text is accepted. *)
Lemma text_accepted : forall E i n t P,
  reachable (e_ver E) i -> text_property (e_ver E) n -> t <> [] ->
  safe_values E (i_props i) n P ->
  (n = ITEM_DESCRIPTION -> exists o,
     get_value E (i_props i) (ELEMENT_NAME (e_ver E)) (Some (profs_of (i_props i) n P)) = Ok o) ->
  exists s, s <> [] /\
    add_wildcards E (i_props i) n (to_value E n (IStr t)) (profs_of (i_props i) n P)
    = Ok (VStr s).
Proof.
  intros E i n t P R Hn Ht Hsv Hen. apply reachable_good in R as G.
  set (ps := i_props i) in *. set (Q := profs_of ps n P) in *.
  assert (HQ : forall q, In q Q <-> requested ps n P q) by (intros; now apply (requested_profs E)).
  assert (HQne : Q <> []).
  { apply profs_nonempty; [apply G|]. intros d Hd. exact (good_dict _ _ _ _ G Hd). }
  assert (Hval : to_value E n (IStr t) = VStr t).
  { unfold to_value. assert (str_eqb n RESOURCE_SUB_TYPE = false) as ->; [|reflexivity].
    destruct Hn as [->| ->]; [destruct (e_ver E)|]; reflexivity. }
  rewrite Hval.
  assert (Hh3 : harmless_three E ps Q).
  { apply (harmless_three_of E ps n P Q Hsv HQne). intros q. apply HQ. }
  destruct Hn as [Hn|Hn].
  - assert (Hd : is_desc n = false) by (rewrite Hn; apply name_not_desc).
    unfold add_wildcards. rewrite Hd. cbn [rbind].
    assert (is_text E n = true) as Htx by (rewrite Hn; apply name_is_text). rewrite Htx.
    set (rho := the_rho E ps Q []). pose proof (the_rho_fits E ps Q []) as HF. fold rho in HF.
    destruct (add_three E ps Q [] rho (map Lit t) HF Hh3) as (ts & E1 & X1 & M1).
    { intros m Hin. apply in_map_iff in Hin as (c & F & _). discriminate. }
    rewrite flat_lits in E1. rewrite E1. exists (flat ts). split; [|reflexivity].
    rewrite expand_lits in X1. apply (flat_nonempty rho). now rewrite X1.
  - assert (Hd : is_desc n = true) by (rewrite Hn; reflexivity).
    unfold add_wildcards. rewrite Hd.
    assert (is_text E n = true) as Htx by (rewrite Hn; apply desc_is_text). rewrite Htx.
    destruct (Hen Hn) as [oen Een].
    set (en := value_text oen (vtext E)).
    set (rho := the_rho E ps Q en). pose proof (the_rho_fits E ps Q en) as HF. fold rho in HF.
    assert (Hen' : rho (L "EN") = en) by apply HF.
    destruct (sub_value_step E ps (ELEMENT_NAME (e_ver E)) (vtext E) (L "EN") Q rho (map Lit t) oen)
      as (t0 & E0 & X0 & M0).
    { exact Een. } { cbn; tauto. }
    { intros x ->. split; [|exact Hen'].
      apply (Hsv Q (L "EN")); [exact HQne|intros q; apply HQ|]. rewrite Hn. now apply embeds_en. }
    { intros m Hin. apply in_map_iff in Hin as (c & F & _). discriminate. }
    assert (M0' : forall m, In (Mark m) t0 -> m = L "EN").
    { intros m Hin. destruct (M0 m Hin) as [F|F]; [apply F|].
      apply in_map_iff in F as (c & F & _). discriminate. }
    rewrite flat_lits in E0. change (mk (L "EN")) with (L "_EN_") in E0. rewrite E0.
    cbn [rbind]. rewrite expand_lits in X0.
    destruct (add_three E ps Q en rho t0 HF Hh3) as (ts & E1 & X1 & M1).
    { intros m Hin. rewrite (M0' m Hin). cbn; tauto. }
    rewrite E1. exists (flat ts). split; [|reflexivity].
    apply (flat_nonempty rho). now rewrite X1, X0.
Qed.

(** The element name does not depend on the description. *)
Lemma name_independent : forall E ps ps' P P',
  (forall m, m <> ITEM_DESCRIPTION -> get_raw ps m P = get_raw ps' m P') ->
  get_value E ps (ELEMENT_NAME (e_ver E)) P = get_value E ps' (ELEMENT_NAME (e_ver E)) P'.
Proof.
  intros E ps ps' P P' H. unfold get_value, replace_wildcards.
  rewrite name_not_desc, name_is_text.
  rewrite (H (ELEMENT_NAME (e_ver E))) by (destruct (e_ver E); discriminate).
  destruct (get_raw ps' (ELEMENT_NAME (e_ver E)) P') as [x|]; [|reflexivity].
  destruct (negb (truthy x)); [reflexivity|].
  now rewrite !H by discriminate.
Qed.

Lemma replaced_some : forall E ps n x P r,
  replace_wildcards E ps n (Some x) P = Ok r -> exists y, r = Some y.
Proof.
  intros E ps n x P r H. unfold replace_wildcards in H.
  destruct (negb (truthy x)); [injection H as <-; eauto|].
  match type of H with rbind ?r _ = _ => destruct r as [y|]; [|discriminate] end.
  cbn [rbind] in H. injection H as <-. eauto.
Qed.
Lemma reports_None : forall E i n q, good_props (e_ver E) (i_props i) ->
  reports E i n q = Ok None -> forall v, ~ holds (i_props i) n q v.
Proof.
  intros E i n q G H v Hv. apply (get_raw_holds _ _ _ _ _ G) in Hv.
  unfold reports, get_value in H. rewrite Hv in H.
  destruct (replace_wildcards E (i_props i) n (Some v) (Some [q])) as [r|] eqn:Er; [|discriminate].
  cbn [rbind] in H. apply replaced_some in Er as [y ->]. destruct (_ && _) in H; discriminate.
Qed.

Section Cell.
Variable E : env.
Variables i j0 : item.
Variable F : list profile.
Variable D : profile -> Prop.
Hypothesis Ri : reachable (e_ver E) i.
Hypothesis F_ne : F <> [].
Hypothesis F_same : forall q r, In q F -> In r F -> forall n v,
  own (i_props i) n q v <-> own (i_props i) n r v.
Hypothesis R0 : reachable (e_ver E) j0.
Hypothesis inA : forall n q w, own (i_props j0) n q w -> D q.
Hypothesis inB : forall n q w, D q -> ~ text_property (e_ver E) n ->
  (holds (i_props j0) n q w <-> holds (i_props i) n q w).
Hypothesis inC : forall n q, D q -> text_property (e_ver E) n ->
  reports E j0 n q = reports E i n q.
Hypothesis Fresh : forall q, In q F -> ~ D q.
Hypothesis Default : (F = [None] /\ forall q, ~ D q) \/ ~ In None F.

Let P := if pmem None F then [] else F.

Record mid (j : item) (N : list str) : Prop := {
  m_reach : reachable (e_ver E) j;
  m_new : forall n q w, In q F -> own (i_props j) n q w -> In n N;
  m_old : forall n q w, ~ In q F -> (own (i_props j) n q w <-> own (i_props j0) n q w);
  m_val : forall n q w, In n N -> In q F -> ~ text_property (e_ver E) n ->
    (holds (i_props j) n q w <-> holds (i_props i) n q w);
  m_uni : forall n q r w, In q F -> In r F ->
    (holds (i_props j) n q w <-> holds (i_props j) n r w) }.

Lemma Gi : good_props (e_ver E) (i_props i).
Proof. now apply reachable_good. Qed.

Lemma F_some : exists f, In f F.
Proof. destruct F as [|f F']; [contradiction|]. exists f. now left. Qed.

Lemma mid_start : mid j0 [].
Proof.
  assert (No : forall n q w, In q F -> ~ own (i_props j0) n q w).
  { intros n q w Hq H. apply (Fresh q Hq). now apply (inA n q w). }
  constructor.
  - exact R0.
  - intros n q w Hq H. now apply No in H.
  - tauto.
  - intros n q w [].
  - intros n q r w Hq Hr. apply own_same_holds. intros v.
    split; intros H; exfalso; revert H; now apply No.
Qed.

Lemma no_text_single : forall n, n = INSTANCE_ID (e_ver E) \/ n = RESOURCE_TYPE ->
  ~ text_property (e_ver E) n.
Proof.
  intros n [-> | ->] [H|H]; destruct (e_ver E); discriminate.
Qed.

(** Which profiles a call reaches. *)
Lemma mid_good : forall j N, mid j N -> good_props (e_ver E) (i_props j).
Proof. intros j N M. apply reachable_good. apply M. Qed.

Lemma call_requested : forall j N n p, mid j N -> ~ In n N ->
  (requested (i_props j) n P p <-> In p F).
Proof.
  intros j N n p M Hn. unfold P. destruct (pmem None F) eqn:Ep.
  - apply pmem_In in Ep. destruct Default as [[EF HD]|Hd]; [|contradiction].
    assert (No : forall q v, ~ own (i_props j) n q v).
    { intros [x|] v Hv.
      - apply (m_old _ _ M) in Hv; [|rewrite EF; intros [H1|[]]; discriminate]. apply (HD (Some x)). now apply (inA n _ v).
      - apply Hn. apply (m_new _ _ M n None v); [rewrite EF; now left|exact Hv]. }
    rewrite EF. cbn [requested In]. split.
    + intros [[v Hv]|[_ ->]]; [now apply No in Hv|now left].
    + intros [<-|[]]. right. auto.
  - destruct F as [|f F']; [contradiction|]. reflexivity.
Qed.
Lemma call_profs : forall j N n p, mid j N -> ~ In n N ->
  (In p (profs_of (i_props j) n P) <-> In p F).
Proof.
  intros j N n p M Hn. rewrite (requested_profs E) by exact (mid_good j N M).
  now apply (call_requested j N).
Qed.

(** One accepted call. *)
Lemma mid_step : forall j N n v x,
  mid j N -> ~ In n N -> truthy v = true ->
  add_wildcards E (i_props j) n (to_value E n x) (profs_of (i_props j) n P) = Ok v ->
  (~ text_property (e_ver E) n -> forall q, In q F -> holds (i_props i) n q v) ->
  exists j', set_property E j n x P false = Ok j' /\ mid j' (n :: N) /\
    (forall m q w, m <> n -> (own (i_props j') m q w <-> own (i_props j) m q w)).
Proof.
  intros j N n v x M Hn Ht Hv Hsrc. pose proof (mid_good j N M) as G.
  set (Q := profs_of (i_props j) n P) in *.
  assert (HQ : forall p, In p Q <-> In p F) by (intros; now apply (call_profs j N)).
  assert (ND : NoDup Q) by apply profs_NoDup.
  assert (Qne : Q <> []).
  { apply profs_nonempty; [apply G|]. intros d Hd. exact (good_dict _ _ _ _ G Hd). }
  destruct (set_property E j n x P false) as [j'|e] eqn:Es.
  2: { exfalso. rewrite set_property_eq in Es by exact G. fold Q in Es. rewrite Hv in Es.
       cbn [rbind] in Es. destruct (refused false (i_props j) n Q) eqn:Er.
       - apply refused_spec in Er as (_ & p & w & Hp & Hw); [|apply G].
         apply Hn. apply (m_new _ _ M n p w); [now apply HQ|exact Hw].
       - destruct (too_many (e_ver E) n (stored_values (i_props j) n v Q)) eqn:Em; [|discriminate].
         unfold too_many in Em. apply andb_true_iff in Em as [En El].
         apply orb_true_iff in En. rewrite !str_eqb_eq in En. apply Nat.ltb_lt in El.
         destruct (stored_values_two (e_ver E) (i_props j) n v Q G ND Qne El) as (p & w & H1 & H2 & H3).
         rewrite HQ in H3. apply (m_old _ _ M) in H1; [|exact H3].
         assert (Hp := inA n p w H1). pose proof (no_text_single n En) as Htx.
         assert (holds (i_props i) n p w) as Hw by (apply inB; auto; now left).
         destruct F_some as [f Hf0]. pose proof (Hsrc Htx f Hf0) as Hf.
         apply holds_own in Hw as (q1 & Hw). apply holds_own in Hf as (q2 & Hf).
         apply H2. exact (good_single _ _ n q1 q2 w v Gi En Hw Hf). }
  exists j'. split; [reflexivity|].
  assert (R' : reachable (e_ver E) j') by exact (R_set _ E j n x P false j' eq_refl (m_reach _ _ M) Es).
  apply set_property_inv in Es as (v' & Hv' & _ & _ & Hp & _); [|exact G].
  fold Q in Hv', Hp. rewrite Hv in Hv'. injection Hv' as <-.
  assert (Oth : forall m q w, m <> n -> (own (i_props j') m q w <-> own (i_props j) m q w)).
  { intros m q w Hm. rewrite Hp. apply stored_other; [apply G|exact Hm]. }
  assert (Hh : forall q w, In q F -> (holds (i_props j') n q w <-> w = v)).
  { intros q w Hq. rewrite Hp, (stored_holds _ _ n v Q q w G ND Ht). rewrite HQ.
    split; [intros [[_ ->]|[H _]]; [reflexivity|contradiction]|]. intros ->. left. auto. }
  split; [|exact Oth]. constructor.
  - exact R'.
  - intros m q w Hq Ho. destruct (str_eq_dec m n) as [-> |Hm]; [now left|]. right.
    apply Oth in Ho; [|exact Hm]. now apply (m_new _ _ M m q w).
  - intros m q w Hq. rewrite <- (m_old _ _ M m q w Hq).
    destruct (str_eq_dec m n) as [-> |Hm]; [|now apply Oth].
    rewrite Hp. destruct Default as [[EF HD]|Hd].
    + destruct q as [y|]; [|exfalso; apply Hq; rewrite EF; now left].
      assert (No : forall u, ~ own (i_props j) n (Some y) u).
      { intros u Hu. apply (m_old _ _ M) in Hu; [|exact Hq]. apply (HD (Some y)). now apply (inA n _ u). }
      split; intros Ho; [|now apply No in Ho].
      apply (stored_own_named (e_ver E)) in Ho; [|exact G|exact ND].
      destruct Ho as [(_ & Ho & _)|(_ & _ & _ & Ho & _)]; [exact Ho|].
      exfalso. apply Ho. apply HQ. rewrite EF. now left.
    + apply (stored_own_outside (e_ver E)); [exact G|exact ND|now rewrite HQ|now rewrite HQ].
  - intros m q w Hm Hq Htx. destruct (str_eq_dec m n) as [-> |Hmn].
    + rewrite Hh by exact Hq. specialize (Hsrc Htx q Hq). split; [now intros ->|].
      intros Hw. exact (holds_unique _ _ _ _ _ _ Gi Hw Hsrc).
    + destruct Hm as [Hm|Hm]; [congruence|]. rewrite <- (m_val _ _ M m q w Hm Hq Htx).
      apply holds_agree. intros r u _. now apply Oth.
  - intros m q r w Hq Hr. destruct (str_eq_dec m n) as [-> |Hmn].
    + now rewrite !Hh.
    + transitivity (holds (i_props j) m q w).
      { apply holds_agree. intros s u _. now apply Oth. }
      rewrite (m_uni _ _ M m q r w Hq Hr). symmetry.
      apply holds_agree. intros s u _. now apply Oth.
Qed.

(** What is not in the source is not read. *)
Lemma mid_absent : forall j N n q, mid j N -> ~ In n N -> In q F ->
  (forall w, ~ holds (i_props i) n q w) -> forall w, ~ holds (i_props j) n q w.
Proof.
  intros j N n q M Hn Hq Hno w Hw.
  assert (No : forall u, ~ own (i_props j) n q u).
  { intros u Hu. apply Hn. now apply (m_new _ _ M n q u). }
  assert (Ho : own (i_props j) n None w) by (destruct Hw as [H|[_ H]]; [now apply No in H|exact H]).
  destruct Default as [[EF HD]|Hd].
  - apply Hn. apply (m_new _ _ M n None w); [rewrite EF; now left|exact Ho].
  - apply (m_old _ _ M) in Ho; [|exact Hd]. pose proof (inA _ _ _ Ho) as HN.
    assert (K : exists u, own (i_props i) n None u).
    { destruct (is_text E n) eqn:Ex.
      - apply text_property_is_text in Ex. pose proof (inC n None HN Ex) as Hr.
        destruct (own_dec (i_props i) n None) as [K|K]; [apply Gi|exact K|exfalso].
        assert (Hi : reports E i n None = Ok None).
        { apply reports_nothing; [exact Gi|]. intros u [H|[_ H]]; now apply K in H. }
        rewrite Hi in Hr. apply (reports_None E j0 n None) with (v := w) in Hr.
        + apply Hr. now left.
        + now apply reachable_good.
      - assert (Hx : ~ text_property (e_ver E) n).
        { intros H. apply text_property_is_text in H. congruence. }
        assert (Hh : holds (i_props i) n None w) by (apply inB; auto; now left).
        exists w. destruct Hh as [H|[_ H]]; exact H. }
    destruct K as [u Hu]. destruct (own_dec (i_props i) n q) as [[u' Hu']|K]; [apply Gi| |].
    + apply (Hno u'). now left.
    + apply (Hno u). right. auto.
Qed.

Definition read_calls (P : list profile) (calls : list (str * str)) (j : item) : result item :=
  fold_result (fun j nt => set_property E j (fst nt) (IStr (snd nt)) P false) calls j.

(** The calls for ordinary properties. *)
Lemma mid_plain : forall calls j N, mid j N -> NoDup (map fst calls) ->
  (forall n, In n N -> ~ In n (map fst calls)) ->
  (forall n t, In (n, t) calls -> ~ text_property (e_ver E) n /\
     truthy (to_value E n (IStr t)) = true /\
     forall q, In q F -> holds (i_props i) n q (to_value E n (IStr t))) ->
  exists j', read_calls P calls j = Ok j' /\ mid j' (rev (map fst calls) ++ N).
Proof.
  induction calls as [|[n t] calls IH]; intros j N M ND HN H.
  - exists j. split; [reflexivity|exact M].
  - cbn in ND. inversion ND as [|a b H1 H2]; subst.
    destruct (H n t (or_introl eq_refl)) as (Htx & Htr & Hh).
    destruct (mid_step j N n (to_value E n (IStr t)) (IStr t) M) as (j1 & E1 & M1 & _).
    { intros Hin. apply (HN n Hin). now left. }
    { exact Htr. }
    { apply add_wildcards_plain. now apply not_text. }
    { auto. }
    destruct (IH j1 (n :: N) M1 H2) as (j' & E' & M').
    { intros m [<-|Hm]; [exact H1|]. intros Hin. apply (HN m Hm). now right. }
    { intros m u Hin. apply H. now right. }
    exists j'. split.
    + unfold read_calls in *. cbn [fold_result fst snd]. rewrite E1. exact E'.
    + cbn [map rev fst]. rewrite <- app_assoc. exact M'.
Qed.

(** All ordinary properties of the source are there. *)
Definition complete (j : item) : Prop := forall n q w, In q F -> ~ text_property (e_ver E) n ->
  (holds (i_props j) n q w <-> holds (i_props i) n q w).

Lemma complete_reports : forall j N n q, mid j N -> complete j -> In q F ->
  ~ text_property (e_ver E) n -> reports E j n q = reports E i n q.
Proof.
  intros j N n q M C Hq Hx. unfold reports. rewrite !get_value_plain by now apply not_text.
  f_equal. apply (get_raw_agree (e_ver E)); [exact (mid_good j N M)|exact Gi|].
  intros v. now apply C.
Qed.

Lemma three_not_text : forall tag,
  tag = RESOURCE_SUB_TYPE \/ tag = VIRTUAL_QUANTITY \/ tag = CONNECTION ->
  ~ text_property (e_ver E) tag.
Proof. intros tag [->|[->| ->]] [H|H]; destruct (e_ver E); discriminate. Qed.

(** A free text. *)
Lemma mid_text : forall j N n t, mid j N -> complete j -> ~ In n N ->
  text_property (e_ver E) n -> t <> [] ->
  (n = ITEM_DESCRIPTION -> forall q, In q F ->
     reports E j (ELEMENT_NAME (e_ver E)) q = reports E i (ELEMENT_NAME (e_ver E)) q /\
     exists o, reports E i (ELEMENT_NAME (e_ver E)) q = Ok o) ->
  (forall q, In q F -> safe_values E (i_props i) n [q] /\ safe_text E (i_props i) n [q] t) ->
  exists j', set_property E j n (IStr t) P false = Ok j' /\ mid j' (n :: N) /\ complete j' /\
    (forall q, In q F -> reports E j' n q = Ok (Some (VStr t))) /\
    (forall m q w, m <> n -> (own (i_props j') m q w <-> own (i_props j) m q w)).
Proof.
  intros j N n t M C Hn Hx Ht Hen Hsafe. pose proof (mid_good j N M) as G.
  assert (Hreq : forall q, requested (i_props j) n P q <-> In q F).
  { intros q. now apply (call_requested j N). }
  assert (Huni : forall m Q q, Q <> [] -> (forall p, In p Q -> In p F) -> In q F ->
    get_value E (i_props j) m (Some Q) = reports E j m q).
  { intros m Q q HQ Hs Hq. apply get_value_uniform; [exact G|exact HQ|].
    intros p Hp k v. apply (m_uni _ _ M); auto. }
  assert (Hemb : forall Q q w x, Q <> [] -> (forall p, In p Q -> In p F) -> In q F ->
    embeds E (i_props j) Q n w x -> embeds E (i_props i) [q] n w x).
  { intros Q q w x HQ Hs Hq He. destruct He as [n v Hv|n v Hv|n v Hv|v Hv];
      rewrite (Huni _ Q q HQ Hs Hq) in Hv.
    - rewrite (complete_reports j N _ q M C Hq) in Hv by (apply three_not_text; auto). now apply embeds_vq.
    - rewrite (complete_reports j N _ q M C Hq) in Hv by (apply three_not_text; auto). now apply embeds_rst.
    - rewrite (complete_reports j N _ q M C Hq) in Hv by (apply three_not_text; auto). now apply embeds_conn.
    - destruct (Hen eq_refl q Hq) as [K _]. rewrite K in Hv. now apply embeds_en. }
  assert (One : forall q p, In p [q] -> requested (i_props i) n [q] p) by (intros q p H; exact H).
  assert (Hpick : forall Q : list profile, Q <> [] -> exists q, In q Q).
  { intros [|q Q] H; [contradiction|]. exists q. now left. }
  assert (Hsv : safe_values E (i_props j) n P).
  { intros Q w x HQ Hr He. destruct (Hpick Q HQ) as [q Hq].
    assert (Hs : forall p, In p Q -> In p F) by (intros p Hp; now apply Hreq, Hr).
    destruct (Hsafe q (Hs q Hq)) as [K _]. apply (K [q] w x); [discriminate|apply One|].
    exact (Hemb Q q w x HQ Hs (Hs q Hq) He). }
  assert (Hst : safe_text E (i_props j) n P t).
  { split.
    - destruct F_some as [f Hf]. now apply (Hsafe f).
    - intros Q a w1 x w w2 y b HQ Hr H1 H2 Hw. destruct (Hpick Q HQ) as [q Hq].
      assert (Hs : forall p, In p Q -> In p F) by (intros p Hp; now apply Hreq, Hr).
      destruct (Hsafe q (Hs q Hq)) as [_ [_ K]]. apply (K [q] a w1 x w w2 y b); auto; [discriminate| |].
      + exact (Hemb Q q w1 x HQ Hs (Hs q Hq) H1).
      + exact (Hemb Q q w2 y HQ Hs (Hs q Hq) H2). }
  destruct (text_accepted E j n t P (m_reach _ _ M) Hx Ht Hsv) as (s & Hs & Ha).
  { intros En. destruct F_some as [f Hf]. destruct (Hen En f Hf) as [K [o Ho]]. exists o.
    rewrite (Huni _ _ f); [congruence| | |exact Hf].
    - apply profs_nonempty; [apply G|]. intros d Hd. exact (good_dict _ _ _ _ G Hd).
    - intros p. now apply (call_profs j N). }
  destruct (mid_step j N n (VStr s) (IStr t) M Hn) as (j' & E1 & M1 & Oth).
  { destruct s; [contradiction|reflexivity]. }
  { exact Ha. }
  { contradiction. }
  exists j'. split; [exact E1|]. split; [exact M1|]. split; [|split; [|exact Oth]].
  - intros m q w Hq Hm. rewrite <- (C m q w Hq Hm). apply holds_agree. intros r u _.
    apply Oth. intros ->. contradiction.
  - intros q Hq. apply (text_roundtrip E j n t P false j' (m_reach _ _ M) Hx Ht Hsv Hst); auto.
    + intros En r Hr. apply Hreq in Hr. destruct (Hen En r Hr) as [K [o Ho]]. exists o. congruence.
    + now apply Hreq.
Qed.

(** All calls for one element. *)
Definition call_of (n : str) (o : option str) : list (str * str) :=
  match o with Some t => [(n, t)] | None => [] end.
Definition text_known (n : str) (o : option str) : Prop :=
  match o with
  | Some t => t <> [] /\ forall q, In q F -> reports E i n q = Ok (Some (VStr t)) /\
      safe_values E (i_props i) n [q] /\ safe_text E (i_props i) n [q] t
  | None => forall q, In q F -> reports E i n q = Ok None
  end.

Lemma read_calls_app : forall Q a b j, read_calls Q (a ++ b) j =
  do j' <- read_calls Q a j; read_calls Q b j'.
Proof.
  intros Q a. induction a as [|c a IH]; intros b j; [reflexivity|].
  unfold read_calls in *. cbn [app fold_result]. destruct (set_property _ _ _ _ _ _); [|reflexivity].
  cbn [rbind]. apply IH.
Qed.

Lemma text_known_reports : forall n o q, text_known n o -> In q F ->
  reports E i n q = Ok (option_map VStr o).
Proof.
  intros n [t|] q H Hq; cbn in *; [|now apply H]. destruct H as [_ H]. now apply H.
Qed.

(** One free text, emitted or not. *)
Lemma mid_text_opt : forall j N n o, mid j N -> complete j -> ~ In n N ->
  text_property (e_ver E) n -> text_known n o ->
  (n = ITEM_DESCRIPTION -> forall q, In q F ->
     reports E j (ELEMENT_NAME (e_ver E)) q = reports E i (ELEMENT_NAME (e_ver E)) q /\
     exists o, reports E i (ELEMENT_NAME (e_ver E)) q = Ok o) ->
  exists j' N', read_calls P (call_of n o) j = Ok j' /\ mid j' N' /\ complete j' /\
    (forall m, In m N' -> m = n \/ In m N) /\
    (forall q, In q F -> reports E j' n q = reports E i n q) /\
    (forall m q w, m <> n -> (own (i_props j') m q w <-> own (i_props j) m q w)).
Proof.
  intros j N n o M C Hn Hx Hk Hen. destruct o as [t|].
  - destruct Hk as [Ht Hk].
    destruct (mid_text j N n t M C Hn Hx Ht Hen) as (j' & E1 & M1 & C1 & Hr & Oth).
    { intros q Hq. now apply Hk. }
    exists j', (n :: N). unfold read_calls. cbn [call_of fold_result fst snd]. rewrite E1.
    split; [reflexivity|]. split; [exact M1|]. split; [exact C1|].
    split; [intros m [<-|H]; auto|]. split; [|exact Oth].
    intros q Hq. rewrite (Hr q Hq). symmetry. now apply Hk.
  - exists j, N. split; [reflexivity|]. split; [exact M|]. split; [exact C|].
    split; [auto|]. split; [|tauto].
    intros q Hq. cbn in Hk. rewrite (Hk q Hq). apply reports_nothing; [exact (mid_good j N M)|].
    apply (mid_absent j N n q M Hn Hq). apply (reports_None E i n q Gi). now apply Hk.
Qed.

Theorem cell_read : forall plain oen odesc,
  NoDup (map fst plain) ->
  (forall n t, In (n, t) plain -> ~ text_property (e_ver E) n /\
     truthy (to_value E n (IStr t)) = true /\
     forall q, In q F -> holds (i_props i) n q (to_value E n (IStr t))) ->
  (forall n q w, In q F -> ~ text_property (e_ver E) n -> holds (i_props i) n q w ->
     In n (map fst plain)) ->
  text_known (ELEMENT_NAME (e_ver E)) oen -> text_known ITEM_DESCRIPTION odesc ->
  exists j', read_calls P (plain ++ call_of (ELEMENT_NAME (e_ver E)) oen ++
                           call_of ITEM_DESCRIPTION odesc) j0 = Ok j' /\
    reachable (e_ver E) j' /\
    (forall n q w, own (i_props j') n q w -> D q \/ In q F) /\
    (forall n q w, D q \/ In q F -> ~ text_property (e_ver E) n ->
       (holds (i_props j') n q w <-> holds (i_props i) n q w)) /\
    (forall n q, D q \/ In q F -> text_property (e_ver E) n ->
       reports E j' n q = reports E i n q).
Proof.
  intros plain oen odesc ND Hpl Hall Hen Hde.
  set (EN := ELEMENT_NAME (e_ver E)) in *.
  assert (ENx : text_property (e_ver E) EN) by now left.
  assert (DEx : text_property (e_ver E) ITEM_DESCRIPTION) by now right.
  assert (Hne : EN <> ITEM_DESCRIPTION) by (unfold EN; destruct (e_ver E); discriminate).
  destruct (mid_plain plain j0 [] mid_start ND) as (j1 & E1 & M1); [intros n []|exact Hpl|].
  rewrite app_nil_r in M1. set (N1 := rev (map fst plain)) in *.
  assert (HN1 : forall n, In n N1 -> ~ text_property (e_ver E) n).
  { intros n Hn. apply in_rev in Hn. apply in_map_iff in Hn as ((m & t) & <- & Hm).
    now apply (Hpl m t). }
  assert (C1 : complete j1).
  { intros n q w Hq Hx. destruct (in_dec str_eq_dec n (map fst plain)) as [Hn|Hn].
    - apply (m_val _ _ M1); auto. now apply -> in_rev.
    - assert (No : forall u, ~ holds (i_props i) n q u).
      { intros u Hu. apply Hn. now apply (Hall n q u). }
      assert (No1 : forall u, ~ holds (i_props j1) n q u).
      { apply (mid_absent j1 N1 n q M1); auto. intros H. apply Hn. now apply in_rev. }
      split; intros H; exfalso; [now apply No1 in H|now apply No in H]. }
  destruct (mid_text_opt j1 N1 EN oen M1 C1) as (j2 & N2 & E2 & M2 & C2 & HN2 & Hr2 & O2).
  { intros H. now apply HN1 in H. } { exact ENx. } { exact Hen. }
  { intros H. now apply Hne in H. }
  destruct (mid_text_opt j2 N2 ITEM_DESCRIPTION odesc M2 C2) as (j3 & N3 & E3 & M3 & C3 & HN3 & Hr3 & O3).
  { intros H. apply HN2 in H as [H|H]; [now symmetry in H|]. now apply HN1 in H. }
  { exact DEx. } { exact Hde. }
  { intros _ q Hq. split; [now apply Hr2|]. exists (option_map VStr oen).
    exact (text_known_reports EN oen q Hen Hq). }
  exists j3. split.
  { rewrite read_calls_app, E1. cbn [rbind]. rewrite read_calls_app, E2. cbn [rbind]. exact E3. }
  split; [exact (m_reach _ _ M3)|].
  assert (G3 := mid_good j3 N3 M3). assert (G0 : good_props (e_ver E) (i_props j0)) by now apply reachable_good.
  assert (HnF : forall q, D q -> ~ In q F) by (intros q Hq H; now apply (Fresh q H)).
  assert (Old : forall q, D q -> forall n w, holds (i_props j3) n q w <-> holds (i_props j0) n q w).
  { intros q Hq n w. apply holds_agree. intros r u Hr.
    apply (m_old _ _ M3). destruct Hr as [-> | ->]; [now apply HnF|].
    destruct Default as [[_ HD]|Hd]; [now apply HD in Hq|exact Hd]. }
  split; [|split].
  - intros n q w H. destruct (in_dec profile_eq_dec q F) as [Hq|Hq]; [now right|]. left.
    apply (m_old _ _ M3) in H; [|exact Hq]. now apply (inA n q w).
  - intros n q w [Hq|Hq] Hx; [|now apply C3]. rewrite (Old q Hq). now apply inB.
  - intros n q [Hq|Hq] Hx.
    + rewrite <- (inC n q Hq Hx). apply reports_same; [exact G0|exact G3|].
      intros m v. symmetry. now apply Old.
    + destruct Hx as [->| ->]; [|now apply Hr3]. fold EN. rewrite <- (Hr2 q Hq).
      unfold reports, EN. apply name_independent. intros m Hm.
      apply (get_raw_agree (e_ver E)); [exact G3|exact (mid_good j2 N2 M2)|].
      intros v. apply holds_agree. intros r u _. now apply O3.
Qed.
End Cell.
