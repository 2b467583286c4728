(** Proofs about the selection of helpers and disk formats. *)
From Coq Require Import Lia.
From Verif Require Import PyBase PyBaseProofs PyRegex PyRegexProofs SelectModel SelectSpec.
Local Open Scope Z_scope.

(** ** helper_select *)
Section Helpers.
Variables (System Version : Type).
Variable installed : System -> str -> bool.
Variable installable : System -> str -> bool.
Variable version : System -> str -> result Version.
Variable at_least : Version -> Version -> bool.
Variable install : System -> str -> result unit * System.

Notation version_ok := (version_ok System Version version at_least).
Notation select_installed := (select_installed System Version installed version at_least).
Notation select_installable := (select_installable System Version installable version at_least install).
Notation helper_select := (helper_select System Version installed installable version at_least install).
Notation recent := (recent System Version version at_least).
Notation too_old := (too_old System Version version at_least).
Notation usable := (usable System Version installed version at_least).
Notation unusable := (unusable System Version installed version at_least).
Notation install_until := (install_until System Version installable version at_least install).

Lemma version_ok_true : forall s c, version_ok s c = Ok true <-> recent s c.
Proof.
  intros s [n [m|]]; unfold SelectModel.version_ok, SelectSpec.recent; cbn [fst snd]; [|tauto].
  destruct (version s n) as [v|e].
  - split; [intros H; injection H as H; eauto|]. intros (v' & E & H). injection E as <-. now rewrite H.
  - split; [discriminate|]. intros (v' & E & _). discriminate.
Qed.
Lemma version_ok_false : forall s c, version_ok s c = Ok false <-> too_old s c.
Proof.
  intros s [n [m|]]; unfold SelectModel.version_ok, SelectSpec.too_old; cbn [fst snd].
  - destruct (version s n) as [v|e].
    + split; [intros H; injection H as H; exists m, v; auto|]. intros (m' & v' & E1 & E2 & H). injection E1 as <-. injection E2 as <-. now rewrite H.
    + split; [discriminate|]. intros (m' & v' & _ & E & _). discriminate.
  - split; [discriminate|]. intros (m & v & E & _). discriminate.
Qed.

Lemma select_installed_some : forall s l name, select_installed s l = Ok (Some name) <->
  exists a c b, l = a ++ c :: b /\ fst c = name /\ usable s c /\ forall c', In c' a -> unusable s c'.
Proof.
  intros s l name. induction l as [|c l IH]; cbn [SelectModel.select_installed].
  - split; [discriminate|]. intros (a & c & b & E & _). destruct a; discriminate.
  - assert (select_installed s l = Ok (Some name) -> unusable s c ->
      exists a c0 b, c :: l = a ++ c0 :: b /\ fst c0 = name /\ usable s c0 /\ forall c', In c' a -> unusable s c') as Step.
    { intros H U. apply IH in H as (a & c0 & b & -> & Hn & Hu & Ha). exists (c :: a), c0, b.
      split; [reflexivity|]. split; [exact Hn|]. split; [exact Hu|]. intros c' [<- |Hi]; auto. }
    assert (forall a c0 b, c :: l = a ++ c0 :: b -> fst c0 = name -> usable s c0 -> (forall c', In c' a -> unusable s c') ->
      (usable s c /\ fst c = name) \/ (unusable s c /\ select_installed s l = Ok (Some name))) as Inv.
    { intros a c0 b E Hn Hu Ha. destruct a as [|x a]; cbn [app] in E.
      - injection E as <- <-. now left.
      - injection E as <- ->. right. split; [apply Ha; now left|]. apply IH. exists a, c0, b.
        split; [reflexivity|]. split; [exact Hn|]. split; [exact Hu|]. intros c' Hi. apply Ha. now right. }
    destruct (installed s (fst c)) eqn:Ei.
    + destruct (version_ok s c) as [[|]|e] eqn:Ev.
      * apply version_ok_true in Ev. split.
        -- intros H. injection H as <-. exists [], c, l. split; [reflexivity|]. split; [reflexivity|]. split; [now split|]. intros c' [].
        -- intros (a & c0 & b & E & Hn & Hu & Ha). destruct (Inv a c0 b E Hn Hu Ha) as [[_ ->]|[[U|U] _]]; [reflexivity|congruence|].
           apply version_ok_false in U. apply version_ok_true in Ev. congruence.
      * pose proof Ev as Ev'. apply version_ok_false in Ev. split.
        -- intros H. apply Step; [exact H|now right].
        -- intros (a & c0 & b & E & Hn & Hu & Ha). destruct (Inv a c0 b E Hn Hu Ha) as [[[_ U] _]|[_ H]]; [|exact H].
           apply version_ok_true in U. congruence.
      * split; [discriminate|]. intros (a & c0 & b & E & Hn & Hu & Ha).
        destruct (Inv a c0 b E Hn Hu Ha) as [[[_ U] _]|[[U|U] _]].
        -- apply version_ok_true in U. congruence.
        -- congruence.
        -- apply version_ok_false in U. congruence.
    + split.
      * intros H. apply Step; [exact H|now left].
      * intros (a & c0 & b & E & Hn & Hu & Ha). destruct (Inv a c0 b E Hn Hu Ha) as [[[U _] _]|[_ H]]; [congruence|exact H].
Qed.

Lemma select_installed_none : forall s l, select_installed s l = Ok None <-> forall c, In c l -> unusable s c.
Proof.
  intros s l. induction l as [|c l IH]; cbn [SelectModel.select_installed].
  - split; [intros _ c []|reflexivity].
  - destruct (installed s (fst c)) eqn:Ei.
    + destruct (version_ok s c) as [[|]|e] eqn:Ev.
      * split; [discriminate|]. intros H. destruct (H c (or_introl eq_refl)) as [U|U]; [congruence|]. apply version_ok_false in U. congruence.
      * rewrite IH. apply version_ok_false in Ev. split.
        -- intros H c' [<- |Hi]; [now right|auto].
        -- intros H c' Hi. apply H. now right.
      * split; [discriminate|]. intros H. destruct (H c (or_introl eq_refl)) as [U|U]; [congruence|]. apply version_ok_false in U. congruence.
    + rewrite IH. split.
      * intros H c' [<- |Hi]; [now left|auto].
      * intros H c' Hi. apply H. now right.
Qed.

Lemma select_installable_some : forall l s name s', select_installable s l = (Ok (Some name), s') <-> install_until s l name s'.
Proof.
  induction l as [|c l IH]; intros s name s'; cbn [SelectModel.select_installable].
  - split; [discriminate|]. intros H. inversion H.
  - split.
    + intros H. destruct (installable s (fst c)) eqn:Ei; [|apply iu_skip; [exact Ei|now apply IH]].
      destruct (install s (fst c)) as [[[]|e] s1] eqn:Es; [|discriminate].
      destruct (version_ok s1 c) as [[|]|e] eqn:Ev; [| |discriminate].
      * injection H as <- <-. apply iu_found; auto. now apply version_ok_true.
      * apply iu_old with s1; auto; [now apply version_ok_false|now apply IH].
    + intros H. inversion H; subst.
      * match goal with F : installable s _ = false |- _ => rewrite F end. now apply IH.
      * match goal with F : installable s _ = true |- _ => rewrite F end.
        match goal with F : install s _ = _ |- _ => rewrite F end.
        match goal with F : too_old _ _ |- _ => apply version_ok_false in F; rewrite F end. now apply IH.
      * match goal with F : installable s _ = true |- _ => rewrite F end.
        match goal with F : install s _ = _ |- _ => rewrite F end.
        match goal with F : recent _ _ |- _ => apply version_ok_true in F; rewrite F end. reflexivity.
Qed.

Theorem helper_select_spec : forall s choices name s',
  helper_select s choices = (Ok name, s') <->
  (s' = s /\ exists a c b, choices = a ++ c :: b /\ fst c = name /\ usable s c /\ forall c', In c' a -> unusable s c') \/
  ((forall c, In c choices -> unusable s c) /\ install_until s choices name s').
Proof.
  intros s choices name s'. unfold SelectModel.helper_select. split.
  - destruct (select_installed s choices) as [[n|]|e] eqn:E1; [| |discriminate].
    + intros H. injection H as -> <-. left. split; [reflexivity|]. now apply select_installed_some.
    + destruct (select_installable s choices) as [[[n|]|e] s1] eqn:E2; try discriminate.
      intros H. injection H as -> ->. right. split; [now apply select_installed_none|now apply select_installable_some].
  - intros [[-> H]|[H1 H2]].
    + apply select_installed_some in H. now rewrite H.
    + apply select_installed_none in H1. apply select_installable_some in H2. now rewrite H1, H2.
Qed.

Theorem helper_select_not_found : forall s choices,
  (forall c, In c choices -> unusable s c) -> (forall c, In c choices -> installable s (fst c) = false) ->
  helper_select s choices = (Err EHelperNotFound, s).
Proof.
  intros s choices H1 H2. unfold SelectModel.helper_select. apply select_installed_none in H1. rewrite H1. clear H1.
  assert (select_installable s choices = (Ok None, s)) as ->; [|reflexivity].
  induction choices as [|c l IH]; [reflexivity|]. cbn [SelectModel.select_installable]. rewrite (H2 c (or_introl eq_refl)).
  apply IH. intros c' Hi. apply H2. now right.
Qed.

(** A failing installation ends the search. *)
Theorem helper_select_install_fails : forall s choices a c b e s1,
  (forall c, In c choices -> unusable s c) -> choices = a ++ c :: b ->
  (forall c', In c' a -> installable s (fst c') = false) ->
  installable s (fst c) = true -> install s (fst c) = (Err e, s1) ->
  helper_select s choices = (Err e, s1).
Proof.
  intros s choices a c b e s1 H1 E Ha Hc Hi. unfold SelectModel.helper_select. apply select_installed_none in H1. rewrite H1. clear H1. subst.
  assert (select_installable s (a ++ c :: b) = (Err e, s1)) as ->; [|reflexivity].
  induction a as [|x a IH]; cbn [app SelectModel.select_installable].
  - now rewrite Hc, Hi.
  - rewrite (Ha x (or_introl eq_refl)). apply IH. intros c' Hx. apply Ha. now right.
Qed.
End Helpers.

(** ** The output of qemu-img *)

Lemma re_search_at : forall r s g, re_search r s = Some g <->
  exists a t, s = a ++ t /\ re_match r t = Some g /\
    forall a' t', s = a' ++ t' -> (length a' < length a)%nat -> re_match r t' = None.
Proof.
  intros r s g. induction s as [|c s IH]; cbn [re_search].
  - split.
    + destruct (re_match r []) as [g'|] eqn:E; [|discriminate]. intros H. injection H as ->. exists [], []. repeat split; auto. cbn. lia.
    + intros (a & t & E & H & _). destruct a, t; try discriminate. now rewrite H.
  - destruct (re_match r (c :: s)) as [g'|] eqn:E.
    + split.
      * intros H. injection H as ->. exists [], (c :: s). repeat split; auto. cbn. lia.
      * intros (a & t & E1 & H & F). destruct a as [|x a]; cbn [app] in E1; [congruence|].
        specialize (F [] (c :: s) eq_refl). cbn in F. rewrite F in E by lia. discriminate.
    + rewrite IH. split.
      * intros (a & t & -> & H & F). exists (c :: a), t. split; [reflexivity|]. split; [exact H|].
        intros a' t' E1 Hl. destruct a' as [|x a']; cbn [app] in E1; [congruence|]. injection E1 as <- E1. apply F with a'; [exact E1|]. cbn in Hl. lia.
      * intros (a & t & E1 & H & F). destruct a as [|x a]; cbn [app] in E1; [subst; congruence|]. injection E1 as <- ->.
        exists a, t. split; [reflexivity|]. split; [exact H|]. intros a' t' E1 Hl. apply F with (c :: a'); [cbn; now rewrite E1|cbn; lia].
Qed.

Lemma span_nonspace : forall s, exists f b, s = f ++ b /\ (forall c, In c f -> is_space c = false) /\
  (forall c t, b = c :: t -> is_space c = true).
Proof.
  induction s as [|c s (f & b & -> & Hf & Hb)].
  - exists [], []. repeat split; [intros c []|discriminate].
  - destruct (is_space c) eqn:E.
    + exists [], (c :: f ++ b). split; [reflexivity|]. split; [intros x []|]. intros x t H. injection H as <- _. exact E.
    + exists (c :: f), b. split; [reflexivity|]. split; [intros x [<- |Hx]; auto|exact Hb].
Qed.

Lemma match_format : forall f b, (forall c, In c f -> is_space c = false) -> (forall c t, b = c :: t -> is_space c = true) ->
  re_match re_format (L "file format: " ++ f ++ b) = Some [(1%nat, f)].
Proof.
  intros f b Hf Hb. apply wins_match with b. unfold re_format. apply wins_seq, wins_str.
  apply wins_group_star_munch.
  - apply forallb_forall. intros c Hc. now rewrite (Hf c Hc).
  - intros c t E. now rewrite (Hb c t E).
  - eexists. reflexivity.
Qed.

Lemma match_format_none : forall s, re_match re_format s = None <-> ~ exists t, s = L "file format: " ++ t.
Proof.
  intros s. split.
  - intros H (t & ->). destruct (span_nonspace t) as (f & b & -> & Hf & Hb). rewrite match_format in H by assumption. discriminate.
  - intros H. apply re_match_none. intros (t & M). apply H. unfold re_format in M.
    apply mt_seq_inv in M as (t1 & M & _). apply mt_str_inv in M. eauto.
Qed.

Theorem search_format : forall out f, reports out f -> exists g, re_search re_format out = Some g /\ group 1 g = Some f.
Proof.
  intros out f (a & b & E & Hf & Hb & Hfirst). exists [(1%nat, f)]. split; [|reflexivity].
  apply re_search_at. exists a, (L "file format: " ++ f ++ b). split; [exact E|]. split; [now apply match_format|].
  intros a' t' E' Hl. apply match_format_none. intros (t & ->). specialize (Hfirst a' t E'). lia.
Qed.

Theorem search_format_none : forall out, re_search re_format out = None <-> forall f, ~ reports out f.
Proof.
  intros out. split.
  - intros H f R. apply search_format in R as (g & R & _). congruence.
  - intros H. destruct (re_search re_format out) as [g|] eqn:E; [|reflexivity]. exfalso.
    apply re_search_at in E as (a & t & -> & M & F).
    destruct (span_nonspace (skipn 13 t)) as (f & b & Es & Hf & Hb).
    assert (exists u, t = L "file format: " ++ u) as (u & ->).
    { apply Decidable.not_not.
      - unfold Decidable.decidable. destruct (re_match re_format t) eqn:X; [|discriminate].
        destruct (starts_with (L "file format: ") t) eqn:Y.
        + left. now apply starts_with_spec.
        + right. intros F'. apply starts_with_spec in F'. congruence.
      - intros N. apply match_format_none in N. congruence. }
    change (skipn 13 (L "file format: " ++ u)) with u in Es. subst u.
    apply (H f). exists a, b. split; [reflexivity|]. split; [exact Hf|]. split; [exact Hb|].
    intros a' t E. destruct (Nat.le_gt_cases (length a) (length a')) as [|Hl]; [assumption|exfalso].
    specialize (F _ _ E Hl). apply match_format_none in F. apply F. eauto.
Qed.

Lemma reports_unique : forall out f f', reports out f -> reports out f' -> f = f'.
Proof.
  intros out f f' H H'. apply search_format in H as (g & E & G). apply search_format in H' as (g' & E' & G'). congruence.
Qed.

(** ** Confidence *)

Lemma cached_fresh : forall run cache path r cache',
  (forall p out, lookup p cache = Some out -> run p = Ok out) ->
  cached_call run cache path = (r, cache') ->
  r = run path /\ (forall p out, lookup p cache' = Some out -> run p = Ok out).
Proof.
  intros run cache path r cache' H. unfold cached_call. destruct (lookup path cache) as [out|] eqn:E.
  - intros F. injection F as <- <-. split; [symmetry; now apply H|exact H].
  - destruct (run path) as [[|c out]|e] eqn:Er; intros F; injection F as <- <-; (split; [reflexivity|]); auto.
    intros p o. cbn [lookup]. destruct (str_eqb p path) eqn:Ep; [|apply H].
    intros F. injection F as <-. apply str_eqb_eq in Ep as ->. exact Er.
Qed.

Lemma magic_spec : forall content offset, magic_at content offset = true <->
  exists p t, content = p ++ L "CD001" ++ t /\ N.of_nat (length p) = offset.
Proof.
  intros content offset. unfold magic_at. rewrite str_eqb_eq. set (s := skipn (N.to_nat offset) content). split.
  - intros H.
    assert (firstn 5 s = L "CD001") as F.
    { assert (length (firstn 5 s) <= 5)%nat as Hl by (rewrite firstn_length; lia).
      set (u := firstn 5 s) in *. clearbody u. clear s.
      assert (forall u : str, length (filter (fun c => (N_of_ascii c <? 128)%N) u) = length u -> filter (fun c => (N_of_ascii c <? 128)%N) u = u) as K.
      { clear. induction u as [|c u IH]; [reflexivity|]. cbn [filter].
        destruct (N_of_ascii c <? 128)%N; cbn [length]; intros H; [f_equal; apply IH; congruence|exfalso].
        assert (length (filter (fun c0 => (N_of_ascii c0 <? 128)%N) u) <= length u)%nat by (clear; induction u as [|x u IH]; cbn; [lia|destruct (_ <? _)%N; cbn; lia]). lia. }
      rewrite <- H. symmetry. apply K. rewrite H.
      assert (length (filter (fun c => (N_of_ascii c <? 128)%N) u) <= length u)%nat by (clear; induction u as [|x u IH]; cbn; [lia|destruct (_ <? _)%N; cbn; lia]).
      rewrite H in *. cbn [length L list_ascii_of_string] in *. lia. }
    exists (firstn (N.to_nat offset) content), (skipn 5 s). split.
    + rewrite <- F, firstn_skipn. unfold s. now rewrite firstn_skipn.
    + rewrite firstn_length. assert (N.to_nat offset <= length content)%nat; [|lia].
      destruct (Nat.le_gt_cases (N.to_nat offset) (length content)) as [|Hl]; [assumption|exfalso].
      unfold s in F. rewrite skipn_all2 in F by lia. discriminate.
  - intros (p & t & -> & <-). unfold s. rewrite Nat2N.id. rewrite skipn_app, skipn_all, Nat.sub_diag. reflexivity.
Qed.

Lemma iso_confidence_spec : forall w c path b, w_exists w path = true -> fresh w c -> is_iso w path b ->
  exists c', iso_confidence w c path = (Ok (if b then 100 else 0), c') /\ fresh w c'.
Proof.
  intros w c path b He [Fq Fi] H. unfold iso_confidence, is_iso in *. rewrite He. cbn [negb].
  destruct (w_isoinfo w) as [run|] eqn:Ew.
  - destruct (cached_call run (c_iso c) path) as [r cache'] eqn:Ec.
    apply cached_fresh in Ec as [-> Fc]; [|intros p out; exact (Fi p out run eq_refl)].
    exists (mkcaches cache' (c_qemu c)). split.
    + destruct b; [destruct H as (out & ->)|rewrite H]; reflexivity.
    + split; [exact Fq|]. intros p out run'. rewrite Ew. intros E. injection E as <-. apply Fc.
  - exists c. split.
    + assert (existsb (magic_at (w_content w path)) [32769; 34817; 36865]%N = b) as ->.
      { apply eq_true_iff_eq. rewrite H, existsb_exists. split.
        - intros (o & Hi & M). apply magic_spec in M as (p & t & E & <-). eauto.
        - intros (p & t & E & Hi). exists (N.of_nat (length p)). split; [exact Hi|]. apply magic_spec. eauto. }
      reflexivity.
    + split; [exact Fq|]. intros p out run' E. rewrite Ew in E. discriminate.
Qed.

Lemma qemu_confidence_spec : forall cls w c path out f, w_exists w path = true -> fresh w c ->
  w_qemu w path = Ok out -> reports out f ->
  exists c', qemu_confidence cls w c path = (Ok (if str_eqb f (disk_format cls) then 100 else 0), c') /\ fresh w c'.
Proof.
  intros cls w c path out f He [Fq Fi] Ho R. unfold qemu_confidence. rewrite He. cbn [negb].
  destruct (cached_call (w_qemu w) (c_qemu c) path) as [r cache'] eqn:Ec.
  apply cached_fresh in Ec as [-> Fc]; [|exact Fq]. rewrite Ho.
  apply search_format in R as (g & -> & ->). exists (mkcaches (c_iso c) cache'). split; [reflexivity|]. split; assumption.
Qed.

Lemma raw_confidence_spec : forall w c path out f, w_exists w path = true -> fresh w c ->
  w_qemu w path = Ok out -> reports out f ->
  exists c' k, raw_confidence w c path = (Ok k, c') /\ fresh w c' /\
    (if str_eqb f (L "raw") then 0 < k < 100 else k = 0).
Proof.
  intros w c path out f He F Ho R. unfold raw_confidence.
  destruct (qemu_confidence_spec RAW w c path out f He F Ho R) as (c' & -> & F'). cbn [disk_format].
  destruct (str_eqb f (L "raw")); cbn [Z.eqb Pos.eqb].
  - destruct (mem_str (splitext_ext path) [L ".raw"; L ".img"]); exists c'; eexists; (split; [reflexivity|]); (split; [exact F'|]); lia.
  - exists c', 0. auto.
Qed.

(** ** from_file *)

Theorem from_file_spec : forall w c path out f iso, w_exists w path = true -> fresh w c ->
  is_iso w path iso -> w_qemu w path = Ok out -> reports out f ->
  exists c', from_file w c path = (taken_for iso f, c') /\ fresh w c'.
Proof.
  intros w c path out f iso He F Hi Ho R. unfold from_file. rewrite He. cbn [negb]. unfold disk_classes. cbn [best_guess file_is_this_type].
  destruct (iso_confidence_spec w c path iso He F Hi) as (c1 & -> & F1).
  destruct (qemu_confidence_spec QCOW2 w c1 path out f He F1 Ho R) as (c2 & E2 & F2).
  destruct (raw_confidence_spec w c2 path out f He F2 Ho R) as (c3 & k & E3 & F3 & Hk).
  destruct (qemu_confidence_spec VMDK w c3 path out f He F3 Ho R) as (c4 & E4 & F4).
  cbn [disk_format] in *. unfold taken_for.
  exists c4. split; [|exact F4].
  destruct iso.
  - change (0 <? 100) with true. cbv iota. rewrite E2, E3, E4.
    assert (k <? 100 = true \/ k < 100) by (destruct (str_eqb f (L "raw")); lia).
    replace (100 <? (if str_eqb f (L "qcow2") then 100 else 0)) with false by (destruct (str_eqb f (L "qcow2")); reflexivity).
    replace (100 <? k) with false by (symmetry; apply Z.ltb_ge; destruct (str_eqb f (L "raw")); lia).
    replace (100 <? (if str_eqb f (L "vmdk") then 100 else 0)) with false by (destruct (str_eqb f (L "vmdk")); reflexivity).
    reflexivity.
  - change (0 <? 0) with false. cbv iota. rewrite E2. destruct (str_eqb f (L "qcow2")) eqn:Q.
    + apply str_eqb_eq in Q as ->. change (str_eqb (L "qcow2") (L "raw")) with false in Hk. change (str_eqb (L "qcow2") (L "vmdk")) with false in E4.
      cbv iota in Hk, E4. subst k. change (0 <? 100) with true. cbv iota. rewrite E3, E4. reflexivity.
    + change (0 <? 0) with false. cbv iota. rewrite E3. destruct (str_eqb f (L "raw")) eqn:W.
      * apply str_eqb_eq in W as ->. change (str_eqb (L "raw") (L "vmdk")) with false in E4. cbv iota in Hk, E4.
        replace (0 <? k) with true by (symmetry; apply Z.ltb_lt; lia). rewrite E4.
        replace (k <? 0) with false by (symmetry; apply Z.ltb_ge; lia). reflexivity.
      * subst k. change (0 <? 0) with false. cbv iota. rewrite E4. destruct (str_eqb f (L "vmdk")); reflexivity.
Qed.

Theorem from_file_missing : forall w c path, w_exists w path = false -> from_file w c path = (Err EEnvironment, c).
Proof. intros w c path H. unfold from_file. now rewrite H. Qed.

Theorem from_file_no_format : forall w c path out iso, w_exists w path = true -> fresh w c ->
  is_iso w path iso -> w_qemu w path = Ok out -> (forall f, ~ reports out f) ->
  fst (from_file w c path) = Err ERuntimeError.
Proof.
  intros w c path out iso He F Hi Ho R. unfold from_file. rewrite He. cbn [negb]. unfold disk_classes. cbn [best_guess file_is_this_type].
  destruct (iso_confidence_spec w c path iso He F Hi) as (c1 & -> & [Fq Fi]).
  assert (fst (qemu_confidence QCOW2 w c1 path) = Err ERuntimeError) as Q.
  { unfold qemu_confidence. rewrite He. cbn [negb].
    destruct (cached_call (w_qemu w) (c_qemu c1) path) as [r cache'] eqn:Ec.
    apply cached_fresh in Ec as [-> Fc]; [|exact Fq]. rewrite Ho. apply search_format_none in R. rewrite R. reflexivity. }
  destruct (qemu_confidence QCOW2 w c1 path) as [r c2]. cbn [fst] in Q. subst r.
  destruct (0 <? (if iso then 100 else 0)); reflexivity.
Qed.

Theorem class_for_format_spec : forall f cls, class_for_format f = Some cls <-> disk_format cls = f.
Proof.
  intros f cls. unfold class_for_format. split.
  - intros H. apply find_some in H as [_ H]. now apply str_eqb_eq.
  - intros <-. destruct cls; reflexivity.
Qed.
