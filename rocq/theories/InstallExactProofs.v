(** Proofs about what exactly is run when a helper program is installed. *)
From Verif Require Import PyBase PyBaseProofs PyRegex PyRegexProofs SelectModel PathModel RawModel ProgModel InstallModel InstallSpec InstallProofs InstallRunProofs InstallExactSpec.
From Verif Require SelectProofs ListingProofs.
From Coq Require Import Lia.
Local Open Scope Z_scope.
Local Open Scope list_scope.

Section Exact.
Context {W : Type}.
Variable m : machine W.

Lemma then_ok : forall A B (x : act W A) (f : A -> act W B) s b s', andthen x f s = (Ok b, s') -> exists a s1, x s = (Ok a, s1) /\ f a s1 = (Ok b, s').
Proof. intros A B x f s b s' H. unfold andthen in H. destruct (x s) as [[a|e] s1]; [eauto|discriminate]. Qed.

(** ** Looking for programs *)

Definition calm (s s' : state W) : Prop :=
  s_world s' = s_world s /\ s_apt s' = s_apt s /\ s_port s' = s_port s /\ s_done s' = s_done s /\ consistent s' /\
  (forall k, counts m s' k <-> counts m s k) /\ forall k p, found s k p -> found s' k p.

Lemma calm_refl : forall s, consistent s -> calm s s.
Proof. intros s C. unfold calm. repeat split; auto; apply C. Qed.
Lemma calm_trans : forall a b c, calm a b -> calm b c -> calm a c.
Proof.
  intros a b c (A1 & A2 & A3 & A4 & A5 & A6 & A7) (B1 & B2 & B3 & B4 & B5 & B6 & B7). unfold calm.
  repeat (split; [congruence || assumption|]). split; [intros k; rewrite B6; apply A6|auto].
Qed.
Lemma calm_since : forall s s', calm s s' -> since s s' [].
Proof. intros s s' (_ & _ & _ & D & _). unfold since. now rewrite D, app_nil_r. Qed.

Lemma installed_calm : forall n s r s', consistent s -> installed m n s = (r, s') ->
  exists b, r = Ok b /\ calm s s' /\ (b = true <-> counts m s n) /\ (b = true -> exists p, found s' n p).
Proof.
  intros n s r s' C H. pose proof (installed_quiet m n s r s' C H) as (b & -> & Q & B & _). exists b. split; [reflexivity|].
  assert (X : (b = true <-> counts m s n) /\ forall k, counts m s' k <-> counts m s k).
  { unfold installed in H. unfold andthen at 1, recall at 1 in H. destruct (h_installed (s_helpers s n)) as [b0|] eqn:I.
    { injection H as <- <-. split; [|tauto]. unfold counts. rewrite I. split; [intros ->; auto|]. intros [E|[E _]]; [now injection E|discriminate]. }
    unfold andthen, path, andthen, recall, look in H. destruct (h_path (s_helpers s n)) as [p|] eqn:P.
    { exfalso. assert (Y : h_installed (s_helpers s n) = Some true) by (apply C; exists p; exact P). congruence. }
    destruct (m_find m (s_world s) n) as [p|] eqn:F; unfold remember, ret in H; cbn in H; injection H as <- <-; unfold counts; cbn.
    - split; [rewrite I, F; split; eauto|]. intros k. destruct (str_eqb_dec k n) as [[E1 E]|[E1 E]]; rewrite E1; cbn.
      + subst k. rewrite I, F. split; eauto.
      + tauto.
    - split; [rewrite I, F; split; [discriminate|intros [E|[_ [q E]]]; discriminate]|]. intros k. destruct (str_eqb_dec k n) as [[E1 E]|[E1 E]]; rewrite ?E1; cbn.
      + subst k. rewrite I, F. split; intros [Y|[Y [q Z]]]; discriminate.
      + tauto. }
  destruct X as [X1 X2]. destruct Q as (Q1 & Q2 & Q3 & Q4 & Q5 & Q6 & _).
  split; [|split; [exact X1|now apply B]]. exact (conj Q1 (conj Q2 (conj Q3 (conj Q4 (conj (Q5 C) (conj X2 Q6)))))).
Qed.

Lemma any_calm : forall l s r s', consistent s -> any_installed m l s = (r, s') ->
  exists b, r = Ok b /\ calm s s' /\ (b = true <-> exists n, In n l /\ counts m s n).
Proof.
  induction l as [|n l IH]; intros s r s' C H.
  - injection H as <- <-. exists false. split; [reflexivity|]. split; [now apply calm_refl|]. split; [discriminate|]. intros (n & [] & _).
  - cbn in H. unfold andthen in H. destruct (installed m n s) as [r1 s1] eqn:E. apply installed_calm in E; [|exact C]. destruct E as (b & -> & K & B & _).
    destruct b.
    + injection H as <- <-. exists true. split; [reflexivity|]. split; [exact K|]. split; [|reflexivity]. intros _. exists n. split; [now left|now apply B].
    + apply IH in H; [|apply K]. destruct H as (b & -> & K2 & B2). exists b. split; [reflexivity|]. split; [now apply calm_trans with s1|]. rewrite B2.
      destruct K as (_ & _ & _ & _ & _ & K6 & _). split.
      * intros (k & Hk & F). exists k. split; [now right|now apply K6].
      * intros (k & [<-|Hk] & F); [exfalso; destruct B as [_ B]; discriminate (B F)|]. exists k. split; [exact Hk|now apply K6].
Qed.

Lemma unsure_calm : forall n s r s', consistent s -> unsure m n s = (r, s') -> (exists e, r = Ok e) /\ calm s s'.
Proof.
  intros n s r s' C H. unfold unsure in H.
  destruct (str_eqb n (L "ovftool")). { injection H as <- <-. split; [eauto|now apply calm_refl]. }
  destruct (str_eqb (m_system m) (L "Darwin")).
  - unfold andthen in H.
    assert (X : forall (b : bool) k t r1 t', consistent t -> (if b then installed m k else ret true) t = (r1, t') -> (exists e, r1 = Ok e) /\ calm t t').
    { intros b k t r1 t' Ct Ht. destruct b; [|injection Ht as <- <-; split; [eauto|now apply calm_refl]].
      apply installed_calm in Ht; [|exact Ct]. destruct Ht as (x & -> & K & _). split; [eauto|exact K]. }
    destruct ((if provided_by (L "brew") n then installed m (L "brew") else ret true) s) as [r1 s1] eqn:E1. apply X in E1; [|exact C]. destruct E1 as [[e1 ->] K1].
    destruct ((if provided_by (L "port") n then installed m (L "port") else ret true) s1) as [r2 s2] eqn:E2. apply X in E2; [|apply K1]. destruct E2 as [[e2 ->] K2].
    injection H as <- <-. split; [eauto|now apply calm_trans with s1].
  - destruct (str_eqb (m_system m) (L "Linux") && (provided_by (L "apt-get") n || provided_by (L "yum") n)).
    + unfold andthen in H. destruct (any_installed m [L "apt-get"; L "yum"] s) as [r1 s1] eqn:E1. apply any_calm in E1; [|exact C]. destruct E1 as (b & -> & K & _).
      injection H as <- <-. split; [eauto|exact K].
    + injection H as <- <-. split; [eauto|now apply calm_refl].
Qed.

Lemma fail_calm : forall A n s (r : result A) s', consistent s -> fail_unsure m n s = (r, s') -> (exists e, r = Err e) /\ calm s s'.
Proof.
  intros A n s r s' C H. unfold fail_unsure, andthen in H. destruct (unsure m n s) as [r1 s1] eqn:E. apply unsure_calm in E; [|exact C]. destruct E as [[e ->] K].
  injection H as <- <-. split; [eauto|exact K].
Qed.

(** ** Commands *)

Lemma call_runs : forall dir args retry s s', check_call m dir args true retry s = (Ok tt, s') ->
  s_helpers s' = s_helpers s /\ s_apt s' = s_apt s /\ s_port s' = s_port s /\
  exists l, since s s' l /\ runs dir args l /\ (retry = false -> l = [Ran dir args]).
Proof.
  intros dir args retry s s' H. apply call_spec in H. destruct H as (A1 & A2 & A3 & o & w1 & _ & [(_ & S & _)|(R & _ & o2 & w2 & _ & S & _)]).
  - repeat (split; [assumption|]). eexists. split; [exact S|]. split; [constructor|reflexivity].
  - repeat (split; [assumption|]). eexists. split; [exact S|]. split; [constructor|]. intros E. congruence.
Qed.

Lemma shown_known : forall n args retry s p, found s n p -> call_shown m n args retry s = check_call m None (n :: args) true retry s.
Proof. intros n args retry s p F. unfold call_shown, ready, andthen, path, andthen, recall. rewrite F. reflexivity. Qed.

Lemma shown_runs : forall n args retry s s' p, found s n p -> call_shown m n args retry s = (Ok tt, s') ->
  s_helpers s' = s_helpers s /\ s_apt s' = s_apt s /\ s_port s' = s_port s /\
  exists l, since s s' l /\ runs None (n :: args) l /\ (retry = false -> l = [Ran None (n :: args)]).
Proof. intros n args retry s s' p F H. rewrite (shown_known _ _ _ _ _ F) in H. now apply call_runs. Qed.

Lemma says_spec : forall text, says_installed text = true <-> exists a b, text = a ++ L "install ok installed" ++ b.
Proof.
  intros text. unfold says_installed. split.
  - destruct (re_search (RStr (L "install ok installed")) text) as [g|] eqn:E; [|discriminate]. intros _. apply SelectProofs.re_search_at in E as (a & t & -> & M & _).
    apply re_match_mtc in M as (u & M). apply mtc_mt in M. apply mt_str_inv in M. subst t. eauto.
  - intros (a & b & ->). destruct (re_search (RStr (L "install ok installed")) (a ++ L "install ok installed" ++ b)) as [g|] eqn:E; [reflexivity|]. exfalso.
    apply ListingProofs.search_none in E. apply re_match_none in E. apply E. exists b. now apply mt_str_inv.
Qed.

Lemma bare_calm : forall n s s', consistent s -> install_bare m n s = (Ok tt, s') -> calm s s'.
Proof.
  intros n s s' C H. unfold install_bare in H. apply then_ok in H as (b & s1 & H1 & H2). apply installed_calm in H1; [|exact C]. destruct H1 as (b' & E & K & _).
  injection E as <-. destruct b; [now injection H2 as <-|]. apply fail_calm in H2; [|apply K]. destruct H2 as [[e E] _]. discriminate.
Qed.

Lemma dpkg_ready : forall s s', consistent s -> ready m (L "dpkg") (install_bare m (L "dpkg")) s = (Ok tt, s') ->
  s_apt s' = s_apt s /\ s_port s' = s_port s /\ exists la, since s s' la /\ asked m (s_world s) la (s_world s').
Proof.
  intros s s' C H. unfold ready in H. apply then_ok in H as (p & s1 & H1 & H2). apply path_quiet in H1. destruct H1 as (_ & Q & _).
  destruct Q as (Q1 & Q2 & Q3 & Q4 & Q5 & _). assert (S1 : since s s1 []) by (unfold since; now rewrite Q4, app_nil_r).
  destruct p as [p|].
  - injection H2 as <-. repeat (split; [assumption|]). exists []. split; [exact S1|]. rewrite Q1. constructor.
  - destruct (m_confirm m) as [f|] eqn:F.
    + apply then_ok in H2 as (yes & s2 & H2 & H3). unfold step in H2. destruct (f (s_world s1) (L "dpkg")) as [y w1] eqn:Ef. injection H2 as <- <-.
      destruct y; [|discriminate H3]. apply bare_calm in H3; [|exact (Q5 C)]. destruct H3 as (K1 & K2 & K3 & K4 & _). cbn in K1, K2, K3, K4.
      split; [congruence|]. split; [congruence|]. exists [Ask (L "dpkg")]. split; [unfold since; rewrite K4; now rewrite Q4|].
      rewrite K1. rewrite Q1 in Ef. now apply a_yes with f.
    + apply bare_calm in H2; [|exact (Q5 C)]. destruct H2 as (K1 & K2 & K3 & K4 & _). split; [congruence|]. split; [congruence|].
      exists []. split; [unfold since; now rewrite K4, Q4, app_nil_r|]. rewrite K1, Q1. constructor.
Qed.

Lemma dpkg_spec : forall p s text s', consistent s -> call_output m (L "dpkg") (L "-s" :: map L p) false s = (Ok text, s') ->
  s_apt s' = s_apt s /\ s_port s' = s_port s /\ consistent s' /\ (forall n q, found s n q -> found s' n q) /\
  exists la w, asked m (s_world s) la w /\ since s s' (la ++ [Ran None (dpkg p)]) /\ (says_installed text = true <-> says_there m w p).
Proof.
  intros p s text s' C H.
  assert (K := H). apply (stays_call_output m (fun _ _ => True) _ _ _ I) in K. destruct (K C) as (C1 & F1 & _).
  unfold call_output in H. apply then_ok in H as (u & s1 & H1 & H2). destruct u. apply dpkg_ready in H1; [|exact C]. destruct H1 as (A1 & A2 & la & S & As).
  apply output_spec in H2. destruct H2 as (_ & B2 & B3 & o & w1 & Sp & [(_ & S2 & _ & P)|((R & _) & _)]); [|discriminate R].
  split; [congruence|]. split; [congruence|]. split; [exact C1|]. split; [exact F1|]. exists la, (s_world s1). split; [exact As|]. split; [exact (since_app _ _ _ _ _ S S2)|].
  rewrite says_spec. unfold says_there, dpkg. rewrite Sp. cbn [fst]. inversion P as [out t E1 E2|c out t Hc _ U E2|c out t Hc E2|c out Hc U E2| |]; subst; try congruence.
  - split.
    + intros X. exists 0, out, (filter (fun c => (N_of_ascii c <? 128)%N) out). split; [reflexivity|]. split; [reflexivity|exact X].
    + intros (c & o2 & t & E & T & X). injection E as <- <-. cbn in T. subst t. exact X.
  - split.
    + intros X. exists c, out, text. split; [reflexivity|]. assert (E : (c =? 0) = false) by now apply Z.eqb_neq. rewrite E. split; [exact U|exact X].
    + intros (c' & o2 & t & E & T & X). injection E as <- <-. assert (E : (c =? 0) = false) by now apply Z.eqb_neq. rewrite E, U in T. injection T as <-. exact X.
Qed.

(** ** Packages *)

Local Notation apt_update := (Ran None [L "apt-get"; L "-q"; L "update"]).
Local Notation port_update := (Ran None [L "port"; L "selfupdate"]).
Definition flags (s : state W) (l : list event) (s' : state W) : Prop :=
  (s_apt s' = true <-> s_apt s = true \/ In apt_update l) /\ (s_port s' = true <-> s_port s = true \/ In port_update l).

Lemma runs_in : forall dir args l e, runs dir args l -> In e l -> e = Ran dir args \/ e = Ran dir (L "sudo" :: args).
Proof. intros dir args l e R H. destruct R; cbn in H; intuition. Qed.
Lemma runs_first : forall dir args l, runs dir args l -> In (Ran dir args) l.
Proof. intros dir args l R. destruct R; now left. Qed.
Lemma asked_in : forall w la w1 e, asked m w la w1 -> In e la -> e = Ask (L "dpkg").
Proof. intros w la w1 e A H. destruct A; cbn in H; intuition. Qed.

Ltac no_in := intros;
  repeat match goal with
         | H : In _ (_ ++ _) |- _ => apply in_app_or in H; destruct H as [H|H]
         | A : asked _ _ ?l _, H : In _ ?l |- _ => apply (asked_in _ _ _ _ A) in H
         | R : runs _ _ ?l, H : In _ ?l |- _ => apply (runs_in _ _ _ _ R) in H; destruct H as [H|H]
         | H : In _ [_] |- _ => destruct H as [H|[]]
         | H : In _ [] |- _ => destruct H
         end; try discriminate.

Lemma package_exact : forall pm p s s' q, In pm ["apt-get"; "yum"; "port"; "brew"]%string -> (p = [] -> False) -> consistent s -> found s (L pm) q ->
  install_package m (L pm) (map L p) s = (Ok tt, s') -> exists l, since s s' l /\ packaged m s p pm l /\ flags s l s' /\ l <> [].
Proof.
  intros pm p s s' q M NP C F H. destruct p as [|p0 p]; [destruct (NP eq_refl)|]. clear NP. set (pp := p0 :: p) in *.
  destruct M as [<-|[<-|[<-|[<-|[]]]]]; unfold install_package in H; cbn [str_eqb] in H.
  - change (str_eqb (L "apt-get") (L "apt-get")) with true in H. cbn iota in H. apply then_ok in H as (text & s1 & H1 & H2).
    apply dpkg_spec in H1; [|exact C]. destruct H1 as (A1 & A2 & C1 & F1 & la & w & As & S1 & T).
    destruct (says_installed text) eqn:Y.
    + injection H2 as <-. exists (la ++ [Ran None (dpkg pp)]). split; [exact S1|]. split; [apply k_there with w; [exact As|now apply T]|]. split; [|now destruct la].
      unfold flags. rewrite A1, A2. split; (split; [auto|intros [X|X]; [exact X|no_in]]).
    + assert (N : ~ says_there m w pp) by (intros X; apply T in X; discriminate). unfold andthen at 1, apt_updated in H2. apply then_ok in H2 as (u & s2 & H2 & H3).
      assert (X : exists lu, since s1 s2 lu /\ (if s_apt s then lu = [] else runs None [L "apt-get"; L "-q"; L "update"] lu) /\ s_apt s2 = true /\ s_port s2 = s_port s1 /\ found s2 (L "apt-get") q).
      { rewrite A1 in H2. destruct (s_apt s) eqn:Ea.
        - injection H2 as _ <-. exists []. split; [apply since_nil|]. split; [reflexivity|]. split; [congruence|]. split; [reflexivity|now apply F1].
        - apply then_ok in H2 as (u1 & s3 & H2 & H4). destruct u1. apply shown_runs with (p := q) in H2; [|now apply F1]. destruct H2 as (B1 & B2 & B3 & l & S & R & _).
          injection H4 as _ <-. exists l. split; [exact S|]. split; [exact R|]. split; [reflexivity|]. split; [exact B3|]. unfold found. cbn. rewrite B1. now apply F1. }
      destruct X as (lu & S2 & U & Ea & Ep & F2). apply shown_runs with (p := q) in H3; [|exact F2]. destruct H3 as (B1 & B2 & B3 & li & S3 & R & _).
      exists (la ++ [Ran None (dpkg pp)] ++ lu ++ li). split; [|split; [|split]].
      * pose proof (since_app _ _ _ _ _ S1 (since_app _ _ _ _ _ S2 S3)) as S. now rewrite <- app_assoc in S.
      * now apply k_apt with w.
      * unfold flags. split.
        -- rewrite B2, Ea. split; [intros _|auto]. destruct (s_apt s) eqn:Es; [now left|]. right. apply in_or_app. right. apply in_or_app. right. apply in_or_app. left. apply (runs_first _ _ _ U).
        -- rewrite B3, Ep, A2. split; [auto|]. intros [X|X]; [exact X|]. destruct (s_apt s) eqn:Es; [subst lu|]; no_in.
      * now destruct la.
  - change (str_eqb (L "yum") (L "apt-get")) with false in H. change (str_eqb (L "yum") (L "yum")) with true in H. cbn iota in H.
    apply shown_runs with (p := q) in H; [|exact F]. destruct H as (B1 & B2 & B3 & li & S3 & R & _). exists li. split; [exact S3|]. split; [now constructor|].
    split; [|now destruct R]. unfold flags. rewrite B2, B3. split; (split; [auto|intros [X|X]; [exact X|no_in]]).
  - change (str_eqb (L "port") (L "apt-get")) with false in H. change (str_eqb (L "port") (L "yum")) with false in H. change (str_eqb (L "port") (L "port")) with true in H. cbn iota in H.
    unfold andthen at 1, port_updated in H. apply then_ok in H as (u & s2 & H2 & H3).
    assert (X : exists lu, since s s2 lu /\ (if s_port s then lu = [] else runs None [L "port"; L "selfupdate"] lu) /\ s_port s2 = true /\ s_apt s2 = s_apt s /\ found s2 (L "port") q).
    { destruct (s_port s) eqn:Ea.
      - injection H2 as _ <-. exists []. split; [apply since_nil|]. split; [reflexivity|]. split; [congruence|]. now split.
      - apply then_ok in H2 as (u1 & s3 & H2 & H4). destruct u1. apply shown_runs with (p := q) in H2; [|exact F]. destruct H2 as (B1 & B2 & B3 & l & S & R & _).
        injection H4 as _ <-. exists l. split; [exact S|]. split; [exact R|]. split; [reflexivity|]. split; [exact B2|]. unfold found. cbn. now rewrite B1. }
    destruct X as (lu & S2 & U & Ep & Ea & F2). apply shown_runs with (p := q) in H3; [|exact F2]. destruct H3 as (B1 & B2 & B3 & li & S3 & R & _).
    exists (lu ++ li). split; [exact (since_app _ _ _ _ _ S2 S3)|]. split; [now constructor|]. split.
    + unfold flags. split.
      * rewrite B2, Ea. split; [auto|]. intros [X|X]; [exact X|]. destruct (s_port s) eqn:Es; [subst lu|]; no_in.
      * rewrite B3, Ep. split; [intros _|auto]. destruct (s_port s) eqn:Es; [now left|]. right. apply in_or_app. left. apply (runs_first _ _ _ U).
    + destruct R; now destruct lu.
  - change (str_eqb (L "brew") (L "apt-get")) with false in H. change (str_eqb (L "brew") (L "yum")) with false in H. change (str_eqb (L "brew") (L "port")) with false in H.
    change (str_eqb (L "brew") (L "brew")) with true in H. cbn iota in H.
    apply shown_runs with (p := q) in H; [|exact F]. destruct H as (B1 & B2 & B3 & li & S3 & R & One). rewrite (One eq_refl) in S3. eexists. split; [exact S3|]. split; [constructor|].
    split; [|discriminate]. unfold flags. rewrite B2, B3. split; (split; [auto|intros [X|[X|[]]]; [exact X|discriminate]]).
Qed.

(** ** The first package manager *)

Definition conv (x : string * list string) : str * list str := (L (fst x), map L (snd x)).
Definition fine (four : list string) (l : list (string * list string)) : Prop := forall x, In x l -> In (fst x) four /\ snd x <> [].

Lemma L_inj : forall a b, L a = L b -> a = b.
Proof. intros a b E. rewrite <- (string_of_list_ascii_of_string a), <- (string_of_list_ascii_of_string b). unfold L in E. now rewrite E. Qed.
Lemma L_eqb : forall a b, str_eqb (L a) (L b) = String.eqb b a.
Proof.
  intros a b. destruct (String.eqb_spec b a) as [->|N]; [apply str_eqb_refl|]. apply str_eqb_neq. intros E. apply N. symmetry. now apply L_inj.
Qed.

Lemma provider_managers : forall n, provider (L n) = map conv (managers n).
Proof.
  intros n. unfold provider, managers, manager_table. rewrite !L_eqb. cbn [find fst].
  repeat match goal with |- context [String.eqb ?a n] => destruct (String.eqb a n); [reflexivity|] end. reflexivity.
Qed.

Lemma fine_managers : forall n, fine ["apt-get"; "yum"; "port"; "brew"]%string (managers n).
Proof.
  assert (X : forallb (fun y => forallb (fun x => existsb (String.eqb (fst x)) ["apt-get"; "yum"; "port"; "brew"]%string && negb (match snd x with [] => true | _ => false end)) (snd y)) manager_table = true) by (vm_compute; reflexivity).
  intros n x H. unfold managers in H. destruct (find _ manager_table) as [y|] eqn:E; [|destruct H]. apply find_some in E as [E _].
  rewrite forallb_forall in X. specialize (X _ E). rewrite forallb_forall in X. specialize (X _ H). apply andb_true_iff in X as [X1 X2]. split.
  - apply existsb_exists in X1 as (z & Z1 & Z2). apply String.eqb_eq in Z2. now rewrite Z2.
  - intros F. now rewrite F in X2.
Qed.

Lemma calm_counts : forall s s1 k, calm s s1 -> (counts m s1 k <-> counts m s k).
Proof. intros s s1 k K. apply K. Qed.
Lemma calm_packaged : forall s s1 p pm l, calm s s1 -> packaged m s1 p pm l -> packaged m s p pm l.
Proof.
  intros s s1 p pm l (K1 & K2 & K3 & _) H. destruct H as [la w A T|la w lu li A T U R|li R|lu li U R|].
  - rewrite K1 in A. now apply k_there with w.
  - rewrite K1 in A. rewrite K2 in U. now apply k_apt with w.
  - now constructor.
  - rewrite K3 in U. now constructor.
  - constructor.
Qed.
Lemma calm_chosen : forall s s1 l pm p, calm s s1 -> chosen m s1 l pm p -> chosen m s l pm p.
Proof.
  intros s s1 l pm p K (b & a & E & X & Y). exists b, a. split; [exact E|]. split; [now apply (calm_counts _ _ _ K)|]. intros x Hx F. apply (Y x Hx). now apply (calm_counts _ _ _ K).
Qed.
Lemma calm_got : forall s s1 n l, calm s s1 -> got m s1 n l -> got m s n l.
Proof.
  intros s s1 n l K [[A B]|[A (pm & p & B & D)]].
  - left. split; [now apply (calm_counts _ _ _ K)|exact B].
  - right. split; [intros F; apply A; now apply (calm_counts _ _ _ K)|]. exists pm, p. split; [now apply (calm_chosen _ _ _ _ _ K)|now apply (calm_packaged _ _ _ _ _ K)].
Qed.
Lemma calm_flags : forall s s1 l s2, calm s s1 -> flags s1 l s2 -> flags s l s2.
Proof. intros s s1 l s2 (_ & K2 & K3 & _) F. unfold flags in *. now rewrite K2, K3 in F. Qed.
Lemma flags_calm : forall s l s1 s2, flags s l s1 -> calm s1 s2 -> flags s l s2.
Proof. intros s l s1 s2 F (_ & K2 & K3 & _). unfold flags in *. now rewrite K2, K3. Qed.
Lemma calm_sinces : forall s s1 s2 l, calm s s1 -> since s1 s2 l -> since s s2 l.
Proof. intros s s1 s2 l (_ & _ & _ & K & _) S. unfold since in *. now rewrite S, K. Qed.
Lemma calm_later : forall s s1 s2 l, calm s s1 -> later m s1 l s2 -> later m s l s2.
Proof.
  intros s s1 s2 l K (A & B & D & E & F). split; [now apply calm_sinces with s1|]. destruct K as (K1 & K2 & K3 & K4 & K5 & K6 & K7). split; [auto|]. rewrite <- K2, <- K3, <- K1.
  split; [exact D|]. split; [exact E|]. intros N. destruct (F N) as [F1 F2]. split; [exact F1|]. intros n. rewrite F2. apply K6.
Qed.
Lemma calm_is_later : forall s s1, calm s s1 -> later m s [] s1.
Proof.
  intros s s1 K. split; [now apply calm_since|]. destruct K as (K1 & K2 & K3 & K4 & K5 & K6 & K7). split; [exact K7|]. rewrite K2, K3. cbn [In].
  split; [tauto|]. split; [tauto|]. now split.
Qed.

Lemma from_exact : forall n l s s', fine ["apt-get"; "yum"; "port"; "brew"]%string l -> consistent s -> install_from m n (map conv l) s = (Ok tt, s') ->
  exists pm p ls, chosen m s l pm p /\ since s s' ls /\ packaged m s p pm ls /\ flags s ls s' /\ ls <> [].
Proof.
  intros n l. induction l as [|[pm p] l IH]; intros s s' Fi C H.
  - cbn in H. apply fail_calm in H; [|exact C]. destruct H as [[e E] _]. discriminate.
  - cbn [map conv fst snd install_from] in H. apply then_ok in H as (b & s1 & H1 & H2). apply installed_calm in H1; [|exact C]. destruct H1 as (b' & E & K & B & F). injection E as <-.
    destruct b.
    + destruct (F eq_refl) as [q Q]. destruct (Fi (pm, p) (or_introl eq_refl)) as [M NP]. apply package_exact with (q := q) in H2; [|exact M|exact NP|apply K|exact Q].
      destruct H2 as (ls & S & P & G & NE). exists pm, p, ls. split.
      { exists [], l. split; [reflexivity|]. split; [now apply B|]. intros x []. }
      split; [now apply calm_sinces with s1|]. split; [now apply calm_packaged with s1|]. split; [now apply calm_flags with s1|exact NE].
    + apply IH in H2; [|intros x Hx; apply Fi; now right|apply K]. destruct H2 as (pm1 & p1 & ls & Ch & S & P & G & NE). exists pm1, p1, ls. split.
      { apply (calm_chosen _ _ _ _ _ K) in Ch. destruct Ch as (x & y & -> & X & Y). exists ((pm, p) :: x), y. split; [reflexivity|]. split; [exact X|].
        intros z [<-|Hz]; [|now apply Y]. cbn [fst]. intros Z. apply B in Z. discriminate. }
      split; [now apply calm_sinces with s1|]. split; [now apply calm_packaged with s1|]. split; [now apply calm_flags with s1|exact NE].
Qed.

Lemma shown_err : forall n args retry s s' p e, found s n p -> call_shown m n args retry s = (Err e, s') -> e <> ENotImplemented.
Proof.
  intros n args retry s s' p e F H. rewrite (shown_known _ _ _ _ _ F) in H. apply call_spec in H.
  destruct H as (_ & _ & _ & o & w1 & _ & [(_ & _ & _ & X)|(_ & _ & o2 & w2 & _ & _ & _ & X)]); inversion X; subst; discriminate.
Qed.

Lemma package_err : forall pm p s s' q e, In pm ["port"; "brew"]%string -> found s (L pm) q -> install_package m (L pm) p s = (Err e, s') -> e <> ENotImplemented.
Proof.
  intros pm p s s' q e [<-|[<-|[]]] F H; unfold install_package in H.
  - change (str_eqb (L "port") (L "apt-get")) with false in H. change (str_eqb (L "port") (L "yum")) with false in H. change (str_eqb (L "port") (L "port")) with true in H. cbn iota in H.
    unfold andthen at 1, port_updated in H. destruct (s_port s).
    + unfold andthen, ret in H. now apply shown_err with (p := q) in H.
    + unfold andthen in H. destruct (call_shown m (L "port") [L "selfupdate"] true s) as [[u|e1] s1] eqn:E.
      * destruct u. apply shown_runs with (p := q) in E; [|exact F]. destruct E as (B1 & _). cbn in H. apply shown_err with (p := q) in H; [exact H|]. unfold found. cbn. now rewrite B1.
      * injection H as <- <-. now apply shown_err with (p := q) in E.
  - change (str_eqb (L "brew") (L "apt-get")) with false in H. change (str_eqb (L "brew") (L "yum")) with false in H. change (str_eqb (L "brew") (L "port")) with false in H.
    change (str_eqb (L "brew") (L "brew")) with true in H. cbn iota in H. now apply shown_err with (p := q) in H.
Qed.

Lemma from_fails : forall n l s s', fine ["port"; "brew"]%string l -> consistent s -> install_from m n (map conv l) s = (Err ENotImplemented, s') ->
  calm s s' /\ forall x, In x l -> ~ counts m s (L (fst x)).
Proof.
  intros n l. induction l as [|[pm p] l IH]; intros s s' Fi C H.
  - cbn in H. apply fail_calm in H; [|exact C]. split; [apply H|]. intros x [].
  - cbn [map conv fst snd install_from] in H. unfold andthen in H. destruct (installed m (L pm) s) as [r1 s1] eqn:E1. apply installed_calm in E1; [|exact C].
    destruct E1 as (b & -> & K & B & F). destruct b.
    + destruct (F eq_refl) as [q Q]. exfalso. destruct (Fi (pm, p) (or_introl eq_refl)) as [M _]. now apply package_err with (q := q) in H.
    + apply IH in H; [|intros x Hx; apply Fi; now right|apply K]. destruct H as [K2 N]. split; [now apply calm_trans with s1|].
      intros x [<-|Hx] Z; [cbn [fst] in Z; apply B in Z; discriminate|]. apply (N x Hx). now apply (calm_counts _ _ _ K).
Qed.

(** ** install *)

Lemma with_exact : forall n x y s s', consistent s -> ~ counts m s n -> (forall s1 r s2, consistent s1 -> x s1 = (r, s2) -> calm s1 s2) ->
  install_with m n x y s = (Ok tt, s') -> exists s1 s2, calm s s1 /\ y s1 = (Ok tt, s2) /\ s_done s' = s_done s2 /\ s_apt s' = s_apt s2 /\ s_port s' = s_port s2.
Proof.
  intros n x y s s' C N X H. unfold install_with in H. apply then_ok in H as (b & s1 & H1 & H2). apply installed_calm in H1; [|exact C]. destruct H1 as (b' & E & K & B & _). injection E as <-.
  destruct b; [exfalso; apply N; now apply B|]. apply then_ok in H2 as (c & s2 & H2 & H3). apply X in H2; [|apply K].
  destruct c; cbn [negb] in H3.
  - apply then_ok in H3 as (u & s3 & H3 & H4). destruct u. apply then_ok in H4 as (p & s4 & H4 & H5). apply path_quiet in H4. destruct H4 as (_ & Q & _).
    destruct p as [p|]; [|discriminate H5]. injection H5 as <-. exists s2, s3. split; [now apply calm_trans with s1|]. split; [exact H3|]. destruct Q as (_ & Q2 & Q3 & Q4 & _). auto.
  - apply fail_calm in H3; [|apply H2]. destruct H3 as [[e E] _]. discriminate.
Qed.

Lemma with_counts : forall n x y s s', consistent s -> counts m s n -> install_with m n x y s = (Ok tt, s') -> calm s s'.
Proof.
  intros n x y s s' C N H. unfold install_with in H. apply then_ok in H as (b & s1 & H1 & H2). apply installed_calm in H1; [|exact C]. destruct H1 as (b' & E & K & B & _). injection E as <-.
  apply B in N. subst b. now injection H2 as <-.
Qed.

Lemma counts_dec : forall s n, counts m s n \/ ~ counts m s n.
Proof.
  intros s n. unfold counts. destruct (h_installed (s_helpers s n)) as [[]|] eqn:E; [auto| |].
  - right. intros [X|[X _]]; discriminate.
  - destruct (m_find m (s_world s) n) as [p|]; [left; right; eauto|]. right. intros [X|[_ [p X]]]; discriminate.
Qed.

Lemma installable_calm : forall n s r s', consistent s -> installable_plain m n s = (r, s') -> calm s s'.
Proof. intros n s r s' C H. apply any_calm in H; [|exact C]. destruct H as (b & _ & K & _). exact K. Qed.

Lemma plain_exact : forall n s s', consistent s -> install_plain m (L n) s = (Ok tt, s') -> exists l, since s s' l /\ got m s n l /\ later m s l s' /\ consistent s'.
Proof.
  intros n s s' C H. destruct (counts_dec s (L n)) as [N|N].
  - apply with_counts in H; [|exact C|exact N]. exists []. split; [now apply calm_since|]. split; [now left|]. split; [now apply calm_is_later|apply H].
  - assert (K0 := H). apply (stays_plain m (fun _ _ => True) (fun _ _ _ => I)) in K0. destruct (K0 C) as (C1 & F1 & _).
    apply with_exact in H; [|exact C|exact N|intros; now apply (installable_calm (L n) _ r)]. destruct H as (s1 & s2 & K & H & D & A & P).
    unfold install_default in H. rewrite provider_managers in H. apply from_exact in H; [|apply fine_managers|apply K]. destruct H as (pm & p & l & Ch & S & Pk & G & NE).
    assert (S' : since s s' l). { apply (calm_sinces _ _ _ _ K) in S. unfold since in *. congruence. }
    exists l. split; [exact S'|]. split.
    { right. split; [exact N|]. exists pm, p. split; [now apply (calm_chosen _ _ _ _ _ K)|now apply (calm_packaged _ _ _ _ _ K)]. }
    split; [|exact C1]. apply (calm_flags _ _ _ _ K) in G. destruct G as [G1 G2]. split; [exact S'|]. split; [exact F1|]. rewrite A, P. split; [exact G1|]. split; [exact G2|]. intros E. now destruct NE.
Qed.

Lemma mkdir_made : forall d s s', mkdir m d s = (Ok tt, s') -> exists l, since s s' l /\ made d l.
Proof.
  intros d s s' H. apply mkdir_spec in H. destruct H as (_ & _ & _ & [(_ & _ & ->)|[(_ & _ & E & _)|(_ & _ & ok & w1 & _ & [(_ & _ & _ & S)|(_ & S & _)])]]).
  - exists []. split; [apply since_nil|now left].
  - discriminate.
  - eexists. split; [exact S|]. right. now left.
  - eexists. split; [exact S|]. right. now right.
Qed.
Lemma copy_copied : forall a b s s', copy_file m a b s = (Ok tt, s') -> exists l, since s s' l /\ copied a b l.
Proof.
  intros a b s s' H. apply copy_spec in H. destruct H as (_ & _ & _ & ok & w1 & _ & [(_ & _ & _ & S)|(_ & S & _)]); eexists; (split; [exact S|]); [now left|now right].
Qed.

Lemma archive_exact : forall url body s s', with_archive m url body s = (Ok tt, s') -> exists dir s1 s2, since s s1 [Fetch url] /\ body dir s1 = (Ok tt, s2) /\ since s2 s' [Release dir].
Proof.
  intros url body s s' H. unfold with_archive in H. apply then_ok in H as (r & s1 & H1 & H2). unfold step in H1. destruct (m_fetch m (s_world s) url) as [x w] eqn:E. injection H1 as <- <-.
  destruct x as [dir|e]; [|discriminate H2]. exists dir. eexists. destruct (body dir _) as [x s2] eqn:B. unfold step in H2. injection H2 as -> <-. exists s2. split; [|split; [exact B|reflexivity]]. reflexivity.
Qed.

Lemma target_is : path_join (m_destdir m) (prefix m) = target m.
Proof. unfold prefix, target. destruct (m_destdir m) as [|c d]; [|reflexivity]. change (str_eqb [] []) with true. cbn iota. unfold path_join. now destruct (starts_with (L "/") (m_prefix m)). Qed.

(** ** The two programs that may be built *)

Lemma select_exact : forall s s', consistent s -> select_names m [L "clang"; L "gcc"; L "g++"] s = (Ok tt, s') ->
  exists l, since s s' l /\ if_any m s ["clang"; "gcc"; "g++"]%string (l = []) (got m s "gcc" l).
Proof.
  intros s s' C H. unfold select_names in H. apply then_ok in H as (b & s1 & H1 & H2). apply any_calm in H1; [|exact C]. destruct H1 as (b' & E & K & B). injection E as <-.
  destruct b.
  - injection H2 as <-. exists []. split; [now apply calm_since|]. left. split; [|reflexivity]. destruct (proj1 B eq_refl) as (n & Hn & F).
    destruct Hn as [<-|[<-|[<-|[]]]]; [exists "clang"%string|exists "gcc"%string|exists "g++"%string]; (split; [cbn; tauto|exact F]).
  - assert (N : forall n, In n ["clang"; "gcc"; "g++"]%string -> ~ counts m s (L n)).
    { intros n Hn F. assert (X : false = true); [|discriminate]. apply B. exists (L n). split; [|exact F]. cbn in Hn |- *. destruct Hn as [<-|[<-|[<-|[]]]]; auto. }
    apply then_ok in H2 as (c & s2 & H2 & H3). cbn [select_installable_name] in H2. apply then_ok in H2 as (b1 & s3 & H2 & H4). injection H2 as <- <-.
    apply then_ok in H4 as (b2 & s4 & H4 & H5). apply installable_calm in H4; [|apply K]. destruct b2.
    + apply then_ok in H5 as (u & s5 & H5 & H6). destruct u. injection H6 as <- <-. injection H3 as <-. apply (plain_exact "gcc") in H5; [|apply H4]. destruct H5 as (l & S & G & _).
      exists l. pose proof (calm_trans _ _ _ K H4) as K2. split; [now apply (calm_sinces _ _ _ _ K2)|]. right. split; [exact N|]. now apply (calm_got _ _ _ _ K2).
    + apply then_ok in H5 as (b3 & s5 & H5 & H6). injection H5 as <- <-. injection H6 as <- <-. apply then_ok in H3 as (u & s6 & _ & H3). discriminate H3.
Qed.

Lemma fatdisk_exact : forall s s', consistent s -> build_fatdisk m s = (Ok tt, s') -> exists l, since s s' l /\ fatdisk_built m s l.
Proof.
  intros s s' C H. unfold build_fatdisk in H. apply then_ok in H as (u & s1 & H1 & H). destruct u. apply (plain_exact "make") in H1; [|exact C]. destruct H1 as (lm & S1 & G1 & La & C1).
  apply then_ok in H as (u & s2 & H2 & H). destruct u. apply select_exact in H2; [|exact C1]. destruct H2 as (lc & S2 & G2).
  apply archive_exact in H as (dir & s3 & s4 & S3 & H & S4). apply then_ok in H as (u & s5 & H5 & H). destruct u. apply call_runs in H5. destruct H5 as (_ & _ & _ & l5 & S5 & _ & O5).
  rewrite (O5 eq_refl) in S5. rewrite target_is in H. apply then_ok in H as (u & s6 & H6 & H). destruct u. apply mkdir_made in H6 as (lb & S6 & M6). apply copy_copied in H as (lf & S7 & M7).
  exists (lm ++ lc ++ [Fetch (L "https://github.com/goblinhack/fatdisk/archive/v1.0.0-beta.tar.gz"); Ran (Some (below dir "fatdisk-1.0.0-beta")) [L "./RUNME"]] ++ lb ++ lf ++ [Release dir]).
  split.
  - refine (since_app _ _ _ _ _ S1 (since_app _ _ _ _ _ S2 _)).
    exact (since_app _ _ _ [_] _ S3 (since_app _ _ _ [_] _ S5 (since_app _ _ _ _ _ S6 (since_app _ _ _ _ _ S7 S4)))).
  - exists lm, s1, lc, lb, lf, dir. split; [exact G1|]. split; [exact La|]. split; [exact G2|]. split; [exact M6|]. split; [exact M7|reflexivity].
Qed.

Lemma vmdktool_exact : forall s s', consistent s -> build_vmdktool m s = (Ok tt, s') -> exists l, since s s' l /\ vmdktool_built m s l.
Proof.
  intros s s' C H. unfold build_vmdktool in H. apply then_ok in H as (u & s1 & H1 & H). destruct u. apply (plain_exact "make") in H1; [|exact C]. destruct H1 as (lm & S1 & G1 & La & C1).
  apply then_ok in H as (a & s2 & H2 & H). apply installed_calm in H2; [|exact C1]. destruct H2 as (a' & E & K & B & F). injection E as <-.
  apply then_ok in H as (u & s3 & H3 & H).
  assert (Z : exists pm p lz, chosen m s1 [("apt-get", ["zlib1g-dev"]); ("yum", ["zlib-devel"])]%string pm p /\ packaged m s1 p pm lz /\ since s1 s3 lz).
  { destruct a.
    - destruct (F eq_refl) as [q Q]. destruct u. apply (package_exact "apt-get" ["zlib1g-dev"%string]) with (q := q) in H3; [|now left|discriminate|apply K|exact Q].
      destruct H3 as (l & S & P & _). exists "apt-get"%string, ["zlib1g-dev"%string], l. split.
      { exists [], [("yum", ["zlib-devel"])]%string. split; [reflexivity|]. split; [now apply B|]. intros x []. }
      split; [now apply (calm_packaged _ _ _ _ _ K)|now apply (calm_sinces _ _ _ _ K)].
    - apply then_ok in H3 as (y & s4 & H3 & H4). apply installed_calm in H3; [|apply K]. destruct H3 as (y' & E & K2 & B2 & F2). injection E as <-. destruct y; [|discriminate H4].
      destruct (F2 eq_refl) as [q Q]. destruct u. apply (package_exact "yum" ["zlib-devel"%string]) with (q := q) in H4; [|right; now left|discriminate|apply K2|exact Q].
      destruct H4 as (l & S & P & _). pose proof (calm_trans _ _ _ K K2) as K3. exists "yum"%string, ["zlib-devel"%string], l. split.
      { exists [("apt-get", ["zlib1g-dev"])]%string, []. split; [reflexivity|]. split; [apply (calm_counts _ _ _ K); now apply B2|]. intros x [<-|[]]. cbn [fst]. intros X. apply B in X. discriminate. }
      split; [now apply (calm_packaged _ _ _ _ _ K3)|now apply (calm_sinces _ _ _ _ K3)]. }
  destruct Z as (pm & p & lz & Ch & Pk & S3). clear H3.
  apply archive_exact in H as (dir & s5 & s6 & S5 & H & S6). apply then_ok in H as (u1 & s7 & H7 & H). destruct u1. apply call_runs in H7. destruct H7 as (_ & _ & _ & l7 & S7 & _ & O7).
  rewrite (O7 eq_refl) in S7. rewrite target_is in H. apply then_ok in H as (u1 & s8 & H8 & H). destruct u1. apply mkdir_made in H8 as (lb1 & S8 & M8).
  apply then_ok in H as (u1 & s9 & H9 & H). destruct u1. apply mkdir_made in H9 as (lb2 & S9 & M9). apply call_runs in H. destruct H as (_ & _ & _ & li & Si & Ri & _).
  exists (lm ++ lz ++ [Fetch (L "http://people.freebsd.org/~brian/vmdktool/vmdktool-1.4.tar.gz");
     Ran (Some (below dir "vmdktool-1.4")) [L "make"; L "CFLAGS=""-D_GNU_SOURCE -g -O -pipe"""]] ++ lb1 ++ lb2 ++ li ++ [Release dir]).
  split.
  - refine (since_app _ _ _ _ _ S1 (since_app _ _ _ _ _ S3 _)).
    exact (since_app _ _ _ [_] _ S5 (since_app _ _ _ [_] _ S7 (since_app _ _ _ _ _ S8 (since_app _ _ _ _ _ S9 (since_app _ _ _ _ _ Si S6))))).
  - exists lm, s1, pm, p, lz, lb1, lb2, li, dir. split; [exact G1|]. split; [exact La|]. split; [exact Ch|]. split; [exact Pk|]. split; [exact M8|]. split; [exact M9|].
    split; [|reflexivity]. destruct (m_destdir m); exact Ri.
Qed.

(** A program that comes with a package, and if there is no package manager for it is built. *)
Lemma either_exact : forall n x build (B : state W -> list event -> Prop) s s', consistent s -> fine ["port"; "brew"]%string (managers n) ->
  (forall s1 r s2, consistent s1 -> x s1 = (r, s2) -> calm s1 s2) ->
  (forall s1 s2, consistent s1 -> build s1 = (Ok tt, s2) -> exists l, since s1 s2 l /\ B s1 l) ->
  install_with m (L n) x (or_build m (L n) build) s = (Ok tt, s') ->
  exists l, since s s' l /\ (got m s n l \/ (~ counts m s (L n) /\ m_system m = L "Linux" /\ (forall y, In y (managers n) -> ~ counts m s (L (fst y))) /\ exists s1, calm s s1 /\ B s1 l)).
Proof.
  intros n x build B s s' C Fi X Bu H. destruct (counts_dec s (L n)) as [N|N].
  - apply with_counts in H; [|exact C|exact N]. exists []. split; [now apply calm_since|]. left. now left.
  - apply with_exact in H; [|exact C|exact N|exact X]. destruct H as (s1 & s2 & K & H & D & _). unfold or_build, catching, install_default in H. rewrite provider_managers in H.
    destruct (install_from m (L n) (map conv (managers n)) s1) as [[u|e] s3] eqn:E.
    + injection H as -> ->. apply from_exact in E; [|apply fine_managers|apply K]. destruct E as (pm & p & l & Ch & S & Pk & _).
      exists l. split; [apply (calm_sinces _ _ _ _ K) in S; unfold since in *; congruence|]. left. right. split; [exact N|]. exists pm, p.
      split; [now apply (calm_chosen _ _ _ _ _ K)|now apply (calm_packaged _ _ _ _ _ K)].
    + destruct e; try discriminate H. destruct (str_eqb_dec (m_system m) (L "Linux")) as [[Y1 Y]|[Y1 _]]; rewrite Y1 in H; [|discriminate H].
      apply from_fails in E; [|exact Fi|apply K]. destruct E as [K2 NC]. apply Bu in H; [|apply K2]. destruct H as (l & S & Bl). pose proof (calm_trans _ _ _ K K2) as K3.
      exists l. split; [apply (calm_sinces _ _ _ _ K3) in S; unfold since in *; congruence|]. right. split; [exact N|]. split; [exact Y|]. split.
      * intros y Hy F. apply (NC y Hy). now apply (calm_counts _ _ _ K).
      * exists s3. split; [exact K3|exact Bl].
Qed.

Lemma calm_fatdisk : forall s s1 l, calm s s1 -> fatdisk_built m s1 l -> fatdisk_built m s l.
Proof.
  intros s s1 l K (lm & s2 & lc & lb & lf & dir & A & B & R). exists lm, s2, lc, lb, lf, dir. split; [now apply (calm_got _ _ _ _ K)|]. split; [now apply (calm_later _ _ _ _ K)|exact R].
Qed.
Lemma calm_vmdktool : forall s s1 l, calm s s1 -> vmdktool_built m s1 l -> vmdktool_built m s l.
Proof.
  intros s s1 l K (lm & s2 & pm & p & lz & lb1 & lb2 & li & dir & A & B & R). exists lm, s2, pm, p, lz, lb1, lb2, li, dir.
  split; [now apply (calm_got _ _ _ _ K)|]. split; [now apply (calm_later _ _ _ _ K)|exact R].
Qed.

(** ** The version *)

Lemma words_are : forall n, version_word (L n) = word_before n.
Proof.
  intros n. unfold version_word, word_before, version_words. rewrite !L_eqb. cbn [find fst].
  repeat match goal with |- context [String.eqb ?a n] => destruct (String.eqb a n); [reflexivity|] end. reflexivity.
Qed.

Local Notation dd := (fun c => is_digit c || Ascii.eqb c "."%char).
Lemma dd_spec : forall c, dd c = true <-> dot_or_digit c.
Proof.
  intros c. unfold dot_or_digit. split.
  - destruct c as [[] [] [] [] [] [] [] []]; intros H; try discriminate H; cbn; tauto.
  - cbn. intros H. repeat destruct H as [<-|H]; try reflexivity. destruct H.
Qed.
Lemma digit_spec : forall c, is_digit c = true <-> In c (L "0123456789").
Proof.
  intros c. split.
  - destruct c as [[] [] [] [] [] [] [] []]; intros H; try discriminate H; cbn; tauto.
  - cbn. intros H. repeat destruct H as [<-|H]; try reflexivity. destruct H.
Qed.
Lemma number_spec : forall x, number x <-> forallb is_digit x = true /\ x <> [].
Proof.
  intros x. unfold number. rewrite forallb_forall. split; intros [A B].
  - split; [|exact A]. intros c Hc. now apply digit_spec, B.
  - split; [exact B|]. intros c Hc. now apply digit_spec, A.
Qed.

Lemma strict_spec : forall v, (forall c, In c v -> dot_or_digit c) -> (re_test strict_re v = true <-> two_or_three v).
Proof.
  intros v D. rewrite re_test_spec. unfold strict_re, RDigits. split.
  - intros (t & M). apply mt_seq_inv in M as (v1 & M1 & M). apply mt_plus_chr in M1 as (x & -> & Dx & Nx). apply mt_seq_inv in M as (v2 & M2 & M). apply mt_lit_inv in M2. subst v1.
    apply mt_seq_inv in M as (v3 & M3 & M). apply mt_plus_chr in M3 as (y & -> & Dy & Ny). apply mt_seq_inv in M as (v4 & M4 & M). apply mt_seq_inv in M as (v5 & M5 & M).
    assert (D4 : forall c, In c v4 -> dot_or_digit c).
    { intros c Hc. apply D. apply in_or_app. right. right. apply in_or_app. right. unfold ROpt in M4. apply mt_alt_inv in M4 as [M4|M4].
      - apply mt_seq_inv in M4 as (v6 & M6 & M4). apply mt_lit_inv in M6. subst v3. apply mt_plus_chr in M4 as (z & -> & _). right. apply in_or_app. now right.
      - apply mt_eps_inv in M4. now subst v4. }
    assert (E5 : v5 = v4).
    { unfold ROpt in M5. apply mt_alt_inv in M5 as [M5|M5]; [exfalso|now apply mt_eps_inv in M5]. apply mt_seq_inv in M5 as (v6 & M5 & _). apply mt_chr_inv in M5 as (c & -> & Hc).
      assert (X : dot_or_digit c) by (apply D4; now left). apply orb_true_iff in Hc as [Hc|Hc]; apply Ascii.eqb_eq in Hc; subst c; cbn in X; repeat (destruct X as [X|X]; [discriminate X|]); destruct X. }
    subst v5. apply mt_end_inv in M as [-> [->| ->]]; [|exfalso; assert (X : dot_or_digit NL) by (apply D4; now left); cbn in X; repeat (destruct X as [X|X]; [discriminate X|]); destruct X].
    exists x, y. split; [now apply number_spec|]. split; [now apply number_spec|]. unfold ROpt in M4. apply mt_alt_inv in M4 as [M4|M4].
    + right. apply mt_seq_inv in M4 as (v6 & M6 & M4). apply mt_lit_inv in M6. subst v3. apply mt_plus_chr in M4 as (z & -> & Dz & Nz). exists z. split; [now apply number_spec|]. now rewrite app_nil_r.
    + left. apply mt_eps_inv in M4. subst v3. now rewrite app_nil_r.
  - intros (x & y & X & Y & H). apply number_spec in X as [Dx Nx]. apply number_spec in Y as [Dy Ny]. exists [].
    assert (E : exists r, v = x ++ "."%char :: y ++ r /\ mt (ROpt (RSeq (RLit "."%char) (RPlus (RChr is_digit)))) r []).
    { destruct H as [->|(z & Z & ->)].
      - exists []. rewrite app_nil_r. split; [reflexivity|]. apply mt_alt_inv. right. now apply mt_eps_inv.
      - exists (L "." ++ z). split; [reflexivity|]. apply mt_alt_inv. left. apply mt_seq_inv. exists z. split; [now apply mt_lit_inv|]. apply number_spec in Z as [Dz Nz].
        apply mt_plus_chr. exists z. rewrite app_nil_r. auto. }
    destruct E as (r & -> & Mr). apply mt_seq_inv. eexists. split; [apply mt_plus_chr; exists x; eauto|]. apply mt_seq_inv. eexists. split; [now apply mt_lit_inv|].
    apply mt_seq_inv. eexists. split; [apply mt_plus_chr; exists y; eauto|]. apply mt_seq_inv. exists []. split; [exact Mr|]. apply mt_seq_inv. exists [].
    split; [apply mt_alt_inv; right; now apply mt_eps_inv|]. apply mt_end_inv. auto.
Qed.

Lemma span_dd : forall t : str, exists v b, t = v ++ b /\ forallb dd v = true /\ forall c u, b = c :: u -> dd c = false.
Proof.
  induction t as [|c t IH].
  - exists [], []. repeat split. discriminate.
  - destruct (dd c) eqn:E.
    + destruct IH as (v & b & -> & A & B). exists (c :: v), b. split; [reflexivity|]. split; [cbn [forallb]; now rewrite E, A|exact B].
    + exists [], (c :: t). repeat split. intros x u X. now injection X as <- _.
Qed.

Lemma search_version : forall n text, match re_search (version_re n) text with
  | Some g => exists v, group 1 g = Some v /\ version_in (version_word n) text v
  | None => forall v, ~ version_in (version_word n) text v
  end.
Proof.
  intros n text. set (w := version_word n).
  assert (Wn : forall t, re_match (version_re n) t <> None -> exists c u, t = w ++ c :: u /\ dd c = true).
  { intros t N. destruct (re_match (version_re n) t) as [g|] eqn:E; [|congruence]. apply re_match_mtc in E as (u & E). apply mtc_mt in E. unfold version_re in E.
    apply mt_seq_inv in E as (t1 & E1 & E2). apply mt_str_inv in E1. apply mt_group_inv in E2. apply mt_plus_chr in E2 as (x & -> & Dx & Nx). destruct x as [|c x]; [congruence|].
    exists c, (x ++ u). split; [exact E1|]. cbn [forallb] in Dx. now apply andb_true_iff in Dx as [Dx _]. }
  assert (Mn : forall v b, forallb dd v = true -> v <> [] -> (forall c t, b = c :: t -> dd c = false) -> re_match (version_re n) (w ++ v ++ b) = Some [(1%nat, v)]).
  { intros v b Dv Nv Nb. apply wins_match with b. unfold version_re. apply wins_seq, wins_str. eapply (wins_group_plus_munch st 1 dd v b []); [exact Dv|exact Nb|exact Nv|]. eexists. reflexivity. }
  destruct (re_search (version_re n) text) as [g|] eqn:E.
  - apply SelectProofs.re_search_at in E as (a & t & -> & M & F). destruct (Wn t) as (c & u & -> & Hc); [congruence|].
    destruct (span_dd (c :: u)) as (v & b & E & Dv & Nb). rewrite E in M |- *.
    assert (Nv : v <> []). { intros ->. cbn [app] in E. specialize (Nb c u (eq_sym E)). congruence. }
    rewrite Mn in M by assumption. injection M as <-. exists v. split; [reflexivity|]. exists a, b. split; [reflexivity|]. split; [exact Nv|]. rewrite forallb_forall in Dv.
    split; [intros x Hx; now apply dd_spec, Dv|]. split; [intros x t X Y; apply dd_spec in Y; rewrite (Nb x t X) in Y; discriminate|].
    intros a' x t E' X. destruct (Nat.le_gt_cases (length a) (length a')) as [|Hl]; [assumption|exfalso]. rewrite E in F. specialize (F a' (w ++ x :: t) E' Hl).
    apply re_match_none in F. apply F. unfold version_re. exists t. apply mt_seq_inv. exists (x :: t). split; [now apply mt_str_inv|]. apply mt_group_inv. apply mt_plus_chr. exists [x].
    split; [reflexivity|]. split; [|discriminate]. cbn [forallb]. apply dd_spec in X. now rewrite X.
  - intros v (a & b & -> & Nv & Dv & _). apply ListingProofs.search_none in E. apply re_match_none in E. apply E. destruct v as [|c v]; [congruence|]. exists (v ++ b). unfold version_re.
    apply mt_seq_inv. exists (c :: v ++ b). split; [now apply mt_str_inv|]. apply mt_group_inv. apply mt_plus_chr. exists [c]. split; [reflexivity|]. split; [|discriminate].
    cbn [forallb]. assert (X : dd c = true) by (apply dd_spec, Dv; now left). now rewrite X.
Qed.

Lemma version_exact : forall n s r s' p args, consistent s -> found s (L n) p -> h_version (s_helpers s (L n)) = None -> asks_version (L n) args ->
  version m (L n) s = (r, s') ->
  since s s' [Ran None args] /\ exists o, m_spawn m (s_world s) None args = (o, s_world s') /\
  ((exists text v, prints (m_utf8 m) false o (Ok text) /\ version_in (word_before n) text v /\
      ((two_or_three v /\ r = Ok (Some v) /\ h_version (s_helpers s' (L n)) = Some v) \/ (~ two_or_three v /\ r = Err EValueError))) \/
   (exists text, prints (m_utf8 m) false o (Ok text) /\ (forall v, ~ version_in (word_before n) text v) /\ r = Err ERuntimeError) \/
   (exists e, prints (m_utf8 m) false o (Err e) /\ r = Err e)).
Proof.
  intros n s r s' p args C F V Q H. assert (EA : args = L n :: version_args (L n)) by exact Q. clear Q. subst args.
  unfold version in H. unfold andthen at 1 in H. rewrite (installed_known m (L n) s p C F) in H. unfold andthen at 1, recall at 1 in H. rewrite V in H.
  unfold andthen at 1 in H. destruct (call m (L n) (version_args (L n)) false false s) as [r1 s1] eqn:E. unfold call in E. unfold andthen at 1 in E. rewrite (ready_known m (L n) _ s p F) in E.
  apply output_spec in E. destruct E as (A & _ & _ & o & w1 & D & [(_ & S & WW & P)|((X & _) & _)]); [|discriminate X].
  destruct r1 as [text|e].
  - pose proof (search_version (L n) text) as SV. rewrite words_are in SV. destruct (re_search (version_re (L n)) text) as [g|].
    + destruct SV as (v & G & VI). rewrite G in H. assert (Dv : forall c, In c v -> dot_or_digit c) by (destruct VI as (a & b & _ & _ & Dv & _); exact Dv).
      pose proof (strict_spec v Dv) as ST. destruct (re_test strict_re v).
      * unfold andthen, recall, remember, ret in H. injection H as <- <-. split; [exact S|]. exists o. split; [cbn; congruence|]. left. exists text, v. split; [exact P|]. split; [exact VI|].
        left. split; [now apply ST|]. split; [reflexivity|]. cbn. now rewrite str_eqb_refl.
      * injection H as <- <-. split; [exact S|]. exists o. split; [congruence|]. left. exists text, v. split; [exact P|]. split; [exact VI|]. right. split; [|reflexivity].
        intros X. apply ST in X. discriminate.
    + injection H as <- <-. split; [exact S|]. exists o. split; [congruence|]. right. left. exists text. auto.
  - injection H as <- <-. split; [exact S|]. exists o. split; [congruence|]. right. right. eauto.
Qed.

(** ** The three kinds of helpers *)

Lemma fatdisk_installable_calm : forall s1 r s2, consistent s1 -> fatdisk_installable m s1 = (r, s2) -> calm s1 s2.
Proof.
  intros s1 r s2 C H. unfold fatdisk_installable in H. unfold andthen at 1 in H. destruct (any_installed m [L "brew"; L "port"] s1) as [r1 t1] eqn:E1.
  apply any_calm in E1; [|exact C]. destruct E1 as (b1 & -> & K1 & _). destruct b1; [now injection H as _ <-|].
  destruct (negb (str_eqb (m_system m) (L "Linux"))); [now injection H as _ <-|].
  unfold andthen at 1 in H. destruct (installed m (L "make") t1) as [r2 t2] eqn:E2. apply installed_calm in E2; [|apply K1]. destruct E2 as (b2 & -> & K2 & _).
  pose proof (calm_trans _ _ _ K1 K2) as K12. unfold andthen at 1 in H.
  destruct ((if b2 then ret true else installable_plain m (L "make")) t2) as [r3 t3] eqn:E3.
  assert (K3 : calm t2 t3 /\ exists b3, r3 = Ok b3).
  { destruct b2; [injection E3 as <- <-; split; [apply calm_refl, K2|eauto]|]. apply any_calm in E3; [|apply K2]. destruct E3 as (b3 & -> & K3 & _). split; [exact K3|eauto]. }
  destruct K3 as [K3 [b3 ->]]. pose proof (calm_trans _ _ _ K12 K3) as K13. destruct (negb b3); [now injection H as _ <-|].
  unfold andthen at 1 in H. destruct (any_installed m [L "clang"; L "gcc"; L "g++"] t3) as [r4 t4] eqn:E4. apply any_calm in E4; [|apply K3]. destruct E4 as (b4 & -> & K4 & _).
  pose proof (calm_trans _ _ _ K13 K4) as K14. destruct b4; [now injection H as _ <-|]. apply installable_calm in H; [|apply K4]. now apply calm_trans with t4.
Qed.

Theorem install_plain_exact : forall n s s', consistent s -> n <> "fatdisk"%string -> n <> "vmdktool"%string -> install m (L n) s = (Ok tt, s') ->
  exists l, since s s' l /\ got m s n l.
Proof.
  intros n s s' C N1 N2 H. unfold install in H. rewrite !L_eqb in H. destruct (String.eqb_spec "fatdisk" n); [congruence|]. destruct (String.eqb_spec "vmdktool" n); [congruence|].
  apply plain_exact in H; [|exact C]. destruct H as (l & S & G & _). eauto.
Qed.

Lemma fine_two : forall n, n = "fatdisk"%string \/ n = "vmdktool"%string -> fine ["port"; "brew"]%string (managers n).
Proof. intros n [-> | ->] x H; cbn in H; destruct H as [<-|[<-|[]]]; (split; [cbn; tauto|discriminate]). Qed.

Theorem install_fatdisk_exact : forall s s', consistent s -> install m (L "fatdisk") s = (Ok tt, s') ->
  exists l, since s s' l /\ (got m s "fatdisk" l \/ (~ counts m s (L "fatdisk") /\ m_system m = L "Linux" /\ ~ counts m s (L "brew") /\ ~ counts m s (L "port") /\ fatdisk_built m s l)).
Proof.
  intros s s' C H. unfold install in H. change (str_eqb (L "fatdisk") (L "fatdisk")) with true in H. cbn iota in H.
  apply (either_exact "fatdisk" _ _ (fatdisk_built m)) in H; [|exact C|apply fine_two; now left|apply fatdisk_installable_calm|apply fatdisk_exact].
  destruct H as (l & S & [G|(N & Y & M & s1 & K & B)]); exists l; (split; [exact S|]); [now left|right]. split; [exact N|]. split; [exact Y|].
  split; [apply (M ("brew", ["glennmatthews/fatdisk/fatdisk"; "--devel"])%string); now left|]. split; [apply (M ("port", ["fatdisk"])%string); right; now left|].
  now apply (calm_fatdisk _ _ _ K).
Qed.

Theorem install_vmdktool_exact : forall s s', consistent s -> install m (L "vmdktool") s = (Ok tt, s') ->
  exists l, since s s' l /\ (got m s "vmdktool" l \/ (~ counts m s (L "vmdktool") /\ m_system m = L "Linux" /\ ~ counts m s (L "brew") /\ ~ counts m s (L "port") /\ vmdktool_built m s l)).
Proof.
  intros s s' C H. unfold install in H. change (str_eqb (L "vmdktool") (L "fatdisk")) with false in H. change (str_eqb (L "vmdktool") (L "vmdktool")) with true in H. cbn iota in H.
  apply (either_exact "vmdktool" _ _ (vmdktool_built m)) in H; [|exact C|apply fine_two; now right| |apply vmdktool_exact].
  - destruct H as (l & S & [G|(N & Y & M & s1 & K & B)]); exists l; (split; [exact S|]); [now left|right]. split; [exact N|]. split; [exact Y|].
    split; [apply (M ("brew", ["vmdktool"])%string); now left|]. split; [apply (M ("port", ["vmdktool"])%string); right; now left|].
    now apply (calm_vmdktool _ _ _ K).
  - intros s1 r s2 C1 X. apply any_calm in X; [|exact C1]. destruct X as (b & _ & K & _). exact K.
Qed.

End Exact.

(** ** Lists of packages are brought up to date first *)

Lemma part_before : forall (A : Type) (l1 l2 b a : list A) x, l1 ++ l2 = b ++ x :: a -> ~ In x l1 -> exists b', b = l1 ++ b'.
Proof.
  intros A. induction l1 as [|y l1 IH]; intros l2 b a x E N; [now exists b|]. destruct b as [|z b]; cbn in E; injection E as -> E.
  - exfalso. apply N. now left.
  - destruct (IH l2 b a x E) as [b' ->]; [|now exists b']. intros F. apply N. now right.
Qed.

Theorem updated_first : forall W (m : machine W) n w s', n <> "fatdisk"%string -> n <> "vmdktool"%string ->
  install m (L n) (started w) = (Ok tt, s') -> forall before p after,
  (s_done s' = before ++ Ran None (L "apt-get" :: L "-q" :: L "install" :: p) :: after -> In (Ran None [L "apt-get"; L "-q"; L "update"]) before) /\
  (s_done s' = before ++ Ran None (L "port" :: L "install" :: p) :: after -> In (Ran None [L "port"; L "selfupdate"]) before).
Proof.
  intros W m n w s' N1 N2 H before p after.
  assert (C : consistent (started w)) by (intros k; unfold found; cbn; split; [discriminate|intros [q X]; discriminate X]).
  destruct (install_plain_exact m n (started w) s' C N1 N2 H) as (l & S & G). unfold since in S. cbn [started s_done app] in S. rewrite S. clear S H.
  destruct G as [[_ ->]|(_ & pm & q & _ & K)]; [split; intros F; destruct before; discriminate F|].
  assert (RN : forall dir args lu, runs dir args lu -> forall x, In x lu -> x = Ran dir args \/ x = Ran dir (L "sudo" :: args)).
  { intros dir args lu R x. destruct R; cbn; intuition. }
  assert (FI : forall dir args lu, runs dir args lu -> In (Ran dir args) lu) by (intros dir args lu R; destruct R; now left).
  assert (AN : forall la w1 x, asked m w la w1 -> In x la -> x = Ask (L "dpkg")) by (intros la w1 x A X; destruct A; cbn in X; intuition).
  split; intros E; destruct K as [la w1 A _|la w1 lu li A _ U I|li I|lu li U I|]; cbn [started s_world s_apt s_port] in *.
  - exfalso. assert (X : In (Ran None (L "apt-get" :: L "-q" :: L "install" :: p)) (la ++ [Ran None (dpkg q)])) by (rewrite E; apply in_or_app; right; now left).
    apply in_app_or in X as [X|[X|[]]]; [apply (AN la w1 _ A) in X; discriminate X|discriminate X].
  - rewrite 2 app_assoc in E. apply part_before in E as [b' ->].
    + apply in_or_app. left. apply in_or_app. right. now apply FI.
    + intros X. apply in_app_or in X as [X|X]; [apply in_app_or in X as [X|[X|[]]]; [apply (AN la w1 _ A) in X; discriminate X|discriminate X]|].
      apply (RN _ _ _ U) in X as [X|X]; discriminate X.
  - exfalso. assert (X : In (Ran None (L "apt-get" :: L "-q" :: L "install" :: p)) li) by (rewrite E; apply in_or_app; right; now left).
    apply (RN _ _ _ I) in X as [X|X]; discriminate X.
  - exfalso. assert (X : In (Ran None (L "apt-get" :: L "-q" :: L "install" :: p)) (lu ++ li)) by (rewrite E; apply in_or_app; right; now left).
    apply in_app_or in X as [X|X]; [apply (RN _ _ _ U) in X as [X|X]|apply (RN _ _ _ I) in X as [X|X]]; discriminate X.
  - exfalso. destruct before as [|x [|]]; discriminate E.
  - exfalso. assert (X : In (Ran None (L "port" :: L "install" :: p)) (la ++ [Ran None (dpkg q)])) by (rewrite E; apply in_or_app; right; now left).
    apply in_app_or in X as [X|[X|[]]]; [apply (AN la w1 _ A) in X; discriminate X|discriminate X].
  - exfalso. assert (X : In (Ran None (L "port" :: L "install" :: p)) (la ++ [Ran None (dpkg q)] ++ lu ++ li)) by (rewrite E; apply in_or_app; right; now left).
    apply in_app_or in X as [X|[X|X]]; [apply (AN la w1 _ A) in X; discriminate X|discriminate X|].
    cbn [app] in X. apply in_app_or in X as [X|X]; [apply (RN _ _ _ U) in X as [X|X]|apply (RN _ _ _ I) in X as [X|X]]; discriminate X.
  - exfalso. assert (X : In (Ran None (L "port" :: L "install" :: p)) li) by (rewrite E; apply in_or_app; right; now left).
    apply (RN _ _ _ I) in X as [X|X]; discriminate X.
  - apply part_before in E as [b' ->]; [apply in_or_app; left; now apply FI|]. intros X. apply (RN _ _ _ U) in X as [X|X]; discriminate X.
  - exfalso. destruct before as [|x [|]]; discriminate E.
Qed.
