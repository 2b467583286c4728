(** Proofs about the results of installing, and about install-helpers. *)
From Verif Require Import PyBase PyBaseProofs PyRegex SelectModel PathModel RawModel ProgModel InstallModel InstallSpec InstallProofs.
From Verif Require ArchiveProofs.
From Coq Require Import Lia.
Local Open Scope Z_scope.

Section Run.
Context {W : Type}.
Variable m : machine W.

(** ** install *)

Lemma installed_known : forall n s p, consistent s -> found s n p -> installed m n s = (Ok true, s).
Proof.
  intros n s p C F. unfold installed, andthen, recall.
  assert (X : h_installed (s_helpers s n) = Some true) by (apply C; eauto). now rewrite X.
Qed.

Lemma install_known : forall n s p, consistent s -> found s n p -> install m n s = (Ok tt, s).
Proof.
  intros n s p C F. unfold install, install_plain.
  destruct (str_eqb n (L "fatdisk")); [ | destruct (str_eqb n (L "vmdktool"))];
    unfold install_with, andthen; now rewrite (installed_known n s p C F).
Qed.

Lemma with_found : forall n x y s s', consistent s ->
  install_with m n x y s = (Ok tt, s') -> exists p, found s' n p.
Proof.
  intros n x y s s' C H. unfold install_with in H. unfold andthen at 1 in H.
  destruct (installed m n s) as [r1 s1] eqn:I1. apply installed_quiet in I1; [ | exact C].
  destruct I1 as (b & -> & Q & B & _). destruct b.
  { injection H as <-. now apply B. }
  unfold andthen at 1 in H. destruct (x s1) as [[c | e] s2]; [ | discriminate H].
  destruct (negb c).
  { unfold fail_unsure, andthen in H. destruct (unsure m n s2) as [[e | e] s3]; discriminate H. }
  unfold andthen at 1 in H. destruct (y s2) as [[u | e] s3]; [ | discriminate H].
  unfold andthen in H. destruct (path m n s3) as [r4 s4] eqn:P. apply path_quiet in P.
  destruct P as (-> & _ & _ & _). unfold found.
  destruct (h_path (s_helpers s4 n)) as [p | ] eqn:E; [ | discriminate H].
  injection H as <-. eauto.
Qed.

Lemma install_found : forall n s s', consistent s -> install m n s = (Ok tt, s') -> exists p, found s' n p.
Proof.
  intros n s s' C H. unfold install, install_plain in H.
  destruct (str_eqb n (L "fatdisk")); [ | destruct (str_eqb n (L "vmdktool"))]; now apply with_found in H.
Qed.

(** Programs that are absent *)
Lemma quiet_absent : forall s s' n, quiet m s s' -> absent m s n -> absent m s' n.
Proof.
  intros s s' n (A1 & _ & _ & _ & _ & _ & A7 & _) [H1 H2]. split; [ | now rewrite A1].
  destruct (A7 n H1) as [A | A]; [exact A | now rewrite A].
Qed.
Lemma installed_absent : forall n s r s', consistent s -> absent m s n -> installed m n s = (r, s') ->
  r = Ok false /\ quiet m s s' /\ consistent s'.
Proof.
  intros n s r s' C A H. apply installed_quiet in H; [ | exact C]. destruct H as (b & -> & Q & B & _).
  assert (b = false).
  { destruct b; [ | reflexivity]. destruct B as [B _]. destruct (B eq_refl) as [p F].
    destruct (quiet_absent _ _ _ Q A) as [X _]. unfold found in F. congruence. }
  subst b. split; [reflexivity | ]. split; [exact Q | ]. apply Q. exact C.
Qed.
Lemma any_absent : forall l s r s', consistent s -> (forall n, In n l -> absent m s n) ->
  any_installed m l s = (r, s') -> r = Ok false /\ quiet m s s' /\ consistent s'.
Proof.
  induction l as [ | n l IH]; intros s r s' C A H.
  - injection H as <- <-. split; [reflexivity | ]. split; [apply quiet_refl | exact C].
  - cbn in H. unfold andthen in H. destruct (installed m n s) as [r1 s1] eqn:I1.
    apply installed_absent in I1; [ | exact C | apply A; now left]. destruct I1 as (-> & Q & C1).
    apply IH in H; [ | exact C1 | ].
    + destruct H as (-> & Q2 & C2). split; [reflexivity | ]. split; [ | exact C2].
      now apply quiet_trans with s1.
    + intros k K. apply quiet_absent with s; [exact Q | ]. apply A. now right.
Qed.
Lemma any_quiet : forall l s r s', consistent s -> any_installed m l s = (r, s') ->
  exists b, r = Ok b /\ quiet m s s' /\ consistent s'.
Proof.
  induction l as [ | n l IH]; intros s r s' C H.
  - injection H as <- <-. exists false. split; [reflexivity | ]. split; [apply quiet_refl | exact C].
  - cbn in H. unfold andthen in H. destruct (installed m n s) as [r1 s1] eqn:I1.
    apply installed_quiet in I1; [ | exact C]. destruct I1 as (b & -> & Q & _).
    assert (C1 : consistent s1) by (apply Q; exact C).
    destruct b.
    + injection H as <- <-. exists true. auto.
    + apply IH in H; [ | exact C1]. destruct H as (b & -> & Q2 & C2).
      exists b. split; [reflexivity | ]. split; [now apply quiet_trans with s1 | exact C2].
Qed.

Definition managers : list str := [L "apt-get"; L "yum"; L "port"; L "brew"].

Lemma provider_managers : forall n x, In x (map fst (provider n)) -> In x managers.
Proof.
  intros n x. unfold provider.
  repeat match goal with |- context [if ?b then _ else _] => destruct b end;
    cbn [map fst In managers]; tauto.
Qed.

Lemma unsure_spec : forall n s r s', consistent s -> (forall x, In x managers -> absent m s x) ->
  unsure m n s = (r, s') ->
  quiet m s s' /\ consistent s'
  /\ ((wants_manager (m_system m) n /\ r = Ok ERuntimeError)
      \/ (~ wants_manager (m_system m) n /\ r = Ok ENotImplemented)).
Proof.
  intros n s r s' C A H. unfold unsure in H.
  assert (WM : wants_manager (m_system m) n <->
    (str_eqb (m_system m) (L "Darwin") && (provided_by (L "brew") n || provided_by (L "port") n)
     || str_eqb (m_system m) (L "Linux") && (provided_by (L "apt-get") n || provided_by (L "yum") n)) = true).
  { unfold wants_manager, provided_by, provider.
    split.
    - intros [[-> X] | [-> X]]; cbn [In] in X; repeat destruct X as [<- | X]; try contradiction X; reflexivity.
    - intros X. apply orb_prop in X. destruct X as [X | X]; apply andb_prop in X; destruct X as [X1 X2];
        apply str_eqb_eq in X1; [left | right]; (split; [exact X1 | ]); clear X1 H;
        repeat match type of X2 with
               | context [if str_eqb ?a ?b then _ else _] =>
                   destruct (str_eqb_dec a b) as [[E1 E2] | [E1 E2]]; rewrite E1 in X2; [subst a; cbn in X2 |- *; tauto || discriminate X2 | clear E1 E2]
               end; discriminate X2. }
  assert (NO : str_eqb n (L "ovftool") = true -> ~ wants_manager (m_system m) n).
  { intros E. apply str_eqb_eq in E. subst n. rewrite WM.
    change (provided_by (L "brew") (L "ovftool")) with false. change (provided_by (L "port") (L "ovftool")) with false.
    change (provided_by (L "apt-get") (L "ovftool")) with false. change (provided_by (L "yum") (L "ovftool")) with false.
    cbn [orb]. rewrite !andb_false_r. discriminate. }
  destruct (str_eqb n (L "ovftool")) eqn:OV.
  { injection H as <- <-. split; [apply quiet_refl | ]. split; [exact C | ]. right. auto. }
  destruct (str_eqb (m_system m) (L "Darwin")) eqn:D.
  - assert (SL : str_eqb (m_system m) (L "Linux") = false).
    { apply str_eqb_eq in D. rewrite D. reflexivity. }
    rewrite SL in WM. cbn [andb orb] in WM. rewrite orb_false_r in WM.
    assert (ONE : forall (b : bool) pm s r s', In pm managers -> consistent s -> (forall x, In x managers -> absent m s x) ->
       (if b then installed m pm else ret true) s = (r, s') ->
       (exists c, r = Ok c) /\ quiet m s s' /\ consistent s' /\ (forall x, In x managers -> absent m s' x)).
    { intros b pm s0 r0 s0' I0 C0 A0 H0. destruct b.
      - apply installed_absent in H0; [ | exact C0 | apply A0; exact I0]. destruct H0 as (-> & Q & C1).
        split; [eauto | ]. split; [exact Q | ]. split; [exact C1 | ]. intros x X. apply quiet_absent with s0; auto.
      - injection H0 as <- <-. split; [eauto | ]. split; [apply quiet_refl | ]. auto. }
    unfold andthen at 1 in H.
    destruct ((if provided_by (L "brew") n then installed m (L "brew") else ret true) s) as [r1 s1] eqn:H1.
    apply ONE in H1; [ | cbn; tauto | exact C | exact A]. destruct H1 as ([c1 ->] & Q1 & C1 & A1).
    unfold andthen at 1 in H.
    destruct ((if provided_by (L "port") n then installed m (L "port") else ret true) s1) as [r2 s2] eqn:H2.
    apply ONE in H2; [ | cbn; tauto | exact C1 | exact A1]. destruct H2 as ([c2 ->] & Q2 & C2 & A2).
    destruct (provided_by (L "brew") n || provided_by (L "port") n); injection H as <- <-;
      (split; [now apply quiet_trans with s1 | ]); (split; [exact C2 | ]).
    + left. split; [now apply WM | reflexivity].
    + right. split; [ | reflexivity]. intros X. apply WM in X. discriminate X.
  - cbn [andb orb] in WM.
    destruct (str_eqb (m_system m) (L "Linux") && (provided_by (L "apt-get") n || provided_by (L "yum") n)) eqn:LX.
    + unfold andthen in H. destruct (any_installed m [L "apt-get"; L "yum"] s) as [r1 s1] eqn:H1.
      apply any_absent in H1; [ | exact C | intros x X; apply A; cbn in X |- *; tauto].
      destruct H1 as (-> & Q & C1). injection H as <- <-. split; [exact Q | ]. split; [exact C1 | ].
      left. split; [now apply WM | reflexivity].
    + injection H as <- <-. split; [apply quiet_refl | ]. split; [exact C | ]. right.
      split; [ | reflexivity]. intros X. apply WM in X. discriminate X.
Qed.

Lemma with_absent : forall n x y s r s', consistent s -> absent m s n ->
  (forall k, In k managers -> absent m s k) ->
  (forall s1 r1 s2, consistent s1 -> quiet m s s1 -> x s1 = (r1, s2) ->
                    r1 = Ok false /\ quiet m s1 s2 /\ consistent s2) ->
  install_with m n x y s = (r, s') ->
  quiet m s s' /\ consistent s'
  /\ ((wants_manager (m_system m) n /\ r = Err ERuntimeError)
      \/ (~ wants_manager (m_system m) n /\ r = Err ENotImplemented)).
Proof.
  intros n x y s r s' C A M X H. unfold install_with in H. unfold andthen at 1 in H.
  destruct (installed m n s) as [r1 s1] eqn:I1. apply installed_absent in I1; [ | exact C | exact A].
  destruct I1 as (-> & Q1 & C1). unfold andthen at 1 in H.
  destruct (x s1) as [r2 s2] eqn:X1. apply X in X1; [ | exact C1 | exact Q1].
  destruct X1 as (-> & Q2 & C2). cbn [negb] in H. unfold fail_unsure, andthen in H.
  destruct (unsure m n s2) as [r3 s3] eqn:U. apply unsure_spec in U; [ | exact C2 | ].
  - destruct U as (Q3 & C3 & U).
    assert (Q : quiet m s s3) by (apply quiet_trans with s2; [now apply quiet_trans with s1 | exact Q3]).
    destruct U as [[U ->] | [U ->]]; injection H as <- <-; auto 10.
  - intros k K. apply quiet_absent with s1; [exact Q2 | ]. apply quiet_absent with s; [exact Q1 | ]. auto.
Qed.

(** Without any package manager nothing can be installed, but fatdisk under Linux *)
Lemma install_absent : forall n s r s', consistent s -> absent m s n ->
  (forall k, In k managers -> absent m s k) -> (n = L "fatdisk" -> m_system m <> L "Linux") ->
  install m n s = (r, s') ->
  quiet m s s' /\ consistent s'
  /\ ((wants_manager (m_system m) n /\ r = Err ERuntimeError)
      \/ (~ wants_manager (m_system m) n /\ r = Err ENotImplemented)).
Proof.
  intros n s r s' C A M F H. unfold install, install_plain in H.
  assert (AM : forall l, (forall k, In k l -> In k managers) -> forall s1 r1 s2, consistent s1 -> quiet m s s1 ->
     any_installed m l s1 = (r1, s2) -> r1 = Ok false /\ quiet m s1 s2 /\ consistent s2).
  { intros l IL s1 r1 s2 C1 Q1 H1. apply any_absent in H1; [exact H1 | exact C1 | ].
    intros k K. apply quiet_absent with s; [exact Q1 | ]. auto. }
  destruct (str_eqb_dec n (L "fatdisk")) as [[E0 E] | [E0 _]]; rewrite E0 in H.
  { specialize (F E). apply with_absent in H; [exact H | assumption .. | ].
    intros s1 r1 s2 C1 Q1 H1. unfold fatdisk_installable in H1. unfold andthen at 1 in H1.
    destruct (any_installed m [L "brew"; L "port"] s1) as [r3 s3] eqn:K.
    apply AM in K; [ | cbn; tauto | exact C1 | exact Q1]. destruct K as (-> & Q3 & C3).
    apply str_eqb_neq in F. rewrite F in H1. cbn [negb] in H1. injection H1 as <- <-. auto. }
  destruct (str_eqb n (L "vmdktool")).
  { apply with_absent in H; [exact H | assumption .. | ]. apply AM. cbn. tauto. }
  apply with_absent in H; [exact H | assumption .. | ]. apply AM. intros k K. apply provider_managers with n. exact K.
Qed.

(** ** install-helpers *)

Definition permitted (b : bool) (args : list str) : Prop :=
  installs b args \/ (b = false /\ exists n, asks_version n args).

Lemma stays_call_full : forall n args, permitted false (n :: args) -> stays permitted (call m n args false false).
Proof.
  intros n args H. apply stays_andthen.
  - apply stays_ready. apply stays_install. intros b a X. now left.
  - intros _. now apply stays_output.
Qed.

Lemma remember_version_keeps : forall P n v (s : state W), keeps P s
  (snd (remember n (mkmemory (h_path (s_helpers s n)) (h_installed (s_helpers s n)) (Some v)) s)).
Proof.
  intros P n v s C. cbn. split; [ | split].
  - intros k. unfold found. cbn. destruct (str_eqb_dec k n) as [[-> E] | [-> E]]; [ | apply C]. apply C.
  - intros k p. unfold found. cbn. destruct (str_eqb_dec k n) as [[-> E] | [-> E]]; [now subst k | auto].
  - exists []. split; [ | constructor]. unfold since. cbn. now rewrite app_nil_r.
Qed.

Lemma version_keeps : forall n, stays permitted (version m n).
Proof.
  intros n. apply stays_andthen; [apply stays_installed | ]. intros b.
  apply stays_andthen; [apply stays_recall | ]. intros x.
  destruct b; [ | apply stays_ret]. destruct (h_version x); [apply stays_ret | ].
  apply stays_andthen.
  - apply stays_call_full. right. split; [reflexivity | ]. exists n. reflexivity.
  - intros text. destruct (re_search (version_re n) text) as [g | ]; [ | apply stays_raise].
    destruct (group 1 g) as [v | ]; [ | apply stays_raise].
    destruct (re_test strict_re v); [ | apply stays_raise].
    intros s r s' H. unfold andthen, recall, remember, ret in H. injection H as <- <-.
    apply remember_version_keeps.
Qed.

Lemma install_helper_keeps : forall verify_only n, stays permitted (install_helper m verify_only n).
Proof.
  intros vo n. apply stays_andthen; [apply stays_installed | ]. intros b. apply stays_if.
  { apply stays_andthen; [apply version_keeps | ]. intros v.
    apply stays_andthen; [apply stays_path | ]. intros p. apply stays_ret. }
  apply stays_if; [apply stays_ret | ].
  apply stays_catching.
  - apply stays_andthen; [apply stays_install; intros c a X; now left | intros _].
    apply stays_andthen; [apply stays_path | intros p].
    apply stays_andthen; [apply version_keeps | intros v]. apply stays_ret.
  - intros e y E. destruct e; try discriminate E; injection E as <-; apply stays_ret.
Qed.

Lemma install_helper_found : forall n s msg s', consistent s ->
  install_helper m false n s = (Ok (true, msg), s') -> exists p, found s' n p.
Proof.
  intros n s msg s' C H. unfold install_helper in H. unfold andthen at 1 in H.
  destruct (installed m n s) as [r1 s1] eqn:I1. apply installed_quiet in I1; [ | exact C].
  destruct I1 as (b & -> & Q & B & _). assert (C1 : consistent s1) by (apply Q; exact C).
  destruct b.
  - destruct B as [B _]. destruct (B eq_refl) as [p F]. exists p.
    unfold andthen at 1 in H. destruct (version m n s1) as [[v | e] s2] eqn:V; [ | discriminate H].
    apply version_keeps in V. destruct (V C1) as (C2 & F2 & _).
    unfold andthen in H. destruct (path m n s2) as [[q | e] s3] eqn:P; [ | discriminate H].
    injection H as <- <-. apply (stays_path m permitted) in P. destruct (P C2) as (_ & F3 & _). auto.
  - unfold catching in H.
    match type of H with (match ?x with _ => _ end) = _ => destruct x as [[r | e] s2] eqn:X end.
    + injection H as -> <-. unfold andthen at 1 in X.
      destruct (install m n s1) as [[u | e] s3] eqn:I3; [ | discriminate X].
      destruct u. assert (K := I3). apply (stays_install m permitted (fun b a X => or_introl X)) in K.
      destruct (K C1) as (C3 & _ & _).
      apply install_found in I3; [ | exact C1]. destruct I3 as [p F]. exists p.
      unfold andthen at 1 in X. destruct (path m n s3) as [[q | e] s4] eqn:P; [ | discriminate X].
      apply (stays_path m permitted) in P. destruct (P C3) as (C4 & F4 & _).
      unfold andthen in X. destruct (version m n s4) as [[v | e] s5] eqn:V; [ | discriminate X].
      apply version_keeps in V. destruct (V C4) as (_ & F5 & _). injection X as _ <-. auto.
    + destruct e; try discriminate H.
Qed.

Lemma each_keeps : forall vo l good results, stays permitted (each_helper m vo l good results).
Proof.
  intros vo l. induction l as [ | n l IH]; intros good results; [apply stays_ret | ].
  cbn. apply stays_andthen; [apply install_helper_keeps | ]. intros [rc msg]. apply IH.
Qed.
Lemma first_keeps : forall vo l results, stays permitted (first_helper m vo l results).
Proof.
  intros vo l. induction l as [ | n l IH]; intros results; [apply stays_ret | ].
  cbn. apply stays_andthen; [apply install_helper_keeps | ]. intros [rc msg].
  apply stays_if; [apply stays_ret | apply IH].
Qed.

Lemma each_found : forall l good results s out s', consistent s ->
  each_helper m false l good results s = (Ok (true, out), s') ->
  good = true /\ (forall n, In n l -> exists p, found s' n p)
  /\ exists more, out = results ++ more /\ map fst more = l.
Proof.
  induction l as [ | n l IH]; intros good results s out s' C H.
  - injection H as -> <- <-. split; [reflexivity | ]. split; [intros n []| ]. exists []. now rewrite app_nil_r.
  - cbn in H. unfold andthen in H. destruct (install_helper m false n s) as [[[rc msg] | e] s1] eqn:I1; [ | discriminate H].
    assert (K := I1). apply install_helper_keeps in K. destruct (K C) as (C1 & _ & _).
    assert (K2 := H). apply each_keeps in K2. destruct (K2 C1) as (_ & F2 & _).
    apply IH in H; [ | exact C1]. destruct H as (G & F & more & -> & M).
    apply andb_prop in G. destruct G as [-> ->]. split; [reflexivity | ]. split.
    + intros k [<- | K1]; [ | auto]. apply install_helper_found in I1; [ | exact C].
      destruct I1 as [p P]. exists p. auto.
    + exists ((n, msg) :: more). rewrite <- app_assoc. split; [reflexivity | ]. cbn. now rewrite M.
Qed.

Lemma first_found : forall l results s out s', consistent s ->
  first_helper m false l results s = (Ok (true, out), s') ->
  exists n, In n l /\ exists p, found s' n p.
Proof.
  induction l as [ | n l IH]; intros results s out s' C H; [discriminate H | ].
  cbn in H. unfold andthen in H. destruct (install_helper m false n s) as [[[rc msg] | e] s1] eqn:I1; [ | discriminate H].
  destruct rc.
  - injection H as <- <-. exists n. split; [now left | ]. now apply install_helper_found in I1.
  - apply install_helper_keeps in I1. destruct (I1 C) as (C1 & _ & _).
    apply IH in H; [ | exact C1]. destruct H as (k & K & F). exists k. split; [now right | exact F].
Qed.

Lemma manpages_keeps : forall vo src man pages, stays permitted (manpages_helper m vo src man pages).
Proof.
  intros vo src man [l | ]; [ | apply stays_ret]. cbn. apply stays_if.
  - induction l as [ | f l IH]; [apply stays_ret | ]. cbn.
    apply stays_andthen; [apply stays_look | intros x]. apply stays_if; [apply stays_ret | ].
    apply stays_andthen; [apply stays_look | intros y]. apply stays_if; [apply stays_ret | ].
    apply stays_andthen; [apply stays_look | intros z]. apply stays_if; [exact IH | apply stays_ret].
  - apply stays_catching.
    + apply stays_andthen; [ | intros [a b]; apply stays_ret].
      generalize false at 2. generalize false. induction l as [ | f l IH]; intros a b; [apply stays_ret | ].
      cbn. apply stays_andthen; [ | intros [p n]; apply IH].
      apply stays_andthen; [apply stays_mkdir | intros _].
      apply stays_andthen; [apply stays_look | intros x].
      apply stays_andthen; [apply stays_if; [apply stays_look | apply stays_ret] | intros z].
      apply stays_if; [apply stays_ret | ].
      apply stays_andthen; [apply stays_copy | intros _; apply stays_ret].
    + intros e y E. destruct (is_environment_error e); [injection E as <-; apply stays_ret | discriminate E].
Qed.

Lemma run_keeps : forall vo ig src man pages s res r s',
  install_helpers m vo ig src man pages s = (res, r, s') -> keeps permitted s s'.
Proof.
  intros vo ig src man pages s res r s' H. unfold install_helpers in H.
  match type of H with (match ?x s with _ => _ end) = _ => set (X := x) in H end.
  assert (SX : stays permitted X).
  { apply stays_andthen; [apply each_keeps | intros [g o]].
    apply stays_andthen; [apply first_keeps | intros [i o']].
    apply stays_andthen; [apply manpages_keeps | intros [rc msg]]. apply stays_ret. }
  destruct (X s) as [[[g o] | e] s1] eqn:E; injection H as <- <- <-; now apply SX in E.
Qed.

(** Success without --ignore-errors and --verify-only *)
Lemma run_found : forall src man pages s res s', consistent s ->
  install_helpers m false false src man pages s = (res, Ok tt, s') ->
  (forall n, In n needed -> exists p, found s' n p)
  /\ (exists n, In n iso_tools /\ exists p, found s' n p)
  /\ exists s1 msg, manpages_helper m false src man pages s1 = (Ok (true, msg), s')
                    /\ consistent s1
                    /\ exists results, res = Some results /\ last results ([], NoPages) = (L "COT manpages", msg).
Proof.
  intros src man pages s res s' C H. unfold install_helpers in H.
  unfold andthen at 1 in H.
  destruct (each_helper m false _ true [] s) as [[[g o] | e] s1] eqn:E1; [ | discriminate H].
  unfold andthen at 1 in H.
  destruct (first_helper m false _ o s1) as [[[i o2] | e] s2] eqn:E2; [ | discriminate H].
  unfold andthen at 1 in H.
  destruct (manpages_helper m false src man pages s2) as [[[rc msg] | e] s3] eqn:E3; [ | discriminate H].
  cbn in H. destruct g, i, rc; try discriminate H. injection H as <- <-.
  assert (K1 := E1). apply each_keeps in K1. destruct (K1 C) as (C1 & _ & _).
  assert (K2 := E2). apply first_keeps in K2. destruct (K2 C1) as (C2 & F2 & _).
  assert (K3 := E3). apply manpages_keeps in K3. destruct (K3 C2) as (C3 & F3 & _).
  apply each_found in E1; [ | exact C]. destruct E1 as (_ & N & _).
  apply first_found in E2; [ | exact C1]. destruct E2 as (k & K & p & P).
  split; [ | split].
  - intros n X. destruct (N n X) as [q Q]. exists q. auto.
  - exists k. split; [exact K | ]. exists p. auto.
  - exists s2, msg. split; [exact E3 | ]. split; [exact C2 | ].
    eexists. split; [reflexivity | ]. apply last_last.
Qed.

(** ** --verify-only *)

Definition inquires (s s' : state W) : Prop :=
  consistent s -> consistent s' /\ (forall n p, found s n p -> found s' n p)
  /\ exists l, since s s' l /\ after m (s_world s) l (s_world s')
     /\ forall e, In e l -> exists n args, e = Ran None args /\ asks_version n args /\ exists p, found s' n p.

Lemma after_app : forall w l w1 l2 w2, after m w l w1 -> after m w1 l2 w2 -> after m w (l ++ l2) w2.
Proof. induction 1; intros H2; cbn; [exact H2 | econstructor; eauto]. Qed.
Lemma inquires_quiet : forall s s', quiet m s s' -> inquires s s'.
Proof.
  intros s s' (A1 & A2 & A3 & A4 & A5 & A6 & A7 & A8) C. split; [auto | ]. split; [exact A6 | ].
  exists []. split; [unfold since; now rewrite app_nil_r | ]. split; [rewrite A1; constructor | intros e []].
Qed.
Lemma inquires_trans : forall a b c, inquires a b -> inquires b c -> inquires a c.
Proof.
  intros a b c H1 H2 C. destruct (H1 C) as (C1 & F1 & l1 & S1 & T1 & E1).
  destruct (H2 C1) as (C2 & F2 & l2 & S2 & T2 & E2). split; [exact C2 | ]. split; [auto | ].
  exists (l1 ++ l2). split; [now apply since_app with b | ]. split; [now apply after_app with (s_world b) | ].
  intros e X. apply in_app_or in X. destruct X as [X | X]; [ | now apply E2].
  destruct (E1 e X) as (n & args & -> & V & p & P). exists n, args. split; [reflexivity | ]. split; [exact V | ]. eauto.
Qed.

Lemma ready_known : forall n x s p, found s n p -> ready m n x s = (Ok tt, s).
Proof.
  intros n x s p F. unfold found in F. unfold ready, path. unfold andthen at 1. unfold andthen at 1, recall at 1.
  now rewrite F.
Qed.
Lemma version_inquires : forall n s r s' p, consistent s -> found s n p -> version m n s = (r, s') -> inquires s s'.
Proof.
  intros n s r s' p C F H. unfold version in H. unfold andthen at 1 in H.
  rewrite (installed_known n s p C F) in H. unfold andthen at 1, recall at 1 in H.
  destruct (h_version (s_helpers s n)) as [v | ].
  { injection H as <- <-. apply inquires_quiet, quiet_refl. }
  unfold andthen at 1 in H. destruct (call m n (version_args n) false false s) as [r1 s1] eqn:E.
  assert (I1 : inquires s s1).
  { unfold call in E. unfold andthen at 1 in E. rewrite (ready_known n _ s p F) in E.
    apply output_spec in E. destruct E as (A & _ & _ & o & w1 & D & [(_ & S & WW & _) | ((X & _) & _)]);
      [ | discriminate X].
    intros _. split; [intros k; unfold found; rewrite A; apply C | ].
    split; [intros k q; unfold found; now rewrite A | ].
    exists [Ran None (n :: version_args n)]. split; [exact S | ].
    split; [econstructor; [exact D | rewrite WW; constructor] | ].
    intros e [<- | []]. exists n, (n :: version_args n). split; [reflexivity | ]. split; [reflexivity | ].
    exists p. unfold found. rewrite A. exact F. }
  destruct r1 as [text | e]; [ | injection H as <- <-; exact I1].
  destruct (re_search (version_re n) text) as [g | ]; [ | injection H as <- <-; exact I1].
  destruct (group 1 g) as [v | ]; [ | injection H as <- <-; exact I1].
  destruct (re_test strict_re v); [ | injection H as <- <-; exact I1].
  unfold andthen, recall, ret in H.
  assert (K := remember_version_keeps permitted n v s1).
  apply inquires_trans with s1; [exact I1 | ]. unfold remember in H, K. injection H as <- <-.
  intros C1. destruct (K C1) as (C2 & F2 & _). split; [exact C2 | ]. split; [exact F2 | ].
  exists []. split; [unfold since; cbn; now rewrite app_nil_r | ]. split; [cbn; constructor | intros e []].
Qed.

Lemma helper_inquires : forall n s r s', consistent s -> install_helper m true n s = (r, s') ->
  inquires s s' /\ (forall rc msg, r = Ok (rc, msg) -> rc = true).
Proof.
  intros n s r s' C H. unfold install_helper in H. unfold andthen at 1 in H.
  destruct (installed m n s) as [r1 s1] eqn:I1. apply installed_quiet in I1; [ | exact C].
  destruct I1 as (b & -> & Q & B & _). assert (C1 : consistent s1) by (apply Q; exact C).
  destruct b.
  - destruct B as [B _]. destruct (B eq_refl) as [p F].
    unfold andthen at 1 in H. destruct (version m n s1) as [r2 s2] eqn:V.
    apply version_inquires with (p := p) in V; [ | exact C1 | exact F].
    destruct r2 as [v | e].
    + unfold andthen in H. destruct (path m n s2) as [r3 s3] eqn:P. apply path_quiet in P.
      destruct P as (-> & Q3 & _). injection H as <- <-. split.
      * apply inquires_trans with s1; [now apply inquires_quiet | ].
        apply inquires_trans with s2; [exact V | now apply inquires_quiet].
      * intros rc msg X. now injection X as <- _.
    + injection H as <- <-. split; [ | discriminate].
      apply inquires_trans with s1; [now apply inquires_quiet | exact V].
  - injection H as <- <-. split; [now apply inquires_quiet | ]. intros rc msg X. now injection X as <- _.
Qed.

Lemma each_inquires : forall l good results s r s', consistent s ->
  each_helper m true l good results s = (r, s') ->
  inquires s s' /\ (forall g o, r = Ok (g, o) -> g = good).
Proof.
  induction l as [ | n l IH]; intros good results s r s' C H.
  - injection H as <- <-. split; [apply inquires_quiet, quiet_refl | ]. intros g o X. now injection X as <- _.
  - cbn in H. unfold andthen in H. destruct (install_helper m true n s) as [r1 s1] eqn:I1.
    apply helper_inquires in I1; [ | exact C]. destruct I1 as [I1 T].
    destruct r1 as [[rc msg] | e].
    + apply IH in H; [ | now apply I1]. destruct H as [H G]. split; [now apply inquires_trans with s1 | ].
      intros g o X. rewrite (G g o X). rewrite (T rc msg eq_refl). apply andb_true_r.
    + injection H as <- <-. split; [exact I1 | discriminate].
Qed.
Lemma first_inquires : forall l results s r s', consistent s -> l <> [] ->
  first_helper m true l results s = (r, s') ->
  inquires s s' /\ (forall g o, r = Ok (g, o) -> g = true).
Proof.
  intros [ | n l] results s r s' C N H; [contradiction | ].
  cbn in H. unfold andthen in H. destruct (install_helper m true n s) as [r1 s1] eqn:I1.
  apply helper_inquires in I1; [ | exact C]. destruct I1 as [I1 T].
  destruct r1 as [[rc msg] | e].
  - rewrite (T rc msg eq_refl) in H. injection H as <- <-. split; [exact I1 | ].
    intros g o X. now injection X as <- _.
  - injection H as <- <-. split; [exact I1 | discriminate].
Qed.

Lemma verify_same : forall src man l s r s', verify_manpages m src man l s = (r, s') ->
  s' = s /\ exists msg, r = Ok (true, msg)
  /\ (msg = UpToDate <-> forall f, In f l -> in_place m src man (s_world s) f).
Proof.
  intros src man l s r s'. induction l as [ | f l IH]; cbn [verify_manpages In]; intros H.
  { injection H as <- <-. split; [reflexivity | ]. exists UpToDate. split; [reflexivity | ].
    split; [intros _ f [] | reflexivity]. }
  unfold andthen, look in H.
  assert (NO : ~ in_place m src man (s_world s) f -> forall msg, msg <> UpToDate ->
     (msg = UpToDate <-> (forall g, f = g \/ In g l -> in_place m src man (s_world s) g))).
  { intros X msg N. split; [contradiction | ]. intros A. exfalso. apply X, A. now left. }
  unfold in_place, page, page_dir in *. unfold man_dest, man_section in H.
  destruct (m_exists m (s_world s) (path_join man (L "man" ++ tl (splitext_ext f)))) eqn:E1; cbn [negb] in H;
    [ | injection H as <- <-; split; [reflexivity | ]; eexists; split; [reflexivity | ];
        apply NO; [intros (X & _); discriminate X | discriminate]].
  destruct (m_exists m (s_world s) (path_join (path_join man (L "man" ++ tl (splitext_ext f))) f)) eqn:E2; cbn [negb] in H;
    [ | injection H as <- <-; split; [reflexivity | ]; eexists; split; [reflexivity | ];
        apply NO; [intros (_ & X & _); discriminate X | discriminate]].
  destruct (m_same m (s_world s) (path_join src f) (path_join (path_join man (L "man" ++ tl (splitext_ext f))) f)) eqn:E3;
    [ | injection H as <- <-; split; [reflexivity | ]; eexists; split; [reflexivity | ];
        apply NO; [intros (_ & _ & X); discriminate X | discriminate]].
  apply IH in H. destruct H as (-> & msg & -> & M). split; [reflexivity | ]. exists msg. split; [reflexivity | ].
  rewrite M. split.
  - intros A g [<- | G]; [auto | now apply A].
  - intros A g G. apply A. now right.
Qed.

Lemma run_inquires : forall ig src man pages s res r s', consistent s ->
  install_helpers m true ig src man pages s = (res, r, s') ->
  inquires s s' /\ (forall results, res = Some results -> pages <> None -> r = Ok tt).
Proof.
  intros ig src man pages s res r s' C H. unfold install_helpers in H. unfold andthen at 1 in H.
  destruct (each_helper m true _ true [] s) as [r1 s1] eqn:E1. apply each_inquires in E1; [ | exact C].
  destruct E1 as [I1 G1]. destruct r1 as [[g o] | e]; [ | injection H as <- <- <-; split; [exact I1 | discriminate]].
  rewrite (G1 g o eq_refl) in H. assert (C1 : consistent s1) by (apply I1; exact C).
  unfold andthen at 1 in H.
  destruct (first_helper m true _ o s1) as [r2 s2] eqn:E2. apply first_inquires in E2; [ | exact C1 | discriminate].
  destruct E2 as [I2 G2]. assert (I12 : inquires s s2) by now apply inquires_trans with s1.
  destruct r2 as [[i o2] | e]; [ | injection H as <- <- <-; split; [exact I12 | discriminate]].
  rewrite (G2 i o2 eq_refl) in H.
  unfold andthen at 1 in H. destruct pages as [l | ].
  - cbn [manpages_helper] in H. destruct (verify_manpages m src man l s2) as [r3 s3] eqn:E3.
    apply verify_same in E3. destruct E3 as (-> & msg & -> & _). cbn in H. injection H as <- <- <-. auto.
  - cbn in H. injection H as <- <- <-. split; [exact I12 | ]. intros results _ X. contradiction.
Qed.

(** ** Manual pages *)

Section Pages.
Hypothesis FB : files_behave m.
Variables (src man : str).

Lemma page_name : forall f, ~ In "/"%char f -> basename (page man f) = f.
Proof.
  intros f N. unfold page, path_join.
  assert (S : starts_with (L "/") f = false).
  { destruct (starts_with (L "/") f) eqn:E; [ | reflexivity]. apply starts_with_spec in E.
    destruct E as [t ->]. exfalso. apply N. now left. }
  rewrite S. destruct (page_dir man f) as [ | c d] eqn:D; [now apply ArchiveProofs.basename_plain | ].
  destruct (ends_with (L "/") (c :: d)) eqn:E.
  - apply ArchiveProofs.basename_dir; [ | exact N]. right. apply ends_with_spec in E.
    destruct E as [x E]. exists x. exact E.
  - rewrite app_assoc. apply ArchiveProofs.basename_dir; [ | exact N]. right. exists (c :: d). reflexivity.
Qed.

(** Making the directory *)
Lemma mkdir_done : forall d s r s', mkdir m d s = (r, s') ->
  (r = Ok tt -> m_exists m (s_world s') d = true)
  /\ (forall x, m_exists m (s_world s) x = true ->
        m_exists m (s_world s') x = true /\ forall a, m_same m (s_world s') a x = m_same m (s_world s) a x).
Proof.
  intros d s r s' H. apply mkdir_spec in H.
  destruct H as (_ & _ & _ & [(D & _ & ->) | [(_ & _ & -> & ->) | (_ & _ & ok & w1 & K & [(-> & _ & E & _) | (-> & _ & o & S & R)])]]).
  - split; [intros _; now apply (fb_isdir m FB) | auto].
  - split; [discriminate | auto].
  - subst w1. split; [intros _; now apply (fb_mkdir m FB (s_world s) d) | ].
    intros x X. now apply (fb_mkdir_rest m FB (s_world s) d true).
  - split.
    + intros ->. inversion R; subst. now apply (fb_mkdir_sudo m FB w1 d out).
    + intros x X. destruct (fb_mkdir_rest m FB (s_world s) d false w1 x K X) as [X1 S1].
      destruct (fb_mkdir_sudo_rest m FB w1 d o (s_world s') x S X1) as [X2 S2].
      split; [exact X2 | ]. intros a. now rewrite S2.
Qed.
Lemma copy_done : forall a b s r s', copy_file m a b s = (r, s') ->
  (r = Ok tt -> m_exists m (s_world s') b = true /\ m_same m (s_world s') a b = true)
  /\ (forall x, m_exists m (s_world s) x = true ->
        m_exists m (s_world s') x = true
        /\ (x <> b -> forall c, m_same m (s_world s') c x = m_same m (s_world s) c x)).
Proof.
  intros a b s r s' H. apply copy_spec in H.
  destruct H as (_ & _ & _ & ok & w1 & K & [(-> & _ & E & _) | (-> & _ & o & S & R)]).
  - subst w1. split; [intros _; now apply (fb_copy m FB (s_world s)) | ].
    intros x X. now apply (fb_copy_rest m FB (s_world s) a b true).
  - split.
    + intros ->. inversion R; subst. now apply (fb_copy_sudo m FB w1 a b out).
    + intros x X. destruct (fb_copy_rest m FB (s_world s) a b false w1 x K X) as [X1 S1].
      destruct (fb_copy_sudo_rest m FB w1 a b o (s_world s') x S X1) as [X2 S2].
      split; [exact X2 | ]. intros N c. now rewrite S2, S1.
Qed.

Lemma page_done : forall f s p s', ~ In "/"%char f -> install_manpage m src man f s = (Ok p, s') ->
  in_place m src man (s_world s') f
  /\ (forall g, ~ In "/"%char g -> g <> f -> in_place m src man (s_world s) g ->
                in_place m src man (s_world s') g).
Proof.
  intros f s p s' NF H. unfold install_manpage in H.
  change (path_join (man_dest man f) f) with (page man f) in H.
  change (man_dest man f) with (page_dir man f) in H.
  unfold andthen at 1 in H. destruct (mkdir m (page_dir man f) s) as [[u | e] s1] eqn:K; [ | discriminate H].
  destruct u. apply mkdir_done in K. destruct K as [D K]. specialize (D eq_refl).
  assert (K' : forall g, in_place m src man (s_world s) g -> in_place m src man (s_world s1) g).
  { intros g (A & B & C). destruct (K _ A) as [A1 _]. destruct (K _ B) as [B1 S1].
    split; [exact A1 | ]. split; [exact B1 | ]. now rewrite S1. }
  unfold andthen at 1, look at 1 in H.
  destruct (m_exists m (s_world s1) (page man f)) eqn:X.
  - unfold andthen at 1, look at 1 in H.
    destruct (m_same m (s_world s1) (path_join src f) (page man f)) eqn:Y; cbn [andb] in H.
    + injection H as <- <-. split; [split; [exact D | split; [exact X | exact Y]] | ]. intros g _ _. apply K'.
    + unfold andthen in H. destruct (copy_file m (path_join src f) (page man f) s1) as [[u | e] s2] eqn:E; [ | discriminate H].
      destruct u. injection H as <- <-. apply copy_done in E. destruct E as [E1 E2].
      destruct (E1 eq_refl) as [E3 E4]. split; [split; [now apply E2 | auto] | ].
      intros g NG N I. destruct (K' g I) as (A & B & C). split; [now apply E2 | ].
      destruct (E2 _ B) as [B1 S1]. split; [exact B1 | ]. rewrite S1; [exact C | ].
      intros Z. apply N. rewrite <- (page_name g NG), <- (page_name f NF). now rewrite Z.
  - unfold andthen at 1, ret at 1 in H. cbn [andb] in H.
    unfold andthen in H. destruct (copy_file m (path_join src f) (page man f) s1) as [[u | e] s2] eqn:E; [ | discriminate H].
    destruct u. injection H as <- <-. apply copy_done in E. destruct E as [E1 E2].
    destruct (E1 eq_refl) as [E3 E4]. split; [split; [now apply E2 | auto] | ].
    intros g NG N I. destruct (K' g I) as (A & B & C). split; [now apply E2 | ].
    destruct (E2 _ B) as [B1 S1]. split; [exact B1 | ]. rewrite S1; [exact C | ].
    intros Z. apply N. rewrite <- (page_name g NG), <- (page_name f NF). now rewrite Z.
Qed.

Lemma pages_done : forall l some any s p s', (forall f, In f l -> ~ In "/"%char f) ->
  install_pages m src man l some any s = (Ok p, s') ->
  (forall f, In f l -> in_place m src man (s_world s') f)
  /\ (forall g, ~ In "/"%char g -> in_place m src man (s_world s) g -> in_place m src man (s_world s') g).
Proof.
  induction l as [ | f l IH]; intros some any s p s' N H.
  { injection H as <- <-. split; [intros f [] | auto]. }
  cbn in H. unfold andthen in H. destruct (install_manpage m src man f s) as [[[a b] | e] s1] eqn:E; [ | discriminate H].
  apply page_done in E; [ | apply N; now left]. destruct E as [E1 E2].
  apply IH in H; [ | intros g G; apply N; now right]. destruct H as [H1 H2].
  assert (E3 : forall g, ~ In "/"%char g -> in_place m src man (s_world s) g -> in_place m src man (s_world s1) g).
  { intros g G I. destruct (list_eq_dec ascii_dec g f) as [-> | X]; [exact E1 | now apply E2]. }
  split.
  - intros g [<- | G]; [ | now apply H1]. apply H2; [apply N; now left | exact E1].
  - intros g G I. auto.
Qed.

(** What is said about the pages afterwards. *)
Lemma page_flags : forall f a b s s', ~ In "/"%char f -> install_manpage m src man f s = (Ok (a, b), s') ->
  (m_exists m (s_world s) (page man f) = true ->
     a = true /\ b = negb (m_same m (s_world s) (path_join src f) (page man f)))
  /\ (forall g, ~ In "/"%char g -> m_exists m (s_world s) (page man g) = true ->
        m_exists m (s_world s') (page man g) = true
        /\ (g <> f \/ b = false -> m_same m (s_world s') (path_join src g) (page man g) = m_same m (s_world s) (path_join src g) (page man g))).
Proof.
  intros f a b s s' NF H. unfold install_manpage in H. cbv zeta in H.
  change (path_join (man_dest man f) f) with (page man f) in H.
  unfold andthen at 1 in H. destruct (mkdir m (man_dest man f) s) as [[u | e] s1] eqn:K; [ | discriminate H].
  apply mkdir_done in K. destruct K as [_ K].
  assert (Cp : forall s2, copy_file m (path_join src f) (page man f) s1 = (Ok tt, s2) -> b = true -> forall g, ~ In "/"%char g -> m_exists m (s_world s) (page man g) = true ->
      m_exists m (s_world s2) (page man g) = true
      /\ (g <> f \/ b = false -> m_same m (s_world s2) (path_join src g) (page man g) = m_same m (s_world s) (path_join src g) (page man g))).
  { intros s2 Ec Eb g NG X. destruct (K _ X) as [X1 S1]. apply copy_done in Ec. destruct Ec as [_ E2]. destruct (E2 _ X1) as [X2 S2].
    split; [exact X2 | ]. intros [N | N]; [ | congruence]. rewrite S2; [apply S1 | ].
    intros Z. apply N. rewrite <- (page_name g NG), <- (page_name f NF). now rewrite Z. }
  unfold andthen at 1, look at 1 in H.
  destruct (m_exists m (s_world s1) (page man f)) eqn:X.
  - unfold andthen at 1, look at 1 in H.
    destruct (m_same m (s_world s1) (path_join src f) (page man f)) eqn:Y; cbn [andb] in H.
    + injection H as <- <- <-. split.
      * intros X0. destruct (K _ X0) as [_ S1]. rewrite <- S1, Y. now split.
      * intros g _ Xg. destruct (K _ Xg) as [X1 S1]. split; [exact X1 | intros _; apply S1].
    + unfold andthen in H. destruct (copy_file m (path_join src f) (page man f) s1) as [[u' | e] s2] eqn:Ec; [ | discriminate H].
      destruct u'. injection H as <- <- <-. split; [ | now apply Cp].
      intros X0. destruct (K _ X0) as [_ S1]. rewrite <- S1, Y. now split.
  - unfold andthen at 1, ret at 1 in H. cbn [andb] in H.
    unfold andthen in H. destruct (copy_file m (path_join src f) (page man f) s1) as [[u' | e] s2] eqn:Ec; [ | discriminate H].
    destruct u'. injection H as <- <- <-. split; [ | now apply Cp].
    intros X0. destruct (K _ X0) as [X1 _]. congruence.
Qed.

Lemma pages_flags : forall l some any s a b s', (forall f, In f l -> ~ In "/"%char f) ->
  install_pages m src man l some any s = (Ok (a, b), s') ->
  (some = true \/ (exists f, In f l /\ m_exists m (s_world s) (page man f) = true) -> a = true)
  /\ (any = false -> (forall f, In f l -> m_exists m (s_world s) (page man f) = true
                     /\ m_same m (s_world s) (path_join src f) (page man f) = true) -> b = false)
  /\ (any = true \/ (exists f, In f l /\ m_exists m (s_world s) (page man f) = true
                     /\ m_same m (s_world s) (path_join src f) (page man f) = false) -> b = true).
Proof.
  induction l as [ | f l IH]; intros some any s a b s' N H.
  { injection H as <- <- <-. split; [intros [A | (f & [] & _)]; exact A | ]. split; [auto | intros [A | (f & [] & _)]; exact A]. }
  cbn in H. unfold andthen in H. destruct (install_manpage m src man f s) as [[[p q] | e] s1] eqn:E; [ | discriminate H].
  assert (NF : ~ In "/"%char f) by (apply N; now left). apply (page_flags f p q s s1 NF) in E. destruct E as [E1 E2].
  apply IH in H; [ | intros g G; apply N; now right]. destruct H as (H1 & H2 & H3). split; [ | split].
  - intros [-> | (g & [<- | G] & X)]; apply H1.
    + now left.
    + left. destruct (E1 X) as [-> _]. apply orb_true_r.
    + right. exists g. split; [exact G | ]. apply E2; [apply N; now right | exact X].
  - intros -> A. assert (Q : q = false).
    { destruct (A f (or_introl eq_refl)) as (X & Y). destruct (E1 X) as [_ ->]. now rewrite Y. }
    apply H2; [now rewrite Q | ]. intros g G. pose proof (A g (or_intror G)) as (X & Y).
    destruct (E2 g (N g (or_intror G)) X) as [X1 S1]. split; [exact X1 | rewrite S1; [exact Y | now right]].
  - intros [-> | (g & Hg & X & Y)]; apply H3; [now left | ]. destruct Hg as [<- | G].
    + left. destruct (E1 X) as [_ ->]. rewrite Y. apply orb_true_r.
    + destruct q; [left; apply orb_true_r | ]. right. exists g. split; [exact G | ].
      destruct (E2 g (N g (or_intror G)) X) as [X1 S1]. split; [exact X1 | ]. rewrite S1; [exact Y | now right].
Qed.

Lemma install_message : forall l s msg s', (forall f, In f l -> ~ In "/"%char f) ->
  install_manpages m src man l s = (Ok (true, msg), s') ->
  (l <> [] -> (forall f, In f l -> in_place m src man (s_world s) f) -> msg = UpToDate)
  /\ ((exists f, In f l /\ m_exists m (s_world s) (page man f) = true
         /\ m_same m (s_world s) (path_join src f) (page man f) = false) -> msg = PagesUpdated man).
Proof.
  intros l s msg s' N H. unfold install_manpages, catching, andthen in H.
  destruct (install_pages m src man l false false s) as [[[a b] | e] s1] eqn:E.
  - injection H as <- <-. apply pages_flags in E; [ | exact N]. destruct E as (E1 & E2 & E3). split.
    + intros Nl A. rewrite E1, E2; [reflexivity | reflexivity | intros f F; apply A in F as (_ & F); exact F | ].
      right. destruct l as [ | f l]; [contradiction | ]. exists f. split; [now left | ]. apply (A f). now left.
    + intros (f & F & X & Y). rewrite E1, E3; [reflexivity | right; now exists f | right; exists f; now split].
  - destruct (is_environment_error e); discriminate H.
Qed.

Lemma install_manpages_done : forall l s msg s', (forall f, In f l -> ~ In "/"%char f) ->
  install_manpages m src man l s = (Ok (true, msg), s') ->
  forall f, In f l -> in_place m src man (s_world s') f.
Proof.
  intros l s msg s' N H. unfold install_manpages, catching, andthen in H.
  destruct (install_pages m src man l false false s) as [[[a b] | e] s1] eqn:E.
  - injection H as _ <-. apply pages_done in E; [ | exact N]. apply E.
  - destruct (is_environment_error e); discriminate H.
Qed.
End Pages.

(** ** The report *)

Definition agrees (rc : bool) (msg : message) : Prop :=
  if rc then (forall k, ~ failed (k, msg)) else (forall k, failed (k, msg)).

Lemma helper_agrees : forall vo n s rc msg s', install_helper m vo n s = (Ok (rc, msg), s') -> agrees rc msg.
Proof.
  intros vo n s rc msg s' H. unfold install_helper in H. unfold andthen at 1 in H.
  destruct (installed m n s) as [[b | e] s1]; [ | discriminate H]. destruct b.
  { unfold andthen in H. destruct (version m n s1) as [[v | e] s2]; [ | discriminate H].
    destruct (path m n s2) as [[p | e] s3]; [ | discriminate H]. injection H as <- <- <-. now intros k. }
  destruct vo; [injection H as <- <- <-; now intros k | ].
  unfold catching in H.
  match type of H with (match ?x with _ => _ end) = _ => destruct x as [[r | e] s2] eqn:X end.
  - unfold andthen in X. destruct (install m n s1) as [[u | e] s3]; [ | discriminate X].
    destruct (path m n s3) as [[p | e] s4]; [ | discriminate X].
    destruct (version m n s4) as [[v | e] s5]; [ | discriminate X].
    injection X as <- <-. injection H as <- <- <-. now intros k.
  - destruct e; try discriminate H; injection H as <- <- <-; now intros k.
Qed.

Lemma pages_agree : forall vo src man pages s rc msg s',
  manpages_helper m vo src man pages s = (Ok (rc, msg), s') -> agrees rc msg.
Proof.
  intros vo src man [l | ] s rc msg s' H; [ | injection H as <- <- <-; now intros k].
  cbn in H. destruct vo.
  - revert H. induction l as [ | f l IH]; cbn [verify_manpages]; intros H; [injection H as <- <- <-; now intros k | ].
    unfold andthen, look in H.
    repeat match type of H with
           | (if ?b then _ else _) _ = _ => destruct b; try (injection H as <- <- <-; now intros k)
           end.
    now apply IH.
  - unfold install_manpages, catching, andthen in H.
    destruct (install_pages m src man l false false s) as [[[a b] | e] s1].
    + injection H as <- <- <-. destruct a, b; now intros k.
    + destruct (is_environment_error e); [ | discriminate H]. injection H as <- <- <-. now intros k.
Qed.

Lemma each_report : forall vo l good results s g out s',
  each_helper m vo l good results s = (Ok (g, out), s') ->
  exists more, out = results ++ more /\ map fst more = l
               /\ (g = true <-> good = true /\ forall x, In x more -> ~ failed x).
Proof.
  intros vo l. induction l as [ | n l IH]; intros good results s g out s' H.
  { injection H as <- <- <-. exists []. rewrite app_nil_r. split; [reflexivity | ]. split; [reflexivity | ].
    split; [intros ->; split; [reflexivity | intros x []] | intros [X _]; exact X]. }
  cbn in H. unfold andthen in H. destruct (install_helper m vo n s) as [[[rc msg] | e] s1] eqn:E; [ | discriminate H].
  apply helper_agrees in E. apply IH in H. destruct H as (more & -> & M & G).
  exists ((n, msg) :: more). rewrite <- app_assoc. split; [reflexivity | ]. split; [cbn; now rewrite M | ].
  rewrite G. split.
  - intros [A B]. apply andb_prop in A. destruct A as [-> ->]. split; [reflexivity | ].
    intros x [<- | X]; [apply E | now apply B].
  - intros [-> B]. destruct rc; [split; [reflexivity | intros x X; apply B; now right] | ].
    exfalso. apply (B (n, msg)); [now left | apply E].
Qed.

Lemma first_report : forall vo l results s g out s', 
  first_helper m vo l results s = (Ok (g, out), s') ->
  exists more, out = results ++ more
    /\ (exists untried, map fst more ++ untried = l
                        /\ (untried <> [] -> ~ failed (last more ([], NoPages))))
    /\ (forall before x after, more = before ++ x :: after -> after <> [] -> failed x)
    /\ (g = true <-> exists x, In x more /\ ~ failed x).
Proof.
  intros vo l. induction l as [ | n l IH]; intros results s g out s' H.
  { injection H as <- <- <-. exists []. rewrite app_nil_r. split; [reflexivity | ].
    split; [exists []; split; [reflexivity | contradiction] | ].
    split; [intros before x after X; destruct before; discriminate X | ].
    split; [discriminate | intros (x & [] & _)]. }
  cbn in H. unfold andthen in H. destruct (install_helper m vo n s) as [[[rc msg] | e] s1] eqn:E; [ | discriminate H].
  apply helper_agrees in E. destruct rc.
  - injection H as <- <- <-. exists [(n, msg)]. split; [reflexivity | ].
    split; [exists l; split; [reflexivity | intros _; apply E] | ]. split.
    + intros [ | y [ | z before]] x after X; try discriminate X. injection X as _ <-. contradiction.
    + split; [intros _; exists (n, msg); split; [now left | apply E] | reflexivity].
  - apply IH in H. destruct H as (more & -> & (untried & U & UL) & B & G).
    exists ((n, msg) :: more). rewrite <- app_assoc. split; [reflexivity | ].
    split; [ | split].
    + exists untried. split; [cbn; now rewrite U | ]. intros X. specialize (UL X). destruct more; [ | exact UL].
      exfalso. apply UL. exact Logic.I.
    + intros [ | y before] x after X N; injection X as X1 X2; [subst x; apply E | ].
      apply (B before x after X2 N).
    + rewrite G. split.
      * intros (x & X & F). exists x. split; [now right | exact F].
      * intros (x & [<- | X] & F); [exfalso; apply F; apply E | eauto].
Qed.

Lemma run_report : forall vo ig src man pages s results r s',
  install_helpers m vo ig src man pages s = (Some results, r, s') ->
  exists four iso last, report results four iso last
    /\ ((r = Ok tt /\ (ig = true \/ all_well four iso last))
        \/ (r = Err EEnvironment /\ ig = false /\ ~ all_well four iso last)).
Proof.
  intros vo ig src man pages s results r s' H. unfold install_helpers in H.
  unfold andthen at 1 in H.
  destruct (each_helper m vo _ true [] s) as [[[g o] | e] s1] eqn:E1; [ | discriminate H].
  unfold andthen at 1 in H.
  destruct (first_helper m vo _ o s1) as [[[i o2] | e] s2] eqn:E2; [ | discriminate H].
  unfold andthen at 1 in H.
  destruct (manpages_helper m vo src man pages s2) as [[[rc msg] | e] s3] eqn:E3; [ | discriminate H].
  cbn [ret] in H. injection H as <- R <-.
  apply each_report in E1. destruct E1 as (four & -> & M & G).
  apply first_report in E2. destruct E2 as (iso & -> & U & B & GI).
  apply pages_agree in E3.
  exists four, iso, msg. split.
  { unfold report. split; [now rewrite <- app_assoc | ]. split; [exact M | ]. split; [exact U | exact B]. }
  assert (AW : g && i && rc = true <-> all_well four iso msg).
  { unfold all_well. split.
    - intros X. apply andb_prop in X. destruct X as [X ->]. apply andb_prop in X. destruct X as [-> ->].
      destruct G as [G _]. destruct (G eq_refl) as [_ G']. destruct GI as [GI _].
      split; [exact G' | ]. split; [now apply GI | apply E3].
    - intros (X1 & X2 & X3). destruct G as [_ G]. rewrite (G (conj eq_refl X1)).
      destruct GI as [_ GI]. rewrite (GI X2). destruct rc; [reflexivity | ]. exfalso. apply X3, E3. }
  destruct (g && i && rc); cbn [negb andb] in R.
  - left. split; [now symmetry | ]. right. now apply AW.
  - destruct ig; cbn [negb] in R; [left; split; [now symmetry | now left] | ].
    right. split; [now symmetry | ]. split; [reflexivity | ]. intros X. apply AW in X. discriminate X.
Qed.
End Run.
