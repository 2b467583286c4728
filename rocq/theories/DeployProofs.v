(** Proofs about deployments. *)
From Coq Require Import Lia.
From Verif Require Import PyBase PyBaseProofs PyDict PyDictProofs NamesModel ItemModel ItemSpec ItemProofs ItemReachProofs HardwareModel HardwareSpec HardwareIdProofs HardwareProofs
  CountSpec CountProofs CountProps FindSpec FindProofs ChooseModel ChooseSpec ChooseProofs SerialModel SerialProofs RawModel
  SelectModel TarProofs PathModel ArchiveProofs DeployModel DeploySpec.
Local Open Scope nat_scope.

(** ** Names of packages *)

Lemma split_slash_last : forall path : str, exists dir, path = dir ++ basename path /\ (dir = [] \/ exists d, dir = d ++ ["/"%char]) /\
  ~ In "/"%char (basename path).
Proof.
  intros path. pose proof (split_last_spec "/"%char path) as H. destruct (split_last "/"%char path) as [[a b]|].
  - destruct H as [-> H]. exists (a ++ ["/"%char]).
    assert (B : basename ((a ++ ["/"%char]) ++ b) = b) by (apply basename_dir; [right; eauto|exact H]).
    rewrite <- app_assoc in B. cbn [app] in B. change (list ascii) with str in *. rewrite B.
    split; [now rewrite <- app_assoc|]. split; [right; eauto|exact H].
  - exists []. rewrite basename_plain by exact H. auto.
Qed.

Lemma all_dots : forall s, forallb (fun c => Ascii.eqb c "."%char) s = true <-> dots s.
Proof.
  intros s. rewrite forallb_forall. split; intros H x Hx; specialize (H x Hx); [now apply Ascii.eqb_eq in H|subst; apply Ascii.eqb_refl].
Qed.

Lemma stem_spec : forall path, file_stem path (splitext_root (basename path)).
Proof.
  intros path. destruct (split_slash_last path) as (dir & E & Hd & Hn). set (base := basename path : str) in *.
  assert (NS : split_last "/"%char base = None).
  { pose proof (split_last_spec "/"%char base) as H. destruct (split_last "/"%char base) as [[a b]|]; [|reflexivity].
    exfalso. apply Hn. destruct H as [-> _]. apply in_elt. }
  assert (X : exists ext, base = splitext_root base ++ ext /\
    ((ext = [] /\ forall a b, splitext_root base = a ++ "."%char :: b -> dots a) \/
     (exists e, ext = "."%char :: e /\ ~ In "."%char e /\ ~ dots (splitext_root base)))).
  { unfold splitext_root. unfold splitext_ext. change (list ascii) with str in *. rewrite NS.
    pose proof (split_last_spec "."%char base) as H. destruct (split_last "."%char base) as [[a e]|].
    - destruct H as [-> He]. destruct (forallb (fun c => Ascii.eqb c "."%char) a) eqn:Ed.
      + exists []. cbn [length]. rewrite Nat.sub_0_r, firstn_all, app_nil_r. split; [reflexivity|]. left. split; [reflexivity|].
        apply all_dots in Ed. intros a' b' F. apply app_eq_app in F as (l & [[-> F]|[-> F]]).
        * destruct l as [|y l]; [now rewrite app_nil_r in Ed|]. injection F as -> ->.
          intros x Hx. apply Ed, in_or_app. now left.
        * destruct l as [|y l]; [now rewrite app_nil_r|]. injection F as <- F.
          exfalso. apply He. rewrite F. apply in_elt.
      + exists ("."%char :: e). replace (length (a ++ "."%char :: e) - length ("."%char :: e)) with (length a) by (rewrite app_length; lia).
        rewrite firstn_app, Nat.sub_diag, firstn_all, firstn_O, app_nil_r. split; [reflexivity|]. right. exists e. repeat split; [exact He|].
        intros F. apply all_dots in F. congruence.
    - exists []. cbn [length]. rewrite Nat.sub_0_r, firstn_all, app_nil_r. split; [reflexivity|]. left. split; [reflexivity|].
      intros a b F. exfalso. apply H. rewrite F. apply in_elt. }
  destruct X as (ext & X1 & X2). exists dir, ext. change (list ascii) with str in *. rewrite <- X1. auto.
Qed.

Lemma server_spec : forall locator, server_of locator (hd [] (split_on "/"%char locator)).
Proof.
  intros l. destruct (split_on_aux_spec "/"%char l [] eq_refl) as (H1 & H2 & H3). cbn [rev app] in H2.
  fold (split_on "/"%char l) in *. destruct (split_on "/"%char l) as [|x r]; [congruence|]. cbn [hd].
  assert (N : ~ In "/"%char x).
  { specialize (H1 x (or_introl eq_refl)). intros F. rewrite forallb_forall in H1. specialize (H1 _ F). now rewrite Ascii.eqb_refl in H1. }
  split; [exact N|]. destruct r as [|y r]; [left; now rewrite <- H2|]. right.
  cbn [join] in H2. rewrite <- H2. eexists. reflexivity.
Qed.

(** ** The devices of the package *)

Lemma ADDRESS_plain : forall v, ~ text_property v ADDRESS.
Proof. intros [] [H|H]; discriminate H. Qed.

Lemma serial_map : exists v, res_map (L "serial") = Ok v.
Proof. vm_compute. eauto. Qed.

Lemma strings_spec : forall E h ks l, ids_ok (e_ver E) h -> serial_strings E h ks = Ok l ->
  Forall2 (fun k a => exists i, In (k, i) h /\ only_address i a) ks l.
Proof.
  intros E h ks l Hh. revert l. induction ks as [|k ks IH]; intros l; cbn [serial_strings].
  - intros H. injection H as <-. constructor.
  - unfold hitem. destruct (hget k h) as [i|] eqn:Ek; [|discriminate]. cbn [rbind].
    pose proof (dget_In str_eqb str_eqb_eq _ _ _ Ek) as Hin.
    destruct (value_only E i ADDRESS (proj2 (ids_good E h k i Hh Hin)) (ADDRESS_plain _)) as (o & Eo & Ho).
    rewrite Eo. cbn [rbind]. destruct (serial_strings E h ks) as [r|]; [|discriminate]. cbn [rbind].
    destruct o as [[s|t]|]; intros H; try discriminate; injection H as <-; (constructor; [|now apply IH]); exists i; (split; [exact Hin|]).
    + now apply Ho.
    + intros v F. apply Ho in F. discriminate.
Qed.

Lemma connectivity_spec : forall w p l, hw_reachable (e_ver (w_env w)) (w_hw w) ->
  get_serial_connectivity (w_env w) (w_hw w) p = Ok l -> package_strings w p l.
Proof.
  intros w p l R H. unfold get_serial_connectivity in H. destruct serial_map as [v Hv].
  destruct (find_all_items _ _ _ _ _) as [ks|] eqn:Ef; [|discriminate]. cbn [rbind] in H. exists ks. split.
  - exact (devices_are _ _ _ v _ _ R Hv Ef).
  - apply strings_spec in H; [exact H|]. now apply reachable_ids.
Qed.

Lemma connections_spec : forall l conns old, set_connections_esxi (map or_empty l) old = (conns, Ok tt) ->
  exists rs, length l <= 4 /\
    Forall2 (fun s r => match s with Some s => from_cli_string s = Ok r | None => r = None end) l rs /\
    conns = flat_map (fun r => match r with Some x => [x] | None => [] end) rs.
Proof.
  intros l conns old H. unfold set_connections_esxi in H. rewrite map_length in H.
  destruct (Nat.ltb_spec 4 (length l)); [discriminate|].
  destruct (add_connections_spec (map or_empty l) []) as [(rs & F & Er)|(b & s & a & rs & e & _ & _ & _ & Er)];
    unfold set_connections in H; rewrite Er in H; [|discriminate].
  injection H as <-. exists rs. split; [assumption|]. split; [|reflexivity].
  clear -F. revert rs F. induction l as [|x l IH]; intros rs F; inversion F; subst; constructor; [|now apply IH].
  destruct x as [x|]; [assumption|]. cbn in H1. vm_compute in H1. now injection H1.
Qed.

Lemma ports_of : forall w p n conns, hw_reachable (e_ver (w_env w)) (w_hw w) ->
  get_item_count (w_env w) (w_hw w) (Some (L "serial")) p = Ok n ->
  ((n < Z.of_nat (length conns))%Z <-> too_few_ports w p conns).
Proof.
  intros w p n conns R H. destruct serial_map as [v Hv].
  destruct (C17_count _ _ _ _ _ R H) as (ks & Hk & ->).
  { unfold res_map in Hv. destruct (dget _ _ _); [eauto|discriminate]. }
  split; [intros L; exists ks; split; [exact Hk|lia]|].
  intros (ks' & Hk' & Hl). assert (length ks = length ks'); [|lia].
  destruct Hk as (N & _ & A), Hk' as (N' & _ & A'). apply Nat.le_antisymm; apply NoDup_incl_length; auto; intros k; rewrite A, A'; auto.
Qed.

(** ** Running *)

Definition wp {A : Type} (x : m A) (Q : A -> st -> Prop) (R : exn -> st -> Prop) (s : st) : Prop :=
  match x s with (s', Ok a) => Q a s' | (s', Err e) => R e s' end.
Lemma wp_bind : forall (A B : Type) (x : m A) (f : A -> m B) Q R s,
  wp x (fun a s' => wp (f a) Q R s') R s -> wp (bind x f) Q R s.
Proof. intros A B x f Q R s. unfold wp, bind. destruct (x s) as [s' [a|e]]; auto. Qed.
Lemma wp_mono : forall (A : Type) (x : m A) (Q Q' : A -> st -> Prop) (R R' : exn -> st -> Prop) s,
  wp x Q R s -> (forall a s', Q a s' -> Q' a s') -> (forall e s', R e s' -> R' e s') -> wp x Q' R' s.
Proof. intros A x Q Q' R R' s. unfold wp. destruct (x s) as [s' [a|e]]; auto. Qed.
Lemma wp_settings : forall (Q : cmd -> st -> Prop) (R : exn -> st -> Prop) s, Q (fst s) s -> wp settings Q R s.
Proof. auto. Qed.

Definition agreed (t : list event) : Prop := forall q a, In (Asked q a) t -> a = Some true.
(** the end of a run that a question stopped *)
Definition stopped (e : exn) (t : list event) : Prop :=
  exists pre q a, t = pre ++ [Asked q a] /\ agreed pre /\
    ((a = Some false /\ e = ESystemExit) \/ (a = None /\ e = EEOFError)).

Lemma agreed_app : forall a b, agreed a -> agreed b -> agreed (a ++ b).
Proof. intros a b A B q x H. apply in_app_or in H as [H|H]; eauto. Qed.
Lemma agreed_nil : agreed [].
Proof. intros q a []. Qed.
Lemma agreed_yes : forall q, agreed [Asked q (Some true)].
Proof. intros q q' a [H|[]]. congruence. Qed.

Section Running.
  Variable w : world.
  Variable c0 : cmd.
  Hypothesis HR : hw_reachable (e_ver (w_env w)) (w_hw w).

  Definition stop (e : exn) (s : st) : Prop := Forall quiet (snd s) /\ (agreed (snd s) \/ stopped e (snd s)).

  Lemma wp_confirm : forall q c t (Q : unit -> st -> Prop) (R : exn -> st -> Prop), agreed t ->
    Q tt (c, t ++ [Asked q (Some true)]) ->
    (forall e a, stopped e (t ++ [Asked q a]) -> R e (c, t ++ [Asked q a])) -> wp (confirm_or_die w q) Q R (c, t).
  Proof.
    intros q c t Q R A HQ HE. unfold confirm_or_die, wp, bind, emit, ret, fail. cbn [fst snd].
    destruct (cli_confirm (w_force w) (w_lines w q)) as [[|]|]; [exact HQ| |];
      (apply HE; exists t, q; eexists; split; [reflexivity|]; split; [exact A|]; auto).
  Qed.

  Definition is_choice (e : event) : Prop := match e with ChoseProfile _ _ => True | _ => False end.
  Definition choice_events (t : list event) : Prop := Forall is_choice t.
  Lemma choice_agreed : forall t, choice_events t -> agreed t.
  Proof. intros t H q a Hin. unfold choice_events in H. rewrite Forall_forall in H. now apply H in Hin. Qed.
  Lemma choice_quiet : forall t, choice_events t -> Forall quiet t.
  Proof. intros t. apply Forall_impl. now intros [| | | |]. Qed.

  Definition ready0 : Prop := d_locator c0 <> None /\ d_hypervisor c0 <> None /\ d_package c0 <> None /\ w_space w = true.

  Lemma wp_ready : wp (ready w) (fun _ s => s = (c0, []) /\ ready0) (fun e s => s = (c0, []) /\ e = EInvalidInput) (c0, []).
  Proof.
    unfold ready, wp, bind, settings, ret, fail, ready0. cbn [fst].
    destruct (d_locator c0), (d_hypervisor c0), (d_package c0); auto. destruct (w_space w); auto. repeat split; congruence.
  Qed.

  Definition after_choice (p : option str) (t : list event) : Prop :=
    profile_for w c0 p /\ choice_events t.
  Lemma wp_choose : wp (choose_profile w)
    (fun _ s => exists p t, s = (with_configuration p c0, t) /\ after_choice p t)
    (fun e s => choice_events (snd s)) (c0, []).
  Proof.
    unfold choose_profile. apply wp_bind, wp_settings. cbn [fst].
    assert (Same : forall p, d_configuration c0 = p -> with_configuration p c0 = c0) by (intros p <-; now destruct c0).
    destruct (d_configuration c0) as [q|] eqn:Ec.
    - exists (Some q), []. rewrite Same by reflexivity. split; [reflexivity|]. split; [|constructor]. unfold profile_for. now rewrite Ec.
    - destruct (e_profiles (w_env w)) as [|q [|q2 l]] eqn:Ep.
      + exists None, []. rewrite Same by reflexivity. split; [reflexivity|]. split; [|constructor]. unfold profile_for. now rewrite Ec, Ep.
      + exists (Some q), []. split; [reflexivity|]. split; [|constructor]. unfold profile_for. now rewrite Ec, Ep.
      + cbv zeta. set (o := q :: q2 :: l) in *. unfold bind, emit, change, fail, wp. cbn [fst snd app].
        destruct (choose_from_list _ _ _ _) as [a|] eqn:Ea.
        2:{ cbn [snd]. repeat constructor. }
        destruct (mem_str a o) eqn:Em; [|cbn [snd]; repeat constructor].
        exists (Some a), [ChoseProfile o (Some a)]. split; [reflexivity|]. split; [|repeat constructor].
        unfold profile_for. rewrite Ec, Ep. exists a. split; [reflexivity|]. split; [now apply mem_str_In|].
        destruct (w_force w).
        * rewrite choose_force in Ea. now injection Ea.
        * apply choose_spec in Ea as (b & t & input & r & Hw & He & Hs & _). exists t, input. split; [|auto]. rewrite Hw. apply in_elt.
  Qed.

  Definition after_serial (p : option str) (conns : list conn) (t : list event) : Prop :=
    after_choice p t /\ connections w c0 p conns.
  Lemma wp_default_serial : forall p t, after_choice p t -> wp (default_serial w)
    (fun _ s => exists conns, s = (with_serial conns (with_configuration p c0), t) /\ after_serial p conns t)
    (fun e s => choice_events (snd s)) (with_configuration p c0, t).
  Proof.
    intros p t [HP HC]. unfold default_serial. apply wp_bind, wp_settings. cbn [fst]. change (d_serial (with_configuration p c0)) with (d_serial c0).
    change (d_configuration (with_configuration p c0)) with p.
    destruct (d_serial c0) as [|x l] eqn:Es.
    - apply wp_bind. unfold wp at 1, lift. destruct (get_serial_connectivity _ _ _) as [strings|e] eqn:Eg; [|exact HC].
      destruct (set_connections_esxi (map or_empty strings) []) as [conns r] eqn:Er.
      unfold wp, bind, change. cbn [fst snd]. destruct r as [[]|e]; [|exact HC].
      exists conns. split; [reflexivity|]. split; [now split|]. unfold connections. rewrite Es.
      destruct (connections_spec _ _ _ Er) as (rs & A & B & C). exists strings, rs. repeat split; auto. now apply connectivity_spec.
    - exists (d_serial c0). split; [|split; [now split|]].
      + now destruct c0.
      + unfold connections. rewrite Es. reflexivity.
  Qed.

  Definition port_events (p : option str) (conns : list conn) (t : list event) : Prop :=
    (t = [Asked QPorts (Some true)] /\ too_few_ports w p conns) \/ (t = [] /\ ~ too_few_ports w p conns).
  Definition after_ports (p : option str) (conns : list conn) (t : list event) : Prop :=
    exists t1 t2, t = t1 ++ t2 /\ after_serial p conns t1 /\ port_events p conns t2.
  Lemma wp_check_ports : forall p conns t, after_serial p conns t -> wp (check_ports w)
    (fun _ s => exists t', s = (with_serial conns (with_configuration p c0), t') /\ after_ports p conns t')
    stop (with_serial conns (with_configuration p c0), t).
  Proof.
    intros p conns t [[HP HC] HS]. unfold check_ports. apply wp_bind, wp_settings. cbn [fst].
    change (d_configuration (with_serial conns (with_configuration p c0))) with p.
    change (d_serial (with_serial conns (with_configuration p c0))) with conns.
    apply wp_bind. unfold wp at 1, lift.
    pose proof (choice_agreed t HC) as AG. pose proof (choice_quiet t HC) as QU.
    destruct (get_item_count _ _ _ _) as [n|e] eqn:En; [|split; auto].
    pose proof (ports_of w p n conns HR En) as HN. destruct (Z.ltb_spec n (Z.of_nat (length conns))) as [L|L].
    - apply wp_confirm; [exact AG| |].
      + eexists. split; [reflexivity|]. exists t, [Asked QPorts (Some true)]. repeat split; auto. left. split; [reflexivity|]. now apply HN.
      + intros e a Hs. split; [|now right]. cbn [snd]. apply Forall_app. split; [exact QU|repeat constructor].
    - exists t. split; [reflexivity|]. exists t, []. split; [now rewrite app_nil_r|]. repeat split; auto. right. split; [reflexivity|].
      rewrite <- HN. lia.
  Qed.

  Lemma after_ports_quiet : forall p conns t, after_ports p conns t -> Forall quiet t /\ agreed t.
  Proof.
    intros p conns t (t1 & t2 & -> & [[_ HC] _] & HP). split.
    - apply Forall_app. split; [now apply choice_quiet|]. destruct HP as [[-> _]|[-> _]]; repeat constructor.
    - apply agreed_app; [now apply choice_agreed|]. destruct HP as [[-> _]|[-> _]]; [apply agreed_yes|apply agreed_nil].
  Qed.

  Definition settled (p : option str) (conns : list conn) (u pw : str) : cmd :=
    with_login (Some u) (Some pw) (with_serial conns (with_configuration p c0)).
  Lemma wp_log_in : forall p conns t, after_ports p conns t -> wp (log_in w)
    (fun _ s => exists u pw, s = (settled p conns u pw, t) /\ user_for w c0 u /\ password_for w c0 pw)
    stop (with_serial conns (with_configuration p c0), t).
  Proof.
    intros p conns t HP. apply after_ports_quiet in HP as [QU AG]. unfold log_in. apply wp_bind, wp_settings. cbv zeta. cbn [fst].
    set (c1 := with_serial conns (with_configuration p c0)). change (d_username c1) with (d_username c0). change (d_password c1) with (d_password c0).
    unfold bind, wp, change, ret, fail. cbn [fst snd].
    set (u := match d_username c0 with Some u => u | None => w_user w end).
    unfold password_for. destruct (d_password c0) as [pw|] eqn:Ep.
    - exists u, pw. repeat split.
    - destruct (w_force w); [split; auto|]. exists u, (w_password w). repeat split.
  Qed.

  Definition env_events (t : list event) (inject : bool) : Prop :=
    exists locator, d_locator c0 = Some locator /\
    ((t = [] /\ inject = false /\ ~ needs_injection w locator) \/
     (t = [] /\ inject = true /\ needs_injection w locator /\ can_inject w c0) \/
     (t = [Asked QEnvironment (Some true)] /\ inject = false /\ needs_injection w locator /\ ~ can_inject w c0)).
  Lemma wp_environment : forall p conns u pw t, ready0 -> after_ports p conns t -> wp (environment_args w)
    (fun args s => exists t' inject, s = (settled p conns u pw, t ++ t') /\ env_events t' inject /\
        args = d_ovftool_args c0 ++ (if inject then [L "--X:injectOvfEnv"] else []))
    stop (settled p conns u pw, t).
  Proof.
    intros p conns u pw t HRd HP. apply after_ports_quiet in HP as [QU AG]. unfold environment_args. apply wp_bind, wp_settings. cbn [fst]. cbv zeta.
    set (c1 := settled p conns u pw). change (d_ovftool_args c1) with (d_ovftool_args c0). change (d_locator c1) with (d_locator c0).
    change (d_power_on c1) with (d_power_on c0).
    destruct HRd as (HL & _ & _ & _). unfold env_events. destruct (d_locator c0) as [loc|] eqn:El; [|congruence]. cbn [or_empty].
    assert (NO : ~ needs_injection w loc -> wp (ret (d_ovftool_args c0))
      (fun args s => exists t' inject, s = (c1, t ++ t') /\
         (exists locator, Some loc = Some locator /\
           ((t' = [] /\ inject = false /\ ~ needs_injection w locator) \/
            (t' = [] /\ inject = true /\ needs_injection w locator /\ can_inject w c0) \/
            (t' = [Asked QEnvironment (Some true)] /\ inject = false /\ needs_injection w locator /\ ~ can_inject w c0))) /\
         args = d_ovftool_args c0 ++ (if inject then [L "--X:injectOvfEnv"] else [])) stop (c1, t)).
    { intros H. exists [], false. rewrite !app_nil_r. repeat split. exists loc. split; [reflexivity|]. left. auto. }
    destruct (w_props w) as [|x l] eqn:Ew.
    { apply NO. intros [F _]. now rewrite Ew in F. }
    destruct (contains (L "/host/") loc) eqn:Eh.
    { apply NO. intros [_ F]. apply F. now apply contains_spec. }
    assert (NI : needs_injection w loc).
    { split; [rewrite Ew; discriminate|]. intros F. apply contains_spec in F. congruence. }
    clear NO. apply wp_bind. unfold wp at 1, lift. destruct (w_version w) as [[[a b] c]|e] eqn:Ev; [|split; auto].
    cbn [older_than_4].
    assert (ASK : ~ can_inject w c0 -> wp (confirm_or_die w QEnvironment ;; ret (d_ovftool_args c0))
      (fun args s => exists t' inject, s = (c1, t ++ t') /\
         (exists locator, Some loc = Some locator /\
           ((t' = [] /\ inject = false /\ ~ needs_injection w locator) \/
            (t' = [] /\ inject = true /\ needs_injection w locator /\ can_inject w c0) \/
            (t' = [Asked QEnvironment (Some true)] /\ inject = false /\ needs_injection w locator /\ ~ can_inject w c0))) /\
         args = d_ovftool_args c0 ++ (if inject then [L "--X:injectOvfEnv"] else [])) stop (c1, t)).
    { intros H. apply wp_bind, wp_confirm; [exact AG| |].
      - exists [Asked QEnvironment (Some true)], false. rewrite app_nil_r. repeat split. exists loc. split; [reflexivity|]. right. right. auto.
      - intros e y Hs. split; [|now right]. cbn [snd]. apply Forall_app. split; [exact QU|repeat constructor]. }
    destruct (Z.ltb_spec a 4) as [La|La].
    { apply ASK. intros (_ & x' & y & z & F & Hx). rewrite F in Ev. injection Ev as -> -> ->. lia. }
    destruct (d_power_on c0) eqn:Eo; cbn [negb].
    - exists [], true. rewrite app_nil_r. repeat split. exists loc. split; [reflexivity|]. right. left. repeat split; auto; try apply NI. exists a, b, c. auto.
    - apply ASK. intros [F _]. congruence.
  Qed.

  Definition final (p : option str) (conns : list conn) (u pw name : str) : cmd :=
    with_vm_name (Some name) (settled p conns u pw).
  Lemma fold_nets : forall l args, fold_left (fun a n => a ++ [L "--net:" ++ n]) l args = args ++ map (fun n => L "--net:" ++ n) l.
  Proof.
    induction l as [|n l IH]; intros args; cbn [fold_left map]; [now rewrite app_nil_r|]. rewrite IH, <- app_assoc. reflexivity.
  Qed.
  Lemma wp_fixup : forall p conns u pw (inject : bool) args t package locator, d_package c0 = Some package -> d_locator c0 = Some locator ->
    args = d_ovftool_args c0 ++ (if inject then [L "--X:injectOvfEnv"] else []) ->
    wp (fixup_ovftool_args args (target (settled p conns u pw)))
      (fun args' s => exists name, s = (final p conns u pw name, t) /\ name_for c0 package name /\
          args' = command_line c0 inject p name package u pw locator)
      stop (settled p conns u pw, t).
  Proof.
    intros p conns u pw inject args t package locator Hp Hl ->. unfold fixup_ovftool_args. apply wp_bind, wp_settings. cbv zeta. cbn [fst].
    set (c1 := settled p conns u pw).
    change (d_configuration c1) with p. change (d_network_map c1) with (d_network_map c0). change (d_vm_name c1) with (d_vm_name c0).
    change (d_package c1) with (d_package c0). change (d_power_on c1) with (d_power_on c0). change (d_datastore c1) with (d_datastore c0).
    unfold bind, wp, change, ret. cbn [fst snd]. rewrite Hp. cbn [or_empty].
    eexists. split; [reflexivity|]. split.
    - unfold name_for. destruct (d_vm_name c0); [reflexivity|apply stem_spec].
    - unfold command_line, target. change (d_username c1) with (Some u). change (d_password c1) with (Some pw).
      change (d_locator c1) with (d_locator c0). rewrite Hl. cbn [or_empty].
      set (tgt := L "vi://" ++ u ++ L ":" ++ pw ++ L "@" ++ locator). set (inj := if inject then [L "--X:injectOvfEnv"] else []).
      destruct p; destruct (d_network_map c0); destruct (d_power_on c0); destruct (d_datastore c0); cbn [option_arg map];
        rewrite ?fold_nets, <- ?app_assoc; reflexivity.
  Qed.

  (** what has happened when ovftool is called *)
  Definition called (c : cmd) (before : list event) (args : list str) : Prop :=
    exists p conns u pw name package locator inject t1 t2,
      c = final p conns u pw name /\ ready0 /\ d_package c0 = Some package /\ d_locator c0 = Some locator /\
      before = t1 ++ t2 /\ after_ports p conns t1 /\ env_events t2 inject /\
      user_for w c0 u /\ password_for w c0 pw /\ name_for c0 package name /\
      args = command_line c0 inject p name package u pw locator.

  Lemma server_option : forall key (o : options), dmem str_eqb key o = true <-> exists v, In (key, v) o.
  Proof.
    intros key o. unfold dmem. destruct (dget str_eqb key o) as [v|] eqn:Ed.
    - split; [|reflexivity]. intros _. exists v. now apply (dget_In str_eqb str_eqb_eq) in Ed.
    - split; [discriminate|]. intros [v Hv]. exfalso. apply (dget_None str_eqb str_eqb_eq) in Ed. apply Ed. now apply (in_map fst) in Hv.
  Qed.
  Lemma ports_ok : forall l bs, create_serial_ports l = Ok bs -> Forall2 port_for l bs.
  Proof.
    induction l as [|c l IH]; intros bs; cbn [create_serial_ports].
    - intros H. injection H as <-. constructor.
    - unfold create_serial_port. destruct (str_eqb (c_kind c) (L "device")) eqn:E1; cbn [rbind].
      + apply str_eqb_eq in E1. destruct (create_serial_ports l); [|discriminate]. intros H. injection H as <-.
        constructor; [left; auto|now apply IH].
      + destruct (str_eqb (c_kind c) (L "telnet") || str_eqb (c_kind c) (L "tcp")) eqn:E2; cbn [rbind]; [|discriminate].
        destruct (create_serial_ports l); [|discriminate]. intros H. injection H as <-.
        constructor; [|now apply IH]. right. apply orb_true_iff in E2. rewrite !str_eqb_eq in E2. split; [tauto|].
        eexists. split; [reflexivity|]. apply server_option.
  Qed.
  Lemma ports_err : forall l e, create_serial_ports l = Err e -> e = ENotImplemented /\ exists c, In c l /\ ~ supported c.
  Proof.
    induction l as [|c l IH]; intros e; cbn [create_serial_ports]; [discriminate|].
    unfold create_serial_port. destruct (str_eqb (c_kind c) (L "device")) eqn:E1.
    - cbn [rbind]. destruct (create_serial_ports l) as [r|x]; [discriminate|]. cbn [rbind]. intros H. injection H as <-. destruct (IH x eq_refl) as [A (y & B & C)].
      split; [exact A|]. exists y. split; [now right|exact C].
    - destruct (str_eqb (c_kind c) (L "telnet") || str_eqb (c_kind c) (L "tcp")) eqn:E2.
      + cbn [rbind]. destruct (create_serial_ports l) as [r|x]; [discriminate|]. cbn [rbind]. intros H. injection H as <-. destruct (IH x eq_refl) as [A (y & B & C)].
        split; [exact A|]. exists y. split; [now right|exact C].
      + cbn [rbind]. intros H. injection H as <-. split; [reflexivity|]. exists c. split; [now left|].
        apply orb_false_iff in E2 as [E2 E3]. intros F. unfold supported in F. cbn [In] in F.
        destruct F as [F|[F|[F|[]]]]; symmetry in F; apply str_eqb_eq in F; congruence.
  Qed.
  Lemma lookup_ok : forall name vm, lookup_vm w name = Ok vm -> first_named (w_inventory w) name vm.
  Proof.
    intros name vm. unfold lookup_vm. destruct (find _ _) as [[n x]|] eqn:Ef; [|discriminate]. intros H. injection H as <-. cbn [fst].
    revert Ef. induction (w_inventory w) as [|v l IH]; cbn [find]; [discriminate|].
    destruct (str_eqb (snd v) name) eqn:Ev.
    - intros H. injection H as ->. apply str_eqb_eq in Ev. cbn [snd] in Ev. subst x. exists [], l. split; [reflexivity|]. intros ? [].
    - intros H. destruct (IH H) as (a & b & -> & Ha). exists (v :: a), b. split; [reflexivity|].
      intros v' [<- |Hv]; [|now apply Ha]. intros F. apply str_eqb_eq in F. congruence.
  Qed.

  (** what follows the call of ovftool *)
  Definition certificate (t : list event) : Prop :=
    match w_server w with BadCertificate => t = [Asked QCertificate (Some true)] | _ => t = [] end.
  Definition followed (c : cmd) (args : list str) (after : list event) (r : result unit) : Prop :=
    (exists e, w_ovftool w args = Err e /\ after = [] /\ r = Err e) \/
    (w_ovftool w args = Ok tt /\ d_serial c = [] /\ after = [] /\ r = Ok tt) \/
    (w_ovftool w args = Ok tt /\ d_serial c <> [] /\
     ((after = [] /\ exists e, r = Err e) \/
      (exists a e, after = [Asked QCertificate a] /\ r = Err e /\ w_server w = BadCertificate) \/
      (exists cert server u pw e, certificate cert /\ after = cert ++ [Connected server u pw] /\ r = Err e /\
         server_of (or_empty (d_locator c)) server /\ d_username c = Some u /\ d_password c = Some pw) \/
      (exists cert server u pw vm ports, certificate cert /\ after = cert ++ [Connected server u pw; Reconfigured vm ports] /\ r = Ok tt /\
         server_of (or_empty (d_locator c)) server /\ d_username c = Some u /\ d_password c = Some pw /\
         first_named (w_inventory w) (or_empty (d_vm_name c)) vm /\ Forall2 port_for (d_serial c) ports))).

  Lemma tail_spec : forall c t args, (exists u, d_username c = Some u) -> (exists u, d_password c = Some u) -> agreed t ->
    forall c' t' r, (lift (w_ovftool w args) ;; let! c := settings in match d_serial c with [] => ret tt | _ => fixup_serial_ports w end) (c, t)
      = ((c', t'), r) -> c' = c /\ exists after, t' = t ++ after /\ followed c args after r /\
        (agreed after \/ exists e pre q a, r = Err e /\ after = pre ++ [Asked q a] /\ agreed pre /\
           ((a = Some false /\ e = ESystemExit) \/ (a = None /\ e = EEOFError))).
  Proof.
    intros c t args [u Hu] [pw Hpw] AG c' t' r. unfold bind at 1, lift at 1. destruct (w_ovftool w args) as [[]|e] eqn:Eo.
    2:{ intros H. injection H as <- <- <-. split; [reflexivity|]. exists []. rewrite app_nil_r. split; [reflexivity|].
        split; [left; eauto|left; apply agreed_nil]. }
    unfold bind at 1, settings at 1. cbn [fst].
    destruct (d_serial c) as [|x l] eqn:Es.
    { intros H. injection H as <- <- <-. split; [reflexivity|]. exists []. rewrite app_nil_r. split; [reflexivity|].
      split; [right; left; auto|left; apply agreed_nil]. }
    assert (NE : d_serial c <> []) by (rewrite Es; discriminate).
    unfold fixup_serial_ports. unfold bind at 1, settings at 1. cbn [fst]. rewrite Hu, Hpw. cbn [or_empty].
    set (server := hd [] (split_on "/"%char (or_empty (d_locator c)))).
    assert (SV : server_of (or_empty (d_locator c)) server) by apply server_spec.
    assert (TAIL : forall cert, certificate cert -> agreed cert ->
      (let! vm := lift (lookup_vm w (or_empty (d_vm_name c))) in
       let! ports := lift (create_serial_ports (d_serial c)) in emit (Reconfigured vm ports)) (c, (t ++ cert) ++ [Connected server u pw]) = ((c', t'), r) ->
      c' = c /\ exists after, t' = t ++ after /\ followed c args after r /\
        (agreed after \/ exists e pre q a, r = Err e /\ after = pre ++ [Asked q a] /\ agreed pre /\
           ((a = Some false /\ e = ESystemExit) \/ (a = None /\ e = EEOFError)))).
    { intros cert HC AC. unfold bind, lift, emit. cbn [fst snd].
      assert (AA : agreed (cert ++ [Connected server u pw])) by (apply agreed_app; [exact AC|]; intros q a [F|[]]; discriminate).
      destruct (lookup_vm w (or_empty (d_vm_name c))) as [vm|e] eqn:El.
      2:{ intros H. injection H as <- <- <-. split; [reflexivity|]. exists (cert ++ [Connected server u pw]). rewrite app_assoc. split; [reflexivity|].
          split; [|now left]. right. right. split; [exact Eo|]. split; [exact NE|]. right. right. left.
          exists cert, server, u, pw, e. auto 10. }
      destruct (create_serial_ports (d_serial c)) as [ports|e] eqn:Ec.
      2:{ intros H. injection H as <- <- <-. split; [reflexivity|]. exists (cert ++ [Connected server u pw]). rewrite app_assoc. split; [reflexivity|].
          split; [|now left]. right. right. split; [exact Eo|]. split; [exact NE|]. right. right. left.
          exists cert, server, u, pw, e. auto 10. }
      intros H. injection H as <- <- <-. split; [reflexivity|].
      exists (cert ++ [Connected server u pw; Reconfigured vm ports]). split; [rewrite <- !app_assoc; reflexivity|]. split.
      - right. right. split; [exact Eo|]. split; [exact NE|]. right. right. right.
        exists cert, server, u, pw, vm, ports. split; [exact HC|]. split; [reflexivity|]. split; [reflexivity|].
        split; [exact SV|]. split; [exact Hu|]. split; [exact Hpw|]. split; [now apply lookup_ok|now apply ports_ok].
      - left. apply agreed_app; [exact AC|]. intros q a [F|[F|[]]]; discriminate. }
    unfold connect. unfold certificate in TAIL. destruct (w_server w) as [| |e] eqn:Ew.
    - unfold bind at 1, emit at 1. cbn [fst snd]. intros H. apply (TAIL [] eq_refl agreed_nil). now rewrite app_nil_r.
    - unfold bind at 1. unfold bind at 1. unfold confirm_or_die. unfold bind at 1, emit at 1. cbn [fst snd].
      destruct (cli_confirm _ _) as [[|]|].
      + unfold ret at 1. unfold bind at 1, lift at 1. destruct (w_retry w) as [[]|e].
        * unfold emit at 1. cbn [fst snd]. apply (TAIL [Asked QCertificate (Some true)] eq_refl (agreed_yes _)).
        * intros H. injection H as <- <- <-. split; [reflexivity|]. eexists. split; [reflexivity|]. split; [|left; apply agreed_yes].
          right. right. split; [exact Eo|]. split; [exact NE|]. right. left. rewrite Ew. eauto.
      + unfold fail. intros H. injection H as <- <- <-. split; [reflexivity|]. eexists. split; [reflexivity|]. split.
        * right. right. split; [exact Eo|]. split; [exact NE|]. right. left. rewrite Ew. eauto.
        * right. exists ESystemExit, [], QCertificate, (Some false). repeat split; [apply agreed_nil|auto].
      + unfold fail. intros H. injection H as <- <- <-. split; [reflexivity|]. eexists. split; [reflexivity|]. split.
        * right. right. split; [exact Eo|]. split; [exact NE|]. right. left. rewrite Ew. eauto.
        * right. exists EEOFError, [], QCertificate, None. repeat split; [apply agreed_nil|auto].
    - unfold bind at 1, fail at 1. intros H. injection H as <- <- <-. split; [reflexivity|]. exists []. rewrite app_nil_r. split; [reflexivity|].
      split; [|left; apply agreed_nil]. right. right. split; [exact Eo|]. split; [exact NE|]. left. eauto.
  Qed.

  Theorem run_spec : forall c' t r, deploy w c0 = (c', t, r) ->
    (exists e, r = Err e /\ Forall quiet t /\ (agreed t \/ stopped e t)) \/
    (exists before args after, t = before ++ RanOvftool args :: after /\ called c' before args /\
       Forall quiet before /\ agreed before /\ followed c' args after r /\
       (agreed after \/ exists e, r = Err e /\ stopped e t)).
  Proof.
    intros c' t r H. unfold deploy in H.
    assert (W : wp (run w) (fun a s => exists before args after, snd s = before ++ RanOvftool args :: after /\ called (fst s) before args /\
       Forall quiet before /\ agreed before /\ followed (fst s) args after (Ok a) /\
       (agreed after \/ exists e, Ok a = Err e /\ stopped e (snd s)))
     (fun e s => (Forall quiet (snd s) /\ (agreed (snd s) \/ stopped e (snd s))) \/
       exists before args after, snd s = before ++ RanOvftool args :: after /\ called (fst s) before args /\
       Forall quiet before /\ agreed before /\ followed (fst s) args after (Err e) /\
       (agreed after \/ exists e', Err (A := unit) e = Err e' /\ stopped e' (snd s))) (c0, [])).
    2:{ unfold wp in W. destruct (run w (c0, [])) as [[c1 t1] [[]|e]]; injection H as <- <- <-; cbn [fst snd] in W.
        - now right.
        - destruct W as [W|W]; [left; exists e; now split|now right]. }
    clear H c' t r. unfold run.
    assert (CQ : forall t, choice_events t -> Forall quiet t /\ (agreed t \/ False)).
    { intros t Ht. split; [now apply choice_quiet|left; now apply choice_agreed]. }
    apply wp_bind. eapply wp_mono; [apply wp_ready| |].
    2:{ intros e s [-> _]. left. split; [constructor|]. left. apply agreed_nil. }
    intros _ s [-> HRd]. apply wp_bind. eapply wp_mono; [apply wp_choose| |].
    2:{ intros e s Hs. left. destruct (CQ _ Hs). split; tauto. }
    intros _ s (p & t & -> & HP). apply wp_bind. eapply wp_mono; [apply (wp_default_serial p t HP)| |].
    2:{ intros e s Hs. left. destruct (CQ _ Hs). split; tauto. }
    intros _ s (conns & -> & HS). apply wp_bind. eapply wp_mono; [apply (wp_check_ports p conns t HS)| |].
    2:{ intros e s Hs. now left. }
    clear t HP HS. intros _ s (t & -> & HA). apply wp_bind. eapply wp_mono; [apply (wp_log_in p conns t HA)| |].
    2:{ intros e s Hs. now left. }
    intros _ s (u & pw & -> & HU & HPW). apply wp_bind. eapply wp_mono; [apply (wp_environment p conns u pw t HRd HA)| |].
    2:{ intros e s Hs. now left. }
    intros args s (t' & inject & -> & HE & Hargs). apply wp_bind, wp_settings. cbn [fst].
    destruct (d_package c0) as [package|] eqn:Epk; [|destruct HRd as (? & ? & ? & ?); congruence].
    destruct (d_locator c0) as [locator|] eqn:Elo; [|destruct HRd as (? & ? & ? & ?); congruence].
    apply wp_bind. eapply wp_mono; [apply (wp_fixup p conns u pw inject args (t ++ t') package locator Epk Elo Hargs)| |].
    2:{ intros e s Hs. now left. }
    intros args' s (name & -> & HN & HA'). clear Hargs args.
    set (cf := final p conns u pw name).
    assert (CA : called cf (t ++ t') args').
    { exists p, conns, u, pw, name, package, locator, inject, t, t'. repeat (split; [first [reflexivity|assumption]|]). exact HA'. }
    assert (QU : Forall quiet (t ++ t')).
    { apply Forall_app. split; [now apply (after_ports_quiet p conns)|]. destruct HE as (l & _ & [(-> & _)|[(-> & _)|(-> & _)]]); repeat constructor. }
    assert (AG : agreed (t ++ t')).
    { apply agreed_app; [now apply (after_ports_quiet p conns)|].
      destruct HE as (l & _ & [(-> & _)|[(-> & _)|(-> & _)]]); first [apply agreed_nil|apply agreed_yes]. }
    apply wp_bind. unfold wp at 1, emit. cbn [fst snd].
    assert (AG2 : agreed ((t ++ t') ++ [RanOvftool args'])) by (apply agreed_app; [exact AG|]; intros q a [F|[]]; discriminate).
    pose proof (tail_spec cf ((t ++ t') ++ [RanOvftool args']) args' (ex_intro _ u eq_refl) (ex_intro _ pw eq_refl) AG2) as TS.
    unfold wp. match goal with |- match ?X with _ => _ end => destruct X as [[c1 t1] r] eqn:EX end.
    destruct (TS _ _ _ eq_refl) as (-> & after & -> & FO & SO). clear TS EX.
    rewrite <- app_assoc. cbn [app].
    assert (FIN : agreed after \/ exists e, r = Err e /\ stopped e ((t ++ t') ++ RanOvftool args' :: after)).
    { destruct SO as [SO|(e & pre & q & a & -> & -> & AP & D)]; [now left|]. right. exists e. split; [reflexivity|].
      exists ((t ++ t') ++ RanOvftool args' :: pre), q, a. split; [rewrite <- !app_assoc; reflexivity|]. split; [|exact D].
      intros q' a' F. apply in_app_or in F as [F|[F|F]]; [now apply (AG q')|discriminate|now apply (AP q')]. }
    destruct r as [[]|e]; [|right]; exists (t ++ t'), args', after; cbn [fst snd];
      (split; [reflexivity|]; split; [exact CA|]; split; [exact QU|]; split; [exact AG|]; split; [exact FO|]; exact FIN).
  Qed.
End Running.

(** ** Success *)

Lemma wp_and : forall (A : Type) (x : m A) (Q Q' : A -> st -> Prop) (R R' : exn -> st -> Prop) s,
  wp x Q R s -> wp x Q' R' s -> wp x (fun a s' => Q a s' /\ Q' a s') (fun e s' => R e s' /\ R' e s') s.
Proof. intros A x Q Q' R R' s. unfold wp. destruct (x s) as [s' [a|e]]; auto. Qed.
Definition never (e : exn) (s : st) : Prop := False.
Lemma wp_ok : forall (A : Type) (x : m A) (Q : A -> st -> Prop) (R : exn -> st -> Prop) s,
  wp x Q R s -> wp x (fun _ _ => True) never s -> wp x Q never s.
Proof. intros A x Q R s. unfold wp. destruct (x s) as [s' [a|e]]; auto. Qed.

Lemma confirm_forced : forall w q s, w_force w = true -> wp (confirm_or_die w q) (fun _ _ => True) never s.
Proof. intros w q s H. unfold confirm_or_die, cli_confirm. rewrite H. exact I. Qed.

Lemma supported_ports : forall l, Forall supported l -> exists bs, create_serial_ports l = Ok bs.
Proof.
  intros l H. destruct (create_serial_ports l) as [bs|e] eqn:E; [eauto|]. exfalso.
  apply ports_err in E as [_ (c & Hc & Nc)]. rewrite Forall_forall in H. auto.
Qed.
Lemma named_found : forall w name vm, In (vm, name) (w_inventory w) -> exists v, lookup_vm w name = Ok v.
Proof.
  intros w name vm H. unfold lookup_vm. destruct (find _ _) as [v|] eqn:E; [eauto|]. exfalso.
  apply (find_none _ _ E) in H. cbn [snd] in H. now rewrite str_eqb_refl in H.
Qed.

Theorem run_succeeds : forall w c package keys, hw_reachable (e_ver (w_env w)) (w_hw w) -> ValidationModel.natural_sort (map fst (w_hw w)) = Ok keys ->
  w_force w = true -> w_space w = true -> (exists v, w_version w = Ok v) -> (forall args, w_ovftool w args = Ok tt) ->
  w_server w = Accepts \/ (w_server w = BadCertificate /\ w_retry w = Ok tt) ->
  d_package c = Some package -> d_hypervisor c <> None -> d_locator c <> None -> d_password c <> None ->
  d_serial c <> [] -> Forall supported (d_serial c) ->
  (forall name, name_for c package name -> exists vm, In (vm, name) (w_inventory w)) ->
  exists c' t, deploy w c = (c', t, Ok tt).
Proof.
  intros w c package keys HR HK HF HSp [v HV] HO HS HP HH HL HPW HN HC HI.
  enough (W : wp (run w) (fun _ _ => True) never (c, [])).
  { unfold wp in W. unfold deploy. destruct (run w (c, [])) as [[c' t] [[]|e]]; [eauto|destruct W]. }
  unfold run.
  apply wp_bind. eapply wp_mono; [apply (wp_ok _ _ _ _ _ (wp_ready w c))| |trivial].
  { unfold ready, wp, bind, settings. cbn [fst]. rewrite HP, HSp. destruct (d_locator c), (d_hypervisor c); (exact I || congruence). }
  intros _ s [-> HRd].
  apply wp_bind. eapply wp_mono; [apply (wp_ok _ _ _ _ _ (wp_choose w c))| |trivial].
  { unfold choose_profile. apply wp_bind, wp_settings. cbn [fst]. destruct (d_configuration c); [exact I|].
    destruct (e_profiles (w_env w)) as [|q [|q2 l]]; [exact I|exact I|]. cbv zeta. set (o := q :: q2 :: l).
    rewrite HF, choose_force. unfold wp, bind, emit, change. assert (E : mem_str q o = true) by (apply mem_str_In; now left). rewrite E. exact I. }
  intros _ s (p & t & -> & HA).
  apply wp_bind. eapply wp_mono; [apply (wp_ok _ _ _ _ _ (wp_default_serial w c HR p t HA))| |trivial].
  { unfold default_serial. apply wp_bind, wp_settings. cbn [fst]. change (d_serial (with_configuration p c)) with (d_serial c).
    destruct (d_serial c); [congruence|exact I]. }
  intros _ s (conns & -> & HB).
  assert (conns = d_serial c) as ->.
  { destruct HB as [_ HB]. unfold connections in HB. destruct (d_serial c); [congruence|exact HB]. }
  apply wp_bind. eapply wp_mono; [apply (wp_ok _ _ _ _ _ (wp_check_ports w c HR p _ t HB))| |trivial].
  { unfold check_ports. apply wp_bind, wp_settings. cbn [fst]. apply wp_bind.
    change (d_configuration (with_serial (d_serial c) (with_configuration p c))) with p.
    destruct serial_map as [x Hx].
    destruct (find_all_ok (w_env w) (w_hw w) (Some (L "serial")) [] [p] keys (reachable_ids _ _ HR)) as [ks Hks].
    { intros ? []. }
    { exact HK. }
    { intros t0 F. injection F as <-. unfold res_map in Hx. destruct (dget _ _ _); [eauto|discriminate]. }
    rewrite (count_devices (w_env w) (w_hw w) (L "serial") x p ks Hx Hks). unfold wp at 1, lift.
    destruct (_ <? _)%Z; [now apply confirm_forced|exact I]. }
  clear t HA HB. intros _ s (t & -> & HA).
  apply wp_bind. eapply wp_mono; [apply (wp_ok _ _ _ _ _ (wp_log_in w c p _ t HA))| |trivial].
  { unfold log_in. apply wp_bind, wp_settings. cbv zeta. cbn [fst]. change (d_password (with_serial (d_serial c) (with_configuration p c))) with (d_password c).
    destruct (d_password c); [exact I|congruence]. }
  intros _ s (u & pw & -> & HU & HW).
  apply wp_bind. eapply wp_mono; [apply (wp_ok _ _ _ _ _ (wp_environment w c p _ u pw t HRd HA))| |trivial].
  { unfold environment_args. apply wp_bind, wp_settings. cbv zeta. destruct (w_props w); [exact I|].
    destruct (contains _ _); [exact I|]. apply wp_bind. unfold wp at 1, lift. rewrite HV.
    destruct (older_than_4 v); [apply wp_bind; now apply wp_mono with (2 := fun _ _ _ => I) (3 := fun _ _ F => F), confirm_forced|].
    destruct (negb _); [apply wp_bind; now apply wp_mono with (2 := fun _ _ _ => I) (3 := fun _ _ F => F), confirm_forced|exact I]. }
  intros args s (t' & inject & -> & HE & Hargs). apply wp_bind, wp_settings. cbn [fst].
  destruct (d_locator c) as [locator|] eqn:El; [|congruence].
  apply wp_bind. eapply wp_mono; [apply (wp_ok _ _ _ _ _ (wp_fixup c p _ u pw inject args (t ++ t') package locator HP El Hargs)); exact I| |trivial].
  intros args' s (name & -> & HNm & _). apply wp_bind. unfold wp at 1, emit. cbn [fst snd].
  apply wp_bind. unfold wp at 1, lift. rewrite HO. apply wp_bind, wp_settings. cbn [fst].
  set (cf := final c p (d_serial c) u pw name). change (d_serial cf) with (d_serial c). destruct (d_serial c) as [|x l] eqn:Es; [congruence|].
  unfold fixup_serial_ports. apply wp_bind, wp_settings. cbn [fst]. apply wp_bind.
  destruct (HI name HNm) as [vm Hvm]. destruct (named_found w name vm Hvm) as [vm' Hv'].
  destruct (supported_ports _ HC) as [bs Hbs].
  assert (TAIL : forall s, wp (let! vm := lift (lookup_vm w (or_empty (d_vm_name cf))) in
      let! ports := lift (create_serial_ports (d_serial cf)) in emit (Reconfigured vm ports)) (fun _ _ => True) never s).
  { intros s. change (d_vm_name cf) with (Some name). change (d_serial cf) with (x :: l). cbn [or_empty].
    unfold wp, bind, lift. rewrite Hv', Hbs. exact I. }
  apply wp_mono with (Q := fun _ _ => True) (R := never); [|intros _ s _; apply TAIL|intros e s0 F; exact F].
  unfold connect. destruct HS as [-> |[-> HRt]]; [exact I|]. apply wp_bind.
  eapply wp_mono; [now apply confirm_forced| |intros e s0 F; exact F]. intros _ s _. apply wp_bind. unfold wp at 1, lift. rewrite HRt. exact I.
Qed.
