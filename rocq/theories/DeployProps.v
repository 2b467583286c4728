(** C48: deploying a package to a server. *)
From Coq Require Import Lia.
From Verif Require Import PyBase PyBaseProofs PyDict NamesModel XmlModel ItemModel ItemSpec HardwareModel HardwareSpec HardwareProofs HardwareIdProofs CountSpec CountProofs
  FindSpec FindProofs ChooseModel ChooseSpec ChooseProofs SerialModel ValidationModel ItemProps HardwareProps CountProps DeployModel DeploySpec DeployProofs.
Local Open Scope nat_scope.

(** ovftool is called at most once.  Nothing is done on the server before that, and all
    questions asked before were answered with yes.  Without the call the command fails. *)
Theorem C48_once : forall w c c' t r, hw_reachable (e_ver (w_env w)) (w_hw w) -> deploy w c = (c', t, r) ->
  (Forall quiet t /\ exists e, r = Err e) \/
  (exists before args after, t = before ++ RanOvftool args :: after /\ Forall quiet before /\
     (forall q a, In (Asked q a) before -> a = Some true) /\
     forall args', ~ In (RanOvftool args') after).
Proof.
  intros w c c' t r HR H. destruct (run_spec w c HR c' t r H) as [(e & -> & Q & _)|(b & args & a & -> & _ & Q & A & F & _)].
  - left. eauto.
  - right. exists b, args, a. repeat split; auto. intros args' Hin.
    unfold followed, certificate in F. destruct (w_server w) as [| |er];
    destruct F as [(e & _ & -> & _)|[(_ & _ & -> & _)|(_ & _ & [(-> & _)|[(x & e & -> & _)|[(ct & sv & u & p & e & -> & -> & _)|(ct & sv & u & p & vm & ps & -> & -> & _)]]])]];
    cbn in Hin; intuition discriminate.
Qed.
Print Assumptions C48_once.

(** The command line: the user's arguments for ovftool, then the injection of the
    environment, the profile, the network map, the name, power, the datastore, the package
    and the target, each exactly as asked for. *)
Theorem C48_command_line : forall w c c' t r args, hw_reachable (e_ver (w_env w)) (w_hw w) -> deploy w c = (c', t, r) ->
  In (RanOvftool args) t ->
  exists p user password name package locator inject,
    d_package c = Some package /\ d_locator c = Some locator /\ d_hypervisor c <> None /\ w_space w = true /\
    profile_for w c p /\ user_for w c user /\ password_for w c password /\ name_for c package name /\
    args = command_line c inject p name package user password locator /\
    (inject = true <-> needs_injection w locator /\ can_inject w c).
Proof.
  intros w c c' t r args HR H Hin. destruct (run_spec w c HR c' t r H) as [(e & -> & Q & _)|(b & args0 & a & -> & CA & Q & A & F & _)].
  { exfalso. rewrite Forall_forall in Q. now apply Q in Hin. }
  assert (args0 = args) as ->.
  { destruct (C48_once w c c' _ r HR H) as [[Q' _]|(b' & args1 & a' & E & Qb & _ & N)].
    - rewrite Forall_forall in Q'. now apply Q' in Hin.
    - apply in_app_or in Hin as [Hin|[Hin|Hin]]; [rewrite Forall_forall in Q; now apply Q in Hin|congruence|].
      exfalso. apply (f_equal (filter (fun e => match e with RanOvftool _ => true | _ => false end))) in E.
      rewrite !filter_app in E. cbn [filter] in E.
      assert (Z : forall l, Forall quiet l -> filter (fun e => match e with RanOvftool _ => true | _ => false end) l = []).
      { intros l FL. rewrite Forall_forall in FL. destruct (filter _ l) as [|x y] eqn:Ef; [reflexivity|]. exfalso.
        assert (I : In x (filter (fun e => match e with RanOvftool _ => true | _ => false end) l)) by (rewrite Ef; now left).
        apply filter_In in I as [I1 I2]. apply FL in I1. destruct x; discriminate || contradiction. }
      rewrite (Z b Q), (Z b' Qb) in E. cbn [app] in E. injection E as _ E.
      assert (I : In (RanOvftool args) (filter (fun e => match e with RanOvftool _ => true | _ => false end) a)) by (apply filter_In; auto).
      rewrite E in I. apply filter_In in I as [I _]. now apply N in I. }
  destruct CA as (p & conns & u & pw & name & package & locator & inject & t1 & t2 & _ & RD & Hp & Hl & _ & (t3 & t4 & _ & [[HP _] _] & _) & HE & HU & HPW & HN & HA).
  destruct RD as (_ & RD & _ & SP). exists p, u, pw, name, package, locator, inject. repeat (split; [assumption|]).
  destruct HE as (l & El & HE). rewrite Hl in El. injection El as <-.
  destruct HE as [(_ & -> & X)|[(_ & -> & X & Y)|(_ & -> & X & Y)]]; split; try discriminate; tauto.
Qed.
Print Assumptions C48_command_line.

(** The user is asked exactly if more connections are given than the profile has serial ports,
    and if the environment properties would be lost; and must have agreed. *)
Theorem C48_questions : forall w c c' t r args, hw_reachable (e_ver (w_env w)) (w_hw w) -> deploy w c = (c', t, r) ->
  In (RanOvftool args) t ->
  exists p conns locator, d_locator c = Some locator /\ profile_for w c p /\ connections w c p conns /\
    (too_few_ports w p conns <-> In (Asked QPorts (Some true)) t) /\
    (needs_injection w locator /\ ~ can_inject w c <-> In (Asked QEnvironment (Some true)) t).
Proof.
  intros w c c' t r args HR H Hin. destruct (run_spec w c HR c' t r H) as [(e & -> & Q & _)|(b & args0 & a & -> & CA & Q & A & F & _)].
  { exfalso. rewrite Forall_forall in Q. now apply Q in Hin. }
  destruct CA as (p & conns & u & pw & name & package & locator & inject & t1 & t2 & _ & RD & Hp & Hl & -> & (t3 & t4 & -> & [[HP HC] HS] & HQ) & HE & _).
  exists p, conns, locator. repeat (split; [assumption|]).
  assert (NT : forall q v, q <> QCertificate -> In (Asked q v) (((t3 ++ t4) ++ t2) ++ RanOvftool args0 :: a) <-> In (Asked q v) (t4 ++ t2)).
  { intros q v Nq. rewrite !in_app_iff. cbn [In]. split; [|tauto]. intros [[[X|X]|X]|[X|X]]; try tauto; try discriminate.
    - unfold choice_events in HC. rewrite Forall_forall in HC. now apply HC in X.
    - exfalso. unfold followed, certificate in F.
      destruct (w_server w) as [| |er];
      destruct F as [(e & _ & -> & _)|[(_ & _ & -> & _)|(_ & _ & [(-> & _)|[(x & e & -> & _)|[(ct & sv & u1 & p1 & e & -> & -> & _)|(ct & sv & u1 & p1 & vm & ps & -> & -> & _)]]])]];
      cbn in X; intuition congruence. }
  rewrite !NT by discriminate. destruct HE as (l & El & HE). rewrite Hl in El. injection El as <-.
  rewrite !in_app_iff.
  destruct HQ as [[-> HQ]|[-> HQ]]; destruct HE as [(-> & -> & X)|[(-> & -> & X & Y)|(-> & -> & X & Y)]]; cbn [In];
    split; split; intros; try tauto; intuition discriminate.
Qed.
Print Assumptions C48_questions.

(** A question that is not answered with yes ends the command at once. *)
Theorem C48_declined : forall w c c' t r q a, hw_reachable (e_ver (w_env w)) (w_hw w) -> deploy w c = (c', t, r) ->
  In (Asked q a) t -> a <> Some true ->
  (exists before, t = before ++ [Asked q a]) /\ r = Err (match a with Some _ => ESystemExit | None => EEOFError end).
Proof.
  intros w c c' t r q a HR H Hin Ha.
  assert (S : forall e, stopped e t -> (exists before, t = before ++ [Asked q a]) /\ e = match a with Some _ => ESystemExit | None => EEOFError end).
  { intros e (pre & q' & a' & -> & AG & D). apply in_app_or in Hin as [Hin|[Hin|[]]]; [exfalso; apply Ha; exact (AG _ _ Hin)|].
    injection Hin as -> ->. split; [eauto|]. destruct D as [[-> ->]|[-> ->]]; reflexivity. }
  destruct (run_spec w c HR c' t r H) as [(e & -> & Q & [A|SO])|(b & args0 & af & -> & CA & Q & A & F & [AG|(e & -> & SO)])].
  - exfalso. apply Ha. exact (A _ _ Hin).
  - destruct (S e SO) as [B ->]. auto.
  - exfalso. apply in_app_or in Hin as [Hin|[Hin|Hin]]; [|discriminate|]; apply Ha; [exact (A _ _ Hin)|exact (AG _ _ Hin)].
  - destruct (S e SO) as [B ->]. auto.
Qed.
Print Assumptions C48_declined.

(** When the command succeeds, the package was deployed, and the VM of that name that the server
    lists first has got exactly the serial ports described, in their order.  If there are none,
    no connection to the server is made. *)
Theorem C48_serial_ports : forall w c c' t, hw_reachable (e_ver (w_env w)) (w_hw w) -> deploy w c = (c', t, Ok tt) ->
  exists p conns args package name locator user password,
    In (RanOvftool args) t /\ w_ovftool w args = Ok tt /\ profile_for w c p /\ connections w c p conns /\
    d_package c = Some package /\ name_for c package name /\ d_locator c = Some locator /\ user_for w c user /\ password_for w c password /\
    ((conns = [] /\ exists before, t = before ++ [RanOvftool args]) \/
     (conns <> [] /\ exists before server vm ports, t = before ++ [Connected server user password; Reconfigured vm ports] /\
        server_of locator server /\ first_named (w_inventory w) name vm /\ Forall2 port_for conns ports)).
Proof.
  intros w c c' t HR H. destruct (run_spec w c HR c' t _ H) as [(e & F & _)|(b & args & a & -> & CA & Q & A & F & _)]; [discriminate|].
  destruct CA as (p & conns & u & pw & name & package & locator & inject & t1 & t2 & -> & RD & Hp & Hl & -> & (t3 & t4 & -> & [[HP HC] HS] & HQ) & HE & HU & HPW & HN & HA).
  exists p, conns, args, package, name, locator, u, pw. split; [apply in_elt|].
  destruct F as [(e & _ & _ & F)|F]; [discriminate|].
  assert (O : w_ovftool w args = Ok tt) by (destruct F as [(O & _)|(O & _)]; exact O). split; [exact O|].
  repeat (split; [assumption|]).
  change (d_serial (final c p conns u pw name)) with conns in F.
  destruct F as [(_ & -> & -> & _)|(_ & NE & [(_ & e & F)|[(x & e & _ & F & _)|[(ct & sv & u1 & p1 & e & _ & _ & F & _)|(ct & sv & u1 & p1 & vm & ps & _ & -> & _ & SV & U & P & FN & PO)]]])]; try discriminate.
  - left. split; [reflexivity|]. eauto.
  - right. split; [exact NE|]. change (d_username (final c p conns u pw name)) with (Some u) in U. change (d_password (final c p conns u pw name)) with (Some pw) in P.
    injection U as <-. injection P as <-. exists (((t3 ++ t4) ++ t2) ++ RanOvftool args :: ct), sv, vm, ps.
    change (d_locator (final c p conns u pw name)) with (d_locator c) in SV. rewrite Hl in SV.
    split; [rewrite <- !app_assoc; reflexivity|]. auto.
Qed.
Print Assumptions C48_serial_ports.

(** The ports are made all at once as the last act, or not at all: not at all if one of them
    cannot be made. *)
Theorem C48_all_or_nothing : forall w c c' t r vm ports, hw_reachable (e_ver (w_env w)) (w_hw w) -> deploy w c = (c', t, r) ->
  In (Reconfigured vm ports) t -> r = Ok tt /\
  exists p conns, profile_for w c p /\ connections w c p conns /\ length ports = length conns /\ Forall supported conns.
Proof.
  intros w c c' t r vm ports HR H Hin. destruct (run_spec w c HR c' t r H) as [(e & -> & Q & _)|(b & args & a & -> & CA & Q & A & F & _)].
  { exfalso. rewrite Forall_forall in Q. now apply Q in Hin. }
  destruct CA as (p & conns & u & pw & name & package & locator & inject & t1 & t2 & -> & RD & Hp & Hl & -> & (t3 & t4 & -> & [[HP HC] HS] & HQ) & HE & HU & HPW & HN & HA).
  change (d_serial (final c p conns u pw name)) with conns in F.
  apply in_app_or in Hin as [Hin|[Hin|Hin]]; [rewrite Forall_forall in Q; now apply Q in Hin|discriminate|].
  unfold followed, certificate in F. change (d_serial (final c p conns u pw name)) with conns in F.
  assert (X : exists ct ps sv u1 p1, a = ct ++ [Connected sv u1 p1; Reconfigured vm ps] /\ ps = ports /\ r = Ok tt /\ Forall2 port_for conns ps).
  { destruct (w_server w) as [| |er];
    destruct F as [(e & _ & -> & _)|[(_ & _ & -> & _)|(_ & _ & [(-> & _)|[(x & e & -> & _)|[(ct & sv & u1 & p1 & e & -> & -> & _)|(ct & sv & u1 & p1 & vm' & ps & -> & -> & -> & _ & _ & _ & _ & PO)]]])]];
    cbn in Hin; try (intuition discriminate).
    - assert (vm' = vm /\ ps = ports) as [-> ->] by (intuition congruence). exists [], ports, sv, u1, p1. auto.
    - assert (vm' = vm /\ ps = ports) as [-> ->] by (intuition congruence). exists [Asked QCertificate (Some true)], ports, sv, u1, p1. auto.
    - assert (vm' = vm /\ ps = ports) as [-> ->] by (intuition congruence). exists [], ports, sv, u1, p1. auto. }
  destruct X as (ct & ps & sv & u1 & p1 & _ & <- & -> & PO). split; [reflexivity|]. exists p, conns. repeat (split; [assumption|]).
  split; [clear -PO; induction PO; cbn; congruence|].
  clear -PO. induction PO as [|x y l l' Hp Hl IH]; constructor; [|exact IH].
  unfold supported. cbn [In]. destruct Hp as [[-> _]|[[-> | ->] _]]; auto.
Qed.
Print Assumptions C48_all_or_nothing.

(** With --force, all that is needed given, and nothing going wrong outside, the command
    succeeds. *)
Theorem C48_success : forall w c package keys, hw_reachable (e_ver (w_env w)) (w_hw w) -> natural_sort (map fst (w_hw w)) = Ok keys ->
  w_force w = true -> w_space w = true -> (exists v, w_version w = Ok v) -> (forall args, w_ovftool w args = Ok tt) ->
  w_server w = Accepts \/ (w_server w = BadCertificate /\ w_retry w = Ok tt) ->
  d_package c = Some package -> d_hypervisor c <> None -> d_locator c <> None -> d_password c <> None ->
  d_serial c <> [] -> Forall supported (d_serial c) ->
  (forall name, name_for c package name -> exists vm, In (vm, name) (w_inventory w)) ->
  exists c' t, deploy w c = (c', t, Ok tt).
Proof. exact run_succeeds. Qed.
Print Assumptions C48_success.

(** ** Cases *)

Definition serial_at (attrs : list (str * str)) (id a : string) : elem :=
  an_item attrs [rasd "Address" a; rasd "ElementName" "Serial"; rasd "InstanceID" id; rasd "ResourceType" "21"].
Definition ports1 : hw := hw_of [cpu_item; serial_at [] "3" "telnet://:2001"; serial_at [(ITEM_CONFIG V1, L "big")] "4" "/dev/ttyS0"].
Lemma ports1_reachable : hw_reachable V1 ports1.
Proof. unfold ports1. match goal with |- hw_reachable _ (hw_of ?l) => apply (hw_of_reachable l) end. eexists. vm_compute. reflexivity. Qed.
Definition given (kind value : string) (o : options) : conn := mkconn (L kind) (L value) o.
Definition world1 (force : bool) (h : hw) : world :=
  mkWorld env0 h [L "hostname"] force [L "?"; L "bi"] (fun _ => [L "y"]) true (L "me") (L "secret") (Ok (4, 1, 0)%Z) (fun _ => Ok tt)
    BadCertificate (Ok tt) [(1, L "other"); (2, L "vm"); (3, L "vm")].
Definition cmd1 (serial : list conn) : cmd :=
  mkCmd (Some (L "dir/vm.ova")) (Some (L "esxi")) (Some (L "host1")) None None None true None (Some [L "a=b"]) serial (Some (L "ds")) [L "-q"].

(** The connections come from the package, under the profile that the user selects. *)
Example C48_example : hw_reachable (e_ver (w_env (world1 false ports1))) (w_hw (world1 false ports1)) /\
  exists c', deploy (world1 false ports1) (cmd1 []) =
    (c', [ChoseProfile (e_profiles env0) (Some (L "big"));
          RanOvftool [L "-q"; L "--X:injectOvfEnv"; L "--deploymentOption=big"; L "--net:a=b"; L "--name=vm"; L "--powerOn"; L "--datastore=ds";
                      L "dir/vm.ova"; L "vi://me:secret@host1"];
          Asked QCertificate (Some true); Connected (L "host1") (L "me") (L "secret");
          Reconfigured 2 [Uri (L "telnet://:2001") false; Device (L "/dev/ttyS0")]], Ok tt).
Proof. split; [exact ports1_reachable|]. eexists. vm_compute. reflexivity. Qed.

Example C48_success_example : exists w c package keys, hw_reachable (e_ver (w_env w)) (w_hw w) /\ natural_sort (map fst (w_hw w)) = Ok keys /\
  w_force w = true /\ w_space w = true /\ (exists v, w_version w = Ok v) /\ (forall args, w_ovftool w args = Ok tt) /\
  (w_server w = Accepts \/ (w_server w = BadCertificate /\ w_retry w = Ok tt)) /\
  d_package c = Some package /\ d_hypervisor c <> None /\ d_locator c <> None /\ d_password c <> None /\
  d_serial c <> [] /\ Forall supported (d_serial c) /\
  (forall name, name_for c package name -> exists vm, In (vm, name) (w_inventory w)).
Proof.
  exists (world1 true ports1), (mkCmd (Some (L "x")) (Some (L "esxi")) (Some (L "h")) None None (Some (L "p")) false (Some (L "vm")) None
    [given "tcp" "h:1" []; given "device" "/dev/ttyS0" []; given "telnet" ":2" [(L "server", OTrue)]] None []), (L "x").
  eexists. split; [exact ports1_reachable|]. split; [vm_compute; reflexivity|]. split; [reflexivity|]. split; [reflexivity|].
  split; [eexists; reflexivity|]. split; [reflexivity|]. split; [right; split; reflexivity|]. split; [reflexivity|].
  split; [discriminate|]. split; [discriminate|]. split; [discriminate|]. split; [discriminate|]. split.
  - unfold supported. rewrite Forall_forall. intros x [<- |[<- |[<- |[]]]]; cbn; auto.
  - intros name ->. exists 2. cbn. auto.
Qed.

(** ** Expectations that do not hold *)

(** A kind of connection that cannot be made is noticed only after the VM was deployed: the
    command fails, but the VM is there (and powered on), without any serial port. *)
Theorem C48_checked_before_deployment_refuted : exists w c args before after e c', hw_reachable (e_ver (w_env w)) (w_hw w) /\
  d_serial c = [given "file" "log" [(L "datastore", OText (L "ds"))]] /\
  deploy w c = (c', before ++ RanOvftool args :: after, Err e) /\ In (L "--powerOn") args /\ (forall vm ps, ~ In (Reconfigured vm ps) after).
Proof.
  exists (world1 false ports1), (cmd1 [given "file" "log" [(L "datastore", OText (L "ds"))]]).
  eexists. exists [ChoseProfile (e_profiles env0) (Some (L "big"))]. eexists. eexists. eexists. split; [exact ports1_reachable|]. split; [reflexivity|].
  split; [vm_compute; reflexivity|]. split; [cbn; auto 10|]. intros vm ps [H|[H|[]]]; discriminate.
Qed.
Print Assumptions C48_checked_before_deployment_refuted.

(** User name, password and locator are not quoted in the target: different logins to different
    servers give the same command line. *)
Theorem C48_target_refuted : exists c inject p name package u1 p1 l1 u2 p2 l2,
  (u1, p1, l1) <> (u2, p2, l2) /\ l1 <> l2 /\
  command_line c inject p name package u1 p1 l1 = command_line c inject p name package u2 p2 l2.
Proof.
  exists (cmd1 []), false, None, (L "vm"), (L "vm.ova"), (L "me"), (L "a"), (L "b@host"), (L "me"), (L "a@b"), (L "host").
  split; [discriminate|]. split; [discriminate|]. reflexivity.
Qed.
Print Assumptions C48_target_refuted.

(** If several VMs on the server have the name, the first one listed gets the ports, whichever was
    deployed: the same run for either. *)
Theorem C48_right_vm_refuted : exists w c c' t args ports, hw_reachable (e_ver (w_env w)) (w_hw w) /\
  deploy w c = (c', t, Ok tt) /\ In (RanOvftool args) t /\ In (L "--name=vm") args /\
  In (3, L "vm") (w_inventory w) /\ In (Reconfigured 2 ports) t /\ forall ports', ~ In (Reconfigured 3 ports') t.
Proof.
  exists (world1 false ports1), (cmd1 []). do 4 eexists. split; [exact ports1_reachable|]. split; [vm_compute; reflexivity|].
  split; [cbn; auto 10|]. split; [cbn; auto 10|]. split; [cbn; auto|]. split; [cbn; auto 10|].
  intros ports' H. cbn in H. intuition discriminate.
Qed.
Print Assumptions C48_right_vm_refuted.

(** A serial port whose Address differs between profiles gets no connection, although the
    profile deployed has one. *)
Definition ports2 : hw := hw_of [cpu_item; serial_at [] "3" "telnet://:2001"; serial_at [(ITEM_CONFIG V1, L "big")] "3" "telnet://:2002"].
Theorem C48_profile_address_refuted : exists w c c' t i, hw_reachable (e_ver (w_env w)) (w_hw w) /\
  In (L "3", i) (w_hw w) /\ reports (w_env w) i ADDRESS (Some (L "big")) = Ok (Some (VStr (L "telnet://:2002"))) /\
  deploy w c = (c', t, Ok tt) /\ d_configuration c' = Some (L "big") /\ forall s u p, ~ In (Connected s u p) t.
Proof.
  exists (world1 false ports2), (cmd1 []). do 3 eexists. split.
  { unfold ports2. match goal with |- hw_reachable _ (w_hw (world1 _ (hw_of ?l))) => apply (hw_of_reachable l) end. eexists. vm_compute. reflexivity. }
  split; [vm_compute; right; left; reflexivity|]. split; [vm_compute; reflexivity|].
  split; [vm_compute; reflexivity|]. split; [reflexivity|]. intros s u p H. cbn in H. intuition discriminate.
Qed.
Print Assumptions C48_profile_address_refuted.

(** The settings are checked when they are given: only the hypervisor "esxi", and only a
    profile of the package (or none).  A refused value changes nothing. *)
Theorem C48_settings :
  (forall v c c' r, set_hypervisor v c = (c', r) ->
     (v = L "esxi" /\ r = Ok tt /\ d_hypervisor c' = Some v /\ d_configuration c' = d_configuration c
      /\ d_package c' = d_package c /\ d_locator c' = d_locator c)
     \/ (v <> L "esxi" /\ r = Err EInvalidInput /\ c' = c))
  /\ (forall profiles v c c' r, set_configuration profiles v c = (c', r) ->
     ((forall p, v = Some p -> In p profiles) /\ r = Ok tt /\ d_configuration c' = v
      /\ d_hypervisor c' = d_hypervisor c /\ d_package c' = d_package c /\ d_locator c' = d_locator c)
     \/ ((exists p, v = Some p /\ ~ In p profiles) /\ r = Err EInvalidInput /\ c' = c)).
Proof.
  split.
  - intros v c c' r H. unfold set_hypervisor in H. destruct (str_eqb v (L "esxi")) eqn:E.
    + apply str_eqb_eq in E. injection H as <- <-. left. repeat (split; [assumption || reflexivity | ]). reflexivity.
    + apply str_eqb_neq in E. injection H as <- <-. auto.
  - intros profiles v c c' r H. unfold set_configuration in H. destruct v as [p | ].
    + destruct (mem_str p profiles) eqn:E; injection H as <- <-.
      * apply mem_str_In in E. left. split; [intros q X; now injection X as <- | ]. repeat split.
      * right. split; [ | auto]. exists p. split; [reflexivity | ]. intros X. apply mem_str_In in X. congruence.
    + injection H as <- <-. left. split; [discriminate | ]. repeat split.
Qed.
Print Assumptions C48_settings.
Example C48_settings_example :
  snd (set_configuration [L "small"; L "big"] (Some (L "big")) (cmd1 [])) = Ok tt
  /\ snd (set_configuration [L "small"; L "big"] (Some (L "huge")) (cmd1 [])) = Err EInvalidInput.
Proof. vm_compute. split; reflexivity. Qed.
