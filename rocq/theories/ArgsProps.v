(** C64: what is typed reaches the command. *)
From Coq Require Import List Ascii String ZArith Lia Bool.
Import ListNotations.
From Verif Require Import PyBase PyDict CliModel ArgsModel ArgsSpec ArgsProofs.
Local Open Scope nat_scope.
Local Open Scope list_scope.

(** ** Verbosity *)
(** With [v] times -v and [q] times -q exactly these messages are seen. *)
Theorem C64_verbosity : forall v q s, logged (adjust_verbosity (v - q)) (level s) = true <-> seen (v - q) s.
Proof. intros v q s. exact (verbosity_spec (v - q) s). Qed.
Print Assumptions C64_verbosity.

Theorem C64_fields : forall v q f, In f (log_fields (adjust_verbosity (v - q))) <-> match least f with None => True | Some n => (n <= v - q)%Z end.
Proof. intros v q f. exact (fields_spec (v - q) f). Qed.
Print Assumptions C64_fields.

(** ** Starting a command *)
(** A known command is started, with the verbosity asked for, and without questions if --force
    was given or input or output is not a terminal. *)
Theorem C64_starts : forall l stdin stdout args force v q command p, NoDup (flat_map full_names l) ->
  parsed args force v q command -> parser_named l command p ->
  exists calls, begin_main (create_subparsers l) (parse_args stdin stdout args) =
    Ok (mkStarted (force || negb (stdin && stdout)) (adjust_verbosity (v - q)) p calls).
Proof.
  intros l stdin stdout args force v q command p N P C.
  apply (proj2 (lookup_grow l N)) in C.
  destruct (begin_spec _ _ _ _ _ _ _ (parse_parsed stdin stdout _ _ _ _ _ P) C) as (d & _ & E). eexists. exact E.
Qed.
Print Assumptions C64_starts.

(** The command has exactly the attributes that were given on the command line. *)
Theorem C64_delivered : forall g args force v q command b, parsed args force v q command -> begin_main g args = Ok b ->
  (forall n n' v0 v1, given args n v0 -> given args n' v1 -> upper_start n -> upper_start n' -> lower n = lower n' -> n = n') ->
  forall a x, dget str_eqb a (attributes (b_calls b)) = Some x <-> intended args a x.
Proof.
  intros g args force v q command b P H U a x.
  assert (E : exists p, dget str_eqb command (g_lookup g) = Some p).
  { destruct P as (N & F & V & Q & C & NE). apply (in_get _ _ _ _ N) in F, V, Q, C. unfold begin_main, number in H.
    rewrite F, V, Q, C in H. cbn [rbind] in H. destruct command as [ | c s]; [now elim NE | ].
    destruct (dget str_eqb (c :: s) (g_lookup g)) as [p | ]; [now exists p | discriminate H]. }
  destruct E as (p & E). destruct (begin_spec _ _ _ _ _ _ _ P E) as (d & D & B). rewrite H in B. apply InfoProfileProofs.ok_inj in B. subst b.
  cbn [b_calls]. apply delivered; [apply P | exact D | exact U].
Qed.
Print Assumptions C64_delivered.

(** Mandatory arguments are set before all options. *)
Theorem C64_mandatory_first : forall d, exists A B, set_calls d = A ++ B
  /\ (forall a x, In (a, x) A -> exists n, upper_start n /\ a = lower n /\ In (n, x) d)
  /\ (forall a x, In (a, x) B -> ~ upper_start a /\ In (a, x) d).
Proof.
  intros d. eexists _, _. split; [reflexivity | ]. split; intros a x I.
  - apply in_map_iff in I as ([n y] & E & I). injection E as <- <-. apply filter_In in I as [I M]. apply andb_true_iff in M as [M _].
    exists n. split; [now apply mandatory_spec | ]. auto.
  - apply filter_In in I as [I M]. apply andb_true_iff in M as [_ M]. apply andb_true_iff in M as [M _]. split; [ | exact I].
    rewrite <- mandatory_spec. cbn [fst] in M. apply negb_true_iff in M. congruence.
Qed.
Print Assumptions C64_mandatory_first.

(** Without a command nothing is started. *)
Theorem C64_no_command : forall g args force v q x, NoDup (map fst args) -> In (L "_force", VTruth force) args ->
  In (L "_verbosity", VNumber v) args -> In (L "_quietude", VNumber q) args -> In (L "_subcommand", x) args -> (x = VNone \/ x = VText []) ->
  begin_main g args = Err ESystemExit.
Proof.
  intros g args force v q x N F V Q C X. apply (in_get _ _ _ _ N) in F, V, Q, C. unfold begin_main, number. rewrite F, V, Q, C.
  destruct X as [-> | ->]; reflexivity.
Qed.
Print Assumptions C64_no_command.

(** ** Names *)
(** Whatever commands there are, if their names differ: a name is accepted on the command line
    exactly if it is a title or an alias of a command, and it leads to this command. *)
Theorem C64_names : forall l, NoDup (flat_map full_names l) -> (forall r, In r l -> r_nested r = false -> r_prefix r = []) ->
  forall s p, (dget str_eqb s (g_accepted (create_subparsers l)) = Some p <-> command_named l s p)
    /\ (dget str_eqb s (g_lookup (create_subparsers l)) = Some p <-> parser_named l s p).
Proof.
  intros l N P. cut (forall s p, dget str_eqb s (g_accepted (create_subparsers l)) = Some p <-> command_named l s p).
  { intros H s p. split; [apply H | apply (proj2 (lookup_grow l N))]. }
  apply accepted_grow. induction l as [ | r l IH]; [constructor | ]. cbn [flat_map] in N. cbn [filter].
  assert (P' : forall r0, In r0 l -> r_nested r0 = false -> r_prefix r0 = []) by (intros; apply P; [now right | assumption]).
  assert (N' : NoDup (flat_map full_names l)). { clear - N. induction (full_names r); [exact N | ]. inversion N. auto. }
  specialize (IH N' P'). destruct (r_nested r) eqn:E; cbn [negb]; [exact IH | ]. cbn [flat_map].
  assert (F : full_names r = names r). { unfold full_names. rewrite (P r (or_introl eq_refl) E). apply map_id. }
  rewrite F in N. destruct (nodup_app _ _ _ N) as [_ DJ].
  assert (NR : NoDup (names r)). { apply nodup_app in N. apply N. }
  assert (DJ2 : forall x, In x (names r) -> ~ In x (flat_map names (filter (fun r0 => negb (r_nested r0)) l))).
  { intros x I J. apply (DJ x I). apply in_flat_map in J as (r0 & J & K). apply filter_In in J as [J NJ]. apply in_flat_map. exists r0.
    split; [exact J | ]. unfold full_names. rewrite (P' r0 J); [now rewrite map_id | now apply negb_true_iff]. }
  clear - NR DJ2 IH. induction (names r) as [ | n ns IHn]; [exact IH | ]. inversion NR as [ | ? ? A B]; subst. cbn [app]. constructor.
  - intros I. apply in_app_or in I. destruct I as [I | I]; [contradiction | ]. apply (DJ2 n); [now left | exact I].
  - apply IHn; [exact B | ]. intros x I. apply DJ2. now right.
Qed.
Print Assumptions C64_names.

(** The names of COT's commands differ, *)
Theorem C64_cot_names : NoDup (flat_map full_names commands) /\ (forall r, In r commands -> r_nested r = false -> r_prefix r = []).
Proof.
  split.
  - assert (H : forall l : list str, forallb (fun x => Nat.eqb (List.length (filter (str_eqb x) l)) 1) l = true -> NoDup l).
    { intros l. assert (G : forall x m, In x m -> 1 <= List.length (filter (str_eqb x) m)).
      { intros x m I. induction m as [ | y m IH]; [contradiction | ]. cbn. destruct I as [-> | I]; [rewrite eqb_refl; cbn; lia | ].
        specialize (IH I). destruct (str_eqb x y); cbn; lia. }
      assert (K : forall m, (forall x, In x m -> List.length (filter (str_eqb x) m) <= 1) -> NoDup m).
      { induction m as [ | y m IH]; intros B; [constructor | ]. constructor.
        - intros I. specialize (B y (or_introl eq_refl)). cbn in B. rewrite eqb_refl in B. cbn in B. specialize (G y m I). lia.
        - apply IH. intros x I. specialize (B x (or_intror I)). cbn in B. destruct (str_eqb x y); cbn in B; lia. }
      intros B. apply K. intros x I. rewrite forallb_forall in B. specialize (B x I). apply Nat.eqb_eq in B. lia. }
    apply H. vm_compute. reflexivity.
  - intros r I. unfold commands in I. repeat (destruct I as [<- | I]; [cbn; (reflexivity || discriminate) | ]). contradiction.
Qed.
Print Assumptions C64_cot_names.

(** they are these and no others, *)
Theorem C64_cot_words : forall s t,
  ((exists p, dget str_eqb s (g_accepted (create_subparsers commands)) = Some p /\ titled p t) <-> In (s, t) cot_words) /\
  ((exists p, dget str_eqb s (g_lookup (create_subparsers commands)) = Some p /\ titled p t) <-> In (s, t) (cot_words ++ deploy_words)).
Proof. intros s t. split; [exact (ArgsProofs.accepted_words s t) | exact (ArgsProofs.lookup_words s t)]. Qed.
Print Assumptions C64_cot_words.

(** so every command that the parser accepts is started, under any of its names. *)
Theorem C64_cot_starts : forall stdin stdout args force v q command p, parsed args force v q command ->
  dget str_eqb command (g_accepted (create_subparsers commands)) = Some p ->
  exists calls, begin_main (create_subparsers commands) (parse_args stdin stdout args) =
    Ok (mkStarted (force || negb (stdin && stdout)) (adjust_verbosity (v - q)) p calls).
Proof.
  intros stdin stdout args force v q command p P A. destruct C64_cot_names as [N R]. apply C64_starts with (command := command); [exact N | exact P | ].
  apply (proj1 (C64_names commands N R command p)) in A. destruct A as (r & E & NN & I). exists r. split; [exact E | ].
  unfold full_names. rewrite (R r (nth_error_In _ _ E) NN). now rewrite map_id.
Qed.
Print Assumptions C64_cot_starts.

(** cot help: every name of a command is understood, anything else is refused. *)
Theorem C64_help : forall l s, NoDup (flat_map full_names l) -> s <> [] ->
  (forall p, parser_named l s p -> help (create_subparsers l) (Some s) = Ok (Some p))
  /\ ((forall p, ~ parser_named l s p) -> help (create_subparsers l) (Some s) = Err EInvalidInput)
  /\ help (create_subparsers l) None = Ok None.
Proof.
  intros l s N NE. destruct (lookup_grow l N) as [_ G]. unfold help, dmem.
  change (g_lookup (create_subparsers l)) with (g_lookup (grow l (mkRegistry 0 [] []))).
  destruct (dget str_eqb s (g_lookup (grow l (mkRegistry 0 [] [])))) as [p0 | ] eqn:E.
  - split; [ | split; [ | reflexivity]].
    + intros p P. apply G in P. rewrite E in P. injection P as ->. now destruct s.
    + intros X. apply G in E. now elim (X p0).
  - split; [ | split; reflexivity]. intros p P. apply G in P. congruence.
Qed.
Print Assumptions C64_help.

(** ** What does not hold *)
(** Expected: cot help understands the names of commands.  It knows deploy-esxi, which is no
    command, and not the name esxi that is typed after deploy. *)
Theorem C64_help_refuted : help (create_subparsers commands) (Some (L "deploy-esxi")) = Ok (Some 3)
  /\ (forall p, ~ command_named commands (L "deploy-esxi") p)
  /\ help (create_subparsers commands) (Some (L "esxi")) = Err EInvalidInput.
Proof.
  split; [reflexivity | ]. split; [ | reflexivity]. intros p H. destruct C64_cot_names as [N R].
  apply (proj1 (C64_names commands N R (L "deploy-esxi") p)) in H. vm_compute in H. discriminate H.
Qed.
Print Assumptions C64_help_refuted.

(** Expected: the options of cot itself are not attributes of the command.  The number of -q
    is: every command gets it. *)
Theorem C64_quietude_refuted : forall args force v q command, parsed args force v q command -> intended args (L "_quietude") (VNumber q).
Proof.
  intros args force v q command (N & F & V & Q & C & NE). left. exists (VNumber q). split.
  - split; [exact Q | ]. split; [discriminate | ]. cbn [In]. intros [X | [X | [X | [X | []]]]]; discriminate X.
  - split; [ | apply other; discriminate]. intros (c & s & E & A). injection E as <- _. vm_compute in A. destruct A as [_ A]. now elim A.
Qed.
Print Assumptions C64_quietude_refuted.

(** ** A concrete case: cot -v edit-hardware x.ovf -N a b -N c, output into a pipe *)
Definition typed : namespace :=
  [(L "_force", VTruth false); (L "_quietude", VNumber 0); (L "_verbosity", VNumber 1); (L "_subcommand", VText (L "edit-hardware"));
   (L "PACKAGE", VText (L "x.ovf")); (L "output", VNone);
   (L "nic_networks", VList [VList [VText (L "a"); VText (L "b")]; VList [VText (L "c")]]); (L "instance", VCommand)].
Example C64_typed : parsed typed false 1 0 (L "edit-hardware").
Proof.
  split; [ | cbn; intuition discriminate].
  assert (H : map fst typed = map fst typed) by reflexivity. unfold typed. cbn [map fst].
  repeat (constructor; [cbn [In]; intros X; repeat (destruct X as [X | X]; [discriminate X | ]); exact X | ]). constructor.
Qed.
Example C64_typed_case : begin_main (create_subparsers commands) (parse_args true false typed) =
  Ok (mkStarted true 20 4 [(L "package", VText (L "x.ovf")); (L "_quietude", VNumber 0);
                            (L "nic_networks", VList [VText (L "a"); VText (L "b"); VText (L "c")])]).
Proof. vm_compute. reflexivity. Qed.
Example C64_typed_unambiguous : forall n n' v0 v1, given typed n v0 -> given typed n' v1 -> upper_start n -> upper_start n' -> lower n = lower n' -> n = n'.
Proof.
  assert (H : forall n v0, given typed n v0 -> upper_start n -> n = L "PACKAGE").
  { intros n v0 (I & _) U. apply mandatory_spec in U. unfold typed in I.
    repeat (destruct I as [I | I]; [injection I as <- <-; (reflexivity || discriminate U) | ]). contradiction. }
  intros n n' v0 v1 A B C D _. now rewrite (H n v0 A C), (H n' v1 B D).
Qed.
