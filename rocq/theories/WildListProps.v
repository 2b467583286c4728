(** C26: numbered name lists. *)
From Verif Require Import PyBase ValidationModel ValidationSpec WildListModel WildListSpec WildListProofs.

(** The specification determines the filled pattern and the first number. *)
Theorem C26_pattern : forall v s,
  (exists out, filled v s out /\ forall out', filled v s out' -> out' = out) /\
  (exists n, starts_at s n /\ forall n', starts_at s n' -> n' = n).
Proof.
  intros v s. split.
  - exists (fill_wildcard s v). split; [apply fill_filled|]. intros out' H. exact (filled_unique v s _ _ H (fill_filled v s)).
  - exists (first_index s). split; [apply search_starts|]. intros n' H. exact (starts_at_unique s _ _ H (search_starts s)).
Qed.
Print Assumptions C26_pattern.

(** A list that is too short keeps its names but the last; that is the pattern
    from which the missing names are numbered consecutively. *)
Theorem C26_expand : forall (given : list str) (pattern : str) n start,
  length given + 1 < n -> starts_at pattern start ->
  exists names, expand_list_wildcard (given ++ [pattern]) n = given ++ names /\
    length names = n - length given /\ numbered pattern start names.
Proof. exact expand_spec. Qed.
Print Assumptions C26_expand.

(** A list that is long enough is returned unchanged. *)
Theorem C26_long_enough : forall l n, n <= length l -> expand_list_wildcard l n = l.
Proof. exact expand_long. Qed.
Print Assumptions C26_long_enough.

Theorem C26_length : forall l n, l <> [] -> length (expand_list_wildcard l n) = Nat.max (length l) n.
Proof. exact expand_length. Qed.
Print Assumptions C26_length.

(** What is guessed expands to the given list, and it is shorter: some of the given
    names and a pattern with a wildcard. *)
Theorem C26_guess : forall known names, guess_list_wildcard known = Ok (Some names) ->
  expand_list_wildcard names (length known) = known /\
  exists i p d q, a_number d /\ i + 1 < length known /\ names = firstn i known ++ [p ++ wildcard d ++ q].
Proof. exact guess_sound. Qed.
Print Assumptions C26_guess.

(** A guess is made for every list that ends in at least two consecutively numbered
    names, if no number around the changing one has leading zeros. *)
Theorem C26_guess_found : forall (given : list str) (p q : str) n k, 2 <= k ->
  (forall s, In s (given ++ counting p q n k) -> plain_text s) ->
  ~ ends_in_digit p -> ~ starts_with_digit q -> plain_numbers p -> plain_numbers q ->
  no_wildcard p -> no_wildcard q ->
  exists names, guess_list_wildcard (given ++ counting p q n k) = Ok (Some names).
Proof. exact guess_complete. Qed.
Print Assumptions C26_guess_found.

Example C26_example :
  expand_list_wildcard [L "mgmt0"; L "eth{10}"] 4 = [L "mgmt0"; L "eth10"; L "eth11"; L "eth12"] /\
  expand_list_wildcard [L "a{7}b{3}"] 2 = [L "a7b7"; L "a8b8"] /\
  expand_list_wildcard [L "same"] 2 = [L "same"; L "same"] /\
  guess_list_wildcard [L "fake1"; L "fake2"; L "real4"; L "real5"] =
    Ok (Some [L "fake1"; L "fake2"; L "real{4}"]) /\
  guess_list_wildcard [L "foo"; L "bar"; L "baz"] = Ok None.
Proof. repeat split; reflexivity. Qed.

Example C26_found_example :
  [L "mgmt"; L "Eth1/9/0"; L "Eth1/10/0"] = [L "mgmt"] ++ counting (L "Eth1/") (L "/0") 9 2 /\
  (forall s, In s ([L "mgmt"] ++ counting (L "Eth1/") (L "/0") 9 2) -> plain_text s) /\
  ~ ends_in_digit (L "Eth1/") /\ ~ starts_with_digit (L "/0").
Proof.
  split; [reflexivity|]. split.
  - intros s [<-|[<-|[<-|[]]]] c Hc; repeat (destruct Hc as [<-|Hc]; [left; reflexivity || right; reflexivity|]) ||
      (repeat (destruct Hc as [<-|Hc]; [reflexivity|])); destruct Hc.
  - split.
    + intros (a & c & E & Hc). apply (f_equal (@rev ascii)) in E. rewrite rev_app_distr in E. cbn in E.
      injection E as <- _. discriminate.
    + intros (a & c & E & Hc). injection E as <- _. discriminate.
Qed.

(** Leading zeros defeat the guess. *)
Example C26_leading_zero : guess_list_wildcard [L "eth01"; L "eth02"] = Ok None /\
  expand_list_wildcard [L "eth0{1}"] 2 = [L "eth01"; L "eth02"].
Proof. split; reflexivity. Qed.
