(** Property theorems C35: questions to the user. *)
From Verif Require Import PyBase PyBaseProofs ValidationSpec ChooseModel ChooseSpec ChooseProofs.

(** The choice is what the first acceptable line selects: the line itself if it is
    the default or an option, else the only option starting with it, else the option
    with that number.  Lines before it selected nothing. *)
Theorem C35_choice : forall options default typed r,
  choose_from_list false options default typed = Some r <->
  exists before t input after, typed = before ++ t :: after /\
    entered default t input /\ selects options default input r /\
    forall t' input' r', In t' before -> entered default t' input' -> ~ selects options default input' r'.
Proof. exact choose_spec. Qed.
Print Assumptions C35_choice.

(** It keeps asking exactly as long as no line selects anything. *)
Theorem C35_waits : forall options default typed,
  choose_from_list false options default typed = None <->
  forall t input r, In t typed -> entered default t input -> ~ selects options default input r.
Proof. exact choose_waits. Qed.
Print Assumptions C35_waits.

(** The result is the default or an option, and the default when not asking. *)
Theorem C35_range : forall force options default typed r,
  choose_from_list force options default typed = Some r -> r = default \/ In r options.
Proof. exact choose_range. Qed.
Print Assumptions C35_range.
Theorem C35_force : forall options default t typed,
  choose_from_list true options default (t :: typed) = Some default.
Proof. exact choose_force. Qed.
Print Assumptions C35_force.

(** Each option is shown with its number, and that number selects it unless the
    default or an option starts with the number. *)
Theorem C35_number_shown : forall options default a o b header footer,
  let number := dec (N.of_nat (length a) + 1) in
  options = a ++ o :: b ->
  nth_error (choose_prompt header footer options []) (length a + 1) = Some (pad2 number ++ L ") " ++ strip o) /\
  ((forall x, In x (default :: options) -> ~ has_prefix number x) -> selects options default number o).
Proof. exact number_shown. Qed.
Print Assumptions C35_number_shown.

(** A number that was never shown can select an option: "0" selects the last one. *)
Theorem C35_unlisted_number_refuted : exists options default,
  choose_from_list false options default [L "0"] = Some (L "CSR 4 CPUs") /\
  choose_prompt [] (L "?") options [] = [[]; L " 1) IOSv"; L " 2) CSR 4 CPUs"; L "?"].
Proof. exists [L "IOSv"; L "CSR 4 CPUs"], (L "IOSv"). vm_compute. auto. Qed.
Print Assumptions C35_unlisted_number_refuted.

(** A question is answered by the first line that is, apart from blanks, empty, y or
    Y (yes) or n or N (no). *)
Theorem C35_confirm : forall typed b, cli_confirm false typed = Some b <->
  exists before t after, typed = before ++ t :: after /\
    means (if b then [[]; L "y"; L "Y"] else [L "n"; L "N"]) t /\
    forall t', In t' before -> ~ means [[]; L "y"; L "Y"; L "n"; L "N"] t'.
Proof. exact confirm_spec. Qed.
Print Assumptions C35_confirm.

(** Non-vacuity. *)
Example C35_choice_case :
  map (fun typed => choose_from_list false [L "4CPU-4GB"; L "1CPU-1GB"; L "2CPU-2GB"; L "1CPU-3GB"] (L "4CPU-4GB") typed)
    [[L ""]; [L "2CPU"]; [L "1CPU"; L "1CPU-1GB"]; [L "x"; L "9"; L "3"]; [L " 3"]; [L "x"]] =
    [Some (L "4CPU-4GB"); Some (L "2CPU-2GB"); Some (L "1CPU-1GB"); Some (L "2CPU-2GB"); Some (L "2CPU-2GB"); None].
Proof. vm_compute. reflexivity. Qed.
Example C35_number_case :
  selects [L "a"; L "b"; L "c"] (L "a") (L "2") (L "b") /\
  choose_prompt (L "h") (L "f") [L "a"; L "b"; L "c"] [] = [L "h"; L " 1) a"; L " 2) b"; L " 3) c"; L "f"].
Proof.
  split; [|vm_compute; reflexivity].
  apply (proj2 (C35_number_shown [L "a"; L "b"; L "c"] (L "a") [L "a"] (L "b") [L "c"] [] [] eq_refl)).
  intros x H (t & ->). cbn in H. repeat destruct H as [H|H]; try discriminate; destruct H.
Qed.
Example C35_confirm_case : cli_confirm false [L "maybe"; L " n "] = Some false /\ cli_confirm false [L "yes"; L ""] = Some true.
Proof. vm_compute. auto. Qed.
