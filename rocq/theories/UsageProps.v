(** C63: how the command line interface shows usage, examples and questions. *)
From Coq Require Import List Ascii String ZArith Lia Bool.
Import ListNotations.
From Verif Require Import PyBase WrapSpec InfoMoreSpec UsageModel UsageSpec UsageReProofs UsageProofs UsageWrapProofs UsageTextProofs.
Local Open Scope nat_scope.
Local Open Scope list_scope.

(** ** Usage *)
(** The first line is about --help; then every usage string is shown, in order. *)
Theorem C63_usage : forall width sub us text, fill_usage width sub us = Ok text ->
  exists ls, text = join [NL] (([NL] ++ L "  cot " ++ sub ++ L " --help") :: concat ls)
    /\ Forall2 (usage_shown width (L "  cot <opts> " ++ sub)) us ls.
Proof. exact fill_usage_spec. Qed.
Print Assumptions C63_usage.

(** It is shown for every width, unless some usage string is blank. *)
Theorem C63_usage_total : forall width sub us,
  (Forall (fun u => ~ no_ink u) us -> exists text, fill_usage width sub us = Ok text)
  /\ (Exists no_ink us -> fill_usage width sub us = Err EValueError).
Proof. exact fill_usage_total. Qed.
Print Assumptions C63_usage_total.

(** The description of the parts and of their layout leaves nothing open. *)
Theorem C63_usage_determined : forall width prefix u lines lines', usage_shown width prefix u lines -> usage_shown width prefix u lines' -> lines = lines'.
Proof.
  intros width prefix u lines lines' (gs & i & P & N & S1 & S2 & H) (gs' & i' & P' & N' & S1' & S2' & H').
  pose proof (usage_parts_unique _ _ _ P P'). subst gs'.
  assert (D : all_short width prefix gs \/ ~ all_short width prefix gs).
  { pose proof (all_short_longest width prefix gs N) as [A B].
    destruct (Z_lt_dec (WrapModel.zlen prefix + Z.of_nat (InfoModel.longest gs)) width); [left | right]; auto. }
  assert (i = i') by (destruct D as [D | D]; [rewrite (S1 D), (S1' D) | rewrite (S2 D), (S2' D)]; reflexivity). subst i'.
  exact (laid_unique _ _ _ _ _ _ _ H _ H').
Qed.
Print Assumptions C63_usage_determined.

(** Nothing visible is lost, added or reordered. *)
Theorem C63_usage_complete : forall width prefix u lines, usage_shown width prefix u lines -> ink (concat lines) = ink prefix ++ ink u.
Proof. exact usage_shown_ink. Qed.
Print Assumptions C63_usage_complete.

(** If every part fits behind the subcommand, no line is too long. *)
Theorem C63_usage_fits : forall width prefix u lines, usage_shown width prefix u lines ->
  (forall gs, usage_parts u gs -> all_short width prefix gs) -> Forall (fun l => (len l <= width)%Z) lines.
Proof. exact usage_shown_width. Qed.
Print Assumptions C63_usage_fits.

(** A line that is too long is the bare command, or a single part. *)
Theorem C63_usage_long : forall width prefix u lines, usage_shown width prefix u lines -> forall line, In line lines ->
  (len line <= width)%Z \/ line = prefix \/ exists gs g, usage_parts u gs /\ In g gs /\ line = spaces 5 ++ L " " ++ g.
Proof. exact usage_shown_long. Qed.
Print Assumptions C63_usage_long.

(** Every usage string and every example has parts, and only one way to be taken apart. *)
Theorem C63_parts : forall s, (exists! gs, usage_parts s gs) /\ (exists! gs, example_parts s gs).
Proof.
  intros s. split.
  - exists (usage_groups s). split; [apply usage_groups_parts | ]. intros gs H. exact (usage_parts_unique _ _ _ (usage_groups_parts s) H).
  - exists (example_params s). split; [apply example_params_parts | ]. intros gs H. exact (example_parts_unique _ _ _ (example_params_parts s) H).
Qed.
Print Assumptions C63_parts.

(** ** Examples *)
Theorem C63_examples : forall width l, (4 <= width)%Z -> exists blocks,
  fill_examples width l = Ok (join [NL] (L "Examples:" :: blank_between blocks)) /\ Forall2 (block_shown width) l blocks.
Proof. exact fill_examples_spec. Qed.
Print Assumptions C63_examples.

(** A terminal of one column shows no examples at all. *)
Theorem C63_examples_narrow : forall width x l, (width <= 1)%Z -> fill_examples width (x :: l) = Err EValueError.
Proof. exact fill_examples_narrow. Qed.
Print Assumptions C63_examples_narrow.

(** A one-line example that is copied to a shell, which joins the lines that end with a
    backslash, has the same words as the example. *)
Theorem C63_example_words : forall width example gs lines, example_parts example gs ->
  laid width (L " \") (spaces 7) false (spaces 3) gs lines ->
  exists rows, lines = continued rows /\ flat_map words rows = words example.
Proof. exact example_pasted. Qed.
Print Assumptions C63_example_words.

Theorem C63_example_fits : forall width gs lines, (7 <= width)%Z -> laid (width - 4) (L " \") (spaces 7) false (spaces 3) gs lines ->
  forall line, In line lines -> (len line <= width - 2)%Z \/ exists g, In g gs /\ (line = spaces 8 ++ g \/ line = spaces 8 ++ g ++ L " \").
Proof. exact example_fits. Qed.
Print Assumptions C63_example_fits.

Theorem C63_layout_determined : forall width ending indent b start gs lines, laid width ending indent b start gs lines ->
  forall lines', laid width ending indent b start gs lines' -> lines = lines'.
Proof. exact laid_unique. Qed.
Print Assumptions C63_layout_determined.

(** ** Questions *)
Theorem C63_question : forall width prompt, (2 <= width)%Z -> exists lines blocks,
  confirm_prompt width prompt = Ok (join [NL] (concat blocks) ++ L " [y] ")
  /\ lines_of prompt lines /\ Forall2 (cut_wrapped (width - 1) []) lines blocks.
Proof. exact prompt_spec. Qed.
Print Assumptions C63_question.

Theorem C63_question_narrow : forall width prompt, (width <= 1)%Z -> prompt <> [] -> confirm_prompt width prompt = Err EValueError.
Proof. exact prompt_narrow. Qed.
Print Assumptions C63_question_narrow.

(** ** What does not hold *)
(** Expected: a usage string that says nothing is shown as the bare command. *)
Theorem C63_blank_usage_refuted : forall width, fill_usage width (L "info") [[]] = Err EValueError.
Proof. intros. reflexivity. Qed.
Print Assumptions C63_blank_usage_refuted.

(** Expected: parameters in nested brackets stay together.  They are taken apart after the
    first closing bracket. *)
Theorem C63_nested_refuted : usage_parts (L "[-a [B] -c D]") [L "[-a [B]"; L "-c D]"]
  /\ fill_usage 20 (L "info") [L "[-a [B] -c D]"] =
       Ok (join [NL] [L ""; L "  cot info --help"; L "  cot <opts> info"; L "      [-a [B] -c D]"])
  /\ fill_usage 25 (L "info") [L "[-a [B] -c D]"] =
       Ok (join [NL] [L ""; L "  cot info --help"; L "  cot <opts> info [-a [B]"; L "                  -c D]"]).
Proof. split; [exact (usage_groups_parts (L "[-a [B] -c D]")) | ]. split; vm_compute; reflexivity. Qed.
Print Assumptions C63_nested_refuted.

(** Expected: a quoted value stays with its option.  It is taken apart at its blanks, and
    several blanks become one. *)
Theorem C63_quoted_refuted : exists text, fill_examples 80 [(L "Describe", L "cot x -d ""a  b""")] = Ok text
  /\ contains (L "cot x -d ""a b""") text = true /\ contains (L "a  b") text = false
  /\ example_parts (L "-d ""a b""") [L "-d ""a"; L "b"""].
Proof.
  eexists. split; [vm_compute; reflexivity | ]. split; [vm_compute; reflexivity | ]. split; [vm_compute; reflexivity | ].
  exact (example_params_parts (L "-d ""a b""")).
Qed.
Print Assumptions C63_quoted_refuted.

(** Expected: the blank lines of a question are shown. *)
Theorem C63_blank_lines_refuted : forall width, (2 <= width)%Z ->
  confirm_prompt width (L "a" ++ [NL; NL] ++ L "b") = confirm_prompt width (L "a" ++ [NL] ++ L "b").
Proof.
  intros width H. unfold confirm_prompt. change (InfoModel.splitlines (L "a" ++ [NL; NL] ++ L "b")) with [L "a"; []; L "b"].
  change (InfoModel.splitlines (L "a" ++ [NL] ++ L "b")) with [L "a"; L "b"]. cbn [InfoModel.each].
  assert (E : wrap_break (wrap_fuel []) (width - 1) [] [] [] = Ok []).
  { unfold wrap_break. assert (E : (width - 1 <=? 0)%Z = false) by (apply Z.leb_gt; lia). rewrite E. reflexivity. }
  rewrite E. destruct (wrap_break (wrap_fuel (L "a")) (width - 1) [] [] (L "a")); [ | reflexivity].
  cbn [rbind]. destruct (wrap_break (wrap_fuel (L "b")) (width - 1) [] [] (L "b")); reflexivity.
Qed.
Print Assumptions C63_blank_lines_refuted.

(** Expected: wrapping ends.  On a terminal of two columns a description that begins with a
    blank is never wrapped, however many steps are allowed. *)
Theorem C63_endless_refuted : forall fuel, wrap_break fuel (2 - 1) (L "  ") (L "  ") (L " x") = Err EOutOfFuel.
Proof. exact wrap_hangs. Qed.
Print Assumptions C63_endless_refuted.

(** Expected: the first part stays with the command.  If it is too long, the first line has
    only a backslash. *)
Theorem C63_bare_backslash_refuted : fill_examples 20 [(L "Long", L "cot-of-some-other-place info")] =
  Ok (join [NL] [L "Examples:"; L "  Long"; L ""; L "    \"; L "        cot-of-some-other-place \"; L "        info"]).
Proof. vm_compute. reflexivity. Qed.
Print Assumptions C63_bare_backslash_refuted.

(** ** Concrete cases: the examples of the documentation *)
Example C63_usage_example : fill_usage 50 (L "add-file") [L "FILE PACKAGE [-o OUTPUT] [-f FILE_ID]"] =
  Ok (join [NL] [L ""; L "  cot add-file --help";
                 L "  cot <opts> add-file FILE PACKAGE [-o OUTPUT]";
                 L "                      [-f FILE_ID]"]).
Proof. vm_compute. reflexivity. Qed.
Example C63_short_indent_example : fill_usage 30 (L "add-file") [L "FILE PACKAGE [-o OUTPUT] [-f FILE_ID]"] =
  Ok (join [NL] [L ""; L "  cot add-file --help";
                 L "  cot <opts> add-file FILE";
                 L "      PACKAGE [-o OUTPUT]";
                 L "      [-f FILE_ID]"]).
Proof. vm_compute. reflexivity. Qed.
Example C63_fits_example : forall gs, usage_parts (L "FILE PACKAGE [-o OUTPUT] [-f FILE_ID]") gs -> all_short 50 (L "  cot <opts> add-file") gs.
Proof.
  intros gs H. rewrite (usage_parts_unique _ _ _ H (usage_groups_parts _)). intros g I. vm_compute in I.
  repeat (destruct I as [<- | I]; [vm_compute; reflexivity | ]). contradiction.
Qed.
Example C63_examples_example : fill_examples 68
  [(L "Deploy to vSphere/ESXi server 192.0.2.100 with credentials admin/admin, creating a VM named 'test_vm' from foo.ova.",
    L "cot deploy foo.ova esxi 192.0.2.100 -u admin -p admin -n test_vm");
   (L "Deploy to vSphere/ESXi server 192.0.2.100, with username admin (prompting the user to input a password at runtime), creating a VM based on profile '1CPU-2.5GB' in foo.ova.",
    L "cot deploy foo.ova esxi 192.0.2.100 -u admin -c 1CPU-2.5GB")] =
  Ok (join [NL]
    [L "Examples:";
     L "  Deploy to vSphere/ESXi server 192.0.2.100 with credentials";
     L "  admin/admin, creating a VM named 'test_vm' from foo.ova.";
     L "";
     L "    cot deploy foo.ova esxi 192.0.2.100 -u admin -p admin \";
     L "        -n test_vm";
     L "";
     L "  Deploy to vSphere/ESXi server 192.0.2.100, with username admin";
     L "  (prompting the user to input a password at runtime), creating a";
     L "  VM based on profile '1CPU-2.5GB' in foo.ova.";
     L "";
     L "    cot deploy foo.ova esxi 192.0.2.100 -u admin -c 1CPU-2.5GB"]).
Proof. vm_compute. reflexivity. Qed.
Example C63_question_example : confirm_prompt 20 (L "Replace the old file?" ++ [NL] ++ L "It is-very-old-and-cannot-be-got-back") =
  Ok (join [NL] [L "Replace the old"; L "file?"; L "It is-very-old-and-"; L "cannot-be-got-back"] ++ L " [y] ").
Proof. vm_compute. reflexivity. Qed.
