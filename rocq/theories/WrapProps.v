(** C58: texts wrapped to the terminal's width. *)
From Coq Require Import List Ascii ZArith Bool.
Import ListNotations.
From Verif Require Import PyBase WrapModel WrapSpec WrapProofs.
Local Open Scope nat_scope.

(** No word of the text is lost, changed or moved, no line is empty, and every line that is
    too long holds one piece without a blank; continuation lines have their own indent. *)
Theorem C58_wrapped : forall width ini sub text, (0 < width)%Z ->
  exists bodies, wrap width ini sub text = Ok (indented ini sub bodies)
  /\ flat_map words bodies = words text
  /\ all_fit width ini sub bodies
  /\ Forall (fun b => b <> []) bodies.
Proof. exact wrap_spec. Qed.
Print Assumptions C58_wrapped.

(** Words with one blank between them are filled into lines: each line takes as many as fit. *)
Theorem C58_filled : forall width ini sub ws, (0 < width)%Z -> Forall word ws ->
  exists lines, wrap width ini sub (join (L " ") ws) = Ok lines /\ filled width sub ini ws lines.
Proof. exact wrap_filled. Qed.
Print Assumptions C58_filled.

(** The filling is determined by the words. *)
Theorem C58_determined : forall width sub ini ws lines lines', filled width sub ini ws lines -> filled width sub ini ws lines' -> lines = lines'.
Proof. exact filled_unique. Qed.
Print Assumptions C58_determined.

(** A width of zero or less (a terminal of one column) is refused. *)
Theorem C58_no_width : forall width ini sub text, (width <= 0)%Z -> wrap width ini sub text = Err EValueError.
Proof. intros width ini sub text H. unfold wrap. apply Z.leb_le in H. now rewrite H. Qed.
Print Assumptions C58_no_width.

(** What is lost are blanks: different texts give the same lines. *)
Theorem C58_blanks_refuted : exists width text text', text <> text' /\ wrap width [] [] text = wrap width [] [] text' /\
  exists lines, wrap width [] [] text = Ok lines.
Proof.
  exists 5%Z, (L "ab   cdef"), (L "ab cdef"). split; [intros X; discriminate X | ]. split; [vm_compute; reflexivity | ].
  eexists. vm_compute. reflexivity.
Qed.
Print Assumptions C58_blanks_refuted.

Example C58_example :
  wrap 20 (L "Note: ") (L "      ") (L "one two three four a-very-long-word-that-does-not-fit end")
  = Ok [L "Note: one two three"; L "      four"; L "      a-very-long-word-that-does-not-fit"; L "      end"].
Proof. vm_compute. reflexivity. Qed.
Example C58_example_words : Forall word [L "one"; L "two"].
Proof.
  assert (W : forall w, w <> [] -> forallb (fun c => negb (is_space c)) w = true -> word w).
  { intros w N H. split; [assumption | ]. rewrite forallb_forall in H. intros c Hc. specialize (H c Hc). now apply Bool.negb_true_iff. }
  repeat constructor; try (intros X; discriminate X); apply W; try (intros X; discriminate X); vm_compute; reflexivity.
Qed.
