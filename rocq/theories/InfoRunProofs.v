(** Proofs about the command [cot info]. *)
From Coq Require Import List ZArith Bool Lia.
Import ListNotations.
From Verif Require Import PyBase PyBaseProofs ItemModel InfoModel InfoProfileProofs InfoRunModel InfoRunSpec.
Local Open Scope nat_scope.

Section Run.
Variable open_package : str -> result (env * info_vm).
Variable pretty_text : str -> result str.
Variable wrap_hyphens : Z -> str -> str -> str -> result (list str).
Let text width verb p := (do m <- open_package p; info_string (fst m) pretty_text wrap_hyphens (snd m) width verb).
Let rep := reported open_package pretty_text wrap_hyphens.

Lemma reported_iff : forall width verb p x, rep width verb p x <->
  match text width verb p with Ok s => x = Printed s | Err EVMInitError => x = Complained p | Err _ => False end.
Proof.
  intros width verb p x. unfold text. split.
  - intros H. destruct H as [E m t Ho Hi | Ho | E m Ho Hi]; rewrite Ho; cbn [rbind fst snd]; [rewrite Hi | | rewrite Hi]; reflexivity.
  - destruct (open_package p) as [[E m] | e] eqn:O; cbn [rbind fst snd].
    + destruct (info_string E pretty_text wrap_hyphens m width verb) as [t | e] eqn:I.
      * intros ->. eapply Described; eauto.
      * destruct e; try contradiction. intros ->. eapply Unreadable_inside; eauto.
    + destruct e; try contradiction. intros ->. now apply Unreadable.
Qed.
Definition gap (first : bool) : list seen := if first then [] else [Printed []].
(** what comes when some has been shown already *)
Fixpoint spread (first : bool) (l : list seen) : list seen :=
  match l with [] => [] | x :: l' => gap first ++ x :: spread false l' end.
Lemma spread_apart : forall l, spread true l = apart l.
Proof.
  intros [ | x l]; [reflexivity | ]. cbn [spread gap app]. revert x. induction l as [ | y l IH]; intros x; [reflexivity | ].
  cbn [spread gap app]. rewrite IH. reflexivity.
Qed.
Lemma show_spec : forall width verb l first out r, show_all open_package pretty_text wrap_hyphens width verb first l = (out, r) ->
  (r = Ok tt /\ exists os, Forall2 (rep width verb) l os /\ out = spread first os)
  \/ exists A p B e os, l = A ++ p :: B /\ Forall2 (rep width verb) A os /\ text width verb p = Err e /\ e <> EVMInitError /\ r = Err e
       /\ out = spread first os ++ gap (first && match A with [] => true | _ => false end).
Proof.
  intros width verb l. induction l as [ | p l IH]; intros first out r H; cbn [show_all] in H.
  - injection H as <- <-. left. split; [reflexivity | ]. exists []. split; [constructor | reflexivity].
  - assert (G : forall x, rep width verb p x ->
      (let (o, r0) := show_all open_package pretty_text wrap_hyphens width verb false l in (gap first ++ x :: o, r0)) = (out, r) ->
      (r = Ok tt /\ exists os, Forall2 (rep width verb) (p :: l) os /\ out = spread first os)
      \/ exists A p' B e os, p :: l = A ++ p' :: B /\ Forall2 (rep width verb) A os /\ text width verb p' = Err e /\ e <> EVMInitError /\ r = Err e
           /\ out = spread first os ++ gap (first && match A with [] => true | _ => false end)).
    { intros x Rx Hx. destruct (show_all open_package pretty_text wrap_hyphens width verb false l) as [o r0] eqn:S. injection Hx as <- <-.
      destruct (IH false o r0 S) as [[-> (os & F & ->)] | (A & p' & B & e & os & -> & F & T & N & -> & ->)].
      - left. split; [reflexivity | ]. exists (x :: os). split; [now constructor | reflexivity].
      - right. exists (p :: A), p', B, e, (x :: os). split; [reflexivity | ]. split; [now constructor | ]. split; [exact T | ].
        split; [exact N | ]. split; [reflexivity | ]. rewrite andb_false_r. cbn [spread andb]. rewrite <- app_assoc. reflexivity. }
    fold (text width verb p) in H. pose proof (reported_iff width verb p) as RI. destruct (text width verb p) as [s | e] eqn:T.
    + apply (G (Printed s)); [now apply RI | exact H].
    + destruct (exn_eq_dec e EVMInitError) as [-> | N].
      * apply (G (Complained p)); [now apply RI | exact H].
      * right. exists [], p, l, e, []. split; [reflexivity | ]. split; [constructor | ]. split; [exact T | ]. split; [exact N | ].
        rewrite andb_true_r. cbn [spread app]. destruct e; try (now destruct N); injection H as <- <-; split; reflexivity.
Qed.
Theorem run_spec : forall terminal c out r, run_info open_package pretty_text wrap_hyphens terminal c = (out, r) ->
  let l := match ic_packages c with Some l => l | None => [] end in
  (l = [] /\ out = [] /\ r = Err EInvalidInput)
  \/ (l <> [] /\ r = Ok tt /\ exists os, Forall2 (rep (terminal - 1) (ic_verbosity c)) l os /\ out = apart os)
  \/ exists A p B e os, l = A ++ p :: B /\ Forall2 (rep (terminal - 1) (ic_verbosity c)) A os
       /\ (open_package p = Err e \/ exists E m, open_package p = Ok (E, m) /\ info_string E pretty_text wrap_hyphens m (terminal - 1) (ic_verbosity c) = Err e)
       /\ e <> EVMInitError /\ r = Err e /\ (A = [] -> out = []) /\ (A <> [] -> out = apart os ++ [Printed []]).
Proof.
  intros terminal c out r H l. unfold run_info, info_ready in H.
  assert (H' : (l = [] /\ out = [] /\ r = Err EInvalidInput) \/ (l <> [] /\ show_all open_package pretty_text wrap_hyphens (terminal - 1) (ic_verbosity c) true l = (out, r))).
  { unfold l. destruct (ic_packages c) as [[ | x y] | ].
    - left. injection H as <- <-. now split.
    - right. split; [discriminate | exact H].
    - left. injection H as <- <-. now split. }
  clear H. destruct H' as [H | [N0 H]]; [now left | right].
  apply show_spec in H as [[-> (os & F & ->)] | (A & p & B & e & os & E & F & T & N & -> & ->)].
  - left. split; [exact N0 | ]. split; [reflexivity | ]. exists os. split; [exact F | apply spread_apart].
  - right. exists A, p, B, e, os. split; [exact E | ]. split; [exact F | ]. split.
    { unfold text in T. destruct (open_package p) as [[E' m] | e']; cbn [rbind fst snd] in T; [right; now exists E', m | left; congruence]. }
    split; [exact N | ]. split; [reflexivity | ]. rewrite spread_apart. split.
    + intros ->. inversion F. reflexivity.
    + intros NA. destruct A; [now destruct NA | reflexivity].
Qed.
End Run.
