(** Proofs about the options of add-disk. *)
From Coq Require Import Lia.
From Verif Require Import PyBase PyBaseProofs ValidationModel ValidationSpec ValidationProofs DiskOptModel DiskOptSpec.

Lemma no_sep : forall sep w, forallb (fun c => negb (Ascii.eqb c sep)) w = true <-> ~ In sep w.
Proof.
  intros sep w. rewrite forallb_forall. split.
  - intros H F. specialize (H _ F). now rewrite Ascii.eqb_refl in H.
  - intros H c Hc. apply negb_true_iff, Ascii.eqb_neq. intros ->. contradiction.
Qed.

Lemma split_two : forall a x y, address_parts a x y <-> exists r, split_on ":"%char a = x :: y :: r.
Proof.
  intros a x y. split.
  - intros (Hx & Hy & [-> |(rest & ->)]); apply no_sep in Hx, Hy; unfold split_on; cbn [L list_ascii_of_string app];
      rewrite split_on_aux_app by exact Hx; cbn [rev app].
    + unfold split_on. rewrite split_on_aux_last by exact Hy. eexists. reflexivity.
    + unfold split_on. rewrite split_on_aux_app by exact Hy. eexists. reflexivity.
  - intros (r & H). destruct (split_on_aux_spec ":"%char a [] eq_refl) as (H1 & H2 & _).
    unfold split_on in H. rewrite H in H1, H2. cbn [rev app] in H2. split; [|split].
    + apply no_sep, H1. now left.
    + apply no_sep, H1. right. now left.
    + destruct r as [|z r].
      * left. now rewrite <- H2.
      * right. exists (join [":"%char] (z :: r)). rewrite <- H2. reflexivity.
Qed.

Lemma split_some : forall a, In ":"%char a <-> exists x y r, split_on ":"%char a = x :: y :: r.
Proof.
  intros a. split.
  - intros H. destruct (split_on ":"%char a) as [|x [|y r]] eqn:E; [| |eauto].
    + now destruct (split_on_aux_spec ":"%char a [] eq_refl) as (_ & _ & F).
    + destruct (split_on_aux_spec ":"%char a [] eq_refl) as (H1 & H2 & _).
      unfold split_on in E. rewrite E in H1, H2. cbn in H2. subst x.
      exfalso. specialize (H1 a (or_introl eq_refl)). now apply no_sep in H1.
  - intros (x & y & r & H). assert (P : address_parts a x y) by (apply split_two; eauto).
    destruct P as (_ & _ & [-> |(rest & ->)]); rewrite !in_app_iff; right; left; now left.
Qed.

Lemma either_above_ok : forall a m b n,
  either_above a m b n = Ok false <-> exists u w, int_text a u /\ int_text b w /\ (u <= m)%Z /\ (w <= n)%Z.
Proof.
  intros a m b n. unfold either_above, int_above. split.
  - destruct (py_int a) as [u|] eqn:Ea; [|discriminate]. cbn [rbind].
    destruct (Z.ltb_spec m u); [discriminate|].
    destruct (py_int b) as [w|] eqn:Eb; [|discriminate]. destruct (Z.ltb_spec n w); [discriminate|].
    intros _. exists u, w. apply py_int_spec in Ea, Eb. auto.
  - intros (u & w & Ha & Hb & Hu & Hw). apply py_int_spec in Ha, Hb. rewrite Ha. cbn [rbind].
    destruct (Z.ltb_spec m u); [lia|]. rewrite Hb. destruct (Z.ltb_spec n w); [lia|reflexivity].
Qed.

Lemma within_split : forall a x y r m n, split_on ":"%char a = x :: y :: r ->
  (either_above x m y n = Ok false <-> within m n a).
Proof.
  intros a x y r m n E. rewrite either_above_ok. unfold within. split.
  - intros (u & w & H). exists x, y, u, w. split; [apply split_two; eauto|exact H].
  - intros (x' & y' & u & w & P & H). apply split_two in P as (r' & P). rewrite E in P. injection P as -> -> _. eauto.
Qed.

Theorem validate_valid : forall c a, validate_controller_address c a = Ok tt <-> valid_pair c a.
Proof.
  intros c a. unfold validate_controller_address, valid_pair.
  destruct c as [c|]; [|tauto]. destruct a as [a|]; [|tauto].
  rewrite split_some.
  destruct (split_on ":"%char a) as [|x [|y r]] eqn:E.
  1,2: split; [discriminate|]; intros (_ & _ & x' & y' & r' & F); discriminate.
  pose proof (within_split a x y r) as W.
  destruct (str_eqb c (L "scsi")) eqn:E1.
  - apply str_eqb_eq in E1 as ->. split.
    + intros H. destruct (either_above x 3 y 15) as [[|]|] eqn:Ei; try discriminate.
      split; [intros _; now apply W|]. split; [discriminate|eauto].
    + intros (H & _). assert (Ei : either_above x 3 y 15 = Ok false) by (apply W; auto). now rewrite Ei.
  - apply str_eqb_neq in E1. destruct (str_eqb c (L "ide")) eqn:E2.
    + apply str_eqb_eq in E2 as ->. split.
      * intros H. destruct (either_above x 1 y 1) as [[|]|] eqn:Ei; try discriminate.
        split; [discriminate|]. split; [intros _; now apply W|eauto].
      * intros (_ & H & _). assert (Ei : either_above x 1 y 1 = Ok false) by (apply W; auto). now rewrite Ei.
    + apply str_eqb_neq in E2. split; [|reflexivity]. intros _. split; [contradiction|]. split; [contradiction|eauto].
Qed.

Lemma valid_dec : forall c a, valid_pair c a \/ ~ valid_pair c a.
Proof.
  intros c a. rewrite <- validate_valid. destruct (validate_controller_address c a) as [[]|]; [now left|right; discriminate].
Qed.

Theorem assign_address : forall o a,
  (valid_pair (o_controller o) a -> assign o (Address a) = (Ok tt, mkOptions (o_image o) (o_controller o) a)) /\
  (~ valid_pair (o_controller o) a -> exists e, assign o (Address a) = (Err e, o)).
Proof.
  intros o a. cbn [assign]. unfold set_address. split.
  - intros H. apply validate_valid in H. now rewrite H.
  - intros H. destruct (validate_controller_address (o_controller o) a) as [[]|e] eqn:E; [|eauto].
    exfalso. apply H. now apply validate_valid.
Qed.
Theorem assign_controller : forall o c,
  (valid_pair c (o_address o) -> assign o (Controller c) = (Ok tt, mkOptions (o_image o) c (o_address o))) /\
  (~ valid_pair c (o_address o) -> exists e, assign o (Controller c) = (Err e, o)).
Proof.
  intros o c. cbn [assign]. unfold set_controller. split.
  - intros H. apply validate_valid in H. now rewrite H.
  - intros H. destruct (validate_controller_address c (o_address o)) as [[]|e] eqn:E; [|eauto].
    exfalso. apply H. now apply validate_valid.
Qed.

Theorem history_valid : forall l, valid_pair (o_controller (assign_all l)) (o_address (assign_all l)).
Proof.
  intros l. unfold assign_all.
  assert (G : forall l o, valid_pair (o_controller o) (o_address o) ->
    let o' := fold_left (fun o x => snd (assign o x)) l o in valid_pair (o_controller o') (o_address o')).
  { clear l. induction l as [|x l IH]; intros o H; cbn [fold_left]; [exact H|]. apply IH.
    destruct x as [c|a|b].
    - destruct (assign_controller o c) as [H1 H2]. destruct (valid_dec c (o_address o)) as [V|V].
      + rewrite (H1 V). exact V.
      + destruct (H2 V) as [e ->]. exact H.
    - destruct (assign_address o a) as [H1 H2]. destruct (valid_dec (o_controller o) a) as [V|V].
      + rewrite (H1 V). exact V.
      + destruct (H2 V) as [e ->]. exact H.
    - cbn [assign]. unfold set_image. destruct b; exact H. }
  apply G. exact I.
Qed.

Lemma digits_int : forall d z, all_digits d -> d <> [] -> int_text d z -> (0 <= z)%Z.
Proof.
  intros d z Hd Hn H. apply py_int_spec in H.
  rewrite py_int_digits in H; [injection H as <-; lia|now apply forallb_forall|exact Hn].
Qed.

Theorem checked_within : forall s a m n, device_address s = Ok a -> within m n a ->
  exists x y u w, a = x ++ L ":" ++ y /\ int_text x u /\ int_text y w /\ (0 <= u <= m)%Z /\ (0 <= w <= n)%Z.
Proof.
  intros s a m n H (x & y & u & w & P & Hu & Hw & Hm & Hn).
  apply device_address_spec in H as [_ (p & q & -> & Hp & Hq & Dp & Dq)].
  assert (Q : address_parts (p ++ L ":" ++ q) p q).
  { split; [|split; [|now left]]; intros F; [specialize (Dp _ F)|specialize (Dq _ F)]; discriminate. }
  apply split_two in P as (r & P). apply split_two in Q as (r' & Q). rewrite P in Q. injection Q as -> -> _.
  exists p, q, u, w. pose proof (digits_int p u Dp Hp Hu). pose proof (digits_int q w Dq Hq Hw).
  split; [reflexivity|]. split; [exact Hu|]. split; [exact Hw|]. lia.
Qed.

(** There is an image exactly if one could be opened. *)
Lemma image_history : forall l, o_image (assign_all l) = true <-> In (Image true) l.
Proof.
  intros l. unfold assign_all. assert (G : forall l o, o_image (fold_left (fun o x => snd (assign o x)) l o) = true <-> o_image o = true \/ In (Image true) l).
  { clear l. induction l as [|x l IH]; intros o; cbn [fold_left In]; [tauto|]. rewrite IH.
    assert (S : o_image (snd (assign o x)) = true <-> o_image o = true \/ x = Image true).
    { destruct x as [c|a|[]]; cbn [assign].
      - unfold set_controller. destruct (validate_controller_address c (o_address o)); cbn; split; [tauto|intros [H|H]; [exact H|discriminate H]|tauto|intros [H|H]; [exact H|discriminate H]].
      - unfold set_address. destruct (validate_controller_address (o_controller o) a); cbn; split; [tauto|intros [H|H]; [exact H|discriminate H]|tauto|intros [H|H]; [exact H|discriminate H]].
      - cbn. tauto.
      - cbn. split; [tauto|intros [H|H]; [exact H|discriminate H]]. }
    rewrite S. tauto. }
  rewrite G. cbn. split; [intros [H|H]; [discriminate H|exact H]|tauto].
Qed.
