(** Proofs about item.py:583-648: what is reported for a set of profiles. *)
From Coq Require Import Lia.
From Verif Require Import PyBase PyBaseProofs PyDict PyDictProofs XmlModel NamesModel
  ItemModel ItemSpec PsetProofs ItemProofs ItemSetProofs ItemProfileProofs.

(** The value of [p] in the rest of the dictionary when [def] is the default so far. *)
Definition pending (d : vdict) (def : option value) (p : profile) (v : value) : Prop :=
  own_d d p v \/ ((forall w, ~ own_d d p w) /\
    (own_d d None v \/ ((forall w, ~ own_d d None w) /\ def = Some v))).

Lemma own_d_cons : forall v s (d : vdict) p w,
  own_d ((v, s) :: d) p w <-> (w = v /\ In p s) \/ own_d d p w.
Proof.
  intros v s d p w. split.
  - intros (t & [H|H] & Hp); [injection H as <- <-; now left|]. right. now exists t.
  - intros [[-> H]|(t & Ht & Hp)]; [exists s; split; [now left|exact H]|].
    exists t. split; [now right|exact Hp].
Qed.

Definition fine (d : vdict) : Prop :=
  NoDup (map fst d) /\ (forall v s, In (v, s) d -> In None s -> s = [None]) /\
  (forall v s w t p, In (v, s) d -> In (w, t) d -> In p s -> In p t -> v = w).

Lemma good_fine : forall d, good_values d -> fine d.
Proof.
  intros d (H1 & H2 & H3). split; [exact H1|]. split; [|exact H3].
  intros v s Hs. now apply (H2 v s).
Qed.
Lemma fine_tail : forall e d, fine (e :: d) -> fine d.
Proof.
  intros e d (H1 & H2 & H3). split; [|split].
  - cbn in H1. now inversion H1.
  - intros v s Hs. apply (H2 v s). now right.
  - intros v s w t p Hs Ht. apply (H3 v s w t p); now right.
Qed.
Lemma fine_head : forall v s d w p, fine ((v, s) :: d) -> In p s -> ~ own_d d p w.
Proof.
  intros v s d w p (H1 & _ & H3) Hp (t & Ht & Hp').
  assert (v = w) as -> by (apply (H3 v s w t p); [now left|now right|exact Hp|exact Hp']).
  cbn in H1. inversion H1 as [|a b Hn _]; subst. apply Hn. apply in_map_iff. now exists (w, t).
Qed.

Lemma raw_loop_forward : forall d P def v, fine d ->
  raw_loop d P def = Some v -> forall p, In p P -> pending d def p v.
Proof.
  induction d as [|[u s] d IH]; intros P def v F H p Hp; cbn [raw_loop] in H.
  - right. assert (N : forall p w, ~ own_d [] p w) by (intros q w (t & [] & _)).
    split; [intros w; apply N|]. right. split; [intros w; apply N|exact H].
  - destruct (psubset P s) eqn:E1.
    + injection H as <-. left. apply own_d_cons. left. split; [reflexivity|].
      rewrite psubset_spec in E1. now apply E1.
    + apply fine_tail in F as Ft. destruct (pmem None s) eqn:E2.
      * apply pmem_In in E2.
        assert (s = [None]) as -> by (destruct F as (_ & F & _); apply (F u s); [now left|exact E2]).
        specialize (IH P (Some u) v Ft H p Hp). unfold pending in *. rewrite own_d_cons.
        destruct p as [x|].
        -- destruct IH as [IH|(H1 & IH)]; [left; now right|]. right. split.
           { intros w. rewrite own_d_cons. intros [[_ [?|[]]]|Hw]; [discriminate|now apply (H1 w)]. }
           rewrite own_d_cons. destruct IH as [IH|(_ & IH)]; [left; now right|].
           injection IH as ->. left. left. split; [reflexivity|now left].
        -- left. destruct IH as [IH|(_ & [IH|(_ & IH)])]; [now right|now right|].
           injection IH as ->. left. split; [reflexivity|now left].
      * apply pmem_false in E2. destruct (is_nil (pinter s P)) eqn:E3; [|discriminate].
        assert (Hs : forall q, In q P -> ~ In q s).
        { intros q Hq Hs. apply (proj1 (is_nil_pinter s P) E3 q Hs Hq). }
        specialize (IH P def v Ft H p Hp). unfold pending in *. rewrite !own_d_cons.
        destruct IH as [IH|(H1 & IH)]; [left; now right|]. right. split.
        { intros w. rewrite own_d_cons. intros [[_ Hw]|Hw]; [now apply (Hs p)|now apply (H1 w)]. }
        destruct IH as [IH|(H2 & IH)]; [left; now right|]. right. split; [|exact IH].
        intros w. rewrite own_d_cons. intros [[_ Hw]|Hw]; [contradiction|now apply (H2 w)].
Qed.

Lemma raw_loop_backward : forall d P def v, fine d -> P <> [] ->
  (forall w, def = Some w -> ~ In w (map fst d)) ->
  (forall p, In p P -> pending d def p v) -> raw_loop d P def = Some v.
Proof.
  induction d as [|[u s] d IH]; intros P def v F HP Hdef H; cbn [raw_loop].
  - destruct P as [|p P]; [contradiction|].
    destruct (H p (or_introl eq_refl)) as [(t & [] & _)|(_ & [(t & [] & _)|(_ & E)])]. exact E.
  - apply fine_tail in F as Ft.
    destruct (psubset P s) eqn:E1.
    + rewrite psubset_spec in E1. destruct P as [|p P]; [contradiction|].
      assert (Hp : In p s) by (apply E1; now left).
      destruct (H p (or_introl eq_refl)) as [Ho|(Hn & _)].
      * apply own_d_cons in Ho as [[-> _]|Ho]; [reflexivity|].
        exfalso. exact (fine_head u s d v p F Hp Ho).
      * exfalso. apply (Hn u). apply own_d_cons. now left.
    + destruct (pmem None s) eqn:E2.
      * apply pmem_In in E2.
        assert (s = [None]) as -> by (destruct F as (_ & F & _); apply (F u s); [now left|exact E2]).
        apply IH; [exact Ft|exact HP| |].
        { intros w E. injection E as <-. destruct F as (F & _). cbn in F. now inversion F. }
        assert (Hnn : forall w, ~ own_d d None w).
        { intros w. apply (fine_head u [None] d w None F). now left. }
        intros p Hp. specialize (H p Hp). unfold pending in *. rewrite !own_d_cons in H.
        destruct p as [x|].
        -- destruct H as [[[_ [?|[]]]|Ho]|(H1 & H2)]; [discriminate|now left|]. right. split.
           { intros w Hw. apply (H1 w). apply own_d_cons. now right. }
           destruct H2 as [[[-> _]|Ho]|(H2 & _)].
           ++ right. split; [exact Hnn|reflexivity].
           ++ now left.
           ++ exfalso. apply (H2 u). apply own_d_cons. left. split; [reflexivity|now left].
        -- right. split; [exact Hnn|]. right. split; [exact Hnn|].
           destruct H as [[[-> _]|Ho]|(H1 & _)]; [reflexivity|now apply Hnn in Ho|].
           exfalso. apply (H1 u). apply own_d_cons. left. split; [reflexivity|now left].
      * apply pmem_false in E2. destruct (is_nil (pinter s P)) eqn:E3.
        -- assert (Hs : forall q, In q P -> ~ In q s).
           { intros q Hq Hs. apply (proj1 (is_nil_pinter s P) E3 q Hs Hq). }
           apply IH; [exact Ft|exact HP| |].
           { intros w E Hw. apply (Hdef w E). now right. }
           intros p Hp. specialize (H p Hp). unfold pending in *. rewrite !own_d_cons in H.
           destruct H as [[[_ H]|H]|(H1 & H)]; [now apply Hs in H|now left|]. right. split.
           { intros w Hw. apply (H1 w). apply own_d_cons. now right. }
           destruct H as [[[_ H]|H]|(H2 & H)]; [contradiction|now left|]. right. split; [|exact H].
           intros w Hw. apply (H2 w). apply own_d_cons. now right.
        -- exfalso.
           assert (Ex : exists q, In q s /\ In q P).
           { destruct (pinter s P) as [|q l] eqn:El; [discriminate|]. exists q.
             apply pinter_In. rewrite El. now left. }
           destruct Ex as (q & Hqs & HqP).
           assert (v = u) as ->.
           { destruct (H q HqP) as [Ho|(Hn & _)].
             - apply own_d_cons in Ho as [[-> _]|Ho]; [reflexivity|].
               exfalso. exact (fine_head u s d v q F Hqs Ho).
             - exfalso. apply (Hn u). apply own_d_cons. now left. }
           assert (Nk : forall r, ~ own_d d r u).
           { intros r (t & Ht & _). destruct F as (F & _). cbn in F. inversion F as [|a b Hn _]; subst.
             apply Hn. apply in_map_iff. now exists (u, t). }
           assert (Sub : psubset P s = true); [|congruence].
           apply psubset_spec. intros p Hp.
           destruct (H p Hp) as [Ho|(_ & [Ho|(_ & Hd)])].
           ++ apply own_d_cons in Ho as [[_ Ho]|Ho]; [exact Ho|now apply Nk in Ho].
           ++ apply own_d_cons in Ho as [[_ Ho]|Ho]; [contradiction|now apply Nk in Ho].
           ++ exfalso. apply (Hdef u Hd). now left.
Qed.

(** A value is reported for a set of profiles when it holds under each of them. *)
Theorem get_raw_set : forall ver ps n P v, good_props ver ps -> P <> [] ->
  (get_raw ps n (Some P) = Some v <-> forall p, In p P -> holds ps n p v).
Proof.
  intros ver ps n P v G HP. assert (Hnd : NoDup (map fst ps)) by apply G.
  unfold get_raw. destruct (prget n ps) as [d|] eqn:Ed.
  - assert (F : fine d) by (apply good_fine; exact (good_dict ver ps n d G Ed)).
    assert (Hh : forall p, pending d None p v <-> holds ps n p v).
    { intros p. unfold pending, holds. rewrite !(own_Some ps n d) by assumption.
      assert (Hq : (forall w, ~ own_d d p w) <-> (forall w, ~ own ps n p w)).
      { split; intros H w; specialize (H w); now rewrite (own_Some ps n d) in *. }
      rewrite Hq. split; [|tauto]. intros [H|(H1 & [H|(_ & H)])]; [now left|tauto|discriminate]. }
    split.
    + intros H p Hp. apply Hh. now apply (raw_loop_forward d P None v F H).
    + intros H. apply raw_loop_backward; [exact F|exact HP|discriminate|].
      intros p Hp. apply Hh. now apply H.
  - cbn. split; [discriminate|]. intros H. destruct P as [|p P]; [contradiction|].
    destruct (H p (or_introl eq_refl)) as [H1|(_ & H1)]; now apply own_None in H1.
Qed.
