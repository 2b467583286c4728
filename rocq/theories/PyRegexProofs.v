(** Characterisation of the regular-expression engine: [mt r s t] is the
    declarative relation "r can match a prefix of s leaving t". *)
From Verif Require Import PyBase PyRegex PyBaseProofs.
From Coq Require Import Lia.

Inductive mt : re -> str -> str -> Prop :=
| mt_eps s : mt REps s s
| mt_chr p c t : p c = true -> mt (RChr p) (c :: t) t
| mt_seq a b s t u : mt a s t -> mt b t u -> mt (RSeq a b) s u
| mt_altl a b s t : mt a s t -> mt (RAlt a b) s t
| mt_altr a b s t : mt b s t -> mt (RAlt a b) s t
| mt_star0 a s : mt (RStar a) s s
| mt_starS a s t u : mt a s t -> length t < length s -> mt (RStar a) t u -> mt (RStar a) s u
| mt_lazy0 a s : mt (RLazy a) s s
| mt_lazyS a s t u : mt a s t -> length t < length s -> mt (RLazy a) t u -> mt (RLazy a) s u
| mt_group n a s t : mt a s t -> mt (RGroup n a) s t
| mt_end0 : mt REnd [] []
| mt_endnl : mt REnd [NL] [NL].

Lemma mt_length : forall r s t, mt r s t -> length t <= length s.
Proof. induction 1; cbn in *; lia. Qed.

(** The number of steps of a repetition is bounded by the input. *)
Lemma star_run_complete : forall (f : st -> list st) (lazy : bool)
  (R : str -> str -> Prop),
  (forall s g t, R s t -> exists g', In (mkst t g') (f (mkst s g))) ->
  forall fuel s g t u,
  length s <= fuel -> R s t -> length t < length s ->
  (forall g1, exists g2, In (mkst u g2) (star_run f lazy (pred fuel) (mkst t g1))) ->
  exists g', In (mkst u g') (star_run f lazy fuel (mkst s g)).
Proof.
  intros f lazy R HR fuel s g t u Hf Hst Hlt H.
  destruct fuel as [|k]; [lia|]. cbn [pred] in H.
  destruct (HR s g t Hst) as [g1 H1].
  destruct (H g1) as [g2 H2].
  exists g2. cbn [star_run].
  assert (Hin : In (mkst u g2)
    (flat_map (fun s' => if Nat.ltb (length (rest s')) (length (rest (mkst s g)))
                         then star_run f lazy k s' else []) (f (mkst s g)))).
  { apply in_flat_map. exists (mkst t g1). split; [exact H1|]. cbn [rest].
    apply Nat.ltb_lt in Hlt. rewrite Hlt. exact H2. }
  destruct lazy; [right; exact Hin|apply in_or_app; left; exact Hin].
Qed.

Lemma star_run_fuel : forall f lazy fuel1 fuel2 s,
  length (rest s) <= fuel1 -> length (rest s) <= fuel2 ->
  star_run f lazy fuel1 s = star_run f lazy fuel2 s.
Proof.
  intros f lazy. induction fuel1 as [|k IH]; intros fuel2 s H1 H2.
  - assert (rest s = []) by (destruct (rest s); cbn in *; [reflexivity|lia]).
    destruct fuel2 as [|k2]; [reflexivity|]. cbn [star_run].
    assert (E : flat_map (fun s' => if Nat.ltb (length (rest s')) (length (rest s))
                   then star_run f lazy k2 s' else []) (f s) = []).
    { rewrite H. cbn [length]. induction (f s) as [|x l IHl]; [reflexivity|].
      cbn [flat_map]. rewrite IHl.
      destruct (length (rest x)); reflexivity. }
    rewrite E. destruct lazy; reflexivity.
  - destruct fuel2 as [|k2].
    + assert (rest s = []) by (destruct (rest s); cbn in *; [reflexivity|lia]).
      cbn [star_run].
      assert (E : flat_map (fun s' => if Nat.ltb (length (rest s')) (length (rest s))
                   then star_run f lazy k s' else []) (f s) = []).
      { rewrite H. cbn [length]. induction (f s) as [|x l IHl]; [reflexivity|].
        cbn [flat_map]. rewrite IHl.
        destruct (length (rest x)); reflexivity. }
      rewrite E. destruct lazy; reflexivity.
    + cbn [star_run].
      assert (E : flat_map (fun s' => if Nat.ltb (length (rest s')) (length (rest s))
                   then star_run f lazy k s' else []) (f s) =
                  flat_map (fun s' => if Nat.ltb (length (rest s')) (length (rest s))
                   then star_run f lazy k2 s' else []) (f s)).
      { induction (f s) as [|x l IHl]; [reflexivity|].
        cbn [flat_map]. rewrite IHl. f_equal.
        destruct (Nat.ltb_spec (length (rest x)) (length (rest s))) as [Hx|Hx]; [|reflexivity].
        apply IH; lia. }
      rewrite E. reflexivity.
Qed.

Lemma star_run_sound : forall a (lazy : bool),
  (forall s x, In x (run a s) -> mt a (rest s) (rest x)) ->
  forall fuel s x, In x (star_run (run a) lazy fuel s) ->
  mt (if lazy then RLazy a else RStar a) (rest s) (rest x).
Proof.
  intros a lazy Ha. induction fuel as [|k IH]; intros s x H.
  - cbn in H. destruct H as [<-|[]]. destruct lazy; constructor.
  - cbn [star_run] in H.
    assert (Hc : x = s \/ In x (flat_map (fun s' =>
        if Nat.ltb (length (rest s')) (length (rest s))
        then star_run (run a) lazy k s' else []) (run a s))).
    { destruct lazy.
      - destruct H as [<-|H]; [now left|now right].
      - apply in_app_or in H as [H|[<-|[]]]; [now right|now left]. }
    destruct Hc as [->|Hc]; [destruct lazy; constructor|].
    apply in_flat_map in Hc as (y & Hy & Hx).
    destruct (Nat.ltb_spec (length (rest y)) (length (rest s))) as [Hlt|Hlt]; [|contradiction].
    specialize (IH y x Hx). specialize (Ha s y Hy).
    destruct lazy; econstructor; eauto.
Qed.

Lemma run_sound : forall r s x, In x (run r s) -> mt r (rest s) (rest x).
Proof.
  induction r as [p| |a IHa b IHb|a IHa b IHb|a IHa|a IHa|n a IHa|]; intros s x H; cbn [run] in H.
  - destruct (rest s) as [|c t] eqn:E; [contradiction|].
    destruct (p c) eqn:Ep; [|contradiction]. destruct H as [<-|[]]. cbn.
    now constructor.
  - destruct H as [<-|[]]. constructor.
  - apply in_flat_map in H as (y & Hy & Hx). econstructor; eauto.
  - apply in_app_or in H as [H|H]; [now apply mt_altl, IHa|now apply mt_altr, IHb].
  - now apply (star_run_sound a false IHa) in H.
  - now apply (star_run_sound a true IHa) in H.
  - apply in_map_iff in H as (y & <- & Hy). cbn. constructor. now apply IHa.
  - destruct (rest s) as [|c [|d t]] eqn:E; [| |contradiction].
    + destruct H as [<-|[]]. rewrite E. constructor.
    + destruct (Ascii.eqb_spec c NL) as [->|]; [|contradiction].
      destruct H as [<-|[]]. rewrite E. constructor.
Qed.

Lemma star_run_self : forall f lazy fuel s, In s (star_run f lazy fuel s).
Proof.
  intros f lazy [|k] s; cbn; [now left|].
  destruct lazy; [now left|apply in_or_app; right; now left].
Qed.

Lemma star_run_self_ex : forall f lazy fuel s g,
  exists g', In (mkst s g') (star_run f lazy fuel (mkst s g)).
Proof. intros. exists g. apply star_run_self. Qed.

Lemma star_complete : forall a (lazy : bool),
  (forall s t, mt a s t -> forall g, exists g', In (mkst t g') (run a (mkst s g))) ->
  forall n s u, length s <= n ->
  mt (if lazy then RLazy a else RStar a) s u ->
  forall fuel g, length s <= fuel ->
  exists g', In (mkst u g') (star_run (run a) lazy fuel (mkst s g)).
Proof.
  intros a lazy Ha. induction n as [|n IH]; intros s u Hn H fuel g Hf.
  - assert (length s = 0) by lia. destruct lazy; inversion H; subst; try lia;
      apply star_run_self_ex.
  - assert (Hc : u = s \/ exists t, mt a s t /\ length t < length s /\
        mt (if lazy then RLazy a else RStar a) t u).
    { destruct lazy; inversion H; subst; eauto 6. }
    destruct Hc as [->|(t & H1 & H2 & H3)]; [apply star_run_self_ex|].
    apply (star_run_complete (run a) lazy (mt a)) with (t := t); auto.
    intros g1. apply IH; [lia|exact H3|lia].
Qed.

Lemma run_complete : forall r s t, mt r s t ->
  forall g, exists g', In (mkst t g') (run r (mkst s g)).
Proof.
  induction r as [p| |a IHa b IHb|a IHa b IHb|a IHa|a IHa|n a IHa|]; intros s t H g; cbn [run].
  - inversion H; subst. cbn. exists g. rewrite H1. now left.
  - inversion H; subst. exists g. now left.
  - inversion H; subst. destruct (IHa _ _ H2 g) as [g1 H6].
    destruct (IHb _ _ H5 g1) as [g2 H7]. exists g2.
    apply in_flat_map. eauto.
  - inversion H; subst.
    + destruct (IHa _ _ H4 g) as [g1 ?]. exists g1. apply in_or_app. now left.
    + destruct (IHb _ _ H4 g) as [g1 ?]. exists g1. apply in_or_app. now right.
  - cbn [rest]. apply (star_complete a false IHa (length s)); auto.
  - cbn [rest]. apply (star_complete a true IHa (length s)); auto.
  - inversion H; subst. destruct (IHa _ _ H4 g) as [g1 H5].
    eexists. apply in_map_iff. exists (mkst t g1). split; [reflexivity|exact H5].
  - inversion H; subst; cbn; exists g; now left.
Qed.

Theorem re_test_spec : forall r s,
  re_test r s = true <-> exists t, mt r s t.
Proof.
  intros r s. unfold re_test, re_match. split.
  - destruct (run r (mkst s [])) as [|x l] eqn:E; [discriminate|]. intros _.
    exists (rest x). apply (run_sound r (mkst s []) x). rewrite E. now left.
  - intros [t H]. destruct (run_complete r s t H []) as [g' Hin].
    destruct (run r (mkst s [])); [contradiction|reflexivity].
Qed.

Lemma re_match_none : forall r s,
  re_match r s = None <-> ~ exists t, mt r s t.
Proof.
  intros r s. pose proof (re_test_spec r s) as H. unfold re_test in H.
  destruct (re_match r s); split; intros H1; try congruence.
  - exfalso. apply H1. now apply H.
  - intros H2. apply H in H2. discriminate.
Qed.

(** ** Inversion of [mt] for the usual building blocks *)

Lemma mt_eps_inv : forall s t, mt REps s t <-> t = s.
Proof. intros. split; [now inversion 1|intros ->; constructor]. Qed.

Lemma mt_chr_inv : forall p s t, mt (RChr p) s t <-> exists c, s = c :: t /\ p c = true.
Proof.
  intros. split.
  - inversion 1; subst; eauto.
  - intros (c & -> & H). now constructor.
Qed.

Lemma mt_seq_inv : forall a b s u, mt (RSeq a b) s u <-> exists t, mt a s t /\ mt b t u.
Proof.
  intros. split.
  - inversion 1; subst; eauto.
  - intros (t & H1 & H2). econstructor; eauto.
Qed.

Lemma mt_alt_inv : forall a b s u, mt (RAlt a b) s u <-> mt a s u \/ mt b s u.
Proof.
  intros. split.
  - inversion 1; subst; eauto.
  - intros [H|H]; [now apply mt_altl|now apply mt_altr].
Qed.

Lemma mt_group_inv : forall n a s u, mt (RGroup n a) s u <-> mt a s u.
Proof. intros. split; [now inversion 1|now constructor]. Qed.

Lemma mt_end_inv : forall s t, mt REnd s t <-> t = s /\ (s = [] \/ s = [NL]).
Proof.
  intros. split.
  - inversion 1; auto.
  - intros [-> [->| ->]]; constructor.
Qed.

Lemma mt_star_chr : forall p s t,
  mt (RStar (RChr p)) s t <-> exists w, s = w ++ t /\ forallb p w = true.
Proof.
  intros p s t. split.
  - remember (RStar (RChr p)) as r eqn:Er. intros H. revert Er.
    induction H; intros Er; try discriminate.
    + exists []. now split.
    + injection Er as ->. apply mt_chr_inv in H as (c & -> & Hc).
      destruct (IHmt2 eq_refl) as (w & -> & Hw).
      exists (c :: w). cbn. rewrite Hc. now split.
  - intros (w & -> & Hw). induction w as [|c w IH]; cbn in *.
    + constructor.
    + apply andb_true_iff in Hw as [Hc Hw].
      econstructor; [now constructor|cbn; lia|auto].
Qed.

Lemma mt_lazy_star : forall a s t, mt (RLazy a) s t <-> mt (RStar a) s t.
Proof.
  intros a s t. split.
  - remember (RLazy a) as r eqn:Er. intros H. revert Er.
    induction H; intros Er; try discriminate; [constructor|].
    injection Er as ->. econstructor; eauto.
  - remember (RStar a) as r eqn:Er. intros H. revert Er.
    induction H; intros Er; try discriminate; [constructor|].
    injection Er as ->. econstructor; eauto.
Qed.

Lemma mt_plus_chr : forall p s t,
  mt (RPlus (RChr p)) s t <-> exists w, s = w ++ t /\ forallb p w = true /\ w <> [].
Proof.
  intros p s t. unfold RPlus. rewrite mt_seq_inv. split.
  - intros (u & H1 & H2). apply mt_chr_inv in H1 as (c & -> & Hc).
    apply mt_star_chr in H2 as (w & -> & Hw).
    exists (c :: w). cbn. rewrite Hc. repeat split; [assumption|discriminate].
  - intros (w & -> & Hw & Hn). destruct w as [|c w]; [contradiction|].
    cbn in Hw. apply andb_true_iff in Hw as [Hc Hw].
    exists (w ++ t). split; [now constructor|]. apply mt_star_chr. eauto.
Qed.

Lemma mt_lit_inv : forall c s t, mt (RLit c) s t <-> s = c :: t.
Proof.
  intros. unfold RLit. rewrite mt_chr_inv. split.
  - intros (d & -> & H). apply Ascii.eqb_eq in H. now subst.
  - intros ->. exists c. split; [reflexivity|apply Ascii.eqb_refl].
Qed.

Lemma mt_str_inv : forall w s t, mt (RStr w) s t <-> s = w ++ t.
Proof.
  induction w as [|c w IH]; intros s t; cbn [RStr].
  - rewrite mt_eps_inv. cbn. split; congruence.
  - rewrite mt_seq_inv. split.
    + intros (u & H1 & H2). apply mt_lit_inv in H1. apply IH in H2. now subst.
    + intros ->. exists (w ++ t). split; [now apply mt_lit_inv|now apply IH].
Qed.

Lemma mt_stri_inv : forall w s t,
  mt (RStrI w) s t <-> exists v, s = v ++ t /\ lower v = lower w.
Proof.
  induction w as [|c w IH]; intros s t; cbn [RStrI].
  - rewrite mt_eps_inv. split.
    + intros ->. exists []. now split.
    + intros (v & -> & H). destruct v; [reflexivity|discriminate].
  - rewrite mt_seq_inv. unfold RLitI. split.
    + intros (u & H1 & H2). apply mt_chr_inv in H1 as (d & -> & Hd).
      apply IH in H2 as (v & -> & Hv). apply Ascii.eqb_eq in Hd.
      exists (d :: v). cbn. rewrite Hd. split; [reflexivity|]. f_equal. exact Hv.
    + intros (v & -> & H). destruct v as [|d v]; [discriminate|].
      cbn in H. injection H as H1 H2. exists (v ++ t). split.
      * apply mt_chr_inv. exists d. split; [reflexivity|]. rewrite H1. apply Ascii.eqb_refl.
      * apply IH. eauto.
Qed.

Lemma mt_rep_chr : forall p n s t,
  mt (RRep n (RChr p)) s t <-> exists w, s = w ++ t /\ forallb p w = true /\ length w = n.
Proof.
  intros p n. induction n as [|n IH]; intros s t; cbn [RRep].
  - rewrite mt_eps_inv. split.
    + intros ->. exists []. auto.
    + intros (w & -> & _ & H). destruct w; [reflexivity|discriminate].
  - rewrite mt_seq_inv. split.
    + intros (u & H1 & H2). apply mt_chr_inv in H1 as (c & -> & Hc).
      apply IH in H2 as (w & -> & Hw & Hl). exists (c :: w). cbn.
      rewrite Hc, Hl. auto.
    + intros (w & -> & Hw & Hl). destruct w as [|c w]; [discriminate|].
      cbn in Hw, Hl. apply andb_true_iff in Hw as [Hc Hw].
      exists (w ++ t). split; [now constructor|]. apply IH. exists w. auto.
Qed.

(** ** Ordered results, for captures *)

(** [run] of a greedy class repetition: longest first. *)
Lemma run_star_chr : forall p a b g,
  forallb p a = true -> (forall c t, b = c :: t -> p c = false) ->
  run (RStar (RChr p)) (mkst (a ++ b) g) =
  rev (map (fun i => mkst (skipn i a ++ b) g) (seq 0 (S (length a)))).
Proof.
  intros p a b g Ha Hb. cbn [run rest].
  assert (G : forall fuel a, forallb p a = true -> length a <= fuel ->
    star_run (run (RChr p)) false fuel (mkst (a ++ b) g) =
    rev (map (fun i => mkst (skipn i a ++ b) g) (seq 0 (S (length a))))).
  { clear a Ha. induction fuel as [|k IH]; intros a Ha Hl.
    - destruct a; [reflexivity|cbn in Hl; lia].
    - destruct a as [|c a].
      + cbn. destruct b as [|c t]; [reflexivity|]. now rewrite (Hb c t eq_refl).
      + cbn in Ha. apply andb_true_iff in Ha as [Hc Ha].
        cbn [star_run run rest app]. rewrite Hc. cbn [flat_map rest caps].
        assert (E : Nat.ltb (length (a ++ b)) (length (c :: a ++ b)) = true)
          by (apply Nat.ltb_lt; cbn; lia).
        rewrite E, app_nil_r.
        cbn in Hl. rewrite IH by (auto; lia).
        cbn [length]. change (seq 0 (S (S (length a)))) with (0 :: seq 1 (S (length a))).
        cbn [map rev]. rewrite <- (seq_shift (S (length a)) 0), map_map. reflexivity. }
  apply G; [exact Ha|]. rewrite app_length. lia.
Qed.

(** [run] of a lazy class repetition: shortest first. *)
Lemma run_lazy_chr : forall p a b g,
  forallb p a = true -> (forall c t, b = c :: t -> p c = false) ->
  run (RLazy (RChr p)) (mkst (a ++ b) g) =
  map (fun i => mkst (skipn i a ++ b) g) (seq 0 (S (length a))).
Proof.
  intros p a b g Ha Hb. cbn [run rest].
  assert (G : forall fuel a, forallb p a = true -> length a <= fuel ->
    star_run (run (RChr p)) true fuel (mkst (a ++ b) g) =
    map (fun i => mkst (skipn i a ++ b) g) (seq 0 (S (length a)))).
  { clear a Ha. induction fuel as [|k IH]; intros a Ha Hl.
    - destruct a; [reflexivity|cbn in Hl; lia].
    - destruct a as [|c a].
      + cbn. destruct b as [|c t]; [reflexivity|]. now rewrite (Hb c t eq_refl).
      + cbn in Ha. apply andb_true_iff in Ha as [Hc Ha].
        cbn [star_run run rest app]. rewrite Hc. cbn [flat_map rest caps].
        assert (E : Nat.ltb (length (a ++ b)) (length (c :: a ++ b)) = true)
          by (apply Nat.ltb_lt; cbn; lia).
        rewrite E, app_nil_r.
        cbn in Hl. rewrite IH by (auto; lia).
        cbn [length].
        cbn [length]. change (seq 0 (S (S (length a)))) with (0 :: seq 1 (S (length a))).
        cbn [map]. rewrite <- (seq_shift (S (length a)) 0), map_map. reflexivity. }
  apply G; [exact Ha|]. rewrite app_length. lia.
Qed.

(** Longest prefix in a class. *)
Fixpoint span (p : ascii -> bool) (s : str) : str * str :=
  match s with
  | c :: t => if p c then let (a, b) := span p t in (c :: a, b) else ([], s)
  | [] => ([], [])
  end.

Lemma span_spec : forall p s a b, span p s = (a, b) ->
  s = a ++ b /\ forallb p a = true /\ (forall c t, b = c :: t -> p c = false).
Proof.
  intros p. induction s as [|c s IH]; intros a b H; cbn in H.
  - injection H as <- <-. repeat split. discriminate.
  - destruct (p c) eqn:E.
    + destruct (span p s) as [a' b']. injection H as <- <-.
      destruct (IH a' b' eq_refl) as (-> & H1 & H2). cbn. rewrite E. auto.
    + injection H as <- <-. repeat split. intros d t H. now injection H as <- _.
Qed.

(** First success of a sequence of alternatives. *)
Lemma flat_map_first : forall (A B : Type) (f : A -> list B) l1 x l2 y ys,
  (forall z, In z l1 -> f z = []) -> f x = y :: ys ->
  exists ys', flat_map f (l1 ++ x :: l2) = y :: ys'.
Proof.
  intros A B f l1 x l2 y ys H1 H2. rewrite flat_map_app.
  assert (E : flat_map f l1 = []).
  { induction l1 as [|z l1 IH]; [reflexivity|]. cbn. rewrite (H1 z) by now left.
    apply IH. intros w Hw. apply H1. now right. }
  rewrite E. cbn. rewrite H2. eexists. reflexivity.
Qed.

Lemma flat_map_nil : forall (A B : Type) (f : A -> list B) l,
  (forall z, In z l -> f z = []) -> flat_map f l = [].
Proof.
  intros A B f l H. induction l as [|z l IH]; [reflexivity|]. cbn.
  rewrite (H z) by now left. apply IH. intros w Hw. apply H. now right.
Qed.

Lemma flat_map_flat_map : forall (A B C : Type) (f : A -> list B) (g : B -> list C) l,
  flat_map g (flat_map f l) = flat_map (fun x => flat_map g (f x)) l.
Proof.
  intros. induction l as [|x l IH]; [reflexivity|]. cbn.
  now rewrite flat_map_app, IH.
Qed.

Lemma flat_map_map : forall (A B C : Type) (f : A -> B) (g : B -> list C) l,
  flat_map g (map f l) = flat_map (fun x => g (f x)) l.
Proof. intros. induction l as [|x l IH]; [reflexivity|]. cbn. now rewrite IH. Qed.

Lemma seq_split_at : forall n m, m < n -> seq 0 n = seq 0 m ++ m :: seq (S m) (n - S m).
Proof.
  intros n m H. replace n with (m + S (n - S m)) at 1 by lia.
  rewrite seq_app. reflexivity.
Qed.

(** Continuation form: the first success of a greedy class repetition followed
    by [k], when exactly the lengths above [m] are rejected by [k]. *)
Lemma star_first : forall (B : Type) p a b g (k : st -> list B) m y ys,
  forallb p a = true -> (forall c t, b = c :: t -> p c = false) ->
  m <= length a ->
  (forall i, m < i <= length a -> k (mkst (skipn i a ++ b) g) = []) ->
  k (mkst (skipn m a ++ b) g) = y :: ys ->
  exists ys', flat_map k (run (RStar (RChr p)) (mkst (a ++ b) g)) = y :: ys'.
Proof.
  intros B p a b g k m y ys Ha Hb Hm Hrej Hacc.
  rewrite run_star_chr by assumption.
  rewrite (seq_split_at (S (length a)) m) by lia.
  rewrite map_app, rev_app_distr. cbn [map rev]. rewrite <- app_assoc. cbn [app].
  apply (flat_map_first _ _ k _ _ _ y ys); [|exact Hacc].
  intros z Hz. apply in_rev, in_map_iff in Hz as (i & <- & Hi).
  apply in_seq in Hi. apply Hrej. lia.
Qed.

Lemma lazy_first : forall (B : Type) p a b g (k : st -> list B) m y ys,
  forallb p a = true -> (forall c t, b = c :: t -> p c = false) ->
  m <= length a ->
  (forall i, i < m -> k (mkst (skipn i a ++ b) g) = []) ->
  k (mkst (skipn m a ++ b) g) = y :: ys ->
  exists ys', flat_map k (run (RLazy (RChr p)) (mkst (a ++ b) g)) = y :: ys'.
Proof.
  intros B p a b g k m y ys Ha Hb Hm Hrej Hacc.
  rewrite run_lazy_chr by assumption.
  rewrite (seq_split_at (S (length a)) m) by lia.
  rewrite map_app. cbn [map].
  apply (flat_map_first _ _ k _ _ _ y ys); [|exact Hacc].
  intros z Hz. apply in_map_iff in Hz as (i & <- & Hi).
  apply in_seq in Hi. apply Hrej. lia.
Qed.

(** Maximal munch: the longest run is accepted by the continuation. *)
Lemma star_munch : forall (B : Type) p a b g (k : st -> list B) y ys,
  forallb p a = true -> (forall c t, b = c :: t -> p c = false) ->
  k (mkst b g) = y :: ys ->
  exists ys', flat_map k (run (RStar (RChr p)) (mkst (a ++ b) g)) = y :: ys'.
Proof.
  intros B p a b g k y ys Ha Hb Hk.
  apply (star_first B p a b g k (length a) y ys); auto; [lia|].
  now rewrite skipn_all.
Qed.

(** ** Weakest-precondition style rules for the first success.
    [wins r k s y]: trying the ways to match [r] from [s] in order, each
    followed by [k], the first overall success is [y]. *)
Definition wins {B} (r : re) (k : st -> list B) (s : st) (y : B) : Prop :=
  exists ys, flat_map k (run r s) = y :: ys.

Definition fails {B} (r : re) (k : st -> list B) (s : st) : Prop :=
  flat_map k (run r s) = [].

Lemma wins_match : forall r s t g,
  wins r (fun x => [x]) (mkst s []) (mkst t g) -> re_match r s = Some g.
Proof.
  intros r s t g [ys H]. unfold re_match.
  assert (E : flat_map (fun x : st => [x]) (run r (mkst s [])) = run r (mkst s [])).
  { generalize (run r (mkst s [])). intros l. induction l as [|x l IH]; [reflexivity|].
    cbn. now rewrite IH. }
  rewrite E in H. now rewrite H.
Qed.

Lemma wins_seq : forall B a b (k : st -> list B) s y,
  wins a (fun x => flat_map k (run b x)) s y -> wins (RSeq a b) k s y.
Proof. intros B a b k s y H. unfold wins in *. cbn [run]. now rewrite flat_map_flat_map. Qed.

Lemma wins_eps : forall B (k : st -> list B) s y ys, k s = y :: ys -> wins REps k s y.
Proof. intros B k s y ys H. exists ys. cbn. now rewrite app_nil_r. Qed.

Lemma wins_chr : forall B p (k : st -> list B) c t g y,
  p c = true -> (exists ys, k (mkst t g) = y :: ys) -> wins (RChr p) k (mkst (c :: t) g) y.
Proof.
  intros B p k c t g y Hp [ys Hk]. exists ys. cbn. rewrite Hp. cbn. now rewrite app_nil_r.
Qed.

Lemma wins_lit : forall B (k : st -> list B) c t g y,
  (exists ys, k (mkst t g) = y :: ys) -> wins (RLit c) k (mkst (c :: t) g) y.
Proof. intros. apply wins_chr; [apply Ascii.eqb_refl|assumption]. Qed.

Lemma wins_str : forall B w (k : st -> list B) t g y,
  (exists ys, k (mkst t g) = y :: ys) -> wins (RStr w) k (mkst (w ++ t) g) y.
Proof.
  intros B w. induction w as [|c w IH]; intros k t g y H; cbn [RStr app].
  - destruct H as [ys H]. now apply wins_eps with ys.
  - apply wins_seq, wins_lit. now apply IH.
Qed.

Lemma wins_altl : forall B a b (k : st -> list B) s y,
  wins a k s y -> wins (RAlt a b) k s y.
Proof.
  intros B a b k s y [ys H]. unfold wins. cbn [run]. rewrite flat_map_app, H.
  cbn. eexists. reflexivity.
Qed.

Lemma wins_altr : forall B a b (k : st -> list B) s y,
  fails a k s -> wins b k s y -> wins (RAlt a b) k s y.
Proof.
  intros B a b k s y Hf [ys H]. unfold wins, fails in *. cbn [run].
  rewrite flat_map_app, Hf. cbn. eauto.
Qed.

Lemma wins_end0 : forall B (k : st -> list B) g y,
  (exists ys, k (mkst [] g) = y :: ys) -> wins REnd k (mkst [] g) y.
Proof. intros B k g y [ys H]. exists ys. cbn. now rewrite app_nil_r. Qed.

Lemma wins_star_munch : forall B p a b g (k : st -> list B) y,
  forallb p a = true -> (forall c t, b = c :: t -> p c = false) ->
  (exists ys, k (mkst b g) = y :: ys) ->
  wins (RStar (RChr p)) k (mkst (a ++ b) g) y.
Proof. intros B p a b g k y Ha Hb [ys Hk]. now apply (star_munch B p a b g k y ys). Qed.

(** optional blanks, when there are none *)
Lemma wins_star_none : forall B p b g (k : st -> list B) y,
  (forall c t, b = c :: t -> p c = false) ->
  (exists ys, k (mkst b g) = y :: ys) ->
  wins (RStar (RChr p)) k (mkst b g) y.
Proof. intros B p b g k y Hb Hk. now apply (wins_star_munch B p [] b g k y). Qed.

Lemma wins_group : forall B n a (k : st -> list B) s y,
  wins a (fun x => k (mkst (rest x)
     ((n, firstn (length (rest s) - length (rest x)) (rest s)) :: caps x))) s y ->
  wins (RGroup n a) k s y.
Proof. intros B n a k s y H. unfold wins in *. cbn [run]. now rewrite flat_map_map. Qed.

Lemma firstn_len_skipn : forall (a b : str) i, i <= length a ->
  firstn (length (a ++ b) - length (skipn i a ++ b)) (a ++ b) = firstn i a.
Proof.
  intros a b i Hi. rewrite !app_length, skipn_length.
  replace (length a + length b - (length a - i + length b)) with i by lia.
  rewrite firstn_app. replace (i - length a) with 0 by lia. cbn. apply app_nil_r.
Qed.

(** (p* ) as a group, the first [m] characters being the longest accepted *)
Lemma wins_group_star : forall B n p a b g (k : st -> list B) m y,
  forallb p a = true -> (forall c t, b = c :: t -> p c = false) -> m <= length a ->
  (forall i, m < i <= length a -> k (mkst (skipn i a ++ b) ((n, firstn i a) :: g)) = []) ->
  (exists ys, k (mkst (skipn m a ++ b) ((n, firstn m a) :: g)) = y :: ys) ->
  wins (RGroup n (RStar (RChr p))) k (mkst (a ++ b) g) y.
Proof.
  intros B n p a b g k m y Ha Hb Hm Hrej [ys Hacc]. apply wins_group.
  unfold wins. cbn [rest].
  apply (star_first B p a b g _ m y ys); auto.
  - intros i Hi. cbn [rest caps]. rewrite firstn_len_skipn by lia. now apply Hrej.
  - cbn [rest caps]. rewrite firstn_len_skipn by lia. exact Hacc.
Qed.

(** (p+) as a group *)
Lemma wins_group_plus : forall B n p a b g (k : st -> list B) m y,
  forallb p a = true -> (forall c t, b = c :: t -> p c = false) -> 1 <= m <= length a ->
  (forall i, m < i <= length a -> k (mkst (skipn i a ++ b) ((n, firstn i a) :: g)) = []) ->
  (exists ys, k (mkst (skipn m a ++ b) ((n, firstn m a) :: g)) = y :: ys) ->
  wins (RGroup n (RPlus (RChr p))) k (mkst (a ++ b) g) y.
Proof.
  intros B n p a b g k m y Ha Hb Hm Hrej [ys Hacc]. apply wins_group.
  destruct a as [|c a]; [cbn in Hm; lia|]. cbn in Ha. apply andb_true_iff in Ha as [Hc Ha].
  cbn [app]. apply wins_seq. apply wins_chr; [exact Hc|].
  destruct m as [|m]; [lia|].
  apply (star_first B p a b g _ m y ys); auto.
  - cbn in Hm. lia.
  - intros i Hi. cbn [rest caps].
    change (c :: a ++ b) with ((c :: a) ++ b).
    change (skipn i a ++ b) with (skipn (S i) (c :: a) ++ b).
    rewrite firstn_len_skipn by (cbn; lia). apply Hrej. cbn. lia.
  - cbn [rest caps].
    change (c :: a ++ b) with ((c :: a) ++ b).
    change (skipn m a ++ b) with (skipn (S m) (c :: a) ++ b).
    rewrite firstn_len_skipn by (cbn in *; lia). exact Hacc.
Qed.

Lemma wins_group_plus_munch : forall B n p a b g (k : st -> list B) y,
  forallb p a = true -> (forall c t, b = c :: t -> p c = false) -> a <> [] ->
  (exists ys, k (mkst b ((n, a) :: g)) = y :: ys) ->
  wins (RGroup n (RPlus (RChr p))) k (mkst (a ++ b) g) y.
Proof.
  intros B n p a b g k y Ha Hb Hn Hk.
  apply (wins_group_plus B n p a b g k (length a) y); auto.
  - destruct a; [contradiction|]. cbn. lia.
  - lia.
  - now rewrite skipn_all, firstn_all.
Qed.

Lemma wins_group_star_munch : forall B n p a b g (k : st -> list B) y,
  forallb p a = true -> (forall c t, b = c :: t -> p c = false) ->
  (exists ys, k (mkst b ((n, a) :: g)) = y :: ys) ->
  wins (RGroup n (RStar (RChr p))) k (mkst (a ++ b) g) y.
Proof.
  intros B n p a b g k y Ha Hb Hk.
  apply (wins_group_star B n p a b g k (length a) y); auto; [lia|].
  now rewrite skipn_all, firstn_all.
Qed.

(** A regex that cannot match declaratively fails with any continuation. *)
Lemma no_mt_run : forall r s, (~ exists t, mt r (rest s) t) -> run r s = [].
Proof.
  intros r s H. destruct (run r s) as [|x l] eqn:E; [reflexivity|exfalso].
  apply H. exists (rest x). apply run_sound. rewrite E. now left.
Qed.

Lemma no_mt_fails : forall B r (k : st -> list B) s,
  (~ exists t, mt r (rest s) t) -> flat_map k (run r s) = [].
Proof. intros. now rewrite no_mt_run. Qed.

(** ** The matching relation with captured groups *)
Inductive mtc : re -> str -> groups -> str -> groups -> Prop :=
| mtc_eps s g : mtc REps s g s g
| mtc_chr p c t g : p c = true -> mtc (RChr p) (c :: t) g t g
| mtc_seq a b s g t g1 u g2 :
    mtc a s g t g1 -> mtc b t g1 u g2 -> mtc (RSeq a b) s g u g2
| mtc_altl a b s g t g1 : mtc a s g t g1 -> mtc (RAlt a b) s g t g1
| mtc_altr a b s g t g1 : mtc b s g t g1 -> mtc (RAlt a b) s g t g1
| mtc_star0 a s g : mtc (RStar a) s g s g
| mtc_starS a s g t g1 u g2 :
    mtc a s g t g1 -> length t < length s -> mtc (RStar a) t g1 u g2 -> mtc (RStar a) s g u g2
| mtc_lazy0 a s g : mtc (RLazy a) s g s g
| mtc_lazyS a s g t g1 u g2 :
    mtc a s g t g1 -> length t < length s -> mtc (RLazy a) t g1 u g2 -> mtc (RLazy a) s g u g2
| mtc_group n a s g t g1 w :
    mtc a s g t g1 -> s = w ++ t -> mtc (RGroup n a) s g t ((n, w) :: g1)
| mtc_end0 g : mtc REnd [] g [] g
| mtc_endnl g : mtc REnd [NL] g [NL] g.

Lemma mtc_suffix : forall r s g t g', mtc r s g t g' -> exists w, s = w ++ t.
Proof.
  induction 1; try (exists []; reflexivity); eauto.
  - now exists [c].
  - destruct IHmtc1 as [w1 ->]. destruct IHmtc2 as [w2 ->]. exists (w1 ++ w2). apply app_assoc.
  - destruct IHmtc1 as [w1 ->]. destruct IHmtc2 as [w2 ->]. exists (w1 ++ w2). apply app_assoc.
  - destruct IHmtc1 as [w1 ->]. destruct IHmtc2 as [w2 ->]. exists (w1 ++ w2). apply app_assoc.
Qed.

Lemma star_run_mtc : forall a (lazy : bool),
  (forall s x, In x (run a s) -> mtc a (rest s) (caps s) (rest x) (caps x)) ->
  forall fuel s x, In x (star_run (run a) lazy fuel s) ->
  mtc (if lazy then RLazy a else RStar a) (rest s) (caps s) (rest x) (caps x).
Proof.
  intros a lazy Ha. induction fuel as [|k IH]; intros s x H.
  - cbn in H. destruct H as [<-|[]]. destruct lazy; constructor.
  - cbn [star_run] in H.
    assert (Hc : x = s \/ In x (flat_map (fun s' =>
        if Nat.ltb (length (rest s')) (length (rest s))
        then star_run (run a) lazy k s' else []) (run a s))).
    { destruct lazy.
      - destruct H as [<-|H]; [now left|now right].
      - apply in_app_or in H as [H|[<-|[]]]; [now right|now left]. }
    destruct Hc as [->|Hc]; [destruct lazy; constructor|].
    apply in_flat_map in Hc as (y & Hy & Hx).
    destruct (Nat.ltb_spec (length (rest y)) (length (rest s))) as [Hlt|Hlt]; [|contradiction].
    specialize (IH y x Hx). specialize (Ha s y Hy).
    destruct lazy; econstructor; eauto.
Qed.

Lemma run_mtc : forall r s x, In x (run r s) -> mtc r (rest s) (caps s) (rest x) (caps x).
Proof.
  induction r as [p| |a IHa b IHb|a IHa b IHb|a IHa|a IHa|n a IHa|]; intros s x H; cbn [run] in H.
  - destruct (rest s) as [|c t] eqn:E; [contradiction|].
    destruct (p c) eqn:Ep; [|contradiction]. destruct H as [<-|[]]. cbn. now constructor.
  - destruct H as [<-|[]]. constructor.
  - apply in_flat_map in H as (y & Hy & Hx). econstructor; eauto.
  - apply in_app_or in H as [H|H]; [now apply mtc_altl, IHa|now apply mtc_altr, IHb].
  - now apply (star_run_mtc a false IHa) in H.
  - now apply (star_run_mtc a true IHa) in H.
  - apply in_map_iff in H as (y & <- & Hy). cbn [rest caps].
    specialize (IHa _ _ Hy). destruct (mtc_suffix _ _ _ _ _ IHa) as [w Hw].
    constructor; [exact IHa|]. rewrite Hw, app_length.
    replace (length w + length (rest y) - length (rest y)) with (length w) by lia.
    now rewrite firstn_app, firstn_all, Nat.sub_diag, app_nil_r.
  - destruct (rest s) as [|c [|d t]] eqn:E; [| |contradiction].
    + destruct H as [<-|[]]. rewrite E. constructor.
    + destruct (Ascii.eqb_spec c NL) as [->|]; [|contradiction].
      destruct H as [<-|[]]. rewrite E. constructor.
Qed.

Lemma re_match_mtc : forall r s g, re_match r s = Some g -> exists t, mtc r s [] t g.
Proof.
  intros r s g H. unfold re_match in H.
  destruct (run r (mkst s [])) as [|x l] eqn:E; [discriminate|]. injection H as <-.
  exists (rest x). apply (run_mtc r (mkst s []) x). rewrite E. now left.
Qed.

Lemma mtc_mt : forall r s g t g', mtc r s g t g' -> mt r s t.
Proof. induction 1; eauto using mt. Qed.

(** Regexes without groups do not touch the captures. *)
Fixpoint no_groups (r : re) : bool :=
  match r with
  | RGroup _ _ => false
  | RSeq a b | RAlt a b => no_groups a && no_groups b
  | RStar a | RLazy a => no_groups a
  | _ => true
  end.

Lemma mtc_no_groups : forall r s g t g', mtc r s g t g' -> no_groups r = true -> g' = g.
Proof.
  induction 1; cbn; intros H'; try reflexivity; try discriminate;
    repeat match goal with H : _ && _ = true |- _ => apply andb_true_iff in H as [? ?] end.
  - rewrite IHmtc2, IHmtc1; auto.
  - auto.
  - auto.
  - rewrite IHmtc2, IHmtc1; auto.
  - rewrite IHmtc2, IHmtc1; auto.
Qed.

Lemma mtc_plain : forall r s g t g', no_groups r = true -> mtc r s g t g' -> g' = g /\ mt r s t.
Proof. intros. split; [now apply (mtc_no_groups r s g t g')|now apply (mtc_mt r s g t g')]. Qed.

Lemma mtc_seq_inv : forall a b s g u g2, mtc (RSeq a b) s g u g2 ->
  exists t g1, mtc a s g t g1 /\ mtc b t g1 u g2.
Proof. inversion 1; subst; eauto. Qed.

Lemma mtc_alt_inv : forall a b s g u g2, mtc (RAlt a b) s g u g2 ->
  mtc a s g u g2 \/ mtc b s g u g2.
Proof. inversion 1; subst; eauto. Qed.

Lemma mtc_group_inv : forall n a s g t g', mtc (RGroup n a) s g t g' ->
  exists w g1, g' = (n, w) :: g1 /\ s = w ++ t /\ mtc a s g t g1.
Proof. inversion 1; subst; eauto. Qed.

Lemma mt_app_cancel : forall (w1 w2 t : str), w1 ++ t = w2 ++ t -> w1 = w2.
Proof. intros. now apply app_inv_tail in H. Qed.
