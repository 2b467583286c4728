(** Reading the hardware of a package. *)
From Coq Require Import List Ascii Bool Lia.
Import ListNotations.
From Verif Require Import PyBase PyBaseProofs PyDict PyDictProofs XmlModel NamesModel ItemModel HardwareModel HardwareProofs RereadProofs OpenSpec.

Lemma ns_spec : forall v x, is_item v x -> namespace_for_item_tag v (etag x) = Some (item_ns v x).
Proof.
  intros v x H. unfold namespace_for_item_tag, item_ns. destruct (str_eqb (etag x) (ITEM v)) eqn:E1; [reflexivity|].
  destruct (str_eqb (etag x) (STORAGE_ITEM v)) eqn:E2; [reflexivity|].
  destruct (str_eqb (etag x) (ETHERNET_PORT_ITEM v)) eqn:E3; [reflexivity|].
  exfalso. destruct H as [H|[H|H]]; rewrite H, (proj2 (str_eqb_eq _ _) eq_refl) in *; discriminate.
Qed.
Lemma item_dec : forall v x, is_item v x \/ ~ is_item v x.
Proof.
  intros v x. unfold is_item. destruct (str_eqb (etag x) (ITEM v)) eqn:E1; [left; left; now apply str_eqb_eq|].
  destruct (str_eqb (etag x) (STORAGE_ITEM v)) eqn:E2; [left; right; left; now apply str_eqb_eq|].
  destruct (str_eqb (etag x) (ETHERNET_PORT_ITEM v)) eqn:E3; [left; right; right; now apply str_eqb_eq|].
  right. intros [H|[H|H]]; rewrite H, (proj2 (str_eqb_eq _ _) eq_refl) in *; discriminate.
Qed.
Lemma ns_none : forall v x, ~ is_item v x -> namespace_for_item_tag v (etag x) = None.
Proof.
  intros v x H. unfold namespace_for_item_tag. destruct (str_eqb (etag x) (ITEM v)) eqn:E1; [exfalso; apply H; left; now apply str_eqb_eq|].
  destruct (str_eqb (etag x) (STORAGE_ITEM v)) eqn:E2; [exfalso; apply H; right; left; now apply str_eqb_eq|].
  destruct (str_eqb (etag x) (ETHERNET_PORT_ITEM v)) eqn:E3; [exfalso; apply H; right; right; now apply str_eqb_eq|reflexivity].
Qed.

Lemma filter_find : forall (A : Type) (f : A -> bool) l, match filter f l with [] => find f l = None | c :: _ => find f l = Some c end.
Proof. intros A f. induction l as [|a l IH]; [reflexivity|]. cbn [filter find]. destruct (f a); [reflexivity|exact IH]. Qed.
Lemma forallb_profiles : forall (l ps : list str), forallb (fun p => mem_str p ps) l = true <-> forall p, In p l -> In p ps.
Proof. intros l ps. rewrite forallb_forall. split; intros H p Hp; specialize (H p Hp); now apply mem_str_In. Qed.
Lemma profiles_dec : forall (l ps : list str), (forall p, In p l -> In p ps) \/ exists p, In p l /\ ~ In p ps.
Proof.
  intros l ps. destruct (forallb (fun p => mem_str p ps) l) eqn:F; [left; now apply forallb_profiles|]. right.
  induction l as [|a l IH]; [discriminate|]. cbn [forallb] in F. destruct (mem_str a ps) eqn:M.
  - destruct (IH F) as (p & Hp & N). exists p. split; [now right|exact N].
  - exists a. split; [now left|]. now apply mem_str_false.
Qed.

Section Read.
  Variable E : env.
  Let v := e_ver E.

  Lemma instance_items : forall k x, of_instance v k x = true <-> is_item v x /\ instance_id v x = Some (Some k).
  Proof.
    intros k x. unfold of_instance. rewrite andb_true_iff, mem_str_In. unfold is_item. cbn [In].
    split; intros [H1 H2]; (split; [intuition congruence|]).
    - destruct (instance_id v x) as [[k'|]|]; try discriminate. apply str_eqb_eq in H2. now subst.
    - rewrite H2. now apply str_eqb_eq.
  Qed.
  Lemma items_snoc : forall k xs x, items_for v k (xs ++ [x]) = items_for v k xs ++ (if of_instance v k x then [x] else []).
  Proof. intros. unfold items_for. rewrite filter_app. reflexivity. Qed.

  (** the devices read so far *)
  Definition devices (xs : list elem) (h : hw) : Prop :=
    forall k i, hget k h = Some i <-> items_for v k xs <> [] /\ one_device E (items_for v k xs) i.

  Lemma wrong_more : forall xs ys e, hardware_wrong E xs e -> hardware_wrong E (xs ++ ys) e.
  Proof.
    intros xs ys e H. destruct H as [x I T N|x o I T N O|x p I T P N|pre x post k e' -> F O A|pre x post k i e' -> F O D A].
    - apply (w_no_id _ _ x); [apply in_or_app; now left|exact T|exact N].
    - apply (w_empty_id _ _ x o); [apply in_or_app; now left|exact T|exact N|exact O].
    - apply (w_profile _ _ x p); [apply in_or_app; now left|exact T|exact P|exact N].
    - apply (w_first _ _ pre x (post ++ ys) k e'); [now rewrite <- app_assoc|exact F|exact O|exact A].
    - apply (w_conflict _ _ pre x (post ++ ys) k i e'); [now rewrite <- app_assoc|exact F|exact O|exact D|exact A].
  Qed.
  Lemma fold_prefix : forall xs ys e, fold_result (add_item E) xs (new_ovfitem E) = Err e -> forall i, ~ one_device E (xs ++ ys) i.
  Proof. intros xs ys e H i D. unfold one_device in D. rewrite CountDefaultProofs.fold_result_app, H in D. discriminate. Qed.
  Lemma wrong_not_fine : forall xs e, hardware_wrong E xs e -> ~ hardware_fine E xs.
  Proof.
    intros xs e H F. destruct H as [x I T N|x o I T N O|x p I T P N|pre x post k e' -> Fr O A|pre x post k i e' -> Fr O D A].
    - destruct (f_id _ _ F x I T) as (k & _ & K). congruence.
    - destruct (f_id _ _ F x I T) as (k & K0 & K). assert (o = Some k) by congruence. subst. destruct O as [O|O]; [discriminate|]. injection O as ->. contradiction.
    - exact (N (f_profiles _ _ F x p I T P)).
    - destruct (f_device _ _ F k) as (i & D). fold v in D. change (pre ++ x :: post) with (pre ++ [x] ++ post) in D.
      unfold items_for in D, Fr. rewrite !filter_app in D. fold v in Fr. change (list elem) with (list elem) in *. rewrite Fr in D. cbn [filter app] in D. fold v in O. rewrite O in D.
      cbn [app] in D. unfold one_device in D. cbn [fold_result] in D. rewrite A in D. discriminate.
    - destruct (f_device _ _ F k) as (j & D'). fold v in D'. change (pre ++ x :: post) with (pre ++ [x] ++ post) in D'.
      unfold items_for in D'. rewrite !filter_app in D'. cbn [filter] in D'. fold v in O. rewrite O in D'.
      fold (items_for v k pre) in D'. unfold one_device in D, D'. rewrite CountDefaultProofs.fold_result_app in D'. fold v in D. rewrite D in D'. cbn [rbind app fold_result] in D'. rewrite A in D'. discriminate.
  Qed.

  Lemma read_all : forall xs,
    match fold_result (read_item E) xs [] with
    | Ok h => hardware_fine E xs /\ NoDup (map fst h) /\ devices xs h
    | Err e => hardware_wrong E xs e
    end.
  Proof.
    induction xs as [|x xs IH] using rev_ind.
    - cbn [fold_result]. split; [|split].
      + split; [intros x []|intros x p []|]. intros k. exists (new_ovfitem E). reflexivity.
      + constructor.
      + intros k i. split; [discriminate|]. intros [F _]. now elim F.
    - rewrite CountDefaultProofs.fold_result_app. destruct (fold_result (read_item E) xs []) as [h|e]; cbn [rbind fold_result]; [|now apply wrong_more].
      destruct IH as (F & ND & D).
      assert (Ix : In x (xs ++ [x])) by (apply in_or_app; right; now left).
      unfold read_item. fold v. destruct (item_dec v x) as [T|T]; [rewrite (ns_spec v x T)|rewrite (ns_none v x T)].
      2:{ cbn [rbind]. assert (Z : forall k, items_for v k (xs ++ [x]) = items_for v k xs).
          { intros k. rewrite items_snoc. destruct (of_instance v k x) eqn:O; [apply instance_items in O as [O _]; contradiction|apply app_nil_r]. }
          split; [|split; [exact ND|]].
          - destruct F as [F1 F2 F3]. split.
            + intros y I Ty. apply in_app_iff in I as [I|[<-|[]]]; [exact (F1 y I Ty)|contradiction].
            + intros y p I Ty. apply in_app_iff in I as [I|[<-|[]]]; [exact (F2 y p I Ty)|contradiction].
            + intros k. fold v. rewrite Z. exact (F3 k).
          - intros k i. rewrite Z. exact (D k i). }
      pose proof (filter_find _ (fun c => str_eqb (etag c) (item_ns v x ++ INSTANCE_ID v)) (echildren x)) as FF.
      destruct (filter (fun c => str_eqb (etag c) (item_ns v x ++ INSTANCE_ID v)) (echildren x)) as [|c cs].
      { cbn [rbind]. apply (w_no_id _ _ x Ix T). fold v. unfold instance_id. now rewrite FF. }
      assert (IK : instance_id v x = Some (etext c)) by (unfold instance_id; now rewrite FF).
      destruct (etext c) as [[|a k]|].
      1:{ cbn [rbind]. apply (w_empty_id _ _ x (Some []) Ix T IK). now right. }
      2:{ cbn [rbind]. apply (w_empty_id _ _ x None Ix T IK). now left. }
      set (kk := a :: k) in *. fold (item_profiles v x).
      destruct (forallb (fun p => mem_str p (e_profiles E)) (item_profiles v x)) eqn:Pr; cbn [negb].
      2:{ cbn [rbind]. destruct (profiles_dec (item_profiles v x) (e_profiles E)) as [G|(p & Hp & N)]; [apply forallb_profiles in G; congruence|].
          exact (w_profile _ _ x p Ix T Hp N). }
      assert (O : of_instance v kk x = true) by (apply instance_items; now split).
      assert (X : forall j, one_device E (items_for v kk xs) j -> forall j', add_item E j x = Ok j' ->
                hardware_fine E (xs ++ [x]) /\ NoDup (map fst (hset kk j' h)) /\ devices (xs ++ [x]) (hset kk j' h)).
      { intros j Dj j' A.
        assert (One : one_device E (items_for v kk (xs ++ [x])) j').
        { rewrite items_snoc, O. unfold one_device in *. rewrite CountDefaultProofs.fold_result_app, Dj. cbn [rbind fold_result]. now rewrite A. }
        assert (Oth : forall k', k' <> kk -> items_for v k' (xs ++ [x]) = items_for v k' xs).
        { intros k' N. rewrite items_snoc. destruct (of_instance v k' x) eqn:O'; [|apply app_nil_r]. apply instance_items in O' as [_ O'].
          rewrite IK in O'. injection O' as <-. contradiction. }
        split; [|split; [now apply hset_NoDup|]].
        - destruct F as [F1 F2 F3]. split.
          + intros y I Ty. apply in_app_iff in I as [I|[<-|[]]]; [exact (F1 y I Ty)|]. exists kk. split; [discriminate|exact IK].
          + intros y p I Ty Hp. apply in_app_iff in I as [I|[<-|[]]]; [exact (F2 y p I Ty Hp)|]. rewrite forallb_profiles in Pr. exact (Pr p Hp).
          + intros k'. fold v. destruct (str_eqb k' kk) eqn:Ek.
            * apply str_eqb_eq in Ek. subst k'. now exists j'.
            * rewrite Oth; [exact (F3 k')|]. intros ->. rewrite (proj2 (str_eqb_eq _ _) eq_refl) in Ek. discriminate.
        - intros k' i. rewrite hget_hset. destruct (str_eqb k' kk) eqn:Ek.
          + apply str_eqb_eq in Ek. subst k'. split.
            * intros H. injection H as <-. split; [|exact One]. rewrite items_snoc, O. destruct (items_for v kk xs); discriminate.
            * intros [_ H]. unfold one_device in *. congruence.
          + rewrite Oth; [exact (D k' i)|]. intros ->. rewrite (proj2 (str_eqb_eq _ _) eq_refl) in Ek. discriminate. }
      destruct (hget kk h) as [i|] eqn:G.
      + apply D in G as [G1 G2]. destruct (add_item E i x) as [j'|e] eqn:A.
        * cbn [rbind]. exact (X i G2 j' A).
        * assert (W : hardware_wrong E (xs ++ [x]) (match e with EOVFItemData => EOVFHardwareData | _ => e end))
            by exact (w_conflict _ _ xs x [] kk i e eq_refl G1 O G2 A).
          destruct e; exact W.
      + assert (N : items_for v kk xs = []).
        { destruct (items_for v kk xs) as [|y l] eqn:Y; [reflexivity|]. exfalso. destruct (f_device _ _ F kk) as (i & Di). fold v in Di.
          assert (S : hget kk h = Some i) by (apply D; split; [rewrite Y; discriminate|exact Di]). congruence. }
        destruct (add_item E (new_ovfitem E) x) as [j'|e] eqn:A; cbn [rbind].
        * apply (X (new_ovfitem E)); [rewrite N; reflexivity|exact A].
        * exact (w_first _ _ xs x [] kk e eq_refl N O A).
  Qed.
End Read.

Theorem read_hardware_spec : forall E sec,
  match read_hardware E sec with
  | Ok h => hardware_fine E (echildren sec) /\
      forall k i, dget str_eqb k h = Some i <-> items_for (e_ver E) k (echildren sec) <> [] /\
        exists j, one_device E (items_for (e_ver E) k (echildren sec)) j /\ i = with_modified false j
  | Err e => hardware_wrong E (echildren sec) e
  end.
Proof.
  intros E sec. unfold read_hardware. pose proof (read_all E (echildren sec)) as H.
  destruct (fold_result (read_item E) (echildren sec) []) as [h|e]; cbn [rbind]; [|exact H].
  destruct H as (F & _ & D). split; [exact F|]. intros k i.
  assert (M : dget str_eqb k (map (fun ki : str * item => (fst ki, with_modified false (snd ki))) h) = option_map (with_modified false) (hget k h)).
  { unfold hget. clear. induction h as [|[k' j] h IH]; [reflexivity|]. cbn [map dget fst snd]. destruct (str_eqb k k'); [reflexivity|exact IH]. }
  rewrite M. unfold devices in D. split.
  - destruct (hget k h) as [j|] eqn:G; [|discriminate]. cbn [option_map]. intros X. injection X as <-. apply D in G as [G1 G2]. split; [exact G1|]. now exists j.
  - intros [G1 (j & G2 & ->)]. assert (G : hget k h = Some j) by (apply D; now split). now rewrite G.
Qed.
