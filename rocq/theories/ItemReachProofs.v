(** Proofs about COT/vm_description/ovf/item.py: whole operations on items. *)
From Coq Require Import Lia.
From Verif Require Import PyBase PyBaseProofs PyDict PyDictProofs XmlModel NamesModel
  ItemModel ItemSpec PsetProofs ItemProofs ItemSetProofs ItemProfileProofs.

Lemma holds_agree : forall ps ps' n p, (forall q w, q = p \/ q = None ->
    (own ps n q w <-> own ps' n q w)) ->
  forall v, holds ps n p v <-> holds ps' n p v.
Proof.
  intros ps ps' n p H v. unfold holds.
  rewrite (H p v) by auto. rewrite (H None v) by auto.
  assert (G : (forall w, ~ own ps n p w) <-> (forall w, ~ own ps' n p w)); [|tauto].
  split; intros G w Hw; apply (G w); apply (H p w); auto.
Qed.

(** ** remove_profile *)

Definition removed (cfg : list str) (split : bool) (p : profile) (ps : props) : props :=
  map (fun nd : str * vdict => (fst nd, remove_loop cfg split p (snd nd) (snd nd))) ps.

Lemma In_removed : forall cfg split p ps n e, In (n, e) (removed cfg split p ps) <->
  exists d, In (n, d) ps /\ e = remove_loop cfg split p d d.
Proof.
  intros cfg split p ps n e. unfold removed. rewrite in_map_iff. split.
  - intros ((m & d) & H & Hin). injection H as -> <-. now exists d.
  - intros (d & Hin & ->). now exists (n, d).
Qed.

Lemma removed_good : forall ver cfg split p ps, good_props ver ps ->
  good_props ver (removed cfg split p ps).
Proof.
  intros ver cfg split p ps (Hnd & Hg & Hs). split; [|split].
  - unfold removed. rewrite map_map. exact Hnd.
  - intros n e H. apply In_removed in H as (d & Hd & ->). specialize (Hg n d Hd).
    rewrite remove_loop_eq by exact Hg. now apply rem_values.
  - intros n e H Hn. apply In_removed in H as (d & Hd & ->).
    rewrite remove_loop_eq by (now apply (Hg n)). specialize (Hs n d Hd Hn).
    destruct d as [|[v s] [|b d]]; cbn in *; [lia| |lia].
    unfold rem_entry. destruct (is_nil _); cbn; lia.
Qed.

Lemma removed_own : forall ver cfg split p ps n q w, good_props ver ps ->
  (own (removed cfg split p ps) n q w <->
   q <> p /\
   ((own ps n q w /\ (split = false \/ q <> None)) \/
    (split = true /\ p <> None /\ own ps n None w /\ (forall u, ~ own ps n q u) /\
     exists c, q = Some c /\ In c cfg))).
Proof.
  intros ver cfg split p ps n q w Hg. assert (Hnd : NoDup (map fst ps)) by apply Hg.
  assert (Hnd' : NoDup (map fst (removed cfg split p ps))) by (now apply (removed_good ver)).
  destruct (prget n ps) as [d|] eqn:E.
  - assert (Hd := good_dict ver ps n d Hg E).
    assert (E' : prget n (removed cfg split p ps) = Some (flat_map (rem_entry cfg split p d) d)).
    { apply prget_In; auto. apply In_removed. exists d. split; [now apply prget_In|].
      symmetry. now apply remove_loop_eq. }
    rewrite (own_Some _ n _ q w Hnd' E'), rem_own_d by exact Hd.
    assert (Ho : forall r u, own ps n r u <-> own_d d r u) by (intros; now apply own_Some).
    setoid_rewrite Ho. reflexivity.
  - assert (E' : prget n (removed cfg split p ps) = None).
    { apply prget_None. apply prget_None in E. unfold removed. rewrite map_map. exact E. }
    split; [intros H; now apply own_None in H|].
    intros (_ & [(H & _)|(_ & _ & H & _)]); now apply own_None in H.
Qed.

Lemma remove_profile_eq : forall E i p split, good_props (e_ver E) (i_props i) ->
  remove_profile E i p split =
  Ok (if has_profile E i p
      then with_modified true (with_props (removed (config_of E i) split p (i_props i)) i)
      else i).
Proof.
  intros E i p split Hg. unfold remove_profile. destruct (has_profile E i p); [|reflexivity].
  fold (removed (config_of E i) split p (i_props i)).
  rewrite validate_good; [reflexivity|]. cbn. now apply removed_good.
Qed.

(** Split: the other configured profiles see what they saw. *)
Lemma removed_split_holds : forall ver cfg x ps n c w, good_props ver ps ->
  In c cfg -> c <> x ->
  (holds (removed cfg true (Some x) ps) n (Some c) w <-> holds ps n (Some c) w).
Proof.
  intros ver cfg x ps n c w Hg Hc Hx. assert (Hnd : NoDup (map fst ps)) by apply Hg.
  unfold holds.
  assert (Hdef : forall u, ~ own (removed cfg true (Some x) ps) n None u).
  { intros u Hu. apply (removed_own ver) in Hu as (_ & [(_ & [F|F])|(_ & _ & _ & _ & (d & F & _))]);
      auto; discriminate. }
  split.
  - intros [H|(_ & H)]; [|now apply Hdef in H].
    apply (removed_own ver) in H as (_ & [(H & _)|(_ & _ & H & Hno & _)]); auto.
  - intros H. left. apply (removed_own ver); [exact Hg|]. split; [congruence|].
    destruct H as [H|(Hno & H)].
    + left. split; [exact H|]. right. discriminate.
    + right. split; [reflexivity|]. split; [discriminate|]. split; [exact H|].
      split; [exact Hno|]. now exists c.
Qed.

Lemma removed_split_gone : forall ver cfg x ps n w, good_props ver ps ->
  ~ holds (removed cfg true (Some x) ps) n (Some x) w.
Proof.
  intros ver cfg x ps n w Hg [H|(_ & H)].
  - apply (removed_own ver) in H as (H & _); auto.
  - apply (removed_own ver) in H as (_ & [(_ & [F|F])|(_ & _ & _ & _ & (d & F & _))]);
      auto; discriminate.
Qed.

(** No split: only the records of that profile go. *)
Lemma removed_own_nosplit : forall ver cfg p ps n q w, good_props ver ps ->
  (own (removed cfg false p ps) n q w <-> q <> p /\ own ps n q w).
Proof.
  intros ver cfg p ps n q w Hg. rewrite (removed_own ver) by exact Hg. intuition discriminate.
Qed.

(** ** fold_result *)

Lemma fold_result_inv : forall (A B : Type) (f : B -> A -> result B) (Q : B -> Prop) l b b',
  (forall x a b, In a l -> Q x -> f x a = Ok b -> Q b) ->
  Q b -> fold_result f l b = Ok b' -> Q b'.
Proof.
  intros A B f Q l. induction l as [|a l IH]; intros b b' Hf Hb H; cbn [fold_result] in H.
  - injection H as <-. exact Hb.
  - destruct (f b a) as [b1|] eqn:E; [|discriminate]. cbn [rbind] in H.
    apply (IH b1); auto.
    + intros x a' y Ha'. apply Hf. now right.
    + apply (Hf b a); auto. now left.
Qed.

(** ** Reading keeps the invariant *)

Lemma add_item_good : forall E i x i', good_props (e_ver E) (i_props i) ->
  add_item E i x = Ok i' -> good_props (e_ver E) (i_props i').
Proof.
  intros E i x i' Hg H. unfold add_item in H.
  destruct (namespace_for_item_tag (e_ver E) (etag x)) as [ns|]; [|discriminate].
  set (P := map Some _) in H.
  destruct (fold_result _ (eattrib x) (with_ns ns i)) as [i1|] eqn:E1; [|discriminate].
  cbn [rbind] in H.
  destruct (fold_result _ (reading_order (e_ver E) (echildren x)) i1) as [i2|] eqn:E2;
    [|discriminate].
  cbn [rbind] in H.
  assert (G1 : good_props (e_ver E) (i_props i1)).
  { revert E1. apply (fold_result_inv _ _ _ (fun j => good_props (e_ver E) (i_props j))).
    - intros j kv j' _ Hj. destruct (str_eqb _ _); [intros Hk; injection Hk as <-; exact Hj|].
      now apply set_property_good.
    - exact Hg. }
  assert (G2 : good_props (e_ver E) (i_props i2)).
  { revert E2. apply (fold_result_inv _ _ _ (fun j => good_props (e_ver E) (i_props j))).
    - intros j c j' _ Hj. unfold add_child_property.
      destruct (mem_str _ _).
      + destruct (set_property _ _ _ _ _ _) as [j1|] eqn:Ej; [|discriminate]. cbn [rbind].
        apply (fold_result_inv _ _ _ (fun j => good_props (e_ver E) (i_props j))).
        * intros k kv k' _ Hk. now apply set_property_good.
        * now apply set_property_good in Ej.
      + now apply set_property_good.
    - exact G1. }
  rewrite validate_good in H by exact G2. injection H as <-. exact G2.
Qed.

Lemma add_profile_step_good : forall E from p i n i', good_props (e_ver E) (i_props i) ->
  add_profile_step E from p i n = Ok i' -> good_props (e_ver E) (i_props i').
Proof.
  intros E from p i n i' Hg. unfold add_profile_step.
  destruct (prget _ _) as [[|e d]|]; [|destruct (inherited _ _)|]; try discriminate.
  - intros H. injection H as <-. exact Hg.
  - now apply set_property_good.
Qed.

Lemma add_profile_good : forall E i p from i', good_props (e_ver E) (i_props i) ->
  add_profile E i p from = Ok i' -> good_props (e_ver E) (i_props i').
Proof.
  intros E i p from i' Hg. unfold add_profile.
  destruct (has_profile E i p); [intros H; injection H as <-; exact Hg|].
  destruct (prget _ _); [|discriminate].
  destruct (fold_result _ _ i) as [i1|] eqn:E1; [|discriminate]. cbn [rbind].
  assert (G1 : good_props (e_ver E) (i_props i1)).
  { revert E1. apply (fold_result_inv _ _ _ (fun j => good_props (e_ver E) (i_props j))).
    - intros j n j' _. apply add_profile_step_good.
    - exact Hg. }
  rewrite validate_good by exact G1. intros H. injection H as <-. exact G1.
Qed.

Theorem reachable_good : forall ver i, reachable ver i -> good_props ver (i_props i).
Proof.
  intros ver i H. induction H; subst; auto.
  - cbn. split; [constructor|]. split; intros n d [].
  - now apply add_item_good in H1.
  - now apply set_property_good in H1.
  - now apply add_profile_good in H1.
  - rewrite remove_profile_eq in H1 by exact IHreachable. injection H1 as <-.
    destruct (has_profile E i p); [|exact IHreachable]. cbn. now apply removed_good.
Qed.

(** ** Types of values *)

Lemma add_wildcards_type : forall E ps n v P u, add_wildcards E ps n v P = Ok u ->
  u = v \/ (is_text E n = true /\ exists s, u = VStr s).
Proof.
  intros E ps n v P u H. destruct (is_text E n) eqn:Et.
  - assert (Hsub : forall tag f m w w', sub_value E ps tag f m P w = Ok w' ->
              w' = w \/ exists s, w' = VStr s).
    { intros tag f m w w'. unfold sub_value. destruct (get_value _ _ _ _) as [[o|]|]; cbn [rbind].
      - destruct (re_sub _ _ _ _); cbn [rbind]; [|discriminate]. intros K. injection K as <-.
        right. eauto.
      - intros K. injection K as <-. now left.
      - discriminate. }
    assert (G : u = v \/ exists s, u = VStr s); [|destruct G; auto].
    unfold add_wildcards in H. rewrite Et in H.
    destruct (if is_desc n then _ else _) as [v0|] eqn:E0; [|discriminate]. cbn [rbind] in H.
    destruct (sub_value E ps VIRTUAL_QUANTITY _ _ P v0) as [v1|] eqn:E1; [|discriminate].
    cbn [rbind] in H.
    destruct (sub_value E ps RESOURCE_SUB_TYPE _ _ P v1) as [v2|] eqn:E2; [|discriminate].
    cbn [rbind] in H.
    assert (H0 : v0 = v \/ exists s, v0 = VStr s).
    { destruct (is_desc n); [now apply Hsub in E0|]. injection E0 as <-. now left. }
    apply Hsub in E1. apply Hsub in E2. apply Hsub in H.
    destruct H as [-> |?]; [|auto]. destruct E2 as [-> |?]; [|auto]. destruct E1 as [-> |?]; auto.
  - rewrite add_wildcards_plain in H by exact Et. injection H as <-. now left.
Qed.

Lemma text_not_subtype : forall E n, is_text E n = true -> str_eqb n RESOURCE_SUB_TYPE = false.
Proof.
  intros E n H. apply text_property_is_text in H. destruct H as [-> | ->].
  - destruct (e_ver E); reflexivity.
  - reflexivity.
Qed.

Lemma to_value_type : forall E n x, if str_eqb n RESOURCE_SUB_TYPE
  then exists l, to_value E n x = VTuple l else exists s, to_value E n x = VStr s.
Proof.
  intros E n x. unfold to_value. destruct (str_eqb n RESOURCE_SUB_TYPE).
  - destruct x as [|[|c s]|l]; eauto.
  - destruct x; eauto.
Qed.

Lemma set_property_typed : forall E i n x P ow i', good_props (e_ver E) (i_props i) ->
  well_typed (i_props i) -> set_property E i n x P ow = Ok i' -> well_typed (i_props i').
Proof.
  intros E i n x P ow i' Hg Ht H. apply set_property_inv in H as (v & Hv & _ & _ & -> & _); auto.
  set (PP := profs_of (i_props i) n P) in *. assert (HP : NoDup PP) by apply profs_NoDup.
  assert (Htv : if str_eqb n RESOURCE_SUB_TYPE then exists l, v = VTuple l else exists s, v = VStr s).
  { apply add_wildcards_type in Hv as [-> |(Hx & s & ->)]; [apply to_value_type|].
    rewrite (text_not_subtype E n Hx). eauto. }
  intros m p w Hw. destruct (str_eq_dec m n) as [-> |Hm].
  - assert (Hc : w = v \/ exists q, own (i_props i) n q w).
    { destruct p as [c|].
      - apply (stored_own_named (e_ver E)) in Hw as [(_ & Ho & _)|(-> & _)]; eauto.
      - apply (stored_own_default (e_ver E)) in Hw as [(_ & Ho & _)|(-> & _)]; eauto. }
    destruct Hc as [-> |(q & Hq)]; [exact Htv|]. now apply (Ht n q).
  - apply stored_other in Hw; [|apply Hg|exact Hm]. now apply (Ht m p).
Qed.

Lemma fold_good_typed : forall (A : Type) E (f : item -> A -> result item) l i i',
  (forall x a b, In a l -> good_props (e_ver E) (i_props x) -> well_typed (i_props x) ->
     f x a = Ok b -> good_props (e_ver E) (i_props b) /\ well_typed (i_props b)) ->
  good_props (e_ver E) (i_props i) -> well_typed (i_props i) ->
  fold_result f l i = Ok i' ->
  good_props (e_ver E) (i_props i') /\ well_typed (i_props i').
Proof.
  intros A E f l i i' Hf Hg Ht H. revert H.
  apply (fold_result_inv _ _ _ (fun j => good_props (e_ver E) (i_props j) /\ well_typed (i_props j))).
  - intros x a b Ha (H1 & H2). now apply Hf.
  - auto.
Qed.

Lemma set_property_ok : forall E i n x P ow i', good_props (e_ver E) (i_props i) ->
  well_typed (i_props i) -> set_property E i n x P ow = Ok i' ->
  good_props (e_ver E) (i_props i') /\ well_typed (i_props i').
Proof.
  intros E i n x P ow i' Hg Ht H. split; [now apply set_property_good in H|].
  now apply set_property_typed in H.
Qed.

Theorem reachable_typed : forall ver i, reachable ver i -> well_typed (i_props i).
Proof.
  intros ver i H. induction H; subst; auto.
  - intros n p v (d & s & [] & _).
  - (* read *)
    assert (Hg := reachable_good _ _ H0). unfold add_item in H1.
    destruct (namespace_for_item_tag (e_ver E) (etag x)) as [ns|]; [|discriminate].
    set (P := map Some _) in H1.
    destruct (fold_result _ (eattrib x) (with_ns ns i)) as [i1|] eqn:E1; [|discriminate].
    cbn [rbind] in H1.
    destruct (fold_result _ (reading_order (e_ver E) (echildren x)) i1) as [i2|] eqn:E2;
      [|discriminate].
    cbn [rbind] in H1.
    apply (fold_good_typed _ E) in E1 as (G1 & T1); [|clear E1|exact Hg|exact IHreachable].
    2: { intros j kv j' _ Hj Tj. destruct (str_eqb _ _); [intros Hk; injection Hk as <-; auto|].
         now apply set_property_ok. }
    apply (fold_good_typed _ E) in E2 as (G2 & T2); [|clear E2|exact G1|exact T1].
    2: { intros j c j' _ Hj Tj. unfold add_child_property. destruct (mem_str _ _).
         - destruct (set_property _ _ _ _ _ _) as [j1|] eqn:Ej; [|discriminate]. cbn [rbind].
           apply set_property_ok in Ej as (? & ?); auto. intros Hf.
           apply (fold_good_typed _ E) in Hf; auto.
           intros k kv k' _ Hk Tk. now apply set_property_ok.
         - now apply set_property_ok. }
    rewrite validate_good in H1 by exact G2. injection H1 as <-. exact T2.
  - assert (Hg := reachable_good _ _ H0). now apply set_property_typed in H1.
  - assert (Hg := reachable_good _ _ H0). unfold add_profile in H1.
    destruct (has_profile E i p); [injection H1 as <-; exact IHreachable|].
    destruct (prget _ _); [|discriminate].
    destruct (fold_result _ _ i) as [i1|] eqn:E1; [|discriminate]. cbn [rbind] in H1.
    apply (fold_good_typed _ E) in E1 as (G1 & T1); auto.
    + rewrite validate_good in H1 by exact G1. injection H1 as <-. exact T1.
    + intros j n j' _ Hj Tj. unfold add_profile_step.
      destruct (prget n _) as [[|e d]|]; [|destruct (inherited _ _)|]; try discriminate.
      * intros K. injection K as <-. auto.
      * now apply set_property_ok.
  - assert (Hg := reachable_good _ _ H0).
    rewrite remove_profile_eq in H1 by exact Hg. injection H1 as <-.
    destruct (has_profile E i p); [|exact IHreachable]. cbn.
    intros n q w Hw. apply (removed_own (e_ver E)) in Hw as (_ & [(Hw & _)|(_ & _ & Hw & _)]); auto.
    + now apply (IHreachable n q).
    + now apply (IHreachable n None).
Qed.
