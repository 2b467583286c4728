(** Proofs about COT/xml_file.py. *)
From Coq Require Import Lia.
From Verif Require Import PyBase PyBaseProofs PyDict PyDictProofs PyRegex PyRegexProofs XmlModel XmlSpec.

(** Induction on element trees. *)
Section ElemInd.
  Variable P : elem -> Prop.
  Hypothesis Hstep : forall t a x l cs, Forall P cs -> P (Elem t a x l cs).
  Fixpoint elem_rect' (e : elem) : P e :=
    match e with
    | Elem t a x l cs =>
        Hstep t a x l cs
          ((fix go cs : Forall P cs :=
              match cs with
              | [] => Forall_nil P
              | c :: cs' => Forall_cons c (elem_rect' c) (go cs')
              end) cs)
    end.
End ElemInd.
Definition elem_ind' := elem_rect'.

(** ** Ordering *)

Lemma index_of_None : forall t l, index_of t l = None <-> ~ In t l.
Proof.
  intros t l. induction l as [|x l IH]; cbn; [tauto|].
  destruct (str_eqb x t) eqn:E.
  - apply str_eqb_eq in E. subst. split; [discriminate|]. intros H. destruct H. now left.
  - apply str_eqb_neq in E. destruct (index_of t l) as [n|].
    + split; [discriminate|]. intros H. exfalso. assert (H1 : ~ In t l) by tauto.
      now apply IH in H1.
    + split; [|reflexivity]. intros _ [H|H]; [auto|]. now apply IH.
Qed.

Lemma earlier_index : forall ord a b,
  earlier ord a b <->
  exists i, index_of a ord = Some i /\ forall j, index_of b ord = Some j -> i < j.
Proof.
  induction ord as [|x ord IH]; intros a b.
  - split.
    + intros (p & q & H & _). destruct p; discriminate.
    + intros (i & H & _). discriminate.
  - cbn [index_of]. destruct (str_eqb x a) eqn:Ea.
    + apply str_eqb_eq in Ea. subst x. split.
      * intros (p & q & H & Hb). exists 0. split; [reflexivity|].
        destruct (str_eqb a b) eqn:Eb.
        -- apply str_eqb_eq in Eb. subst b. exfalso. apply Hb. apply in_app_iff. right. now left.
        -- intros j Hj. destruct (index_of b ord); [|discriminate]. injection Hj as <-. lia.
      * intros (i & H & Hb). injection H as <-. exists [], ord. split; [reflexivity|].
        cbn. intros [->|[]]. rewrite str_eqb_refl in Hb. specialize (Hb 0 eq_refl). lia.
    + apply str_eqb_neq in Ea. split.
      * intros (p & q & H & Hb). destruct p as [|y p]; cbn in H; injection H as Hx H.
        { congruence. }
        subst y. assert (H1 : earlier ord a b).
        { exists p, q. split; [exact H|]. intros Hin. apply Hb. now right. }
        apply IH in H1 as (i & Hi & Hj). rewrite Hi. exists (S i). split; [reflexivity|].
        intros j. destruct (str_eqb x b) eqn:Eb.
        -- apply str_eqb_eq in Eb. subst. exfalso. apply Hb. now left.
        -- destruct (index_of b ord) as [n|] eqn:En; [|discriminate].
           intros E. injection E as <-. specialize (Hj n eq_refl). lia.
      * intros (i & Hi & Hj). destruct (index_of a ord) as [n|] eqn:En; [|discriminate].
        injection Hi as <-. assert (Hxb : x <> b).
        { intros ->. rewrite str_eqb_refl in Hj. specialize (Hj 0 eq_refl). lia. }
        apply str_eqb_neq in Hxb. rewrite Hxb in Hj.
        destruct (proj2 (IH a b)) as (p & q & Hp & Hb).
        { exists n. split; [exact En|]. intros j Hj1. rewrite Hj1 in Hj.
          specialize (Hj (S j) eq_refl). lia. }
        exists (x :: p), q. split; [cbn; congruence|]. cbn. intros [H|H]; [|auto].
        apply str_eqb_neq in Hxb. contradiction.
Qed.

Lemma in_order_cons : forall ord c cs,
  in_order ord (c :: cs) <->
  in_order ord cs /\ Forall (fun y => ~ earlier ord (etag y) (etag c)) cs.
Proof.
  intros ord c cs. split.
  - intros H. split.
    + intros pre x mid y post E. apply (H (c :: pre) x mid y post). cbn. congruence.
    + apply Forall_forall. intros y Hy. apply in_split in Hy as (mid & post & E).
      apply (H [] c mid y post). cbn. congruence.
  - intros [H1 H2] pre x mid y post E. destruct pre as [|z pre]; cbn in E; injection E as E1 E2.
    + subst. rewrite Forall_forall in H2. apply H2. apply in_app_iff. right. now left.
    + apply (H1 pre x mid y post E2).
Qed.

Lemma in_order_nil : forall ord, in_order ord [].
Proof. intros ord pre x mid y post H. destruct pre; discriminate. Qed.

Lemma in_order_snoc : forall ord cs c,
  in_order ord (cs ++ [c]) <->
  in_order ord cs /\ Forall (fun x => ~ earlier ord (etag c) (etag x)) cs.
Proof.
  intros ord cs c. induction cs as [|x cs IH].
  - cbn [app]. rewrite in_order_cons. split.
    + intros _. split; [apply in_order_nil|constructor].
    + intros _. split; [apply in_order_nil|constructor].
  - cbn [app]. rewrite !in_order_cons, IH, Forall_app, !Forall_cons_iff. intuition.
Qed.

Lemma insert_child_split : forall ord new i cs, index_of (etag new) ord = Some i ->
  exists pre post, cs = pre ++ post /\ insert_child ord i new cs = pre ++ new :: post /\
  Forall (fun c => In (etag c) ord /\ ~ earlier ord (etag new) (etag c)) pre /\
  (forall c r, post = c :: r -> earlier ord (etag new) (etag c)).
Proof.
  intros ord new i cs Hi. induction cs as [|c cs IH]; cbn [insert_child].
  - exists [], []. repeat split; [constructor|discriminate].
  - destruct (index_of (etag c) ord) as [j|] eqn:Ej.
    + destruct (Nat.ltb i j) eqn:El.
      * apply Nat.ltb_lt in El. exists [], (c :: cs). repeat split; [constructor|].
        intros c' r E. injection E as <- <-. apply earlier_index. exists i. split; [exact Hi|].
        intros j' E. rewrite Ej in E. injection E as <-. exact El.
      * apply Nat.ltb_ge in El. destruct IH as (pre & post & -> & Hins & Hpre & Hpost).
        exists (c :: pre), post. rewrite Hins. repeat split; [|exact Hpost].
        constructor; [|exact Hpre]. split.
        -- destruct (in_dec str_eq_dec (etag c) ord) as [H|H]; [exact H|].
           apply index_of_None in H. congruence.
        -- intros He. apply earlier_index in He as (i' & Hi' & Hlt).
           rewrite Hi in Hi'. injection Hi' as <-. specialize (Hlt j Ej). lia.
    + exists [], (c :: cs). repeat split; [constructor|].
      intros c' r E. injection E as <- <-. apply earlier_index. exists i. split; [exact Hi|].
      intros j' E. congruence.
Qed.

(** Once a later child is met, all that follow an ordered list are later. *)
Lemma earlier_trans : forall ord a b c,
  earlier ord a b -> ~ earlier ord c b -> earlier ord a c.
Proof.
  intros ord a b c Hab Hcb. apply earlier_index in Hab as (i & Hi & Hj).
  apply earlier_index. exists i. split; [exact Hi|]. intros k Hk.
  destruct (index_of b ord) as [j|] eqn:Eb.
  - specialize (Hj j eq_refl). destruct (Nat.lt_ge_cases k j) as [H|H]; [|lia].
    exfalso. apply Hcb. apply earlier_index. exists k. split; [exact Hk|].
    intros j' E. congruence.
  - exfalso. apply Hcb. apply earlier_index. exists k. split; [exact Hk|].
    intros j E. congruence.
Qed.

Lemma earlier_asym : forall ord a b, earlier ord a b -> ~ earlier ord b a.
Proof.
  intros ord a b H1 H2. apply earlier_index in H1 as (i & Hi & Hij).
  apply earlier_index in H2 as (j & Hj & Hji). specialize (Hij j Hj).
  specialize (Hji i Hi). lia.
Qed.

Lemma in_order_insert : forall ord new pre post,
  in_order ord (pre ++ post) ->
  Forall (fun c => ~ earlier ord (etag new) (etag c)) pre ->
  (forall c r, post = c :: r -> earlier ord (etag new) (etag c)) ->
  in_order ord (pre ++ new :: post).
Proof.
  intros ord new pre post. induction pre as [|x pre IH]; cbn [app]; intros Ho Hp Hq.
  - apply in_order_cons. split; [exact Ho|]. destruct post as [|c r]; [constructor|].
    specialize (Hq c r eq_refl). apply in_order_cons in Ho as [_ Ho].
    constructor; [now apply earlier_asym|]. revert Ho. apply Forall_impl.
    intros y Hy. apply earlier_asym. now apply earlier_trans with (etag c).
  - apply in_order_cons in Ho as [H1 H2]. inversion Hp as [|? ? Hx Hp']; subst.
    apply in_order_cons. split; [now apply IH|].
    apply Forall_app in H2 as [H2 H3]. apply Forall_app. split; [exact H2|].
    now constructor.
Qed.

Lemma add_child_spec : forall parent new ord,
  same_but_children parent (add_child parent new ord) /\
  exists pre post,
    echildren parent = pre ++ post /\
    echildren (add_child parent new ord) = pre ++ new :: post /\
    (In (etag new) ord ->
       (forall c, In c pre -> In (etag c) ord /\ ~ earlier ord (etag new) (etag c)) /\
       (forall c r, post = c :: r -> earlier ord (etag new) (etag c))) /\
    (~ In (etag new) ord -> post = []) /\
    (in_order ord (echildren parent) ->
     in_order ord (echildren (add_child parent new ord))).
Proof.
  intros [t a x l cs] new ord. unfold add_child.
  destruct (index_of (etag new) ord) as [i|] eqn:Ei; cbn.
  - split; [now repeat split|].
    destruct (insert_child_split ord new i cs Ei) as (pre & post & -> & Hins & Hpre & Hpost).
    exists pre, post. split; [reflexivity|]. split; [exact Hins|]. split.
    + intros _. split; [|exact Hpost]. now apply Forall_forall.
    + split.
      * intros Hn. apply index_of_None in Hn. congruence.
      * intros Ho. rewrite Hins. apply in_order_insert; auto.
        revert Hpre. apply Forall_impl. tauto.
  - split; [now repeat split|]. exists cs, []. rewrite app_nil_r.
    split; [reflexivity|]. split; [reflexivity|]. apply index_of_None in Ei. split.
    + contradiction.
    + split; [reflexivity|]. intros Ho. apply in_order_snoc. split; [exact Ho|].
      apply Forall_forall. intros y _ He. apply earlier_index in He as (i & Hi & _).
      apply index_of_None in Ei. congruence.
Qed.

(** ** Finding and setting children *)

Lemma attrib_match_spec : forall attrib e,
  attrib_match attrib e = true <-> forall k v, In (k, v) attrib -> get_attr e k = Some v.
Proof.
  intros attrib e. unfold attrib_match. rewrite forallb_forall. split.
  - intros H k v Hin. specialize (H _ Hin). cbn in H.
    destruct (get_attr e k) as [w|]; [|discriminate]. apply str_eqb_eq in H. congruence.
  - intros H [k v] Hin. cbn. rewrite (H k v Hin). apply str_eqb_refl.
Qed.

Lemma child_match_spec : forall tag attrib e,
  child_match tag attrib e = true <-> answers tag attrib e.
Proof.
  intros. unfold child_match, answers.
  now rewrite andb_true_iff, str_eqb_eq, attrib_match_spec.
Qed.

Lemma find_all_one : forall p tag attrib,
  find_all_children p [tag] attrib = filter (child_match tag attrib) (echildren p).
Proof. intros. unfold find_all_children. cbn. now rewrite app_nil_r. Qed.

Lemma filter_nil : forall (p : elem -> bool) l,
  filter p l = [] <-> forall x, In x l -> p x = false.
Proof.
  intros p l. induction l as [|y l IH]; cbn; [firstorder|].
  destruct (p y) eqn:E.
  - split; [discriminate|]. intros H. specialize (H y (or_introl eq_refl)). congruence.
  - rewrite IH. firstorder congruence.
Qed.

Lemma filter_one : forall (p : elem -> bool) l e,
  filter p l = [e] <->
  exists pre post, l = pre ++ e :: post /\ p e = true /\
  forall x, In x (pre ++ post) -> p x = false.
Proof.
  intros p l e. split.
  - induction l as [|y l IH]; cbn; [discriminate|]. destruct (p y) eqn:E.
    + intros H. injection H as <- H. exists [], l. cbn. repeat split; auto.
      now apply filter_nil.
    + intros H. destruct (IH H) as (pre & post & -> & He & Hno).
      exists (y :: pre), post. cbn. repeat split; auto. intros x [<-|Hx]; auto.
  - intros (pre & post & -> & He & Hno). rewrite filter_app. cbn. rewrite He.
    rewrite (proj2 (filter_nil p pre)), (proj2 (filter_nil p post)); [reflexivity| |];
      intros x Hx; apply Hno; apply in_app_iff; auto.
Qed.

Lemma find_child_spec : forall p tag attrib req,
  match find_child p tag attrib req with
  | Ok (Some e) => exists pre post, echildren p = pre ++ e :: post /\
      answers tag attrib e /\ forall x, In x (pre ++ post) -> ~ answers tag attrib x
  | Ok None => req = false /\ forall x, In x (echildren p) -> ~ answers tag attrib x
  | Err EKeyError => req = true /\ forall x, In x (echildren p) -> ~ answers tag attrib x
  | Err ELookupError => exists pre x mid y post,
      echildren p = pre ++ x :: mid ++ y :: post /\
      answers tag attrib x /\ answers tag attrib y
  | Err _ => False
  end.
Proof.
  intros p tag attrib req. unfold find_child. rewrite find_all_one.
  destruct (filter (child_match tag attrib) (echildren p)) as [|e [|e2 r]] eqn:E.
  - assert (H : forall x, In x (echildren p) -> ~ answers tag attrib x).
    { intros x Hx Ha. apply child_match_spec in Ha.
      rewrite (proj1 (filter_nil _ _) E x Hx) in Ha. discriminate. }
    destruct req; now split.
  - apply filter_one in E as (pre & post & Hl & He & Hno). exists pre, post.
    split; [exact Hl|]. split; [now apply child_match_spec|].
    intros x Hx Ha. apply child_match_spec in Ha. rewrite Hno in Ha by exact Hx. discriminate.
  - assert (H : forall l e e2 r, filter (child_match tag attrib) l = e :: e2 :: r ->
      exists pre x mid y post, l = pre ++ x :: mid ++ y :: post /\
      answers tag attrib x /\ answers tag attrib y).
    { clear. intros l e e2 r H.
      assert (Hx : exists pre post, l = pre ++ e :: post /\ answers tag attrib e /\
                 filter (child_match tag attrib) post = e2 :: r).
      { clear - H. induction l as [|y l IH]; cbn in H; [discriminate|].
        destruct (child_match tag attrib y) eqn:Ey.
        - injection H as -> H. exists [], l. split; [reflexivity|].
          split; [now apply child_match_spec|exact H].
        - destruct (IH H) as (pre & post & -> & H1). exists (y :: pre), post. now split. }
      destruct Hx as (pre & post & -> & He & Hr).
      assert (Hin : In e2 (filter (child_match tag attrib) post)) by (rewrite Hr; now left).
      apply filter_In in Hin as [Hin Hm]. apply in_split in Hin as (mid & post' & ->).
      exists pre, e, mid, e2, post'. repeat split; auto; try apply He;
        now apply child_match_spec in Hm as [? ?]. }
    apply (H _ _ _ _ E).
Qed.

Lemma update_element_fields : forall attrib text e,
  etag (update_element text attrib e) = etag e /\
  etext (update_element text attrib e) = (match text with Some _ => text | None => etext e end) /\
  etail (update_element text attrib e) = etail e /\
  echildren (update_element text attrib e) = echildren e.
Proof.
  intros attrib text e. unfold update_element.
  set (e0 := match text with Some x => set_text (Some x) e | None => e end).
  assert (H0 : etag e0 = etag e /\
    etext e0 = (match text with Some _ => text | None => etext e end) /\
    etail e0 = etail e /\ echildren e0 = echildren e).
  { subst e0. destruct e, text; now repeat split. }
  clearbody e0. revert e0 H0.
  induction attrib as [|[k v] attrib IH]; intros e0 H0; cbn [fold_left]; [exact H0|].
  apply IH. destruct e0; exact H0.
Qed.

Lemma eattrib_set_attribs : forall a e, eattrib (set_attribs a e) = a.
Proof. now intros a []. Qed.

Lemma update_element_attribs : forall attrib text e,
  eattrib (update_element text attrib e) =
  fold_left (fun d kv => dset str_eqb (fst kv) (snd kv) d) attrib (eattrib e).
Proof.
  intros attrib text e. unfold update_element.
  set (e0 := match text with Some x => set_text (Some x) e | None => e end).
  assert (H0 : eattrib e0 = eattrib e) by (subst e0; destruct e, text; reflexivity).
  rewrite <- H0. clearbody e0. clear H0. revert e0.
  induction attrib as [|[k v] attrib IH]; intros e0; cbn [fold_left]; [reflexivity|].
  rewrite IH. unfold set_attr. now rewrite eattrib_set_attribs.
Qed.

Lemma dset_all_get : forall attrib (d : list (str * str)) k v, NoDup (map fst attrib) ->
  In (k, v) attrib ->
  dget str_eqb k (fold_left (fun d kv => dset str_eqb (fst kv) (snd kv) d) attrib d) = Some v.
Proof.
  assert (Hkeep : forall attrib (d : list (str * str)) k, ~ In k (map fst attrib) ->
    dget str_eqb k (fold_left (fun d kv => dset str_eqb (fst kv) (snd kv) d) attrib d)
    = dget str_eqb k d).
  { induction attrib as [|[k v] attrib IH]; intros d k0 H; cbn in *; [reflexivity|].
    rewrite IH by tauto. apply dget_dset_other; [apply str_eqb_eq|]. intros ->. tauto. }
  induction attrib as [|[k0 v0] attrib IH]; intros d k v Hnd Hin; cbn in *; [contradiction|].
  inversion Hnd as [|? ? Hni Hnd']; subst. destruct Hin as [E|Hin].
  - injection E as -> ->. rewrite Hkeep by exact Hni.
    apply dget_dset_same. apply str_eqb_eq.
  - now apply IH.
Qed.

Lemma dset_same_id : forall (d : list (str * str)) k v, dget str_eqb k d = Some v -> dset str_eqb k v d = d.
Proof.
  induction d as [|[k' v'] d IH]; intros k v H; cbn in *; [discriminate|].
  destruct (str_eqb k k') eqn:E.
  - injection H as ->. reflexivity.
  - f_equal. auto.
Qed.

Lemma dset_all_id : forall attrib (d : list (str * str)),
  (forall k v, In (k, v) attrib -> dget str_eqb k d = Some v) ->
  fold_left (fun d kv => dset str_eqb (fst kv) (snd kv) d) attrib d = d.
Proof.
  induction attrib as [|[k v] attrib IH]; intros d H; cbn; [reflexivity|].
  rewrite dset_same_id by (apply H; now left). apply IH. intros k' v' Hin. apply H. now right.
Qed.

Lemma update_element_answers : forall tag attrib text e, NoDup (map fst attrib) ->
  etag e = tag -> answers tag attrib (update_element text attrib e).
Proof.
  intros tag attrib text e Hnd Ht. split.
  - now rewrite (proj1 (update_element_fields attrib text e)).
  - intros k v Hin. unfold get_attr. rewrite update_element_attribs.
    now apply dset_all_get.
Qed.

Lemma update_element_found : forall tag attrib text e, answers tag attrib e ->
  same_but_text e (update_element text attrib e).
Proof.
  intros tag attrib text e [_ Ha]. unfold same_but_text.
  destruct (update_element_fields attrib text e) as (-> & _ & -> & ->).
  rewrite update_element_attribs, dset_all_id; [now repeat split|exact Ha].
Qed.

Lemma elem_ext : forall a b, etag a = etag b -> eattrib a = eattrib b -> etext a = etext b ->
  etail a = etail b -> echildren a = echildren b -> a = b.
Proof. intros [] []; cbn. congruence. Qed.

Lemma update_element_idem : forall tag attrib text e, NoDup (map fst attrib) -> etag e = tag ->
  update_element text attrib (update_element text attrib e) = update_element text attrib e.
Proof.
  intros tag attrib text e Hnd Ht.
  destruct (update_element_fields attrib text (update_element text attrib e))
    as (H1 & H2 & H3 & H4).
  apply elem_ext; auto.
  - rewrite update_element_attribs, dset_all_id; [reflexivity|].
    apply (update_element_answers tag attrib text e Hnd Ht).
  - rewrite H2. destruct (update_element_fields attrib text e) as (_ & -> & _).
    now destruct text.
Qed.

Lemma update_first_split : forall p f pre e post, p e = true ->
  (forall x, In x pre -> p x = false) ->
  update_first p f (pre ++ e :: post) = pre ++ f e :: post.
Proof.
  intros p f pre e post He. induction pre as [|x pre IH]; intros Hp; cbn.
  - now rewrite He.
  - rewrite Hp by now left. f_equal. apply IH. intros y Hy. apply Hp. now right.
Qed.

Lemma set_or_make_child_spec : forall p tag text attrib ord,
  NoDup (map fst attrib) ->
  match set_or_make_child p tag text attrib ord with
  | Ok (p', c) =>
      same_but_children p p' /\ answers tag attrib c /\
      (forall x, text = Some x -> etext c = Some x) /\
      find_child p' tag attrib true = Ok (Some c) /\
      set_or_make_child p' tag text attrib ord = Ok (p', c) /\
      ((exists pre old post, echildren p = pre ++ old :: post /\
          echildren p' = pre ++ c :: post /\ answers tag attrib old /\
          same_but_text old c /\ (text = None -> c = old)) \/
       (exists pre post, echildren p = pre ++ post /\ echildren p' = pre ++ c :: post /\
          (forall x, In x (pre ++ post) -> ~ answers tag attrib x) /\
          p' = add_child p c ord /\
          c = Elem tag attrib text None []))
  | Err e => e = ELookupError /\ exists pre x mid y post,
      echildren p = pre ++ x :: mid ++ y :: post /\
      answers tag attrib x /\ answers tag attrib y
  end.
Proof.
  intros p tag text attrib ord Hnd.
  assert (Hfind : forall q pre c post, echildren q = pre ++ c :: post ->
    answers tag attrib c -> (forall x, In x (pre ++ post) -> ~ answers tag attrib x) ->
    forall b, find_child q tag attrib b = Ok (Some c)).
  { intros q pre c post Hq Hc Hno b. unfold find_child. rewrite find_all_one.
    rewrite (proj2 (filter_one _ _ c)); [reflexivity|]. exists pre, post.
    split; [exact Hq|]. split; [now apply child_match_spec|].
    intros x Hx. destruct (child_match tag attrib x) eqn:E; [|reflexivity].
    apply child_match_spec in E. now apply Hno in E. }
  pose proof (find_child_spec p tag attrib false) as Hf.
  unfold set_or_make_child at 1. destruct (find_child p tag attrib false) as [[e|]|er] eqn:Ef.
  - destruct Hf as (pre & post & Hcs & Ha & Hno).
    assert (Hcm : child_match tag attrib e = true) by now apply child_match_spec.
    assert (Hpre : forall x, In x pre -> child_match tag attrib x = false).
    { intros x Hx. destruct (child_match tag attrib x) eqn:E; [|reflexivity].
      apply child_match_spec in E. apply Hno in E; [contradiction|]. apply in_app_iff. auto. }
    rewrite Hcs, update_first_split by auto.
    set (c := update_element text attrib e). set (p' := set_children (pre ++ c :: post) p).
    assert (Hc : answers tag attrib c) by (apply update_element_answers; [exact Hnd|apply Ha]).
    assert (Hp' : echildren p' = pre ++ c :: post) by (subst p'; now destruct p).
    split. { subst p'. destruct p. now repeat split. }
    split; [exact Hc|]. split.
    { intros x ->. unfold c. apply update_element_fields. }
    split. { now apply (Hfind p' pre c post Hp' Hc). }
    split.
    { unfold set_or_make_child. rewrite (Hfind p' pre c post Hp' Hc Hno false).
      rewrite Hp', update_first_split; [|now apply child_match_spec|exact Hpre].
      unfold c. rewrite (update_element_idem tag); [|exact Hnd|apply Ha].
      fold c. subst p'. now destruct p. }
    left. exists pre, e, post. repeat split; auto; try apply Ha;
      try apply (update_element_found tag attrib text e Ha).
    intros ->. apply elem_ext; try apply (update_element_fields attrib None e).
    symmetry. apply (update_element_found tag attrib None e Ha).
  - destruct Hf as [_ Hno].
    set (c := update_element text attrib (Elem tag [] None None [])).
    assert (Hc : answers tag attrib c) by (now apply update_element_answers).
    destruct (add_child_spec p c ord) as (Hsb & pre & post & Hcs & Hcs' & _).
    rewrite Hcs in Hno.
    split; [exact Hsb|]. split; [exact Hc|]. split.
    { intros x ->. unfold c. apply update_element_fields. }
    split. { now apply (Hfind _ pre c post Hcs' Hc). }
    split.
    { unfold set_or_make_child. rewrite (Hfind _ pre c post Hcs' Hc Hno false), Hcs'.
      rewrite update_first_split; [|now apply child_match_spec|].
      - assert (E : update_element text attrib c = c).
        { unfold c. now rewrite (update_element_idem tag). }
        rewrite E. f_equal. f_equal. rewrite <- Hcs'. now destruct (add_child p c ord).
      - intros x Hx. destruct (child_match tag attrib x) eqn:E; [|reflexivity].
        apply child_match_spec in E. apply Hno in E; [contradiction|]. apply in_app_iff. auto. }
    right. exists pre, post. split; [exact Hcs|]. split; [exact Hcs'|]. split; [exact Hno|].
    split; [reflexivity|].
    pose proof (update_element_fields attrib text (Elem tag [] None None [])) as (F1 & F2 & F3 & F4).
    apply elem_ext; [exact F1| | |exact F3|exact F4].
    + unfold c. rewrite update_element_attribs. cbn.
      assert (H : forall l d : list (str * str), NoDup (map fst (d ++ l)) ->
        fold_left (fun d kv => dset str_eqb (fst kv) (snd kv) d) l d = d ++ l).
      { induction l as [|[k v] l IH]; intros d H; cbn; [now rewrite app_nil_r|].
        rewrite dset_fresh; [|apply str_eqb_eq|].
        - rewrite IH; now rewrite <- app_assoc.
        - rewrite map_app in H. cbn in H. apply NoDup_remove_2 in H.
          intros Hin. apply H. apply in_app_iff. now left. }
      now rewrite (H attrib [] Hnd).
    + unfold c. rewrite F2. now destruct text.
  - destruct er; try contradiction; [destruct Hf; discriminate|]. split; [reflexivity|exact Hf].
Qed.

(** ** Indentation *)

Lemma set_last_tail_snoc : forall tl cs c,
  set_last_tail tl (cs ++ [c]) = cs ++ [set_tail tl c].
Proof.
  intros tl cs c. induction cs as [|x cs IH]; cbn; [reflexivity|].
  destruct (cs ++ [c]) eqn:E; [now destruct cs|]. now rewrite IH.
Qed.

Lemma reindent_children : forall tl depth t a x l cs c,
  reindent_as tl depth (Elem t a x l (cs ++ [c])) =
  Elem t a (Some (newline_indent (depth + 2)))
    (if depth =? 0 then Some [NL] else tl)
    (map (reindent_as (Some (newline_indent (depth + 2))) (depth + 2)) cs ++
     [set_tail (Some (newline_indent depth))
       (reindent_as (Some (newline_indent (depth + 2))) (depth + 2) c)]).
Proof.
  intros. cbn [reindent_as]. rewrite map_app. cbn [map].
  assert (E : depth + 2 - 2 = depth) by lia. rewrite E.
  destruct (map _ cs ++ [_]) eqn:Em; [now destruct (map _ cs)|]. rewrite <- Em.
  now rewrite set_last_tail_snoc.
Qed.

Lemma set_tail_reindent : forall tl tl' d e, d <> 0 ->
  set_tail tl (reindent_as tl' d e) = reindent_as tl d e.
Proof.
  intros tl tl' d [t a x l cs] Hd. cbn [reindent_as].
  destruct (map (reindent_as (Some (newline_indent (d + 2))) (d + 2)) cs).
  - cbn. destruct (d + 2) eqn:E; [lia|reflexivity].
  - cbn. destruct (d + 2 - 2) eqn:E; [lia|reflexivity].
Qed.

Lemma etail_reindent : forall tl d e, d <> 0 -> etail (reindent_as tl d e) = tl.
Proof.
  intros tl d [t a x l cs] Hd. cbn [reindent_as].
  destruct (map (reindent_as (Some (newline_indent (d + 2))) (d + 2)) cs).
  - cbn. destruct (d + 2) eqn:E; [lia|reflexivity].
  - cbn. destruct (d + 2 - 2) eqn:E; [lia|reflexivity].
Qed.

Lemma snoc_cases : forall (l : list elem), l = [] \/ exists l' x, l = l' ++ [x].
Proof.
  intros l. destruct l as [|y l]; [now left|right].
  destruct (@exists_last elem (y :: l)) as (l' & x & ->); [discriminate|]. eauto.
Qed.

Lemma same_content_set_tail : forall tl e e',
  same_content e e' -> same_content e (set_tail tl e').
Proof. intros tl e e' H. inversion H; subst. now constructor. Qed.

Lemma reindent_same : forall e tl d, same_content e (reindent_as tl d e).
Proof.
  induction e as [t a x l cs IH] using elem_ind'. intros tl d.
  destruct (snoc_cases cs) as [->|(cs' & c & ->)].
  - cbn. constructor; auto.
  - rewrite reindent_children. constructor.
    + apply Forall_app in IH as [H1 H2]. apply Forall2_app.
      * clear - H1. induction H1 as [|c' l' Hc H1 IH1]; cbn; constructor; auto.
      * constructor; [|constructor]. apply same_content_set_tail.
        inversion H2; subst. auto.
    + intros E. now destruct cs'.
Qed.

Lemma laid_out_set_tail : forall tl d e, laid_out d e -> laid_out d (set_tail tl e).
Proof. intros tl d e H. inversion H; subst; now constructor. Qed.

Lemma reindent_laid_out : forall e tl d, laid_out d (reindent_as tl d e).
Proof.
  induction e as [t a x l cs IH] using elem_ind'. intros tl d.
  destruct (snoc_cases cs) as [->|(cs' & c & ->)].
  - cbn. constructor.
  - rewrite reindent_children. apply Forall_app in IH as [H1 H2].
    inversion H2 as [|? ? H3 _]; subst. constructor.
    + apply Forall_forall. intros e He. apply in_map_iff in He as (e' & <- & _).
      apply etail_reindent. lia.
    + now destruct (reindent_as _ _ c).
    + apply Forall_app. split.
      * apply Forall_forall. intros e He. apply in_map_iff in He as (e' & <- & Hin).
        rewrite Forall_forall in H1. now apply H1.
      * constructor; [|constructor]. now apply laid_out_set_tail.
Qed.

Lemma reindent_idem : forall e tl tl' d,
  reindent_as tl d (reindent_as tl' d e) = reindent_as tl d e.
Proof.
  induction e as [t a x l cs IH] using elem_ind'. intros tl tl' d.
  destruct (snoc_cases cs) as [->|(cs' & c & ->)].
  - cbn. now destruct (d + 2).
  - rewrite !reindent_children. f_equal. apply Forall_app in IH as [H1 H2].
    inversion H2 as [|? ? H3 _]; subst. f_equal.
    + rewrite map_map. apply map_ext_in. intros e He. rewrite Forall_forall in H1. now apply H1.
    + f_equal. rewrite !set_tail_reindent by lia. apply H3.
Qed.

Lemma xml_reindent_idem : forall e d, xml_reindent (xml_reindent e d) d = xml_reindent e d.
Proof.
  intros e d. unfold xml_reindent. rewrite reindent_idem.
  destruct e as [t a x l cs]. destruct (snoc_cases cs) as [->|(cs' & c & ->)].
  - cbn. now destruct (d + 2).
  - rewrite !reindent_children. cbn. now destruct d.
Qed.

(** ** Namespaces *)

Definition not_nl : ascii -> bool := fun c => negb (Ascii.eqb c NL).

Lemma not_nl_all : forall s, ~ In NL s -> forallb not_nl s = true.
Proof.
  intros s H. apply forallb_forall. intros c Hc. unfold not_nl. apply negb_true_iff.
  apply Ascii.eqb_neq. intros ->. contradiction.
Qed.

Lemma skipn_name : forall (ns name : str) i, length ns < i ->
  ~ In "}"%char name ->
  forall t, skipn i (ns ++ "}"%char :: name) ++ [] <> "}"%char :: t.
Proof.
  intros ns name i Hi Hn t E. rewrite app_nil_r, skipn_app in E.
  rewrite skipn_all2 in E by lia. cbn [app] in E.
  replace (i - length ns) with (S (i - length ns - 1)) in E by lia. cbn [skipn] in E.
  apply Hn. rewrite <- (firstn_skipn (i - length ns - 1) name), E.
  apply in_app_iff. right. now left.
Qed.

Lemma lit_fails : forall B c s g (k : st -> list B), (forall t, s <> c :: t) ->
  flat_map k (run (RLit c) (mkst s g)) = [].
Proof.
  intros B c s g k H. apply no_mt_fails. intros (t & Ht). apply mt_lit_inv in Ht. cbn in Ht.
  now apply (H t).
Qed.

Lemma qualified_name : forall ns name, ~ In NL (ns ++ name) -> ~ In "}"%char name ->
  get_ns ("{"%char :: ns ++ "}"%char :: name) = ns /\
  strip_ns ("{"%char :: ns ++ "}"%char :: name) = name.
Proof.
  intros ns name Hnl Hb.
  assert (Hall : forallb not_nl (ns ++ "}"%char :: name) = true).
  { apply not_nl_all. intros H. apply Hnl. apply in_app_iff in H as [H|[H|H]].
    - apply in_app_iff. now left.
    - discriminate.
    - apply in_app_iff. now right. }
  assert (Hskip : skipn (length ns) (ns ++ "}"%char :: name) ++ [] = "}"%char :: name).
  { rewrite app_nil_r, skipn_app, skipn_all, Nat.sub_diag. reflexivity. }
  assert (Hfirst : firstn (length ns) (ns ++ "}"%char :: name) = ns).
  { rewrite firstn_app, Nat.sub_diag, firstn_all. cbn. apply app_nil_r. }
  assert (Hnil : forall c t, @nil ascii = c :: t -> not_nl c = false) by discriminate.
  assert (Hle : length ns <= length (ns ++ "}"%char :: name)) by (rewrite app_length; lia).
  split.
  - unfold get_ns. rewrite (wins_match _ _ name [(1, ns)]); [reflexivity|].
    unfold re_get_ns. apply wins_seq, wins_lit.
    apply wins_seq with (a := RGroup 1 (RStar RDot)).
    rewrite <- (app_nil_r (ns ++ "}"%char :: name)).
    apply (wins_group_star _ 1 not_nl _ [] [] _ (length ns)); auto.
    + intros i Hi. apply lit_fails. apply skipn_name; [lia|exact Hb].
    + rewrite Hskip, Hfirst. apply wins_lit. now exists [].
  - unfold strip_ns. rewrite (wins_match _ _ [] [(1, name)]); [reflexivity|].
    unfold re_strip_ns. apply wins_seq, wins_lit. apply wins_seq with (a := RStar RDot).
    rewrite <- (app_nil_r (ns ++ "}"%char :: name)).
    assert (Hw : wins (RSeq (RLit "}"%char) (RGroup 1 (RStar RDot))) (fun x => [x])
                   (mkst ("}"%char :: name) []) (mkst [] [(1, name)])).
    { apply wins_seq, wins_lit.
      assert (En : name = name ++ []) by (now rewrite app_nil_r).
      enough (W : wins (RGroup 1 (RStar (RChr not_nl))) (fun x => [x]) (mkst (name ++ []) [])
                    (mkst [] [(1, name)])) by (rewrite <- En in W; exact W).
      apply (wins_group_star_munch _ 1 not_nl name []); auto.
      - rewrite forallb_app in Hall. apply andb_true_iff in Hall as [_ Hall].
        cbn in Hall. exact Hall.
      - now exists []. }
    destruct Hw as [ys Hw].
    apply (star_first _ not_nl _ [] [] _ (length ns) _ ys); auto.
    + intros i Hi. apply no_mt_fails. cbn [rest]. intros (t & Ht).
      apply mt_seq_inv in Ht as (u & Hu & _). apply mt_lit_inv in Hu.
      now apply skipn_name in Hu; [|lia|exact Hb].
    + now rewrite Hskip.
Qed.

Lemma unqualified_name : forall text, (forall t, text <> "{"%char :: t) ->
  get_ns text = [] /\ strip_ns text = text.
Proof.
  intros text H. unfold get_ns, strip_ns.
  rewrite (proj2 (re_match_none re_get_ns text)), (proj2 (re_match_none re_strip_ns text)).
  - now split.
  - intros (t & Ht). apply mt_seq_inv in Ht as (u & Hu & _). apply mt_lit_inv in Hu.
    now apply (H u).
  - intros (t & Ht). apply mt_seq_inv in Ht as (u & Hu & _). apply mt_lit_inv in Hu.
    now apply (H u).
Qed.
