(** Proofs about the declaration of configuration profiles. *)
From Coq Require Import Lia.
From Verif Require Import ValidationSpec PyBase PyBaseProofs PyDict PyDictProofs
  XmlModel XmlSpec XmlProofs NamesModel
  ItemModel ItemSpec ItemProfileProofs HardwareModel HardwareSpec HardwareProofs HardwareIdProofs
  UpdateProofs UpdateHistoryProofs ProfileModel ProfileSpec ProfileProofs.

Definition is_config (v : version) (c : elem) : bool := str_eqb (etag c) (CONFIG v).

Lemma configs : forall v sec, find_all_children sec [CONFIG v] [] = filter (is_config v) (echildren sec).
Proof.
  intros v sec. unfold find_all_children. cbn [flat_map]. rewrite app_nil_r. apply filter_ext.
  intros c. unfold child_match, attrib_match, is_config. cbn [forallb]. apply andb_true_r.
Qed.

Lemma config_ids_listed : forall v sec, config_ids v sec = listed v (filter (is_config v) (echildren sec)).
Proof.
  intros v sec. unfold config_ids. rewrite configs.
  set (l := filter (is_config v) (echildren sec)). clearbody l.
  set (f := fun (ids : list (option str)) c =>
    if is_default v c then get_attr c (CONFIG_ID v) :: ids else ids ++ [get_attr c (CONFIG_ID v)]).
  assert (A : forall l a b, fold_left f l (a ++ b) =
    map (fun c => get_attr c (CONFIG_ID v)) (rev (filter (is_default v) l)) ++ a ++ b ++
    map (fun c => get_attr c (CONFIG_ID v)) (filter (fun c => negb (is_default v c)) l)).
  { induction l0 as [|c l0 IH]; intros a b; cbn [fold_left filter rev map app].
    - now rewrite !app_nil_r.
    - unfold f at 2. destruct (is_default v c); cbn [negb rev map].
      + change (get_attr c (CONFIG_ID v) :: a ++ b) with ((get_attr c (CONFIG_ID v) :: a) ++ b).
        rewrite IH, map_app, <- app_assoc. reflexivity.
      + rewrite <- app_assoc, IH, <- !app_assoc. reflexivity. }
  specialize (A l [] []). cbn [app] in A. exact A.
Qed.

Lemma listed_app_plain : forall v l c, is_default v c = false ->
  listed v (l ++ [c]) = listed v l ++ [get_attr c (CONFIG_ID v)].
Proof.
  intros v l c H. unfold listed. rewrite !filter_app. cbn [filter]. rewrite H. cbn [negb app].
  rewrite app_nil_r, map_app, app_assoc. reflexivity.
Qed.

Lemma listed_same : forall v l l',
  map (fun c => (is_default v c, get_attr c (CONFIG_ID v))) l =
  map (fun c => (is_default v c, get_attr c (CONFIG_ID v))) l' -> listed v l = listed v l'.
Proof.
  intros v l l' H. unfold listed. f_equal.
  - rewrite !map_rev. f_equal. revert l' H. induction l as [|c l IH]; intros [|c' l'] H; try discriminate; [reflexivity|].
    cbn [map filter] in *. injection H as H1 H2 H3. rewrite H1. destruct (is_default v c'); cbn [map];
      [f_equal; [exact H2|]|]; now apply IH.
  - revert l' H. induction l as [|c l IH]; intros [|c' l'] H; try discriminate; [reflexivity|].
    cbn [map filter] in *. injection H as H1 H2 H3. rewrite H1. destruct (is_default v c'); cbn [map negb];
      [|f_equal; [exact H2|]]; now apply IH.
Qed.

Lemma filter_map_comm : forall (A B : Type) (g : A -> B) (f : B -> bool) l,
  filter f (map g l) = map g (filter (fun x => f (g x)) l).
Proof. intros A B g f. induction l as [|x l IH]; [reflexivity|]. cbn. destruct (f (g x)); cbn; now rewrite IH. Qed.
Lemma filter_rev_comm : forall (A : Type) (f : A -> bool) l, filter f (rev l) = rev (filter f l).
Proof.
  intros A f. induction l as [|x l IH]; [reflexivity|]. cbn. rewrite filter_app, IH. cbn.
  destruct (f x); cbn; [reflexivity|apply app_nil_r].
Qed.
Lemma filter_swap : forall (A : Type) (f g : A -> bool) l, filter f (filter g l) = filter g (filter f l).
Proof.
  intros A f g. induction l as [|x l IH]; [reflexivity|]. cbn.
  destruct (g x) eqn:Eg, (f x) eqn:Ef; cbn; rewrite ?Eg, ?Ef, ?IH; reflexivity.
Qed.

Lemma listed_filter : forall v p l, filter (not_id p) (listed v l) =
  listed v (filter (fun c => not_id p (get_attr c (CONFIG_ID v))) l).
Proof.
  intros v p l. unfold listed. rewrite filter_app, !filter_map_comm. f_equal; f_equal.
  - rewrite filter_rev_comm. f_equal. apply filter_swap.
  - apply filter_swap.
Qed.

Lemma listed_without : forall v p pre c post, get_attr c (CONFIG_ID v) = Some p ->
  (forall x, In x (pre ++ post) -> get_attr x (CONFIG_ID v) <> Some p) ->
  listed v (pre ++ post) = filter (not_id p) (listed v (pre ++ c :: post)).
Proof.
  intros v p pre c post Hc Ho. rewrite listed_filter. f_equal.
  assert (A : forall l, (forall x, In x l -> In x (pre ++ post)) ->
    filter (fun c => not_id p (get_attr c (CONFIG_ID v))) l = l).
  { intros l Hl. apply filter_all. intros x Hx. specialize (Ho x (Hl x Hx)). unfold not_id.
    destruct (get_attr x (CONFIG_ID v)) as [s|]; [|reflexivity].
    destruct (str_eqb s p) eqn:Es; [|reflexivity]. apply str_eqb_eq in Es. congruence. }
  rewrite filter_app. cbn [filter]. rewrite Hc. cbn [not_id]. rewrite str_eqb_refl. cbn [negb].
  rewrite !A; [reflexivity| |]; intros x Hx; apply in_or_app; auto.
Qed.

(** ** Sections *)

Lemma is_deploy_sections : forall v env, deploy_sections v env = filter (is_deploy v) (echildren env).
Proof. reflexivity. Qed.

Lemma find_filter : forall (A : Type) (f : A -> bool) l,
  find f l = match filter f l with [] => None | x :: _ => Some x end.
Proof. intros A f. induction l as [|x l IH]; [reflexivity|]. cbn. destruct (f x); [reflexivity|exact IH]. Qed.

Record doc_ok (v : version) (d : pdoc) : Prop := {
  o_section : match p_deploy d with
              | NoSection => deploy_sections v (p_env d) = []
              | Attached => exists sec, deploy_sections v (p_env d) = [sec]
              | Detached s => deploy_sections v (p_env d) = [] /\ filter (is_config v) (echildren s) = []
              end;
  o_cache : match p_cache d with None => True | Some l => l = listed v (declared v (p_env d)) end;
  o_hw : hw_reachable v (p_hw d) }.

Lemma current_listed : forall v d, doc_ok v d -> current_ids v d = listed v (declared v (p_env d)).
Proof.
  intros v d [Hs _ _]. unfold current_ids, deploy_section, declared.
  destruct (p_deploy d) as [| |s].
  - now rewrite Hs.
  - destruct Hs as [sec Hs]. rewrite find_filter, <- is_deploy_sections, Hs. cbn [flat_map].
    rewrite app_nil_r. apply config_ids_listed.
  - destruct Hs as [-> Hs]. rewrite config_ids_listed, Hs. reflexivity.
Qed.

Lemma profiles_listed : forall v d, doc_ok v d ->
  fst (config_profiles v d) = listed v (declared v (p_env d)).
Proof.
  intros v d H. unfold config_profiles. pose proof (current_listed v d H) as Hc.
  destruct H as [_ Hk _]. destruct (p_cache d) as [l|]; [exact Hk|exact Hc].
Qed.

Lemma with_profiles_ver : forall E l, e_ver (with_profiles E l) = e_ver E.
Proof. reflexivity. Qed.

(** Splitting a list at its only element with a property. *)
Lemma filter_one : forall (A : Type) (f : A -> bool) l x, filter f l = [x] ->
  exists pre post, l = pre ++ x :: post /\ f x = true /\
    (forall y, In y pre -> f y = false) /\ (forall y, In y post -> f y = false).
Proof.
  intros A f. induction l as [|a l IH]; intros x H; [discriminate|]. cbn in H. destruct (f a) eqn:Ea.
  - injection H as -> H. exists [], l. split; [reflexivity|]. split; [exact Ea|]. split; [contradiction|].
    intros y Hy. destruct (f y) eqn:Ey; [|reflexivity].
    assert (In y (filter f l)) as F by now apply filter_In. rewrite H in F. contradiction.
  - apply IH in H as (pre & post & -> & Hx & H1 & H2). exists (a :: pre), post.
    split; [reflexivity|]. split; [exact Hx|]. split; [|exact H2]. intros y [<- |Hy]; auto.
Qed.

Lemma update_split : forall (p : elem -> bool) f pre e post, p e = true ->
  (forall y, In y pre -> p y = false) -> update_first p f (pre ++ e :: post) = pre ++ f e :: post.
Proof. intros p f pre e post H1 H2. now apply update_first_split. Qed.

Lemma remove_split : forall (p : elem -> bool) pre e post, p e = true ->
  (forall y, In y pre -> p y = false) -> remove_first p (pre ++ e :: post) = pre ++ post.
Proof.
  intros p pre e post He. induction pre as [|a pre IH]; intros Hp; cbn.
  - now rewrite He.
  - rewrite (Hp a) by now left. f_equal. apply IH. intros y Hy. apply Hp. now right.
Qed.

Lemma filter_false : forall (A : Type) (f : A -> bool) l, (forall y, In y l -> f y = false) -> filter f l = [].
Proof.
  intros A f. induction l as [|a l IH]; intros H; [reflexivity|]. cbn. rewrite (H a) by now left.
  apply IH. intros y Hy. apply H. now right.
Qed.

Lemma set_children_children : forall l e, echildren (set_children l e) = l.
Proof. now intros l []. Qed.
Lemma set_children_same : forall l e, same_but_children e (set_children l e).
Proof. intros l []. unfold same_but_children. auto. Qed.
Lemma set_children_tag : forall l e, etag (set_children l e) = etag e.
Proof. now intros l []. Qed.

Lemma answers_match : forall tag attrib e, child_match tag attrib e = true <-> answers tag attrib e.
Proof. exact child_match_spec. Qed.

(** ** Deleting *)

(** What deleting a profile does to the document. *)
Theorem delete_profile_doc : forall E d p d', doc_ok (e_ver E) d -> delete_profile E d p = Ok d' ->
  exists sec c pre post,
    deploy_sections (e_ver E) (p_env d) = [sec] /\
    declared (e_ver E) (p_env d) = pre ++ c :: post /\
    get_attr c (CONFIG_ID (e_ver E)) = Some p /\
    (forall x, In x (pre ++ post) -> get_attr x (CONFIG_ID (e_ver E)) <> Some p) /\
    declared (e_ver E) (p_env d') = pre ++ post /\
    same_but_children (p_env d) (p_env d') /\
    other_sections (e_ver E) (p_env d') = other_sections (e_ver E) (p_env d) /\
    (if is_nil (pre ++ post) then deploy_sections (e_ver E) (p_env d') = []
     else exists sec', deploy_sections (e_ver E) (p_env d') = [sec'] /\ same_but_children sec sec' /\
       exists a b, echildren sec = a ++ c :: b /\ echildren sec' = a ++ b) /\
    drop_profile (hw_env E d) (p_hw d) p = Ok (p_hw d') /\ doc_ok (e_ver E) d'.
Proof.
  intros E d p d' [Hs Hk Hh] H. set (v := e_ver E) in *. unfold delete_profile in H. fold v in H.
  destruct (deploy_section v d) as [sec|] eqn:Esec; [|discriminate].
  pose proof (find_child_spec sec (CONFIG v) [(CONFIG_ID v, p)] false) as Hf.
  destruct (find_child sec (CONFIG v) [(CONFIG_ID v, p)] false) as [[c|]|] eqn:Ec;
    cbn [rbind] in H; try discriminate.
  destruct Hf as (a & b & Hab & [Hct Hca] & Hun).
  assert (Hcid : get_attr c (CONFIG_ID v) = Some p) by (apply Hca; now left).
  destruct (drop_profile (hw_env E d) (p_hw d) p) as [h'|] eqn:Ed; [|discriminate]. cbn [rbind] in H.
  assert (Hmc : child_match (CONFIG v) [(CONFIG_ID v, p)] c = true) by (apply answers_match; now split).
  assert (Hma : forall y, In y a -> child_match (CONFIG v) [(CONFIG_ID v, p)] y = false).
  { intros y Hy. destruct (child_match _ _ y) eqn:Em; [|reflexivity]. apply answers_match in Em.
    exfalso. apply (Hun y); [apply in_or_app; now left|exact Em]. }
  rewrite Hab, (remove_split _ a c b Hmc Hma) in H.
  set (sec' := set_children (a ++ b) sec) in *.
  set (pre := filter (is_config v) a). set (post := filter (is_config v) b).
  assert (Hcfg : filter (is_config v) (echildren sec) = pre ++ c :: post).
  { rewrite Hab, filter_app. cbn [filter]. unfold is_config at 2. rewrite Hct, str_eqb_refl. reflexivity. }
  assert (Hcfg' : filter (is_config v) (echildren sec') = pre ++ post).
  { unfold sec'. rewrite set_children_children. apply filter_app. }
  assert (Hother : forall x, In x (pre ++ post) -> get_attr x (CONFIG_ID v) <> Some p).
  { intros x Hx Hxp. assert (Hin : In x (a ++ b) /\ is_config v x = true).
    { unfold pre, post in Hx. rewrite <- filter_app in Hx. now apply filter_In in Hx. }
    destruct Hin as [Hin Hxt]. apply str_eqb_eq in Hxt. apply (Hun x Hin). split; [exact Hxt|].
    intros k w [Hkw|[]]. now injection Hkw as <- <-. }
  rewrite configs, Hcfg' in H.
  assert (Hwr : hw_reachable v h').
  { apply (H_step v (p_hw d)); [exact Hh|]. exact (H_drop v _ (hw_env E d) p h' eq_refl Ed). }
  unfold deploy_section in Esec. destruct (p_deploy d) as [| |s].
  - discriminate.
  - destruct Hs as [s Hs]. rewrite find_filter, <- is_deploy_sections, Hs in Esec. injection Esec as ->.
    pose proof Hs as Hs'. rewrite is_deploy_sections in Hs'.
    apply filter_one in Hs' as (A & B & HAB & Hse & HA & HB).
    exists sec, c, pre, post. split; [exact Hs|].
    split; [unfold declared; rewrite Hs; cbn [flat_map]; rewrite app_nil_r; exact Hcfg|].
    split; [exact Hcid|]. split; [exact Hother|].
    assert (Hse' : is_deploy v sec' = true).
    { unfold is_deploy, sec' in *. now rewrite set_children_tag. }
    destruct (pre ++ post) as [|x l] eqn:Epp.
    + injection H as <-. cbn [p_env p_hw p_deploy p_cache].
      rewrite HAB, (remove_split _ A sec B Hse HA).
      assert (Hnone : filter (is_deploy v) (A ++ B) = []).
      { apply filter_false. intros y Hy. apply in_app_or in Hy as [Hy|Hy]; auto. }
      assert (Hd : deploy_sections v (set_children (A ++ B) (p_env d)) = []).
      { rewrite is_deploy_sections, set_children_children. exact Hnone. }
      split; [unfold declared; now rewrite Hd|].
      split; [apply set_children_same|]. split.
      { unfold other_sections. rewrite set_children_children, HAB, !filter_app. cbn [filter].
        unfold is_deploy in Hse. rewrite Hse. reflexivity. }
      split; [exact Hd|]. split; [reflexivity|].
      constructor; cbn [p_deploy p_env p_cache p_hw]; auto.
    + injection H as <-. cbn [p_env p_hw p_deploy p_cache].
      rewrite HAB, (update_split _ (fun _ => sec') A sec B Hse HA).
      assert (Hd : deploy_sections v (set_children (A ++ sec' :: B) (p_env d)) = [sec']).
      { rewrite is_deploy_sections, set_children_children, filter_app. cbn [filter]. rewrite Hse'.
        now rewrite (filter_false _ _ A HA), (filter_false _ _ B HB). }
      split; [unfold declared; rewrite Hd; cbn [flat_map]; rewrite app_nil_r; exact Hcfg'|].
      split; [apply set_children_same|]. split.
      { unfold other_sections. rewrite set_children_children, HAB, !filter_app. cbn [filter].
        unfold is_deploy in Hse, Hse'. rewrite Hse, Hse'. reflexivity. }
      split.
      { exists sec'. split; [exact Hd|]. split; [apply set_children_same|].
        exists a, b. split; [exact Hab|]. apply set_children_children. }
      split; [reflexivity|].
      constructor; cbn [p_deploy p_env p_cache p_hw]; eauto.
  - injection Esec as ->. destruct Hs as [_ Hs]. rewrite Hcfg in Hs. destruct pre; discriminate.
Qed.

(** ** Creating *)

Lemma insert_before_split : forall tag new cs, exists a b, cs = a ++ b /\
  insert_before tag new cs = a ++ new :: b /\
  (forall x, In x a -> etag x <> tag) /\ (forall x r, b = x :: r -> etag x = tag).
Proof.
  intros tag new. induction cs as [|c cs IH]; cbn.
  - exists [], []. repeat split; auto. discriminate.
  - destruct (str_eqb (etag c) tag) eqn:Ec.
    + exists [], (c :: cs). repeat split; auto. intros x r Hx. injection Hx as <- _. now apply str_eqb_eq.
    + destruct IH as (a & b & -> & -> & Ha & Hb). exists (c :: a), b. repeat split; auto.
      intros x [<- |Hx]; [|now apply Ha]. intros F. apply str_eqb_eq in F. congruence.
Qed.

(** Setting a child leaves children with other tags alone. *)
Lemma set_child_other : forall p tag text ord p' c t, set_or_make_child p tag text [] ord = Ok (p', c) ->
  t <> tag -> filter (child_match t []) (echildren p') = filter (child_match t []) (echildren p).
Proof.
  intros p tag text ord p' c t H Ht. pose proof (set_or_make_child_spec p tag text [] ord (NoDup_nil _)) as S.
  rewrite H in S. destruct S as (_ & [Hc _] & _ & _ & _ & S).
  assert (F : forall x, etag x = tag -> child_match t [] x = false).
  { intros x Hx. destruct (child_match t [] x) eqn:Em; [|reflexivity]. apply child_match_spec in Em.
    destruct Em as [Em _]. congruence. }
  destruct S as [(pre & old & post & -> & -> & [Ho _] & _)|(pre & post & -> & -> & _)];
    rewrite !filter_app; cbn [filter]; now rewrite ?(F c Hc), ?(F _ Ho).
Qed.

Lemma with_tag_match : forall t e, with_tag t e = filter (child_match t []) (echildren e).
Proof.
  intros t e. unfold with_tag. apply filter_ext. intros c. unfold child_match, attrib_match. cbn [forallb].
  symmetry. apply andb_true_r.
Qed.
Lemma found_one : forall p t e, find_child p t [] true = Ok (Some e) ->
  filter (child_match t []) (echildren p) = [e].
Proof.
  intros p t e H. unfold find_child in H. rewrite find_all_one in H.
  destruct (filter (child_match t []) (echildren p)) as [|a [|b l]]; try discriminate.
  now injection H as ->.
Qed.

Lemma label_not_desc : forall v, CFG_LABEL v <> CFG_DESC v.
Proof. intros []; discriminate. Qed.
Lemma id_not_default : forall v, str_eqb (CONFIG_ID v) (CONFIG_DEFAULT v) = false.
Proof. intros []; reflexivity. Qed.

Lemma same_but_children_trans : forall a b c, same_but_children a b -> same_but_children b c ->
  same_but_children a c.
Proof. intros a b c (?&?&?&?) (?&?&?&?). repeat split; congruence. Qed.

Lemma config_made_ok : forall v label desc c r1 r2,
  set_or_make_child c (CFG_LABEL v) label [] [] = Ok r1 ->
  set_or_make_child (fst r1) (CFG_DESC v) desc [] [] = Ok r2 ->
  config_made v label desc c (fst r2).
Proof.
  intros v label desc c [c1 e1] [c2 e2] H1 H2. cbn [fst] in *.
  pose proof (set_or_make_child_spec c (CFG_LABEL v) label [] [] (NoDup_nil _)) as S1. rewrite H1 in S1.
  pose proof (set_or_make_child_spec c1 (CFG_DESC v) desc [] [] (NoDup_nil _)) as S2. rewrite H2 in S2.
  destruct S1 as (A1 & _ & T1 & F1 & _). destruct S2 as (A2 & _ & T2 & F2 & _).
  constructor.
  - now apply same_but_children_trans with c1.
  - exists e1. split; [|exact T1]. rewrite with_tag_match.
    rewrite (set_child_other _ _ _ _ _ _ _ H2 (label_not_desc v)). now apply found_one.
  - exists e2. split; [|exact T2]. rewrite with_tag_match. now apply found_one.
  - intros t N1 N2. rewrite !with_tag_match, (set_child_other _ _ _ _ _ _ t H2 N2).
    now apply (set_child_other _ _ _ _ _ _ t H1).
Qed.

Lemma not_match : forall v p x, is_config v x = true -> get_attr x (CONFIG_ID v) <> Some p ->
  ~ answers (CONFIG v) [(CONFIG_ID v, p)] x.
Proof. intros v p x _ H [_ F]. apply H, F. now left. Qed.

Theorem create_profile_doc : forall v d pid label desc d', doc_ok v d ->
  create_profile v d pid label desc = Ok d' ->
  same_but_children (p_env d) (p_env d') /\ p_hw d' = p_hw d /\
  (exists sec' A B, echildren (p_env d') = A ++ sec' :: B /\ deploy_sections v (p_env d') = [sec'] /\
     ((exists sec, echildren (p_env d) = A ++ sec :: B /\ deploy_sections v (p_env d) = [sec] /\
         same_but_children sec sec') \/
      (echildren (p_env d) = A ++ B /\ deploy_sections v (p_env d) = [] /\
        (forall x, In x A -> etag x <> VIRTUAL_SYSTEM v) /\
        (forall x r, B = x :: r -> etag x = VIRTUAL_SYSTEM v)))) /\
  ((exists pre c c' post, declared v (p_env d) = pre ++ c :: post /\
       get_attr c (CONFIG_ID v) = Some pid /\
       declared v (p_env d') = pre ++ c' :: post /\
       (forall x, In x (pre ++ post) -> get_attr x (CONFIG_ID v) <> Some pid) /\
       config_made v label desc c c') \/
   (exists c', (forall x, In x (declared v (p_env d)) -> get_attr x (CONFIG_ID v) <> Some pid) /\
     declared v (p_env d') = declared v (p_env d) ++ [c'] /\
     config_made v label desc (Elem (CONFIG v) [(CONFIG_ID v, pid)] None None []) c')) /\
  doc_ok v d'.
Proof.
  intros v d pid label desc d' [Hs Hk Hh] H. unfold create_profile in H.
  destruct (ensure_section v (p_env d) (DEPLOY_OPT_SECTION v) (L "Configuration Profiles") [])
    as [[env sec]|] eqn:Een; [|discriminate]. cbn [rbind] in H.
  pose proof (find_child_spec sec (CONFIG v) [(CONFIG_ID v, pid)] false) as Hf.
  destruct (find_child sec (CONFIG v) [(CONFIG_ID v, pid)] false) as [o|] eqn:Eo; [|discriminate].
  cbn [rbind] in H.
  set (cfg := match o with Some c => c | None => Elem (CONFIG v) [(CONFIG_ID v, pid)] None None [] end) in *.
  destruct (set_or_make_child cfg (CFG_LABEL v) label [] []) as [r1|] eqn:E1; [|discriminate].
  cbn [rbind] in H.
  destruct (set_or_make_child (fst r1) (CFG_DESC v) desc [] []) as [r2|] eqn:E2; [|discriminate].
  cbn [rbind] in H. pose proof (config_made_ok v label desc cfg r1 r2 E1 E2) as Hm.
  set (cfg' := fst r2) in *.
  set (sec' := match o with
              | Some _ => set_children (update_first (child_match (CONFIG v) [(CONFIG_ID v, pid)])
                                          (fun _ => cfg') (echildren sec)) sec
              | None => set_children (echildren sec ++ [cfg']) sec
              end) in *.
  injection H as <-. cbn [p_env p_hw].
  (* the section *)
  assert (Hsame : same_but_children sec sec').
  { unfold sec'. destruct o; apply set_children_same. }
  assert (Hcc : is_config v cfg = true -> is_config v cfg' = true).
  { intros Hc. unfold is_config in *. destruct (cm_same _ _ _ _ _ Hm) as [<- _]. exact Hc. }
  assert (Hcfg : (exists pre c post, filter (is_config v) (echildren sec) = pre ++ c :: post /\
       get_attr c (CONFIG_ID v) = Some pid /\
       filter (is_config v) (echildren sec') = pre ++ cfg' :: post /\
       (forall x, In x (pre ++ post) -> get_attr x (CONFIG_ID v) <> Some pid) /\
       config_made v label desc c cfg') \/
    ((forall x, In x (filter (is_config v) (echildren sec)) -> get_attr x (CONFIG_ID v) <> Some pid) /\
     filter (is_config v) (echildren sec') = filter (is_config v) (echildren sec) ++ [cfg'] /\
     config_made v label desc (Elem (CONFIG v) [(CONFIG_ID v, pid)] None None []) cfg')).
  { assert (Hno : forall x, is_config v x = true -> ~ answers (CONFIG v) [(CONFIG_ID v, pid)] x ->
      get_attr x (CONFIG_ID v) <> Some pid).
    { intros x Hx Hn Hp. apply Hn. apply str_eqb_eq in Hx. split; [exact Hx|].
      intros k w [Hkw|[]]. now injection Hkw as <- <-. }
    destruct o as [c|].
    - destruct Hf as (a & b & Hab & [Hct Hca] & Hun). left.
      exists (filter (is_config v) a), c, (filter (is_config v) b).
      assert (Hic : is_config v c = true) by (unfold is_config; rewrite Hct; apply str_eqb_refl).
      split; [rewrite Hab, filter_app; cbn [filter]; now rewrite Hic|].
      split; [apply Hca; now left|]. split.
      { unfold sec'. rewrite set_children_children, Hab.
        rewrite update_split.
        - rewrite filter_app. cbn [filter]. now rewrite (Hcc Hic).
        - apply child_match_spec. now split.
        - intros y Hy. destruct (child_match _ _ y) eqn:Em; [|reflexivity]. apply child_match_spec in Em.
          exfalso. apply (Hun y); [apply in_or_app; now left|exact Em]. }
      split; [|exact Hm].
      intros x Hx. rewrite <- filter_app in Hx. apply filter_In in Hx as [Hx1 Hx2].
      apply Hno; [exact Hx2|]. now apply Hun.
    - destruct Hf as [_ Hun]. right. split.
      { intros x Hx. apply filter_In in Hx as [Hx1 Hx2]. apply Hno; [exact Hx2|]. now apply Hun. }
      split; [|exact Hm].
      unfold sec'. rewrite set_children_children, filter_app. cbn [filter].
      rewrite Hcc; [reflexivity|]. unfold cfg, is_config. cbn [etag]. apply str_eqb_refl. }
  assert (Hdep : forall A B s, (forall y, In y A -> is_deploy v y = false) ->
    (forall y, In y B -> is_deploy v y = false) -> is_deploy v s = true ->
    forall e, echildren e = A ++ s :: B -> deploy_sections v e = [s]).
  { intros A B s HA HB Hse e He. rewrite is_deploy_sections, He, filter_app. cbn [filter]. rewrite Hse.
    now rewrite (filter_false _ _ A HA), (filter_false _ _ B HB). }
  (* where it is *)
  assert (Hplace : exists A B, echildren env = A ++ sec :: B /\ is_deploy v sec = true /\
    (forall y, In y A -> is_deploy v y = false) /\ (forall y, In y B -> is_deploy v y = false) /\
    same_but_children (p_env d) env /\
    (echildren (p_env d) = A ++ sec :: B \/
     (echildren (p_env d) = A ++ B /\
        (forall x, In x A -> etag x <> VIRTUAL_SYSTEM v) /\
        (forall x r, B = x :: r -> etag x = VIRTUAL_SYSTEM v) /\
        filter (is_config v) (echildren sec) = []))).
  { unfold ensure_section in Een.
    pose proof (find_child_spec (p_env d) (DEPLOY_OPT_SECTION v) [] false) as Hg.
    assert (Ht : forall y, ~ answers (DEPLOY_OPT_SECTION v) [] y -> is_deploy v y = false).
    { intros y Hy. destruct (is_deploy v y) eqn:Ey; [|reflexivity]. exfalso. apply Hy.
      apply str_eqb_eq in Ey. split; [exact Ey|]. intros k w []. }
    destruct (find_child (p_env d) (DEPLOY_OPT_SECTION v) [] false) as [[s|]|]; [| |discriminate].
    - injection Een as <- <-. destruct Hg as (A & B & HAB & [Hst _] & Hun). exists A, B.
      split; [exact HAB|]. split; [unfold is_deploy; rewrite Hst; apply str_eqb_refl|].
      split; [intros y Hy; apply Ht, Hun, in_or_app; now left|].
      split; [intros y Hy; apply Ht, Hun, in_or_app; now right|].
      split; [repeat split|]. left. exact HAB.
    - destruct Hg as [_ Hun].
      pose proof (set_or_make_child_spec (Elem (DEPLOY_OPT_SECTION v) [] None None []) (INFO v)
        (Some (L "Configuration Profiles")) [] [] (NoDup_nil _)) as S.
      destruct (set_or_make_child (Elem (DEPLOY_OPT_SECTION v) [] None None []) (INFO v)
        (Some (L "Configuration Profiles")) [] []) as [[s e]|]; [|discriminate]. cbn [rbind fst] in Een.
      injection Een as <- <-. destruct S as ((S1 & _) & [S2 _] & _ & _ & _ & S3).
      destruct (insert_before_split (VIRTUAL_SYSTEM v) s (echildren (p_env d))) as (A & B & HAB & Hins & HA & HB).
      exists A, B. rewrite set_children_children. split; [exact Hins|].
      split; [unfold is_deploy; rewrite <- S1; cbn [etag]; apply str_eqb_refl|].
      split; [intros y Hy; apply Ht, Hun; rewrite HAB; apply in_or_app; now left|].
      split; [intros y Hy; apply Ht, Hun; rewrite HAB; apply in_or_app; now right|].
      split; [apply set_children_same|]. right. split; [exact HAB|]. split; [exact HA|].
      split; [exact HB|].
      assert (Hie : is_config v e = false).
      { unfold is_config. rewrite S2. destruct v; reflexivity. }
      destruct S3 as [(pre & old & post & F & _)|(pre & post & F & -> & _)]; cbn [echildren] in F.
      + destruct pre; discriminate.
      + symmetry in F. apply app_eq_nil in F as [-> ->]. cbn [app filter]. now rewrite Hie. }
  destruct Hplace as (A & B & Henv & Hse & HA & HB & Hsb & Hold).
  assert (Hse' : is_deploy v sec' = true).
  { unfold is_deploy in *. destruct Hsame as [<- _]. exact Hse. }
  rewrite Henv, (update_split _ (fun _ => sec') A sec B Hse HA).
  set (env' := set_children (A ++ sec' :: B) env).
  assert (Hch : echildren env' = A ++ sec' :: B) by apply set_children_children.
  assert (Hd' : deploy_sections v env' = [sec']) by (exact (Hdep A B sec' HA HB Hse' env' Hch)).
  assert (Hdecl' : declared v env' = filter (is_config v) (echildren sec')).
  { unfold declared. rewrite Hd'. cbn [flat_map]. apply app_nil_r. }
  assert (Hdecl : declared v (p_env d) = filter (is_config v) (echildren sec)).
  { destruct Hold as [Ho|(Ho & _ & _ & Hn)].
    - unfold declared. rewrite (Hdep A B sec HA HB Hse _ Ho). cbn [flat_map]. apply app_nil_r.
    - rewrite Hn. unfold declared. rewrite is_deploy_sections, Ho, filter_app.
      now rewrite (filter_false _ _ A HA), (filter_false _ _ B HB). }
  split.
  { apply same_but_children_trans with env; [exact Hsb|]. apply set_children_same. }
  split; [reflexivity|]. split.
  { exists sec', A, B. split; [exact Hch|]. split; [exact Hd'|]. destruct Hold as [Ho|(Ho & H1 & H2 & _)].
    - left. exists sec. split; [exact Ho|]. split; [|exact Hsame]. exact (Hdep A B sec HA HB Hse _ Ho).
    - right. split; [exact Ho|]. split; [|now split]. rewrite is_deploy_sections, Ho, filter_app.
      now rewrite (filter_false _ _ A HA), (filter_false _ _ B HB). }
  split.
  { rewrite Hdecl, Hdecl'. destruct Hcfg as [(pre & c & post & Q)|Q].
    - left. exists pre, c, cfg', post. exact Q.
    - right. exists cfg'. exact Q. }
  constructor; cbn [p_deploy p_env p_cache p_hw]; eauto.
Qed.

(** ** The invariant *)

Lemma doc_ok_look : forall v d, doc_ok v d -> doc_ok v (snd (config_profiles v d)).
Proof.
  intros v d H. unfold config_profiles. pose proof (current_listed v d H) as Hc.
  destruct (p_cache d) as [l|] eqn:Ek; [exact H|]. destruct H as [Hs Hk Hh]. cbn [snd].
  constructor; cbn [p_deploy p_env p_cache p_hw]; auto.
Qed.

Lemma doc_ok_open : forall E envelope sec d, open_profiles E envelope sec = Ok d -> doc_ok (e_ver E) d.
Proof.
  intros E envelope sec d H. unfold open_profiles in H. set (v := e_ver E) in *.
  pose proof (find_child_spec envelope (DEPLOY_OPT_SECTION v) [] false) as Hg.
  destruct (find_child envelope (DEPLOY_OPT_SECTION v) [] false) as [o|] eqn:Eo; [|discriminate].
  cbn [rbind] in H.
  set (d0 := mkPdoc envelope (match o with Some _ => Attached | None => NoSection end) [] None) in *.
  assert (O0 : doc_ok v d0).
  { assert (Ht : forall y, ~ answers (DEPLOY_OPT_SECTION v) [] y -> is_deploy v y = false).
    { intros y Hy. destruct (is_deploy v y) eqn:Ey; [|reflexivity]. exfalso. apply Hy.
      apply str_eqb_eq in Ey. split; [exact Ey|]. intros k w []. }
    constructor; cbn [d0 p_deploy p_env p_cache p_hw].
    - destruct o as [s|].
      + destruct Hg as (A & B & HAB & [Hst _] & Hun). exists s.
        rewrite is_deploy_sections, HAB, filter_app. cbn [filter].
        assert (Hse : is_deploy v s = true) by (unfold is_deploy; rewrite Hst; apply str_eqb_refl).
        rewrite Hse, !filter_false; [reflexivity| |]; intros y Hy; apply Ht, Hun, in_or_app; auto.
      + destruct Hg as [_ Hun]. rewrite is_deploy_sections. apply filter_false.
        intros y Hy. now apply Ht, Hun.
    - exact I.
    - exact (H_read v E (Elem [] [] None None []) [] eq_refl eq_refl). }
  apply doc_ok_look in O0. destruct (config_profiles v d0) as [l d1]. cbn [snd] in O0.
  destruct (read_hardware (with_profiles E (named l)) sec) as [h|] eqn:Er; [|discriminate].
  cbn [rbind] in H. injection H as <-. destruct O0 as [Hs Hk _].
  constructor; cbn [p_deploy p_env p_cache p_hw]; auto.
  exact (H_read v (with_profiles E (named l)) sec h eq_refl Er).
Qed.

Theorem reachable_doc : forall v d, pdoc_reachable v d -> doc_ok v d.
Proof.
  induction 1.
  - subst. now apply doc_ok_open with envelope sec.
  - now apply doc_ok_look.
  - eapply create_profile_doc; eassumption.
  - subst. destruct (delete_profile_doc E d p d' IHpdoc_reachable H1) as (? & ? & ? & ? & K). apply K.
  - destruct IHpdoc_reachable as [Hs Hk Hh]. constructor; cbn [p_deploy p_env p_cache p_hw]; auto.
    now apply (H_step v (p_hw d)).
Qed.

(** ** When deleting works *)

Theorem delete_profile_ok : forall E d p pre c post, doc_ok (e_ver E) d ->
  declared (e_ver E) (p_env d) = pre ++ c :: post -> get_attr c (CONFIG_ID (e_ver E)) = Some p ->
  (forall x, In x (pre ++ post) -> get_attr x (CONFIG_ID (e_ver E)) <> Some p) ->
  (forall k, taken (p_hw d) k -> plain_text k) ->
  exists d', delete_profile E d p = Ok d'.
Proof.
  intros E d p pre c post [Hs _ Hh] Hd Hc Ho Hpl. unfold delete_profile. set (v := e_ver E) in *.
  destruct (p_deploy d) as [| |s] eqn:Ep.
  - unfold declared in Hd. rewrite Hs in Hd. destruct pre; discriminate.
  - destruct Hs as [sec Hs].
    assert (Esec : deploy_section v d = Some sec).
    { unfold deploy_section. now rewrite Ep, find_filter, <- is_deploy_sections, Hs. }
    rewrite Esec. unfold declared in Hd. rewrite Hs in Hd. cbn [flat_map] in Hd. rewrite app_nil_r in Hd.
    change (filter (is_config v) (echildren sec) = pre ++ c :: post) in Hd.
    pose proof (find_child_spec sec (CONFIG v) [(CONFIG_ID v, p)] false) as Hf.
    assert (Hin : forall x, In x (echildren sec) -> answers (CONFIG v) [(CONFIG_ID v, p)] x ->
      In x (pre ++ c :: post) /\ get_attr x (CONFIG_ID v) = Some p).
    { intros x Hx [Hx1 Hx2]. split; [|apply Hx2; now left]. rewrite <- Hd. apply filter_In.
      split; [exact Hx|]. unfold is_config. rewrite Hx1. apply str_eqb_refl. }
    assert (Hcin : In c (echildren sec) /\ answers (CONFIG v) [(CONFIG_ID v, p)] c).
    { assert (Hic : In c (filter (is_config v) (echildren sec))).
      { rewrite Hd. apply in_or_app. right. now left. }
      apply filter_In in Hic as [H1 H2]. split; [exact H1|]. apply str_eqb_eq in H2. split; [exact H2|].
      intros k w [Hkw|[]]. now injection Hkw as <- <-. }
    destruct (find_child sec (CONFIG v) [(CONFIG_ID v, p)] false) as [[x|]|e] eqn:Ef.
    + cbn [rbind].
      destruct (drop_profile_ok (hw_env E d) (p_hw d) p) as [h' ->].
      { exact (reachable_ids v (p_hw d) Hh). }
      { exact Hpl. }
      cbn [rbind]. destruct (find_all_children _ _ _); eauto.
    + exfalso. destruct Hf as [_ Hf]. now apply (Hf c).
    + exfalso. destruct e; try contradiction; [discriminate (proj1 Hf)|].
      destruct Hf as (a & x & m & y & b & Hab & Hx & Hy).
      assert (Hl : filter (child_match (CONFIG v) [(CONFIG_ID v, p)]) (echildren sec) = [c]).
      { assert (K : filter (child_match (CONFIG v) [(CONFIG_ID v, p)]) (echildren sec) =
          filter (child_match (CONFIG v) [(CONFIG_ID v, p)]) (filter (is_config v) (echildren sec))).
        { rewrite filter_swap. symmetry. apply filter_all. intros z Hz. apply filter_In in Hz as [_ Hz].
          apply child_match_spec in Hz as [Hz _]. unfold is_config. rewrite Hz. apply str_eqb_refl. }
        rewrite K. rewrite Hd, filter_app. cbn [filter].
        rewrite (proj2 (child_match_spec _ _ c) (proj2 Hcin)).
        assert (N : forall l, (forall z, In z l -> In z (pre ++ post)) ->
          filter (child_match (CONFIG v) [(CONFIG_ID v, p)]) l = []).
        { intros l Hl. apply filter_false. intros z Hz. destruct (child_match _ _ z) eqn:Em; [|reflexivity].
          apply child_match_spec in Em as [_ Em]. exfalso. apply (Ho z (Hl z Hz)). apply Em. now left. }
        rewrite !N; [reflexivity| |]; intros z Hz; apply in_or_app; auto. }
      rewrite Hab, filter_app in Hl. cbn [filter] in Hl.
      rewrite (proj2 (child_match_spec _ _ x) Hx) in Hl. rewrite filter_app in Hl. cbn [filter] in Hl.
      rewrite (proj2 (child_match_spec _ _ y) Hy) in Hl.
      apply (f_equal (@length elem)) in Hl. rewrite !app_length in Hl. cbn [length] in Hl.
      rewrite app_length in Hl. cbn [length] in Hl. lia.
  - destruct Hs as [Hs _]. unfold declared in Hd. rewrite Hs in Hd. destruct pre; discriminate.
Qed.

Theorem delete_profile_unknown : forall E d p, doc_ok (e_ver E) d ->
  (forall x, In x (declared (e_ver E) (p_env d)) -> get_attr x (CONFIG_ID (e_ver E)) <> Some p) ->
  delete_profile E d p = Err EAssertion \/ delete_profile E d p = Err ELookupError.
Proof.
  intros E d p [Hs _ _] Ho. unfold delete_profile. set (v := e_ver E) in *.
  assert (K : forall sec, (forall x, In x (filter (is_config v) (echildren sec)) -> get_attr x (CONFIG_ID v) <> Some p) ->
    find_child sec (CONFIG v) [(CONFIG_ID v, p)] false = Ok None).
  { intros sec Hsec. unfold find_child. rewrite find_all_one, filter_false; [reflexivity|].
    intros z Hz. destruct (child_match _ _ z) eqn:Em; [|reflexivity].
    apply child_match_spec in Em as [Et Em]. exfalso. apply (Hsec z).
    - apply filter_In. split; [exact Hz|]. unfold is_config. rewrite Et. apply str_eqb_refl.
    - apply Em. now left. }
  destruct (deploy_section v d) as [sec|] eqn:Esec; [|now left]. right.
  rewrite K; [reflexivity|]. intros x Hx. unfold deploy_section in Esec.
  destruct (p_deploy d) as [| |s]; [discriminate| |].
  - destruct Hs as [s Hs]. rewrite find_filter, <- is_deploy_sections, Hs in Esec. injection Esec as ->.
    apply Ho. unfold declared. rewrite Hs. cbn [flat_map]. rewrite app_nil_r. exact Hx.
  - injection Esec as ->. destruct Hs as [_ Hs]. rewrite Hs in Hx. contradiction.
Qed.
