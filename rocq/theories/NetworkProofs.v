(** Proofs about the networks of an OVF. *)
From Coq Require Import Lia.
From Verif Require Import PyBase PyBaseProofs PyDict PyDictProofs XmlModel XmlSpec XmlProofs NamesModel
  ProfileModel ProfileSpec ProfileDocProofs SectionProofs NetworkModel NetworkSpec.

Lemma opt_eqb_eq : forall a b, opt_eqb a b = true <-> a = b.
Proof.
  intros [a|] [b|]; cbn; split; intros H; try discriminate; try reflexivity.
  - apply str_eqb_eq in H. now subst.
  - injection H as ->. apply str_eqb_refl.
Qed.

Lemma connected_in_use : forall v hw name,
  mem_opt name (connected_networks v hw) = true <-> in_use v hw name.
Proof.
  intros v hw name. unfold mem_opt. rewrite existsb_exists. split.
  - intros (x & Hx & E). apply opt_eqb_eq in E. subst x. unfold connected_networks in Hx.
    apply in_flat_map in Hx as (nic & Hn & Hc).
    destruct (findall (EPASD v ++ CONNECTION) nic) as [|conn rest] eqn:Ef; [contradiction|].
    destruct Hc as [Hc|[]]. now exists nic, conn, rest.
  - intros (nic & conn & rest & Hn & Hf & Hc). exists name. split; [|now apply opt_eqb_eq].
    apply in_flat_map. exists nic. split; [exact Hn|]. unfold findall. unfold with_tag in Hf.
    rewrite Hf. now left.
Qed.

Definition thin (v : version) (hw : elem) (l : list elem) : list elem :=
  filter (fun c => negb (str_eqb (etag c) (NETWORK v) &&
            negb (mem_opt (get_attr c (NETWORK_NAME v)) (connected_networks v hw)))) l.

Lemma thin_thinned : forall v hw l, thinned v hw l (thin v hw l).
Proof.
  intros v hw. induction l as [|c l IH]; [constructor|]. cbn [thin filter].
  destruct (str_eqb (etag c) (NETWORK v)) eqn:Et; cbn [andb negb].
  - apply str_eqb_eq in Et.
    destruct (mem_opt (get_attr c (NETWORK_NAME v)) (connected_networks v hw)) eqn:Em; cbn [negb].
    + apply T_used; auto. now apply connected_in_use.
    + apply T_unused; auto. intros F. apply connected_in_use in F. congruence.
  - apply T_other; auto. intros F. apply str_eqb_eq in F. congruence.
Qed.

Lemma thinned_fun : forall v hw l l1, thinned v hw l l1 -> forall l2, thinned v hw l l2 -> l1 = l2.
Proof.
  induction 1; intros l2 H2; inversion H2; subst; try contradiction; try reflexivity;
    try (f_equal; now apply IHthinned); now apply IHthinned.
Qed.

Lemma thinned_In : forall v hw l l', thinned v hw l l' -> forall c, In c l' <->
  (In c l /\ (etag c = NETWORK v -> in_use v hw (get_attr c (NETWORK_NAME v)))).
Proof.
  induction 1 as [|c l l' Ht H IH|c l l' Ht Hu H IH|c l l' Ht Hu H IH]; intros x.
  - cbn. tauto.
  - cbn. rewrite IH. split.
    + intros [<-|[A B]]; [split; [now left|contradiction]|split; [now right|exact B]].
    + intros [[<-|A] B]; [now left|right; now split].
  - cbn. rewrite IH. split.
    + intros [<-|[A B]]; [split; [now left|auto]|split; [now right|exact B]].
    + intros [[<-|A] B]; [now left|right; now split].
  - rewrite IH. cbn. split.
    + intros [A B]. split; [now right|exact B].
    + intros [[<-|A] B]; [exfalso; apply Hu, B, Ht|now split].
Qed.

Lemma thin_idem : forall v hw l, thin v hw (thin v hw l) = thin v hw l.
Proof.
  intros v hw. induction l as [|c l IH]; [reflexivity|]. cbn [thin filter].
  match goal with |- context [if ?b then _ else _] => destruct b eqn:E end.
  - cbn [thin filter]. rewrite E. f_equal. exact IH.
  - exact IH.
Qed.

(** ** The invariant *)

Inductive net_ok (v : version) (d : netdoc) : Prop :=
| NO_none : n_attached d = false -> (forall x, In x (echildren (n_env d)) -> ~ is_network_section v x) ->
    net_ok v d
| NO_one : forall A sec B, n_attached d = true -> echildren (n_env d) = A ++ sec :: B ->
    is_network_section v sec -> (forall x, In x (A ++ B) -> ~ is_network_section v x) -> net_ok v d.

Lemma is_netsec_spec : forall v e, is_netsec v e = true <-> is_network_section v e.
Proof. intros v e. apply child_match_spec. Qed.
Lemma not_netsec : forall v e, ~ is_network_section v e -> is_netsec v e = false.
Proof. intros v e. apply not_answers_match. Qed.

Lemma attrib_NoDup : forall v, NoDup (map fst (NETWORK_SECTION_ATTRIB v)).
Proof. intros v. destruct v; cbn [NETWORK_SECTION_ATTRIB map fst]; repeat constructor; auto. Qed.

Lemma section_at : forall v d A sec B, n_attached d = true -> echildren (n_env d) = A ++ sec :: B ->
  is_network_section v sec -> (forall x, In x (A ++ B) -> ~ is_network_section v x) ->
  network_section v d = Some sec.
Proof.
  intros v d A sec B Ha Hc Hs Hno. unfold network_section. rewrite Ha, Hc.
  apply find_split; [now apply is_netsec_spec|]. intros x Hx. apply not_netsec, Hno.
  apply in_or_app. now left.
Qed.

Lemma same_section : forall v a b, same_but_children a b -> is_network_section v a -> is_network_section v b.
Proof.
  intros v a b (H1 & H2 & _) [Ht Ha]. split; [congruence|]. intros k w Hk. unfold get_attr. rewrite <- H2.
  now apply Ha.
Qed.

Lemma refresh_cases : forall v hw d, net_ok v d ->
  (n_attached d = false /\ (forall x, In x (echildren (n_env d)) -> ~ is_network_section v x) /\
   refresh_networks v hw d = d) \/
  (exists A sec B, n_attached d = true /\ echildren (n_env d) = A ++ sec :: B /\
     is_network_section v sec /\ (forall x, In x (A ++ B) -> ~ is_network_section v x) /\
     let sec' := set_children (thin v hw (echildren sec)) sec in
     ((with_tag (NETWORK v) sec' = [] /\
       refresh_networks v hw d = mkNet (set_children (A ++ B) (n_env d)) false) \/
      (with_tag (NETWORK v) sec' <> [] /\
       refresh_networks v hw d = mkNet (set_children (A ++ sec' :: B) (n_env d)) true))).
Proof.
  intros v hw d [Ha Hno|A sec B Ha Hc Hs Hno].
  - left. split; [exact Ha|]. split; [exact Hno|]. unfold refresh_networks, network_section. now rewrite Ha.
  - right. exists A, sec, B. split; [exact Ha|]. split; [exact Hc|]. split; [exact Hs|].
    split; [exact Hno|]. cbn zeta. unfold refresh_networks.
    rewrite (section_at v d A sec B Ha Hc Hs Hno). fold (thin v hw (echildren sec)).
    set (sec' := set_children (thin v hw (echildren sec)) sec). clearbody sec'.
    change (findall (NETWORK v) sec') with (with_tag (NETWORK v) sec').
    assert (HA : forall x, In x A -> is_netsec v x = false).
    { intros x Hx. apply not_netsec, Hno, in_or_app. now left. }
    assert (Hs' : is_netsec v sec = true) by now apply is_netsec_spec.
    rewrite Hc, (remove_split _ A sec B Hs' HA), (update_split _ (fun _ => sec') A sec B Hs' HA).
    destruct (with_tag (NETWORK v) sec') as [|c r]; [left|right]; split; auto. discriminate.
Qed.

Lemma refresh_ok : forall v hw d, net_ok v d -> net_ok v (refresh_networks v hw d).
Proof.
  intros v hw d H. destruct (refresh_cases v hw d H) as
    [(_ & _ & ->)|(A & sec & B & Ha & Hc & Hs & Hno & [[_ ->]|[_ ->]])]; [exact H| |].
  - apply NO_none; [reflexivity|]. cbn [n_env]. now rewrite set_children_children.
  - apply NO_one with A (set_children (thin v hw (echildren sec)) sec) B; [reflexivity| | |exact Hno].
    + cbn [n_env]. apply set_children_children.
    + apply same_section with sec; [apply set_children_same|exact Hs].
Qed.

Lemma open_ok : forall v envelope d, open_networks v envelope = Ok d -> net_ok v d /\ n_env d = envelope.
Proof.
  intros v envelope d H. unfold open_networks in H.
  pose proof (find_child_spec envelope (NETWORK_SECTION v) (NETWORK_SECTION_ATTRIB v) false) as Hf.
  destruct (find_child envelope (NETWORK_SECTION v) (NETWORK_SECTION_ATTRIB v) false) as [[s|]|];
    [| |discriminate]; cbn [rbind] in H; injection H as <-; split; try reflexivity.
  - destruct Hf as (A & B & Hc & Hs & Hno). now apply NO_one with A s B.
  - destruct Hf as [_ Hno]. now apply NO_none.
Qed.

(** ** Defining a network *)

Lemma with_tag_match : forall t e, with_tag t e = filter (child_match t []) (echildren e).
Proof.
  intros t e. unfold with_tag. apply filter_ext. intros c. unfold child_match, attrib_match. cbn [forallb].
  now rewrite andb_true_r.
Qed.

Lemma find_child_with_tag : forall p tag c, find_child p tag [] true = Ok (Some c) -> with_tag tag p = [c].
Proof.
  intros p tag c H. rewrite with_tag_match. unfold find_child in H. rewrite find_all_one in H.
  destruct (filter (child_match tag []) (echildren p)) as [|e [|e2 r]]; try discriminate.
  now injection H as ->.
Qed.

Lemma create_cases : forall v d label desc d', net_ok v d -> create_network v d label desc = Ok d' ->
  exists A sec sec' B pre n n' post, n_attached d' = true /\ same_but_children (n_env d) (n_env d') /\
    echildren (n_env d') = A ++ sec' :: B /\ is_network_section v sec' /\
    (forall x, In x (A ++ B) -> ~ is_network_section v x) /\ same_but_children sec sec' /\
    ((echildren (n_env d) = A ++ sec :: B) \/
     (n_attached d = false /\ echildren (n_env d) = A ++ B /\
      (forall x, In x A -> etag x <> VIRTUAL_SYSTEM v) /\
      (forall x r, B = x :: r -> etag x = VIRTUAL_SYSTEM v) /\
      sec = Elem (NETWORK_SECTION v) (NETWORK_SECTION_ATTRIB v) None None
              [Elem (INFO v) [] (Some (L "Logical networks")) None []])) /\
    echildren sec' = pre ++ n' :: post /\ network_made v desc n n' /\
    answers (NETWORK v) [(NETWORK_NAME v, label)] n' /\
    (forall x, In x (pre ++ post) -> ~ answers (NETWORK v) [(NETWORK_NAME v, label)] x) /\
    (echildren sec = pre ++ n :: post \/
     (post = [] /\ echildren sec = pre /\ n = Elem (NETWORK v) [(NETWORK_NAME v, label)] None None [])).
Proof.
  intros v d label desc d' Hok H. unfold create_network in H.
  destruct (ensure_section v (n_env d) (NETWORK_SECTION v) (L "Logical networks") (NETWORK_SECTION_ATTRIB v))
    as [[env sec]|] eqn:Een; [|discriminate]. cbn [rbind] in H.
  destruct (ensure_section_spec _ _ _ _ _ _ _ (attrib_NoDup v) Een) as (A & B & Henv & Hs & Hno & Hsb & Hnew).
  pose proof (find_child_spec sec (NETWORK v) [(NETWORK_NAME v, label)] false) as Hf.
  destruct (find_child sec (NETWORK v) [(NETWORK_NAME v, label)] false) as [o|] eqn:Eo; [|discriminate].
  cbn [rbind] in H.
  set (net := match o with Some n => n | None => Elem (NETWORK v) [(NETWORK_NAME v, label)] None None [] end) in *.
  destruct (set_or_make_child net (NWK_DESC v) desc [] []) as [[net' c]|] eqn:Em; [|discriminate].
  cbn [rbind fst] in H.
  pose proof (set_or_make_child_spec net (NWK_DESC v) desc [] [] (NoDup_nil _)) as S. rewrite Em in S.
  destruct S as (Sb & _ & St & Sf & _ & _).
  set (sec' := match o with
               | Some _ => set_children (update_first (child_match (NETWORK v) [(NETWORK_NAME v, label)])
                                           (fun _ => net') (echildren sec)) sec
               | None => set_children (echildren sec ++ [net']) sec
               end) in *.
  assert (Hsec : exists pre post, echildren sec' = pre ++ net' :: post /\ same_but_children sec sec' /\
    answers (NETWORK v) [(NETWORK_NAME v, label)] net /\
    (forall x, In x (pre ++ post) -> ~ answers (NETWORK v) [(NETWORK_NAME v, label)] x) /\
    (echildren sec = pre ++ net :: post \/
     (post = [] /\ echildren sec = pre /\ net = Elem (NETWORK v) [(NETWORK_NAME v, label)] None None []))).
  { destruct o as [n|].
    - destruct Hf as (pre & post & Hc & Ha & Hno'). exists pre, post. unfold sec'.
      rewrite set_children_children, Hc, (update_split _ (fun _ => net') pre n post).
      + split; [reflexivity|]. split; [apply set_children_same|]. split; [exact Ha|]. split; [exact Hno'|].
        now left.
      + now apply child_match_spec.
      + intros x Hx. apply not_answers_match, Hno', in_or_app. now left.
    - destruct Hf as [_ Hno']. exists (echildren sec), []. unfold sec'. rewrite set_children_children.
      split; [reflexivity|]. split; [apply set_children_same|]. split.
      + split; [reflexivity|]. intros k w [E|[]]. injection E as <- <-. unfold get_attr, net.
        cbn [eattrib dget]. now rewrite str_eqb_refl.
      + rewrite app_nil_r. split; [exact Hno'|]. right. now repeat split. }
  clearbody sec' net. destruct Hsec as (pre & post & Hsc & Hss & Han & Hno' & Hold).
  rewrite Henv, (update_split (is_netsec v) (fun _ => sec') A sec B) in H.
  2:{ now apply is_netsec_spec. }
  2:{ intros x Hx. apply not_netsec, Hno, in_or_app. now left. }
  injection H as <-. cbn [n_env n_attached].
  exists A, sec, sec', B, pre, net, net', post. split; [reflexivity|].
  split.
  { destruct Hsb as (H1 & H2 & H3 & H4). destruct (set_children_same (A ++ sec' :: B) env) as (G1 & G2 & G3 & G4).
    repeat split; congruence. }
  split; [apply set_children_children|]. split; [now apply same_section with sec|].
  split; [exact Hno|]. split; [exact Hss|]. split.
  { destruct Hnew as [->|(H1 & H2 & H3 & H4)]; [now left|]. right. split; [|now repeat split].
    destruct Hok as [Ha _|A' s' B' _ Hc' Hs' _]; [exact Ha|]. exfalso.
    rewrite Hc' in H1. assert (Hin : In s' (A ++ B)). { rewrite <- H1. apply in_elt. }
    now apply (Hno s' Hin). }
  split; [exact Hsc|]. split.
  { split; [exact Sb| |].
    - exists c. split; [now apply find_child_with_tag|exact St].
    - intros t Ht. rewrite !with_tag_match. now apply (set_child_other _ _ _ _ _ _ _ Em). }
  split.
  { destruct Han as [H1 H2]. destruct Sb as (G1 & G2 & _). split; [congruence|]. intros k w Hk.
    unfold get_attr. rewrite <- G2. now apply H2. }
  split; [exact Hno'|exact Hold].
Qed.

Lemma create_ok : forall v d label desc d', net_ok v d -> create_network v d label desc = Ok d' -> net_ok v d'.
Proof.
  intros v d label desc d' Hok H.
  destruct (create_cases v d label desc d' Hok H) as (A & sec & sec' & B & pre & n & n' & post & H1 & H2 & H3 & H4 & H5 & _).
  now apply NO_one with A sec' B.
Qed.

Lemma net_reachable_ok : forall v d, net_reachable v d -> net_ok v d.
Proof.
  induction 1.
  - now apply open_ok in H.
  - now apply (create_ok v d label desc d').
  - now apply refresh_ok.
Qed.

(** ** What is listed *)

Lemma declared_none : forall v d, (forall x, In x (echildren (n_env d)) -> ~ is_network_section v x) ->
  declared_networks v d = [].
Proof.
  intros v d H. unfold declared_networks. rewrite (proj2 (filter_nil _ _)); [reflexivity|].
  intros x Hx. now apply not_netsec, H.
Qed.

Lemma filter_out : forall (f : elem -> bool) l, (forall x, In x l -> f x = false) -> filter f l = [].
Proof. intros f l H. now apply filter_nil. Qed.

Lemma declared_one : forall v d A sec B, echildren (n_env d) = A ++ sec :: B ->
  is_network_section v sec -> (forall x, In x (A ++ B) -> ~ is_network_section v x) ->
  declared_networks v d = with_tag (NETWORK v) sec.
Proof.
  intros v d A sec B Hc Hs Hno. unfold declared_networks. rewrite Hc, filter_app. cbn [filter].
  rewrite (proj2 (child_match_spec _ _ _) Hs).
  rewrite (filter_out _ A), (filter_out _ B).
  - cbn [app flat_map]. apply app_nil_r.
  - intros x Hx. apply not_netsec, Hno, in_or_app. now right.
  - intros x Hx. apply not_netsec, Hno, in_or_app. now left.
Qed.

Lemma networks_declared : forall v d, net_ok v d ->
  networks v d = map (fun n => get_attr n (NETWORK_NAME v)) (declared_networks v d).
Proof.
  intros v d [Ha Hno|A sec B Ha Hc Hs Hno]; unfold networks.
  - unfold network_section. rewrite Ha, declared_none by exact Hno. reflexivity.
  - rewrite (section_at v d A sec B Ha Hc Hs Hno), (declared_one v d A sec B Hc Hs Hno). reflexivity.
Qed.

Lemma descriptions_declared : forall v d, net_ok v d ->
  network_descriptions v d = map (findtext (NWK_DESC v)) (declared_networks v d).
Proof.
  intros v d [Ha Hno|A sec B Ha Hc Hs Hno]; unfold network_descriptions.
  - unfold network_section. rewrite Ha, declared_none by exact Hno. reflexivity.
  - rewrite (section_at v d A sec B Ha Hc Hs Hno), (declared_one v d A sec B Hc Hs Hno). reflexivity.
Qed.

Lemma thinned_tag : forall v hw l l', thinned v hw l l' ->
  thinned v hw (filter (fun c => str_eqb (etag c) (NETWORK v)) l)
    (filter (fun c => str_eqb (etag c) (NETWORK v)) l').
Proof.
  induction 1 as [|c l l' Ht H IH|c l l' Ht Hu H IH|c l l' Ht Hu H IH]; cbn [filter].
  - constructor.
  - destruct (str_eqb (etag c) (NETWORK v)) eqn:E; [|exact IH]. apply str_eqb_eq in E. contradiction.
  - rewrite Ht, str_eqb_refl. now apply T_used.
  - rewrite Ht, str_eqb_refl. now apply T_unused.
Qed.

(** Cleaning up: what stays in the document. *)
Lemma refresh_spec : forall v hw d, net_reachable v d ->
  let d' := refresh_networks v hw d in
  thinned v hw (declared_networks v d) (declared_networks v d') /\
  networks v d' = map (fun n => get_attr n (NETWORK_NAME v)) (declared_networks v d') /\
  same_but_children (n_env d) (n_env d') /\
  ((forall x, In x (echildren (n_env d)) -> ~ is_network_section v x) /\ d' = d \/
   exists A sec B, echildren (n_env d) = A ++ sec :: B /\ is_network_section v sec /\
     ((declared_networks v d' = [] /\ echildren (n_env d') = A ++ B) \/
      (declared_networks v d' <> [] /\ exists sec', echildren (n_env d') = A ++ sec' :: B /\
         same_but_children sec sec' /\ thinned v hw (echildren sec) (echildren sec')))).
Proof.
  intros v hw d Hr. cbn zeta. apply net_reachable_ok in Hr. pose proof (refresh_ok v hw d Hr) as Hr'.
  split; [|split; [now apply networks_declared|]].
  - destruct (refresh_cases v hw d Hr) as [(Ha & Hno & ->)|(A & sec & B & Ha & Hc & Hs & Hno & Hcase)].
    + rewrite declared_none by exact Hno. constructor.
    + cbn zeta in Hcase. rewrite (declared_one v d A sec B Hc Hs Hno).
      pose proof (thinned_tag v hw _ _ (thin_thinned v hw (echildren sec))) as T.
      destruct Hcase as [[Hn ->]|[Hn ->]].
      * unfold with_tag in Hn. rewrite set_children_children in Hn. rewrite Hn in T.
        rewrite declared_none; [exact T|]. cbn [n_env]. now rewrite set_children_children.
      * rewrite (declared_one v _ A (set_children (thin v hw (echildren sec)) sec) B).
        -- unfold with_tag at 2. now rewrite set_children_children.
        -- cbn [n_env]. apply set_children_children.
        -- apply same_section with sec; [apply set_children_same|exact Hs].
        -- exact Hno.
  - destruct (refresh_cases v hw d Hr) as [(Ha & Hno & ->)|(A & sec & B & Ha & Hc & Hs & Hno & Hcase)].
    + split; [repeat split|]. left. now split.
    + cbn zeta in Hcase. set (sec' := set_children (thin v hw (echildren sec)) sec) in *.
      assert (Hsame : same_but_children sec sec') by apply set_children_same.
      assert (Hch : echildren sec' = thin v hw (echildren sec)) by apply set_children_children.
      clearbody sec'.
      destruct Hcase as [[Hn ->]|[Hn ->]]; cbn [n_env];
        (split; [apply set_children_same|]); right; exists A, sec, B;
        (split; [exact Hc|]); (split; [exact Hs|]); [left|right].
      * split; [|apply set_children_children]. apply declared_none. cbn [n_env].
        now rewrite set_children_children.
      * rewrite (declared_one v _ A sec' B).
        -- split; [exact Hn|]. exists sec'. split; [apply set_children_children|]. split; [exact Hsame|].
           rewrite Hch. apply thin_thinned.
        -- cbn [n_env]. apply set_children_children.
        -- now apply same_section with sec.
        -- exact Hno.
Qed.

Lemma refresh_names : forall v hw d name, net_reachable v d ->
  (In name (networks v (refresh_networks v hw d)) <-> In name (networks v d) /\ in_use v hw name).
Proof.
  intros v hw d name Hr. destruct (refresh_spec v hw d Hr) as (Ht & Hn & _).
  rewrite Hn, (networks_declared v d (net_reachable_ok v d Hr)).
  pose proof (thinned_In v hw _ _ Ht) as HI.
  assert (Htag : forall c, In c (declared_networks v d) -> etag c = NETWORK v).
  { intros c Hc. unfold declared_networks in Hc. apply in_flat_map in Hc as (s & _ & Hc).
    apply filter_In in Hc as [_ Hc]. now apply str_eqb_eq. }
  rewrite !in_map_iff. split.
  - intros (c & <- & Hc). apply HI in Hc as [H1 H2]. split; [now exists c|]. apply H2, Htag, H1.
  - intros [(c & <- & Hc) Hu]. exists c. split; [reflexivity|]. apply HI. now split.
Qed.

Lemma refresh_again : forall v hw d, net_reachable v d ->
  refresh_networks v hw (refresh_networks v hw d) = refresh_networks v hw d.
Proof.
  intros v hw d Hr. apply net_reachable_ok in Hr.
  destruct (refresh_cases v hw d Hr) as [(Ha & Hno & E)|(A & sec & B & Ha & Hc & Hs & Hno & Hcase)].
  - now rewrite !E.
  - cbn zeta in Hcase. destruct Hcase as [[Hn ->]|[Hn E]].
    + reflexivity.
    + rewrite E. set (sec' := set_children (thin v hw (echildren sec)) sec) in *.
      set (d' := mkNet (set_children (A ++ sec' :: B) (n_env d)) true) in *.
      assert (Hc' : echildren (n_env d') = A ++ sec' :: B) by apply set_children_children.
      assert (Hs' : is_network_section v sec').
      { apply same_section with sec; [apply set_children_same|exact Hs]. }
      assert (Hthin : set_children (thin v hw (echildren sec')) sec' = sec').
      { unfold sec'. rewrite set_children_children, thin_idem. now destruct sec. }
      unfold refresh_networks. rewrite (section_at v d' A sec' B eq_refl Hc' Hs' Hno).
      fold (thin v hw (echildren sec')). rewrite Hthin.
      change (findall (NETWORK v) sec') with (with_tag (NETWORK v) sec').
      destruct (with_tag (NETWORK v) sec') as [|c r]; [contradiction|].
      rewrite Hc', (update_split _ (fun _ => sec') A sec' B).
      * unfold d'. cbn [n_env]. f_equal. now destruct (n_env d).
      * now apply is_netsec_spec.
      * intros x Hx. apply not_netsec, Hno, in_or_app. now left.
Qed.

Lemma create_spec_ok : forall v d label desc d', net_ok v d -> create_network v d label desc = Ok d' ->
  exists pre n' post, declared_networks v d' = pre ++ n' :: post /\
    networks v d' = map (fun n => get_attr n (NETWORK_NAME v)) (declared_networks v d') /\
    get_attr n' (NETWORK_NAME v) = Some label /\
    (forall x, In x (pre ++ post) -> get_attr x (NETWORK_NAME v) <> Some label) /\
    (forall t, desc = Some t -> findtext (NWK_DESC v) n' = t) /\
    ((exists n, declared_networks v d = pre ++ n :: post /\ network_made v desc n n') \/
     (post = [] /\ declared_networks v d = pre /\
      network_made v desc (Elem (NETWORK v) [(NETWORK_NAME v, label)] None None []) n')) /\
    same_but_children (n_env d) (n_env d') /\
    filter (fun c => negb (is_netsec v c)) (echildren (n_env d')) =
      filter (fun c => negb (is_netsec v c)) (echildren (n_env d)).
Proof.
  intros v d label desc d' Hr H. pose proof (create_ok v d label desc d' Hr H) as Hr'.
  destruct (create_cases v d label desc d' Hr H) as (A & sec & sec' & B & pre & n & n' & post & Ha & Hsb & Hc
    & Hs & Hno & Hss & Hold & Hsc & Hm & Han & Hno' & Hnold).
  set (f := fun c => str_eqb (etag c) (NETWORK v)).
  assert (Hn' : f n' = true) by (unfold f; rewrite (proj1 Han); apply str_eqb_refl).
  assert (Hn : f n = true).
  { unfold f in *. destruct Hm as [(E & _) _ _]. now rewrite E. }
  assert (Hss' : is_network_section v sec).
  { destruct Hss as (E1 & E2 & E3 & E4). apply same_section with sec'; [repeat split; congruence|exact Hs]. }
  exists (filter f pre), n', (filter f post).
  assert (Hd' : declared_networks v d' = filter f pre ++ n' :: filter f post).
  { rewrite (declared_one v d' A sec' B Hc Hs Hno). unfold with_tag. rewrite Hsc, filter_app. cbn [filter].
    fold f. change (str_eqb (etag n') (NETWORK v)) with (f n'). now rewrite Hn'. }
  split; [exact Hd'|]. split; [now apply networks_declared|].
  split; [apply (proj2 Han); now left|].
  split.
  { intros x Hx F. rewrite <- filter_app in Hx. apply filter_In in Hx as [Hx Hf]. apply (Hno' x Hx).
    split; [now apply str_eqb_eq|]. intros k w [E|[]]. injection E as <- <-. exact F. }
  split.
  { intros t Ht. destruct Hm as [_ (e & He & Hte) _]. unfold findtext.
    change (findall (NWK_DESC v) n') with (with_tag (NWK_DESC v) n'). rewrite He, (Hte t Ht). reflexivity. }
  assert (HsecN : declared_networks v d = filter f (echildren sec)).
  { destruct Hold as [Hc0|(Hat & Hc0 & _ & _ & Hsec)].
    - rewrite (declared_one v d A sec B Hc0 Hss' Hno). reflexivity.
    - rewrite declared_none by (now rewrite Hc0). rewrite Hsec. destruct v; reflexivity. }
  split.
  { rewrite HsecN. destruct Hnold as [E|(-> & -> & En)].
    - left. exists n. split; [|exact Hm]. rewrite E, filter_app. cbn [filter]. now rewrite Hn.
    - right. split; [reflexivity|]. split; [reflexivity|]. now rewrite <- En. }
  split; [exact Hsb|].
  rewrite Hc. assert (Es : is_netsec v sec = true) by (now apply is_netsec_spec).
  assert (Es' : is_netsec v sec' = true) by (now apply is_netsec_spec).
  rewrite filter_app. cbn [filter]. rewrite Es'. cbn [negb].
  destruct Hold as [->|(_ & -> & _)]; rewrite filter_app; cbn [filter]; rewrite ?Es; reflexivity.
Qed.
Lemma create_spec : forall v d label desc d', net_reachable v d -> create_network v d label desc = Ok d' ->
  exists pre n' post, declared_networks v d' = pre ++ n' :: post /\
    networks v d' = map (fun n => get_attr n (NETWORK_NAME v)) (declared_networks v d') /\
    get_attr n' (NETWORK_NAME v) = Some label /\
    (forall x, In x (pre ++ post) -> get_attr x (NETWORK_NAME v) <> Some label) /\
    (forall t, desc = Some t -> findtext (NWK_DESC v) n' = t) /\
    ((exists n, declared_networks v d = pre ++ n :: post /\ network_made v desc n n') \/
     (post = [] /\ declared_networks v d = pre /\
      network_made v desc (Elem (NETWORK v) [(NETWORK_NAME v, label)] None None []) n')) /\
    same_but_children (n_env d) (n_env d') /\
    filter (fun c => negb (is_netsec v c)) (echildren (n_env d')) =
      filter (fun c => negb (is_netsec v c)) (echildren (n_env d)).
Proof. intros v d label desc d' Hr H. exact (create_spec_ok v d label desc d' (net_reachable_ok v d Hr) H). Qed.
