(** Hardware that was written is read again as it was. *)
From Coq Require Import List Ascii ZArith Lia Bool Permutation.
Import ListNotations.
From Verif Require Import PyBase PyBaseProofs PyDict PyDictProofs ValidationModel ValidationSpec ValidationProofs XmlModel XmlSpec XmlProofs NamesModel ItemModel
  ItemSpec GenerateSpec PsetProofs ItemProofs ItemReachProofs EmitProofs GenerateProofs RoundtripProofs
  HardwareModel HardwareSpec HardwareProofs HardwareIdProofs UpdateProofs UpdateHistoryProofs CountDefaultProofs RereadSpec.
Local Open Scope nat_scope.

(** ** The generated elements *)
Definition plain_child (E : env) (c : elem) : Prop := echildren c = [] /\ mem_str (strip_ns (etag c)) (ITEM_CHILDREN (e_ver E)) = true.

Lemma generated_plain : forall E i xs tag, reachable (e_ver E) i -> writable E i -> generate_items E i = Ok xs ->
  item_tag_for_namespace (e_ver E) (i_ns i) = Ok tag ->
  forall x, In x xs -> etag x = tag /\ forall c, In c (echildren x) -> echildren c = [].
Proof.
  intros E i xs tag R W H Et x Hx. unfold generate_items in H.
  destruct (get_nonintersecting_set_list (i_props i)) as [l|] eqn:El; [|discriminate]. cbn [rbind] in H.
  rewrite Et in H. cbn [rbind] in H. apply rmap_ok_inv in H. apply reachable_good in R as Gi.
  destruct (set_list_listing _ _ _ Gi (writable_word_names E i W) El) as [L1 L2 L3 L4 L5 L6].
  assert (Hcl : forall ss, In ss l -> forall q r, In q (cell_of ss) -> In r (cell_of ss) ->
    forall n v, own (i_props i) n q v <-> own (i_props i) n r v).
  { intros ss Hs q r Hq Hr. now apply (L3 ss q r Hs Hq). }
  destruct (GenerateProofs.Forall2_In_r _ _ _ _ _ _ H Hx) as (ss & Hs & K).
  destruct (element_shape E i R W ss (L2 ss Hs) (Hcl ss Hs) tag x K) as (T & _ & P). split; [exact T|].
  intros c Hc. apply (Permutation_in _ P) in Hc. apply in_map_iff in Hc as (nt & <- & _). reflexivity.
Qed.
Lemma tag_ns : forall v ns tag, item_tag_for_namespace v ns = Ok tag -> namespace_for_item_tag v tag = Some ns.
Proof.
  intros v ns tag H. unfold item_tag_for_namespace in H.
  destruct (str_eqb ns (RASD v)) eqn:E1; [apply str_eqb_eq in E1; injection H as <-; subst; now destruct v|].
  destruct (str_eqb ns (SASD v)) eqn:E2; [apply str_eqb_eq in E2; injection H as <-; subst; destruct v; [discriminate E1|discriminate E1|reflexivity]|].
  destruct (str_eqb ns (EPASD v)) eqn:E3; [apply str_eqb_eq in E3; injection H as <-; subst; destruct v; [discriminate E1|discriminate E1|reflexivity]|].
  discriminate H.
Qed.
Lemma ns_item : forall v x, namespace_for_item_tag v (etag x) = None <-> is_item_elem v x = false.
Proof.
  intros v x. unfold namespace_for_item_tag, is_item_elem.
  assert (M : mem_str (etag x) (item_tags v) = str_eqb (etag x) (ITEM v) || str_eqb (etag x) (STORAGE_ITEM v) || str_eqb (etag x) (ETHERNET_PORT_ITEM v)).
  { destruct v; unfold item_tags; unfold mem_str; cbn [existsb].
    - change (STORAGE_ITEM V0) with (ITEM V0). change (ETHERNET_PORT_ITEM V0) with (ITEM V0). now destruct (str_eqb (etag x) (ITEM V0)).
    - change (STORAGE_ITEM V1) with (ITEM V1). change (ETHERNET_PORT_ITEM V1) with (ITEM V1). now destruct (str_eqb (etag x) (ITEM V1)).
    - now rewrite orb_false_r, orb_assoc. }
  rewrite M. destruct (str_eqb _ (ITEM v)); [easy|]. destruct (str_eqb _ (STORAGE_ITEM v)); [easy|]. destruct (str_eqb _ (ETHERNET_PORT_ITEM v)); easy.
Qed.

(** ** Layout does not matter *)
Definition like (E : env) (c c' : elem) : Prop :=
  etag c = etag c' /\ eattrib c = eattrib c' /\ etext c = etext c' /\ mem_str (strip_ns (etag c)) (ITEM_CHILDREN (e_ver E)) = true.
Lemma same_like : forall E c c', same_content c c' -> plain_child E c -> like E c c'.
Proof. intros E c c' S [L M]. destruct S as [t a x x' l l' cs cs' F HX]. cbn [echildren] in L. split; [reflexivity|]. split; [reflexivity|]. split; [exact (HX L)|exact M]. Qed.
Lemma like_child : forall E P i c c', like E c c' -> add_child_property E P i c' = add_child_property E P i c.
Proof. intros E P i c c' (T & A & X & M). unfold add_child_property. rewrite <- T, <- A, <- X, M. reflexivity. Qed.
Lemma like_fold : forall E P cs cs', Forall2 (like E) cs cs' -> forall i, fold_result (add_child_property E P) cs' i = fold_result (add_child_property E P) cs i.
Proof.
  intros E P cs cs' F. induction F as [|c c' cs cs' H F IH]; intros i; cbn [fold_result]; [reflexivity|].
  rewrite (like_child E P i c c' H). destruct (add_child_property E P i c); cbn [rbind]; [apply IH|reflexivity].
Qed.
Lemma take_like : forall E t cs cs', Forall2 (like E) cs cs' ->
  match take_first t cs, take_first t cs' with
  | Some (c, r), Some (c', r') => like E c c' /\ Forall2 (like E) r r'
  | None, None => True
  | _, _ => False
  end.
Proof.
  intros E t cs cs' F. induction F as [|c c' cs cs' H F IH]; cbn [take_first]; [exact I|].
  unfold has_bare_tag. rewrite <- (proj1 H). destruct (str_eqb (strip_ns (etag c)) t); [now split|].
  destruct (take_first t cs) as [[x r]|], (take_first t cs') as [[x' r']|]; try contradiction; [|exact I].
  destruct IH as [IH1 IH2]. split; [exact IH1|]. now constructor.
Qed.
Lemma move_like : forall E t cs cs', Forall2 (like E) cs cs' -> Forall2 (like E) (move_to_end t cs) (move_to_end t cs').
Proof.
  intros E t cs cs' F. unfold move_to_end. pose proof (take_like E t cs cs' F) as H.
  destruct (take_first t cs) as [[x r]|], (take_first t cs') as [[x' r']|]; try contradiction; [|exact F].
  destruct H as [H1 H2]. apply Forall2_app; [exact H2|]. now constructor.
Qed.
Lemma children_like : forall E cs cs', Forall2 same_content cs cs' -> (forall c, In c cs -> plain_child E c) -> Forall2 (like E) cs cs'.
Proof.
  intros E cs cs' F. induction F as [|c c' cs cs' H F IH]; intros A; constructor.
  - apply same_like; [exact H|]. apply A. now left.
  - apply IH. intros y Hy. apply A. now right.
Qed.
Definition plain_item (E : env) (x : elem) : Prop := forall c, In c (echildren x) -> plain_child E c.
Lemma add_like : forall E i x x', same_content x x' -> plain_item E x -> add_item E i x' = add_item E i x.
Proof.
  intros E i x x' S A. destruct S as [t a y y' l l' cs cs' F HX]. unfold add_item, get_attr. cbn [etag eattrib echildren].
  destruct (namespace_for_item_tag (e_ver E) t) as [ns|]; [|reflexivity]. cbv zeta.
  destruct (fold_result _ a (with_ns ns i)) as [i1|]; cbn [rbind]; [|reflexivity].
  rewrite (like_fold E _ (reading_order (e_ver E) cs) (reading_order (e_ver E) cs')); [reflexivity|].
  unfold reading_order. apply move_like, move_like. now apply children_like.
Qed.
Lemma filter_like : forall E t cs cs', Forall2 (like E) cs cs' ->
  Forall2 (like E) (filter (fun c => str_eqb (etag c) t) cs) (filter (fun c => str_eqb (etag c) t) cs').
Proof.
  intros E t cs cs' F. induction F as [|c c' cs cs' H F IH]; cbn [filter]; [constructor|]. rewrite <- (proj1 H).
  destruct (str_eqb (etag c) t); [now constructor|exact IH].
Qed.
Lemma read_like : forall E h x x', same_content x x' -> plain_item E x -> read_item E h x' = read_item E h x.
Proof.
  intros E h x x' S A.
  assert (AL : forall i, add_item E i x' = add_item E i x) by (intros i; now apply add_like).
  unfold read_item. 
  assert (T : etag x' = etag x) by now destruct S. assert (G : forall k, get_attr x' k = get_attr x k) by (intros k; unfold get_attr; now destruct S).
  rewrite T, G. destruct (namespace_for_item_tag (e_ver E) (etag x)) as [ns|]; [|reflexivity].
  assert (F : Forall2 (like E) (echildren x) (echildren x')). { destruct S as [t a y y' l l' cs cs' F HX]. now apply children_like. }
  apply (filter_like E (ns ++ INSTANCE_ID (e_ver E))) in F.
  destruct F as [|c c' l l' H F]; [reflexivity|]. destruct H as (_ & _ & X & _). rewrite <- X.
  destruct (etext c) as [k|]; [|reflexivity]. destruct k; [reflexivity|]. destruct (negb _); [reflexivity|].
  destruct (hget _ h); now rewrite AL.
Qed.
Lemma read_all_like : forall E cs cs', Forall2 same_content cs cs' -> (forall x, In x cs -> is_item_elem (e_ver E) x = true -> plain_item E x) ->
  forall h, fold_result (read_item E) cs' h = fold_result (read_item E) (filter (is_item_elem (e_ver E)) cs) h.
Proof.
  intros E cs cs' F. induction F as [|x x' cs cs' S F IH]; intros A h; cbn [fold_result filter]; [reflexivity|].
  assert (IH' : forall h, fold_result (read_item E) cs' h = fold_result (read_item E) (filter (is_item_elem (e_ver E)) cs) h) by (apply IH; intros y Hy; apply A; now right).
  destruct (is_item_elem (e_ver E) x) eqn:Ei.
  - cbn [fold_result]. rewrite (read_like E h x x' S (A x (or_introl eq_refl) Ei)). destruct (read_item E h x); cbn [rbind]; [apply IH'|reflexivity].
  - assert (T : etag x' = etag x) by now destruct S.
    unfold read_item at 1. rewrite T, (proj2 (ns_item _ x) Ei). cbn [rbind]. apply IH'.
Qed.

(** ** Reading by device *)
Definition key_is (E : env) (k : str) (x : elem) : Prop := exists ns c l,
  namespace_for_item_tag (e_ver E) (etag x) = Some ns /\ filter (fun c => str_eqb (etag c) (ns ++ INSTANCE_ID (e_ver E))) (echildren x) = c :: l
  /\ etext c = Some k /\ k <> []
  /\ forallb (fun p => mem_str p (e_profiles E)) (match get_attr x (ITEM_CONFIG (e_ver E)) with Some s => words s | None => [] end) = true.

Lemma read_keyed : forall E h x k, key_is E k x ->
  read_item E h x = match hget k h with
                    | None => do i <- add_item E (new_ovfitem E) x; Ok (hset k i h)
                    | Some i => match add_item E i x with
                                | Ok i' => Ok (hset k i' h)
                                | Err EOVFItemData => Err EOVFHardwareData
                                | Err e => Err e
                                end
                    end.
Proof.
  intros E h x k (ns & c & l & N & F & T & K & P). unfold read_item. rewrite N, F, T, P. destruct k as [|a k]; [contradiction|]. reflexivity.
Qed.
Lemma hget_hset : forall h k k' i, hget k' (hset k i h) = if str_eqb k' k then Some i else hget k' h.
Proof.
  intros h k k' i. unfold hget, hset. destruct (str_eqb k' k) eqn:E.
  - apply str_eqb_eq in E. subst. apply (dget_dset_same str_eqb str_eqb_eq).
  - apply (dget_dset_other str_eqb str_eqb_eq). intros ->. now rewrite (proj2 (str_eqb_eq _ _) eq_refl) in E.
Qed.
(** [kx]: elements with their keys *)
Definition of_key (k : str) (kx : list (str * elem)) : list elem := map snd (filter (fun p => str_eqb (fst p) k) kx).
Lemma of_key_snoc : forall k kx k' x, of_key k (kx ++ [(k', x)]) = of_key k kx ++ (if str_eqb k' k then [x] else []).
Proof. intros. unfold of_key. rewrite filter_app, map_app. cbn [filter fst]. now destruct (str_eqb k' k). Qed.
Lemma read_by_key : forall E kx, (forall k x, In (k, x) kx -> key_is E k x) ->
  (forall k, exists j, fold_result (add_item E) (of_key k kx) (new_ovfitem E) = Ok j) ->
  exists h, fold_result (read_item E) (map snd kx) [] = Ok h /\ NoDup (map fst h) /\
    forall k j, fold_result (add_item E) (of_key k kx) (new_ovfitem E) = Ok j -> hget k h = match of_key k kx with [] => None | _ => Some j end.
Proof.
  intros E. induction kx as [|[k0 x0] kx IH] using rev_ind; intros K J.
  - exists []. split; [reflexivity|]. split; [constructor|]. reflexivity.
  - assert (J' : forall k, exists j, fold_result (add_item E) (of_key k kx) (new_ovfitem E) = Ok j).
    { intros k. destruct (J k) as (j & H). rewrite of_key_snoc, fold_result_app in H. destruct (fold_result (add_item E) (of_key k kx) (new_ovfitem E)) as [j1|]; [now exists j1|discriminate]. }
    destruct IH as (h & E1 & N1 & G1); [intros k x I; apply K, in_or_app; now left|exact J'|].
    assert (K0 : key_is E k0 x0) by (apply K, in_or_app; right; now left).
    rewrite map_app, fold_result_app, E1. cbn [rbind map snd fold_result]. rewrite (read_keyed E h x0 k0 K0).
    destruct (J' k0) as (j1 & H1). destruct (J k0) as (j2 & H2). pose proof H2 as H3. rewrite of_key_snoc, (proj2 (str_eqb_eq _ _) eq_refl), fold_result_app, H1 in H3. cbn [rbind fold_result] in H3.
    destruct (add_item E j1 x0) as [j3|] eqn:A; [|discriminate]. cbn [rbind] in H3. injection H3 as ->.
    assert (ST : (match hget k0 h with
                  | None => do i <- add_item E (new_ovfitem E) x0; Ok (hset k0 i h)
                  | Some i => match add_item E i x0 with Ok i' => Ok (hset k0 i' h) | Err EOVFItemData => Err EOVFHardwareData | Err e => Err e end
                  end) = Ok (hset k0 j2 h)).
    { rewrite (G1 k0 j1 H1). destruct (of_key k0 kx) as [|y l] eqn:O.
      - cbn [fold_result] in H1. injection H1 as <-. now rewrite A.
      - now rewrite A. }
    rewrite ST. cbn [rbind]. exists (hset k0 j2 h). split; [reflexivity|]. split; [now apply hset_NoDup|].
    intros k j H. rewrite hget_hset. rewrite of_key_snoc in *. destruct (str_eqb k k0) eqn:Ek.
    + apply str_eqb_eq in Ek. subst k. rewrite (proj2 (str_eqb_eq _ _) eq_refl) in *. assert (j = j2) by congruence. subst j. now destruct (of_key k0 kx).
    + assert (X : str_eqb k0 k = false). { destruct (str_eqb k0 k) eqn:X; [|reflexivity]. apply str_eqb_eq in X. subst. now rewrite (proj2 (str_eqb_eq _ _) eq_refl) in Ek. }
      rewrite X, app_nil_r in *. exact (G1 k j H).
Qed.

(** ** Written elements *)
Lemma child_name_bare : forall v ns tag n, item_tag_for_namespace v ns = Ok tag -> In n (ITEM_CHILDREN v) -> strip_ns (ns ++ n) = n.
Proof.
  intros v ns tag n H Hn.
  assert (A : forall ns, In ns [RASD v; SASD v; EPASD v] -> forallb (fun n => str_eqb (strip_ns (ns ++ n)) n) (ITEM_CHILDREN v) = true).
  { intros m [<-|[<-|[<-|[]]]]; destruct v; vm_compute; reflexivity. }
  apply str_eqb_eq. apply (proj1 (forallb_forall _ _) (A ns ltac:(unfold item_tag_for_namespace in H;
    destruct (str_eqb ns (RASD v)) eqn:E1; [apply str_eqb_eq in E1; subst; now left|];
    destruct (str_eqb ns (SASD v)) eqn:E2; [apply str_eqb_eq in E2; subst; right; now left|];
    destruct (str_eqb ns (EPASD v)) eqn:E3; [apply str_eqb_eq in E3; subst; right; right; now left|discriminate]))). exact Hn.
Qed.
Lemma written_element : forall E k i xs, reachable (e_ver E) i -> writable E i -> numbered E k i -> known_profiles E i ->
  generate_items E i = Ok xs -> forall x, In x xs -> key_is E k x /\ plain_item E x.
Proof.
  intros E k i xs R W [NK NI] KP G x Hx.
  destruct (generated_elements E i xs R W G) as (A1 & A2 & _ & _ & _ & A6 & A7).
  pose proof G as G'. unfold generate_items in G'. destruct (get_nonintersecting_set_list (i_props i)) as [l|]; [|discriminate]. cbn [rbind] in G'.
  destruct (item_tag_for_namespace (e_ver E) (i_ns i)) as [tag|] eqn:Et; [|discriminate]. clear G' l.
  destruct (generated_plain E i xs tag R W G Et x Hx) as [T LV].
  assert (NS : namespace_for_item_tag (e_ver E) (etag x) = Some (i_ns i)) by (rewrite T; now apply tag_ns).
  assert (OWN : forall q, In q (element_profiles (e_ver E) x) -> exists n v, own (i_props i) n q v) by (intros q Hq; apply A2; now exists x).
  split.
  - destruct (element_profiles (e_ver E) x) as [|q qs] eqn:EP; [now elim (A1 x Hx)|].
    destruct (OWN q (or_introl eq_refl)) as (n & v & O).
    assert (SN : simple_name (e_ver E) (INSTANCE_ID (e_ver E))) by (left; apply mem_str_In, ITEM_CHILDREN_IID).
    assert (S : element_says (i_ns i) x (INSTANCE_ID (e_ver E)) k).
    { apply (A6 x _ k q Hx); [rewrite EP; now left|exact SN|]. exists (VStr k). split; [exact (NI n q v O)|]. split; [now destruct k|reflexivity]. }
    destruct S as [(c & F & TX & _)|(k' & EK & _)]; [|exfalso; symmetry in EK; exact (proj1 (suffix_not_IID (e_ver E) k') EK)].
    exists (i_ns i), c, []. split; [exact NS|]. split; [exact F|]. split; [exact TX|]. split; [exact NK|].
    apply forallb_forall. intros p Hp. apply mem_str_In. unfold element_profiles in EP.
    destruct (get_attr x (ITEM_CONFIG (e_ver E))) as [s|]; [|contradiction].
    assert (I : In (Some p) (q :: qs)) by (rewrite <- EP; apply in_map_iff; now exists p).
    destruct (OWN (Some p) I) as (n' & v' & O'). exact (KP n' p v' O').
  - intros c Hc. split; [exact (LV c Hc)|]. destruct (A7 x c Hx Hc) as (n & Hn & ->).
    assert (SN : strip_ns (i_ns i ++ n) = n).
    { exact (child_name_bare (e_ver E) (i_ns i) tag n Et Hn). }
    rewrite SN. now apply mem_str_In.
Qed.
Lemma of_key_app : forall k a b, of_key k (a ++ b) = of_key k a ++ of_key k b.
Proof. intros. unfold of_key. now rewrite filter_app, map_app. Qed.
Lemma of_key_filter : forall k f a, of_key k (filter (fun p => f (snd p)) a) = filter f (of_key k a).
Proof.
  intros k f a. unfold of_key. induction a as [|[k' x] a IH]; [reflexivity|]. cbn [filter fst snd].
  destruct (f x) eqn:F, (str_eqb k' k) eqn:K; cbn [filter map fst snd]; rewrite ?K, ?F; cbn [map snd]; now rewrite IH.
Qed.
Lemma snd_filter : forall f (a : list (str * elem)), map snd (filter (fun p => f (snd p)) a) = filter f (map snd a).
Proof. intros f a. induction a as [|[k' x] a IH]; [reflexivity|]. cbn [filter map snd]. destruct (f x); cbn [map snd]; now rewrite IH. Qed.
Lemma of_key_own : forall k ys, of_key k (map (pair k) ys) = ys.
Proof. intros k ys. unfold of_key. induction ys as [|y ys IH]; [reflexivity|]. cbn [map filter fst]. rewrite (proj2 (str_eqb_eq _ _) eq_refl). cbn [map snd]. now rewrite IH. Qed.
Lemma of_key_foreign : forall k k' ys, k' <> k -> of_key k (map (pair k') ys) = [].
Proof.
  intros k k' ys N. unfold of_key. induction ys as [|y ys IH]; [reflexivity|]. cbn [map filter fst].
  destruct (str_eqb k' k) eqn:E; [apply str_eqb_eq in E; contradiction|exact IH].
Qed.
Fixpoint keyed (ks : list str) (xss : list (list elem)) : list (str * elem) :=
  match ks, xss with k :: ks, ys :: xss => map (pair k) ys ++ keyed ks xss | _, _ => [] end.
Lemma keyed_snd : forall (R : str -> list elem -> Prop) ks xss, Forall2 R ks xss -> map snd (keyed ks xss) = concat xss.
Proof.
  intros R ks xss F. induction F as [|k ys ks xss H F IH]; [reflexivity|]. cbn [keyed concat]. rewrite map_app, IH, map_map. f_equal. cbn [snd]. apply map_id.
Qed.
Lemma keyed_none : forall (R : str -> list elem -> Prop) ks xss, Forall2 R ks xss -> forall k, ~ In k ks -> of_key k (keyed ks xss) = [].
Proof.
  intros R ks xss F. induction F as [|k0 ys ks xss H F IH]; intros k N; [reflexivity|]. cbn [keyed]. rewrite of_key_app, of_key_foreign, IH; [reflexivity| |].
  - intros I. apply N. now right.
  - intros ->. apply N. now left.
Qed.
Lemma keyed_some : forall (R : str -> list elem -> Prop) ks xss, Forall2 R ks xss -> NoDup ks -> forall k, In k ks -> R k (of_key k (keyed ks xss)).
Proof.
  intros R ks xss F. induction F as [|k0 ys ks xss H F IH]; intros N k I; [contradiction|]. inversion N as [|? ? N1 N2]; subst. cbn [keyed]. rewrite of_key_app.
  destruct I as [<-|I].
  - now rewrite of_key_own, (keyed_none R ks xss F k0 N1), app_nil_r.
  - rewrite of_key_foreign; [now apply IH|]. intros ->. contradiction.
Qed.
Lemma of_key_In : forall k x kx, In (k, x) kx -> In x (of_key k kx).
Proof. intros k x kx I. unfold of_key. apply in_map_iff. exists (k, x). split; [reflexivity|]. apply filter_In. split; [exact I|]. now apply str_eqb_eq. Qed.
Lemma one_tag_split : forall t0 t (ys : list elem), (forall y, In y ys -> etag y = t0) ->
  filter (has_tag t) ys ++ filter (fun y => negb (has_tag t y)) ys = ys.
Proof.
  intros t0 t ys A.
  assert (H : forall b, (forall y, In y ys -> has_tag t y = b) -> filter (has_tag t) ys ++ filter (fun y => negb (has_tag t y)) ys = ys).
  { clear A. induction ys as [|y ys IH]; intros b A; [reflexivity|]. cbn [filter]. rewrite (A y (or_introl eq_refl)). destruct b; cbn [negb app].
    - f_equal. apply (IH true). intros z Hz. apply A. now right.
    - assert (F : filter (has_tag t) ys = []). { clear IH. induction ys as [|z ys IH]; [reflexivity|]. cbn [filter]. rewrite (A z (or_intror (or_introl eq_refl))). apply IH. intros u [<-|Hu]; apply A; [now left|right; now right]. }
      rewrite F. cbn [app]. f_equal. pose proof (IH false) as K. rewrite F in K. cbn [app] in K. apply K. intros z Hz. apply A. now right. }
  apply (H (str_eqb t0 t)). intros y Hy. unfold has_tag. now rewrite (A y Hy).
Qed.

Theorem reread : forall E h sec sec' sec2, hw_reachable (e_ver E) h ->
  (forall k i, In (k, i) h -> writable E i /\ numbered E k i /\ known_profiles E i) ->
  update_xml E h sec = Ok sec' -> ~ looks_unchanged (e_ver E) h sec -> same_content sec' sec2 ->
  exists h2, read_hardware E sec2 = Ok h2 /\ same_hardware E h h2.
Proof.
  intros E h sec sec' sec2 HR A U NU S. destruct (reachable_ids _ _ HR) as [ND IDS].
  destruct (update_content E h sec sec' ND U) as [[F _]|(_ & xs & G & HI)]; [contradiction|].
  destruct (other_children_after E h sec xs sec' G HI) as [_ IC].
  destruct G as (keys & xss & NS & F2 & ->).
  pose proof (natural_sort_sound _ _ NS) as [PM _]. assert (NDk : NoDup keys) by exact (Permutation_NoDup PM ND).
  set (t := ITEM (e_ver E)) in *.
  set (kx := filter (fun p => has_tag t (snd p)) (keyed keys xss) ++ filter (fun p => negb (has_tag t (snd p))) (keyed keys xss)).
  assert (KS : map snd kx = item_children (e_ver E) sec').
  { unfold kx. rewrite map_app, (snd_filter (has_tag t)), (snd_filter (fun x => negb (has_tag t x))), (keyed_snd _ _ _ F2). symmetry. exact IC. }
  (* the elements of one device *)
  assert (OK1 : forall k i ys, In (k, i) h -> generate_items E i = Ok ys -> (forall x, In x ys -> key_is E k x /\ plain_item E x) /\ (exists tg, forall x, In x ys -> etag x = tg)).
  { intros k i ys I GI. destruct (A k i I) as (W & N & K). pose proof (proj1 (IDS k i I)) as R. split; [exact (written_element E k i ys R W N K GI)|].
    pose proof GI as G'. unfold generate_items in G'. destruct (get_nonintersecting_set_list (i_props i)) as [l|]; [|discriminate]. cbn [rbind] in G'.
    destruct (item_tag_for_namespace (e_ver E) (i_ns i)) as [tag|] eqn:Et; [|discriminate]. exists tag. intros x Hx. exact (proj1 (generated_plain E i ys tag R W GI Et x Hx)). }
  assert (SP : forall k, of_key k kx = of_key k (keyed keys xss)).
  { intros k. unfold kx. rewrite of_key_app, (of_key_filter k (has_tag t)), (of_key_filter k (fun x => negb (has_tag t x))).
    destruct (in_dec (list_eq_dec Ascii.ascii_dec) k keys) as [I|I].
    - destruct (keyed_some _ _ _ F2 NDk k I) as (i & Hi & GI). destruct (OK1 k i _ Hi GI) as [_ (tg & T)]. exact (one_tag_split tg t _ T).
    - now rewrite (keyed_none _ _ _ F2 k I). }
  assert (KO : forall k x, In (k, x) kx -> key_is E k x /\ plain_item E x).
  { intros k x I. assert (IK : In x (of_key k kx)) by now apply of_key_In. rewrite SP in IK.
    destruct (in_dec (list_eq_dec Ascii.ascii_dec) k keys) as [J|J].
    - destruct (keyed_some _ _ _ F2 NDk k J) as (i & Hi & GI). exact (proj1 (OK1 k i _ Hi GI) x IK).
    - rewrite (keyed_none _ _ _ F2 k J) in IK. destruct IK. }
  assert (BACK : forall k i, In (k, i) h -> generate_items E i = Ok (of_key k kx)).
  { intros k i Hi. rewrite SP. assert (J : In k keys) by (apply (Permutation_in _ PM), in_map_iff; now exists (k, i)).
    destruct (keyed_some _ _ _ F2 NDk k J) as (i' & Hi' & GI).
    apply hget_In in Hi; [|exact ND]. apply hget_In in Hi'; [|exact ND]. rewrite Hi in Hi'. injection Hi' as <-. exact GI. }
  assert (NOK : forall k, ~ In k (map fst h) -> of_key k kx = []).
  { intros k N. rewrite SP. apply (keyed_none _ _ _ F2). intros J. apply N. exact (Permutation_in _ (Permutation_sym PM) J). }
  destruct (read_by_key E kx) as (h1 & E1 & N1 & G1).
  { intros k x I. exact (proj1 (KO k x I)). }
  { intros k. destruct (in_dec (list_eq_dec Ascii.ascii_dec) k (map fst h)) as [J|J].
    - apply in_map_iff in J as ([k' i] & EK & Hi). cbn in EK. subst k'. destruct (A k i Hi) as (W & _).
      destruct (roundtrip E i _ (proj1 (IDS k i Hi)) W (BACK k i Hi)) as (j & Ej & _). now exists j.
    - rewrite (NOK k J). now exists (new_ovfitem E). }
  assert (RD : fold_result (read_item E) (echildren sec2) [] = Ok h1).
  { rewrite KS in E1. destruct S as [tg a x x' l l' cs cs' F HX]. cbn [echildren] in *. rewrite (read_all_like E cs cs' F); [exact E1|].
    intros x0 I Ib. assert (In x0 (map snd kx)). { rewrite KS. apply filter_In. now split. }
    apply in_map_iff in H as ([k x1] & EX & I1). cbn in EX. subst x1. exact (proj2 (KO k x0 I1)). }
  unfold read_hardware. rewrite RD. cbn [rbind]. eexists. split; [reflexivity|].
  assert (HASV : forall k i, In (k, i) h -> (has_values i <-> of_key k kx <> [])).
  { intros k i Hi. destruct (A k i Hi) as (W & _). destruct (generated_elements E i _ (proj1 (IDS k i Hi)) W (BACK k i Hi)) as (A1 & A2 & _). split.
    - intros (n & q & v & O) Z. rewrite Z in A2. destruct (proj1 (A2 q)) as (x & [] & _). now exists n, v.
    - intros Z. destruct (of_key k kx) as [|x l] eqn:O; [contradiction|]. specialize (A1 x (or_introl eq_refl)).
      destruct (element_profiles (e_ver E) x) as [|q qs] eqn:EP; [contradiction|]. destruct (proj2 (A2 q)) as (n & v & OW); [exists x; split; [now left|rewrite EP; now left]|]. now exists n, q, v. }
  assert (MF : map fst (map (fun ki : str * item => (fst ki, with_modified false (snd ki))) h1) = map fst h1) by (rewrite map_map; apply map_ext; reflexivity).
  split; [|split].
  - rewrite MF. exact N1.
  - intros k i Hi HV. destruct (A k i Hi) as (W & _). destruct (roundtrip E i _ (proj1 (IDS k i Hi)) W (BACK k i Hi)) as (j & Ej & _ & RP).
    specialize (G1 k j Ej). apply (HASV k i Hi) in HV. destruct (of_key k kx) as [|x l]; [contradiction|].
    apply hget_In in G1; [|exact N1]. exists (with_modified false j). split; [apply in_map_iff; now exists (k, j)|]. exact RP.
  - intros k j Hj. apply in_map_iff in Hj as ([k1 j1] & EQ & H1). cbn [fst snd] in EQ. injection EQ as <- <-.
    apply hget_In in H1; [|exact N1]. destruct (in_dec (list_eq_dec Ascii.ascii_dec) k1 (map fst h)) as [J|J].
    + apply in_map_iff in J as ([k' i] & EK & Hi). cbn in EK. subst k'. exists i. split; [exact Hi|]. destruct (A k1 i Hi) as (W & _).
      destruct (roundtrip E i _ (proj1 (IDS k1 i Hi)) W (BACK k1 i Hi)) as (j & Ej & _ & RP). rewrite (G1 k1 j Ej) in H1.
      destruct (of_key k1 kx) as [|x l] eqn:O; [discriminate|]. injection H1 as <-. split; [|exact RP]. apply (HASV k1 i Hi). now rewrite O.
    + rewrite (G1 k1 (new_ovfitem E)) in H1; rewrite (NOK k1 J) in *; [discriminate|reflexivity].
Qed.
