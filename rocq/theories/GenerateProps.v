(** C16: writing hardware items and reading them back. *)
From Coq Require Import Lia.
From Verif Require Import PyBase PyDict ValidationModel ValidationSpec XmlModel NamesModel ItemModel
  ItemSpec GenerateSpec PsetProofs ItemProofs ItemReachProofs ItemProfileProofs ItemEffectProofs RoundtripProofs
  ItemProps WildcardProps.

(** The elements written for an item: every profile with values of its own has exactly
    one, shared by exactly the profiles with the same values; the default profile has
    its own and it comes first; each says for every property what the item reports
    for its profiles, and nothing else. *)
Theorem C16_elements : forall E i xs, reachable (e_ver E) i -> writable E i ->
  generate_items E i = Ok xs ->
  (forall x, In x xs -> element_profiles (e_ver E) x <> []) /\
  (forall q, (exists n v, own (i_props i) n q v) <->
     exists x, In x xs /\ In q (element_profiles (e_ver E) x)) /\
  ForallOrdPairs (fun x y => forall q, In q (element_profiles (e_ver E) x) ->
     ~ In q (element_profiles (e_ver E) y)) xs /\
  (forall x q r, In x xs -> In q (element_profiles (e_ver E) x) ->
     (In r (element_profiles (e_ver E) x) <->
      forall n v, own (i_props i) n q v <-> own (i_props i) n r v)) /\
  (forall x, In x xs -> In None (element_profiles (e_ver E) x) ->
     get_attr x (ITEM_CONFIG (e_ver E)) = None /\ exists rest, xs = x :: rest) /\
  (forall x n t q, In x xs -> In q (element_profiles (e_ver E) x) -> simple_name (e_ver E) n ->
     (element_says (i_ns i) x n t <->
      exists w, reports E i n q = Ok (Some w) /\ truthy w = true /\ t = xml_text w)) /\
  (forall x c, In x xs -> In c (echildren x) ->
     exists n, In n (ITEM_CHILDREN (e_ver E)) /\ etag c = i_ns i ++ n).
Proof. exact generated_elements. Qed.
Print Assumptions C16_elements.

(** Reading the elements into a new item succeeds and gives the same answers for every
    property under every profile. *)
Theorem C16_roundtrip : forall E i xs, reachable (e_ver E) i -> writable E i ->
  generate_items E i = Ok xs ->
  exists j, fold_result (add_item E) xs (new_ovfitem E) = Ok j /\ reachable (e_ver E) j /\
    forall n q, reports E j n q = reports E i n q.
Proof. exact roundtrip. Qed.
Print Assumptions C16_roundtrip.

(** Writing succeeds unless a text cannot be reported or a profile name has digits
    that [int] does not know (C04). *)
Theorem C16_writing_succeeds : forall E i, reachable (e_ver E) i -> writable E i ->
  (forall n x v, own (i_props i) n (Some x) v -> plain_text x) ->
  (forall n q, exists o, reports E i n q = Ok o) ->
  exists xs, generate_items E i = Ok xs.
Proof. exact generate_succeeds. Qed.
Print Assumptions C16_writing_succeeds.

(** Example: 4 CPUs named "4 virtual CPUs", under profile "big" 8 named "8 virtual CPUs". *)
Definition NAMED : props :=
  [(L "InstanceID", [(VStr (L "1"), [None])]);
   (VIRTUAL_QUANTITY, [(VStr (L "4"), [None]); (VStr (L "8"), [Some (L "big")])]);
   (L "ElementName", [(VStr (L "_VQ_ virtual CPUs"), [None])])].
Lemma named_props : i_props named_cpus = NAMED.
Proof. vm_compute. reflexivity. Qed.
Example named_reachable : reachable V1 named_cpus.
Proof.
  assert (E : set_property env0 cpus (L "ElementName") (IStr (L "4 virtual CPUs")) [None] true = Ok named_cpus)
    by (vm_compute; reflexivity).
  exact (R_set V1 env0 _ _ _ _ _ _ eq_refl cpus_reachable E).
Qed.
Lemma named_own : forall n p v, own (i_props named_cpus) n p v ->
  (n = L "InstanceID" /\ p = None /\ v = VStr (L "1")) \/
  (n = VIRTUAL_QUANTITY /\ p = None /\ v = VStr (L "4")) \/
  (n = VIRTUAL_QUANTITY /\ p = Some (L "big") /\ v = VStr (L "8")) \/
  (n = L "ElementName" /\ p = None /\ v = VStr (L "_VQ_ virtual CPUs")).
Proof.
  intros n p v (d & s & Hd & Hs & Hp). rewrite named_props in Hd.
  destruct Hd as [Hd|[Hd|[Hd|[]]]]; injection Hd as <- <-.
  - destruct Hs as [Hs|[]]. injection Hs as <- <-. destruct Hp as [<-|[]]. tauto.
  - destruct Hs as [Hs|[Hs|[]]]; injection Hs as <- <-; (destruct Hp as [<-|[]]; tauto).
  - destruct Hs as [Hs|[]]. injection Hs as <- <-. destruct Hp as [<-|[]]. tauto.
Qed.
Lemma named_text : forall q, let k := match q with Some x => str_eqb x (L "big") | None => false end in
  reports env0 named_cpus (L "ElementName") q =
  Ok (Some (VStr ((if k then L "8" else L "4") ++ L " virtual CPUs"))) /\
  get_raw (i_props named_cpus) VIRTUAL_QUANTITY (Some [q]) = Some (VStr (if k then L "8" else L "4")).
Proof.
  intros q. cbv zeta.
  assert (G : good_props V1 (i_props named_cpus)) by exact (reachable_good V1 _ named_reachable).
  destruct q as [x|]; [|split; vm_compute; reflexivity].
  destruct (str_eqb x (L "big")) eqn:Ex.
  { apply PyBaseProofs.str_eqb_eq in Ex. subst x. split; vm_compute; reflexivity. }
  assert (S : forall m v, holds (i_props named_cpus) m None v <-> holds (i_props named_cpus) m (Some x) v).
  { assert (N : forall m w, ~ own (i_props named_cpus) m (Some x) w).
    { intros m w Hw. apply named_own in Hw as [(_ & H & _)|[(_ & H & _)|[(_ & H & _)|(_ & H & _)]]]; try discriminate H.
      injection H as ->. vm_compute in Ex. discriminate. }
    intros m v. unfold holds. split.
    - intros [K|[_ K]]; right; (split; [intros w; apply N|exact K]).
    - intros [K|[_ K]]; [exfalso; now apply (N m v)|now left]. }
  split.
  - rewrite (reports_same env0 named_cpus named_cpus None (Some x) G G S). vm_compute. reflexivity.
  - apply (get_raw_holds _ _ _ _ _ G). apply S. apply (get_raw_holds _ _ _ _ _ G). vm_compute. reflexivity.
Qed.
Example named_writable : writable env0 named_cpus.
Proof.
  assert (G : good_props V1 (i_props named_cpus)) by exact (reachable_good V1 _ named_reachable).
  constructor.
  - intros n p v H. left. apply named_own in H. vm_compute. intuition (subst; tauto).
  - intros n x v H. apply named_own in H.
    assert (x = L "big") as -> by (destruct H as [(_ & H & _)|[(_ & H & _)|[(_ & H & _)|(_ & H & _)]]]; congruence).
    split; [discriminate|]. intros c [<-|[<-|[<-|[]]]]; reflexivity.
  - intros p l w H. apply named_own in H. destruct H as [(H & _)|[(H & _)|[(H & _)|(H & _)]]]; discriminate H.
  - intros n q t [-> | ->].
    2: { rewrite reports_nothing; [discriminate|exact G|]. intros v H. apply WildcardItemProofs.holds_own in H as (r & H).
         apply named_own in H. destruct H as [(H & _)|[(H & _)|[(H & _)|(H & _)]]]; discriminate H. }
    intros H. destruct (named_text q) as [K1 K2]. cbv zeta in *.
    change (ELEMENT_NAME (e_ver env0)) with (L "ElementName") in *.
    set (k := match q with Some x => str_eqb x (L "big") | None => false end) in *.
    set (d := if k then L "8" else L "4") in *. rewrite K1 in H. assert (t = d ++ L " virtual CPUs") as -> by (injection H as H; symmetry; exact H). clear H.
    assert (Only : forall Q w x, Q <> [] ->
      (forall p, In p Q -> requested (i_props named_cpus) (L "ElementName") [q] p) ->
      embeds env0 (i_props named_cpus) Q (L "ElementName") w x -> x = d).
    { intros Q w x Hne HQ H.
      assert (HQ' : forall p, In p Q -> p = q) by (intros p Hp; destruct (HQ p Hp) as [<-|[]]; reflexivity).
      remember (L "ElementName") as n eqn:En. destruct H as [n v H|n v H|n v H|v H].
      - rewrite get_value_plain in H by reflexivity.
        assert (Hr : get_raw (i_props named_cpus) VIRTUAL_QUANTITY (Some Q) = Some (VStr d)).
        { apply (LookupProofs.get_raw_set V1 _ _ Q _ G Hne). intros p Hp. rewrite (HQ' p Hp).
          now apply (get_raw_holds _ _ _ _ _ G). }
        pose proof (eq_trans (eq_sym (f_equal Ok Hr)) H) as H'. injection H' as <-. reflexivity.
      - rewrite named_props in H. vm_compute in H. discriminate.
      - rewrite named_props in H. vm_compute in H. discriminate.
      - discriminate En. }
    assert (Hd : d = L "8" \/ d = L "4") by (unfold d; destruct k; auto). clearbody d.
    split; [destruct Hd as [-> | ->]; discriminate|]. split; [|split].
    + intros Q w x Hne HQ H. rewrite (Only Q w x Hne HQ H).
      destruct Hd as [-> | ->]; (split; [reflexivity|]); (split; [intros [F|[]]; discriminate|]);
        intros w' [<-|[<-|[<-|[<-|[]]]]]; reflexivity.
    + destruct Hd as [-> | ->]; intros F; vm_compute in F; repeat destruct F as [F|F]; try discriminate F; contradiction.
    + intros Q a w1 x w w2 y b Hne HQ H1 H2 Hw E.
      rewrite (Only Q w1 x Hne HQ H1), (Only Q w2 y Hne HQ H2) in E.
      apply (f_equal (fun s => count_occ ascii_dec s (hd NL d))) in E. rewrite !count_occ_app in E.
      destruct Hd as [-> | ->]; cbn [hd L list_ascii_of_string count_occ] in E.
      * vm_compute (count_occ ascii_dec (L "8") "8"%char) in E. vm_compute (count_occ ascii_dec (L " virtual CPUs") "8"%char) in E.
        cbn in E. lia.
      * vm_compute (count_occ ascii_dec (L "4") "4"%char) in E. vm_compute (count_occ ascii_dec (L " virtual CPUs") "4"%char) in E.
        cbn in E. lia.
Qed.
Definition rasd (n t : string) : elem := Elem (RASD V1 ++ L n) [] (Some (L t)) None [].
Example C16_example : generate_items env0 named_cpus = Ok
  [Elem (OVF_NS V1 ++ L "Item") [] None None
     [rasd "ElementName" "4 virtual CPUs"; rasd "InstanceID" "1"; rasd "VirtualQuantity" "4"];
   Elem (OVF_NS V1 ++ L "Item") [(ITEM_CONFIG V1, L "big")] None None
     [rasd "ElementName" "8 virtual CPUs"; rasd "InstanceID" "1"; rasd "VirtualQuantity" "8"]].
Proof. vm_compute. reflexivity. Qed.

(** Without [writable] reading back can fail: an attribute of a child element is
    written on a second child without the namespace, and the two children conflict
    when the file is read again. *)
Definition net_item : elem :=
  Elem (OVF_NS V1 ++ L "Item") [] None None
    [Elem (RASD V1 ++ L "Connection") [(L "x", L "y")] (Some (L "net")) None [];
     rasd "InstanceID" "1"; rasd "ResourceType" "10"].
Theorem C16_child_attribute_refuted : ~ forall E i xs, reachable (e_ver E) i ->
  generate_items E i = Ok xs ->
  exists j, fold_result (add_item E) xs (new_ovfitem E) = Ok j.
Proof.
  intros H.
  assert (K : exists i xs, add_item env0 (new_ovfitem env0) net_item = Ok i /\
    generate_items env0 i = Ok xs /\ fold_result (add_item env0) xs (new_ovfitem env0) = Err EOVFItemData).
  { eexists _, _. split; [vm_compute; reflexivity|]. split; [vm_compute; reflexivity|]. vm_compute. reflexivity. }
  destruct K as (i & xs & K1 & K2 & K3).
  apply (R_read V1 env0 _ _ _ eq_refl) in K1; [|now apply R_new].
  destruct (H env0 i xs K1 K2) as (j & Hj). congruence.
Qed.
Print Assumptions C16_child_attribute_refuted.
