(** Proofs about networks, NICs, environment, properties and hardware variants. *)
From Coq Require Import List Ascii ZArith Bool Lia.
Import ListNotations.
From Verif Require Import PyBase PyBaseProofs PyDict NamesModel XmlModel XmlSpec XmlProofs ItemModel ItemSpec HardwareModel HardwareSpec HardwareIdProofs HardwareProofs
  FindSpec FindProofs ValidateHwModel ValidateHwProofs NetworkModel DriveModel EnvPropModel EditPropModel EditHwModel ProductModel PlatformModel WrapModel WrapSpec WrapProofs
  InfoModel InfoSpec InfoProfileProofs InfoMoreSpec InfoMoreProofs.
From Verif Require EnvPropSpec.
Local Open Scope nat_scope.

Lemma version_eq_dec : forall a b : version, {a = b} + {a <> b}.
Proof. decide equality. Qed.
Lemma longest_is : forall l, is_longest l (longest l).
Proof.
  intros l. split; [intros s; apply longest_ge | ]. intros N. destruct (longest_some l) as [Z | X]; [ | exact X].
  destruct l as [ | s l]; [now destruct N | ]. exists s. split; [now left | ]. pose proof (longest_ge (s :: l) s (or_introl eq_refl)). lia.
Qed.
Lemma Forall2_impl : forall A B (P Q : A -> B -> Prop) l l', (forall a b, P a b -> Q a b) -> Forall2 P l l' -> Forall2 Q l l'.
Proof. intros A B P Q l l' H F. induction F; constructor; auto. Qed.
Lemma Forall2_map_l : forall A B C (f : A -> B) (P : B -> C -> Prop) l bs, Forall2 P (map f l) bs -> Forall2 (fun a b => P (f a) b) l bs.
Proof. intros A B C f P l. induction l as [ | a l IH]; intros bs H; cbn [map] in H; inversion H; subst; constructor; auto. Qed.

Lemma platform_lines : forall class, platform_line class (match platform_name (for_product_string class) with Some n => [L "COT detected platform type: " ++ n] | None => [] end).
Proof.
  intros [c|]; [|right; split; [discriminate|reflexivity]].
  cbn [for_product_string]. unfold product_platform_map. cbn [lookup_platform].
  repeat match goal with |- context [str_eqb c ?k] => destruct (str_eqb c k) eqn:?; [left; exists c; eexists; split; [reflexivity|]; split; [|reflexivity]; match goal with H : str_eqb c _ = true |- _ => apply str_eqb_eq in H; rewrite H end; unfold PRODUCT_TITLES; cbn [In]; tauto|] end.
  right. split; [|reflexivity]. intros c' n H F. injection F as <-. unfold PRODUCT_TITLES in H. cbn [In] in H.
  repeat (destruct H as [H|H]; [apply (f_equal fst) in H; cbn [fst] in H; subst c; match goal with Q : str_eqb ?a ?a = false |- _ => now rewrite (proj2 (str_eqb_eq a a) eq_refl) in Q end|]). exact H.
Qed.

Section Parts.
Variables (E : env) (m : info_vm).
Let v := e_ver E.
Let h := m_hw (iv_vmd m).

(** ** Header *)
Theorem header_spec : forall width out, info_header E m width = Ok out ->
  exists sec, only_child (PRODUCT_SECTION v) (PRODUCT_SECTION_ATTRIB v) (iv_vs m) sec /\
  let line := repeat "-"%char (Z.to_nat width) in
  let class := match sec with Some s => get_attr s (PRODUCT_CLASS v) | None => None end in
  exists kind, platform_line class kind /\ out = join [NL] ([line; iv_file m] ++ kind ++ [line]).
Proof.
  intros width out H. unfold info_header in H. step H sec Hs. exists sec. split; [exact (find_child_only _ _ _ _ _ Hs) | ].
  apply ok_inj in H. subst out. eexists. split; [apply platform_lines|reflexivity].
Qed.

(** ** Environment *)
Theorem environment_spec : forall width out, info_environment E m width = Ok out ->
  match out with
  | None => v = V0 \/ exists sec, only_child (VIRTUAL_HW_SECTION v) (VIRTUAL_HW_SECTION_ATTRIB v) (iv_vs m) (Some sec)
                        /\ ~ says_something (get_attr sec (ENVIRONMENT_TRANSPORT v))
  | Some text => exists sec t lines, only_child (VIRTUAL_HW_SECTION v) (VIRTUAL_HW_SECTION_ATTRIB v) (iv_vs m) (Some sec)
      /\ get_attr sec (ENVIRONMENT_TRANSPORT v) = Some t /\ t <> []
      /\ text = join [NL] (L "Environment:" :: lines) /\ wrapped width (L "  ") (L "    ") (L "Transport types: " ++ t) lines
  end.
Proof.
  intros width out H. unfold info_environment in H. step H t Ht. unfold environment_transports in Ht. fold v in Ht.
  destruct (version_eq_dec v V0) as [Z | Z].
  - rewrite Z in Ht. apply ok_inj in Ht. subst t. apply ok_inj in H. subst out. now left.
  - assert (Ht' : (do o <- virtual_hw_section v (iv_vs m); Ok (match o with None => None | Some sec =>
       match get_attr sec (ENVIRONMENT_TRANSPORT v) with Some (c :: s) => Some (split_on " "%char (c :: s)) | _ => None end end)) = Ok t)
      by (clearbody v; destruct v; [now destruct Z | exact Ht | exact Ht]).
    clear Ht. step Ht' o Ho. apply ok_inj in Ht'. unfold virtual_hw_section in Ho.
    pose proof (find_child_only _ _ _ _ _ Ho) as OC.
    assert (S : exists sec, o = Some sec).
    { pose proof (find_child_spec (iv_vs m) (VIRTUAL_HW_SECTION v) (VIRTUAL_HW_SECTION_ATTRIB v) true) as S. rewrite Ho in S.
      destruct o as [s | ]; [eauto | now destruct S]. }
    destruct S as [sec ->]. destruct (get_attr sec (ENVIRONMENT_TRANSPORT v)) as [[ | c s] | ] eqn:G; subst t.
    + apply ok_inj in H. subst out. right. exists sec. split; [exact OC | ]. rewrite G. intros (t & X & Y). injection X as <-. now apply Y.
    + assert (H' : (do lines <- wrap width (L "  ") (L "    ") (L "Transport types: " ++ join (L " ") (split_on " "%char (c :: s)));
                    Ok (Some (join [NL] (L "Environment:" :: lines)))) = Ok out).
      { destruct (split_on " "%char (c :: s)) eqn:SO; [ | exact H]. exfalso.
        pose proof (join_split_on " "%char (c :: s)) as J. rewrite SO in J. discriminate J. }
      clear H. step H' lines Hl. apply ok_inj in H'. subst out. exists sec, (c :: s), lines. split; [exact OC | ]. split; [exact G | ].
      split; [discriminate | ]. split; [reflexivity | ]. apply wrap_wrapped. change (L " ") with [" "%char] in Hl.
      rewrite join_split_on in Hl. exact Hl.
    + apply ok_inj in H. subst out. right. exists sec. split; [exact OC | ]. rewrite G. intros (t & X & _). discriminate X.
Qed.

(** ** Properties *)
Lemma props_are : forall ps, environment_properties v (iv_vs m) = Ok ps ->
  (v = V0 -> ps = []) /\ (v <> V0 -> ps = map (info_of v) (EnvPropSpec.properties v (iv_vs m))).
Proof.
  intros ps H. unfold environment_properties in H. split.
  - intros Z. rewrite Z in H. apply ok_inj in H. now subst.
  - intros Z. assert (H' : (do o <- product_section v (iv_vs m); Ok (match o with None => [] | Some sec => map (info_of v) (findall (PROPERTY v) sec) end)) = Ok ps)
      by (clearbody v; destruct v; [now destruct Z | exact H | exact H]).
    clear H. step H' o Ho. apply ok_inj in H'. subst ps. unfold product_section in Ho. unfold EnvPropSpec.properties.
    unfold find_child in Ho. rewrite find_all_one in Ho.
    destruct (filter (child_match (PRODUCT_SECTION v) (PRODUCT_SECTION_ATTRIB v)) (echildren (iv_vs m))) as [ | s [ | s' l]]; cbn [flat_map];
      [ | | discriminate Ho]; apply ok_inj in Ho; subst o; [reflexivity | ]. now rewrite app_nil_r.
Qed.
Theorem properties_spec : forall verb width out, info_properties E m verb width = Ok out ->
  let ps := map (info_of v) (EnvPropSpec.properties v (iv_vs m)) in
  match out with
  | None => v = V0 \/ ps = []
  | Some text => v <> V0 /\ ps <> [] /\ exists kw lw vw w blocks,
      is_longest (map key_cell ps) kw /\ is_longest (map pi_label ps) lw
      /\ is_longest (map (fun p => name_or_none (pi_value p)) ps) vw
      /\ ((forall p, In p ps -> pi_label p <> []) -> w = lw)
      /\ ((exists p, In p ps /\ pi_label p = []) -> w = Nat.max kw lw)
      /\ text = join [NL] (L "Properties:" :: concat blocks)
      /\ Forall2 (fun p block => exists row desc, block = row :: desc
           /\ (0 < lw /\ (Z.of_nat (kw + lw + vw) + 8 < width)%Z -> row = row_with_key kw lw p)
           /\ (lw = 0 \/ (width <= Z.of_nat (kw + lw + vw) + 8)%Z -> row = row_without_key w p)
           /\ (is_verbose verb = false -> desc = [])
           /\ (is_verbose verb = true -> exists lines bs, lines_of (pi_desc p) lines /\ desc = concat bs
                 /\ Forall2 (wrapped_line width (spaces 6) (spaces 6)) lines bs)) ps blocks
  end.
Proof.
  intros verb width out H ps. unfold info_properties in H. step H ps' Hp. destruct (props_are ps' Hp) as [A B].
  destruct ps' as [ | p0 rest] eqn:E0.
  - apply ok_inj in H. subst out. destruct (version_eq_dec v V0) as [Z | Z]; [now left | right]. symmetry. now apply B.
  - assert (Z : v <> V0) by (intros Z; discriminate (A Z)). specialize (B Z). fold ps in B. rewrite <- E0 in *. clear A.
    assert (N : ps <> []) by (rewrite <- B, E0; discriminate). clear E0 p0 rest. subst ps'.
    set (kw := 2 + longest (map (fun p => shown (pi_key p)) ps)) in *. set (lw := longest (map pi_label ps)) in *.
    set (vw := longest (map (fun p => shown (pi_value p)) ps)) in *.
    set (w := if forallb (fun p => match pi_label p with [] => false | _ => true end) ps then lw else Nat.max kw lw) in *.
    cbn zeta in H. step H lines Hl. apply ok_inj in H. subst out. apply each_spec in Hl as (blocks & -> & F).
    split; [exact Z | ]. split; [exact N | ]. exists kw, lw, vw, w, blocks.
    split.
    { unfold kw. destruct (longest_is (map (fun p => shown (pi_key p)) ps)) as [L1 L2]. split.
      - intros s Hs. apply in_map_iff in Hs as (p & <- & Hp'). assert (X : In (shown (pi_key p)) (map (fun p => shown (pi_key p)) ps)) by (apply in_map_iff; now exists p).
        apply L1 in X. unfold key_cell. rewrite !app_length. change (length (L "<")) with 1. change (length (L ">")) with 1.
        change (name_or_none (pi_key p)) with (shown (pi_key p)). lia.
      - intros _. destruct L2 as (s & Hs & Hl); [intros X; apply map_eq_nil in X; now apply N | ]. apply in_map_iff in Hs as (p & <- & Hp').
        exists (key_cell p). split; [apply in_map_iff; now exists p | ]. rewrite <- Hl. unfold key_cell. rewrite !app_length.
        change (length (L "<")) with 1. change (length (L ">")) with 1. change (name_or_none (pi_key p)) with (shown (pi_key p)). lia. }
    split; [apply longest_is | ]. split; [apply (longest_is (map (fun p => shown (pi_value p)) ps)) | ].
    split.
    { intros H. unfold w. replace (forallb _ ps) with true; [reflexivity | ]. symmetry. apply forallb_forall. intros p Hp'. specialize (H p Hp').
      destruct (pi_label p); [now destruct H | reflexivity]. }
    split.
    { intros (p & Hp' & Hn). unfold w. destruct (forallb _ ps) eqn:X; [ | reflexivity]. pose proof (proj1 (forallb_forall _ _) X p Hp') as Y.
      cbn beta in Y. rewrite Hn in Y. discriminate. }
    split; [reflexivity | ].
    eapply (Forall2_impl); [ | exact F]. cbn beta. intros p block Hb. step Hb d Hd. apply ok_inj in Hb. subst block.
    eexists _, d. split; [reflexivity | ].
    split.
    { intros [X Y]. unfold property_line. replace (0 <? lw) with true by (symmetry; now apply Nat.ltb_lt).
      replace (Z.of_nat (kw + lw + vw) <? width - 8)%Z with true by (symmetry; apply Z.ltb_lt; lia). reflexivity. }
    split.
    { intros X. unfold property_line. replace ((0 <? lw) && (Z.of_nat (kw + lw + vw) <? width - 8)%Z) with false; [reflexivity | ].
      symmetry. apply andb_false_iff. destruct X as [X | X]; [left; apply Nat.ltb_ge; lia | right; apply Z.ltb_ge; lia]. }
    split; intros V; rewrite V in Hd.
    + apply ok_inj in Hd. now subst.
    + apply wrap_each_spec in Hd as (bs & -> & Fd). exists (splitlines (pi_desc p)), bs. split; [apply splitlines_spec | ]. now split.
Qed.

(** ** Networks *)
Lemma names_spec : forall l names, network_names E l = Ok names -> map (fun x => get_attr x (NETWORK_NAME v)) l = map Some names.
Proof.
  intros l. induction l as [ | x l IH]; intros names H; cbn [network_names] in H.
  - apply ok_inj in H. now subst.
  - fold v in H. destruct (get_attr x (NETWORK_NAME v)) as [s | ] eqn:G; [ | discriminate]. step H r Hr. apply ok_inj in H. subst names.
    cbn [map]. rewrite G. f_equal. now apply IH.
Qed.
Lemma slice_prefix : forall n s, exists rest, s = slice_to n s ++ rest.
Proof.
  intros n s. unfold slice_to. destruct (0 <=? n)%Z; eexists; symmetry; apply firstn_skipn.
Qed.
Lemma network_lines_spec : forall verb width n truncate r name desc block,
  network_lines verb width n truncate r (name, desc) = Ok block ->
  network_shown width n (if truncate then Some r else None) name desc block.
Proof.
  intros verb width n truncate r name desc block H. unfold network_lines in H. destruct desc as [[ | c t] | ].
  - apply ok_inj in H. subst. apply Net_plain. intros (t & X & Y). injection X as <-. now apply Y.
  - destruct (truncate && (r <? zlen (c :: t))%Z) eqn:T.
    + apply andb_true_iff in T as [-> T]. apply Z.ltb_lt in T. apply ok_inj in H. subst block.
      replace (L """" ++ slice_to (r - 3) (c :: t) ++ L "...""") with (in_quotes (slice_to (r - 3) (c :: t) ++ L "..."))
        by (unfold in_quotes; rewrite <- !app_assoc; reflexivity).
      apply Net_cut with (r := r); [reflexivity | discriminate | exact T | apply slice_prefix | ].
      intros R. unfold slice_to. replace (0 <=? r - 3)%Z with true by (symmetry; apply Z.leb_le; lia). rewrite firstn_length.
      unfold zlen in T. lia.
    + apply Net_full; [discriminate | | apply wrap_wrapped; exact H].
      intros r' X. destruct truncate; [ | discriminate]. injection X as <-. cbn [andb] in T. apply Z.ltb_ge in T. exact T.
  - apply ok_inj in H. subst. apply Net_plain. intros (t & X & _). discriminate X.
Qed.
Lemma combine_map : forall A B C (f : B -> C) (a : list A) (b : list B), combine a (map f b) = map (fun x => (fst x, f (snd x))) (combine a b).
Proof. intros A B C f a. induction a as [ | x a IH]; intros [ | y b]; cbn; [reflexivity .. | ]. now rewrite IH. Qed.
Theorem networks_spec : forall verb width out, info_networks E m verb width = Ok out ->
  match out with
  | None => network_section v (iv_nets m) = None
  | Some text => exists sec names n d blocks, network_section v (iv_nets m) = Some sec /\
      let nets := below (NETWORK v) sec in
      let desc x := first_text (NWK_DESC v) (Some x) in
      let room := if is_verbose verb then None
                  else if (width <=? Z.of_nat (n + d + 6))%Z then Some (width - 6 - Z.of_nat n)%Z else None in
      nets <> [] /\ map (fun x => get_attr x (NETWORK_NAME v)) nets = map Some names
      /\ is_longest names n /\ is_longest (map (fun x => name_or_none (desc x)) nets) d
      /\ text = join [NL] (L "Networks:" :: concat blocks)
      /\ Forall2 (fun x block => network_shown width n room (fst x) (desc (snd x)) block) (combine names nets) blocks
  end.
Proof.
  intros verb width out H. unfold info_networks in H. fold v in H. destruct (network_section v (iv_nets m)) as [sec | ].
  2: { apply ok_inj in H. now subst. }
  rewrite findall_below in H. remember (below (NETWORK v) sec) as nets eqn:En. destruct nets as [ | x0 nets0] eqn:E0; [discriminate | ]. rewrite <- E0 in *.
  assert (N : nets <> []) by (rewrite E0; discriminate). clear E0 x0 nets0.
  step H names Hn. set (n := longest names) in *. cbn zeta in H. rewrite map_map in H.
  set (d := longest (map (fun x => shown (findtext_opt (NWK_DESC v) x)) nets)) in *. step H lines Hl. apply ok_inj in H. subst out.
  apply each_spec in Hl as (blocks & -> & F). exists sec, names, n, d, blocks. split; [reflexivity | ]. cbn zeta. rewrite <- En.
  split; [exact N | ]. split; [exact (names_spec _ _ Hn) | ]. split; [apply longest_is | ].
  split; [apply (longest_is (map (fun x => shown (findtext_opt (NWK_DESC v) x)) nets)) | ]. split; [reflexivity | ].
  rewrite combine_map in F. apply Forall2_map_l in F. eapply Forall2_impl; [ | exact F]. cbn beta. intros [name x] block Hb. cbn [fst snd] in *.
  apply network_lines_spec in Hb. change (findtext_opt (NWK_DESC v) x) with (first_text (NWK_DESC v) (Some x)) in Hb.
  destruct (is_verbose verb); cbn [negb] in Hb; [rewrite andb_false_r in Hb; exact Hb | ]. rewrite andb_true_r in Hb.
  replace (Z.of_nat n + Z.of_nat d + 6)%Z with (Z.of_nat (n + d + 6)) in Hb by lia.
  destruct (width <=? Z.of_nat (n + d + 6))%Z; exact Hb.
Qed.
End Parts.

(** ** NICs and hardware variants *)
Section Hardware.
Variables (E : env) (m : info_vm).
Let v := e_ver E.
Let h := m_hw (iv_vmd m).
Hypothesis R : hw_reachable (e_ver E) h.

Lemma ids : ids_ok (e_ver E) h.
Proof. exact (reachable_ids _ _ R). Qed.
Lemma the_item : forall k i, hitem k h = Ok i <-> In (k, i) h.
Proof. intros k i. split; [ | apply hitem_In; apply ids]. intros H. unfold hitem in H. destruct (hget k h) as [x | ] eqn:G; [ | discriminate]. injection H as <-. apply hget_In; [exact (proj1 ids) | assumption]. Qed.

Lemma nic_value_spec : forall k i n o, In (k, i) h -> nic_value E m k n = Ok o <-> reports E i n o.
Proof.
  intros k i n o Hi. apply the_item in Hi. unfold nic_value, value_of, reports. fold h. rewrite Hi. reflexivity.
Qed.
Lemma nic_lines_spec : forall verb width w k block, nic_lines E m verb width w k = Ok block ->
  exists i, In (k, i) h /\ nic_shown E width (is_verbose verb) w i block.
Proof.
  intros verb width w k block H. unfold nic_lines in H. step H net Hnet.
  assert (X : exists i, In (k, i) h).
  { unfold nic_value, value_of in Hnet. step Hnet i Hi. exists i. now apply the_item. }
  destruct X as [i Hi]. exists i. split; [exact Hi | ].
  step H name Hname. step H cell Hcell. step H desc Hdesc. apply ok_inj in H. subst block.
  apply (nic_value_spec k i _ _ Hi) in Hnet, Hname.
  assert (D : exists d c, (is_verbose verb = false -> desc = []) /\ (is_verbose verb = true -> reports E i ITEM_DESCRIPTION d /\ (d = None -> reports E i CAPTION c) /\
         match (match d with Some x => Some x | None => c end) with
         | Some x => wrapped width (spaces 4) (spaces 4) (vtext E x) desc
         | None => desc = []
         end)).
  { destruct (is_verbose verb).
    - step Hdesc d Hd. apply (nic_value_spec k i _ _ Hi) in Hd. destruct d as [x | ].
      + cbn [rbind] in Hdesc. exists (Some x), None. split; [discriminate | ]. intros _. split; [exact Hd | ]. split; [discriminate | ]. now apply wrap_wrapped.
      + step Hdesc c Hc. apply (nic_value_spec k i _ _ Hi) in Hc. exists None, c. split; [discriminate | ]. intros _. split; [exact Hd | ].
        split; [intros _; exact Hc | ]. destruct c as [x | ]; [now apply wrap_wrapped | ]. apply ok_inj in Hdesc. now subst.
    - apply ok_inj in Hdesc. subst. exists None, None. split; [reflexivity | discriminate]. }
  destruct D as (d & c & D1 & D2).
  apply (Nic_shown E width (is_verbose verb) w i net name cell d c desc); try assumption.
  - intros x Ex. rewrite Ex in Hcell. apply ok_inj in Hcell. now subst.
  - intros En. rewrite En in Hcell. step Hcell ident Hid. apply (nic_value_spec k i _ _ Hi) in Hid. apply ok_inj in Hcell. subst cell.
    exists ident. split; [exact Hid | reflexivity].
Qed.
Lemma nic_names_spec : forall ks names, nic_names E m ks = Ok names ->
  Forall2 (fun k s => forall i, In (k, i) h -> exists o, reports E i (ELEMENT_NAME v) o /\ s = text_or_none E o) ks names.
Proof.
  induction ks as [ | k ks IH]; intros names H; cbn [nic_names] in H.
  - apply ok_inj in H. subst. constructor.
  - step H o Ho. step H r Hr. apply ok_inj in H. subst names. constructor; [ | now apply IH].
    intros i Hi. exists o. split; [now apply (nic_value_spec k i _ _ Hi) | reflexivity].
Qed.
Lemma Forall2_in_l : forall A B (P : A -> B -> Prop) l bs a, Forall2 P l bs -> In a l -> exists b, In b bs /\ P a b.
Proof. intros A B P l bs a F. induction F as [ | x y l bs H F IH]; [intros [] | ]; intros [<- | X]; [exists y; split; [now left | exact H] | ]. destruct (IH X) as (b & Hb & Hp). exists b. split; [now right | exact Hp]. Qed.
Lemma Forall2_in_r : forall A B (P : A -> B -> Prop) l bs b, Forall2 P l bs -> In b bs -> exists a, In a l /\ P a b.
Proof. intros A B P l bs b F. induction F as [ | x y l bs H F IH]; [intros [] | ]; intros [<- | X]; [exists x; split; [now left | exact H] | ]. destruct (IH X) as (a & Ha & Hp). exists a. split; [now right | exact Hp]. Qed.

Theorem nics_spec : forall verb width out, info_nics E m verb width = Ok out ->
  match out with
  | None => is_brief verb = true \/ forall k i, In (k, i) h -> ~ wanted E (Some (L "ethernet")) [] [] i
  | Some text => is_brief verb = false /\ exists ks w blocks, are_wanted E h (Some (L "ethernet")) [] [] ks /\ ks <> []
      /\ 13 <= w
      /\ (forall k i x, In k ks -> In (k, i) h -> reports E i (ELEMENT_NAME v) (Some x) -> length (vtext E x) <= w)
      /\ (w = 13 \/ exists k i x, In k ks /\ In (k, i) h /\ reports E i (ELEMENT_NAME v) (Some x) /\ length (vtext E x) = w)
      /\ text = join [NL] (L "NICs and Associated Networks:" :: concat blocks)
      /\ Forall2 (fun k block => exists i, In (k, i) h /\ nic_shown E width (is_verbose verb) w i block) ks blocks
  end.
Proof.
  intros verb width out H. unfold info_nics in H. destruct (is_brief verb); [apply ok_inj in H; subst; now left | ].
  step H ks Hk. pose proof (find_all_wanted E h (Some (L "ethernet")) [] [] ks ids (no_conds _) Hk) as W.
  destruct ks as [ | k0 ks0] eqn:E0.
  - apply ok_inj in H. subst out. right. intros k i Hi Hw. destruct W as (_ & _ & W). apply (W k). now exists i.
  - rewrite <- E0 in *. assert (N : ks <> []) by (rewrite E0; discriminate). clear E0 k0 ks0.
    step H names Hn. cbn zeta in H. change (length (L "<instance 10>")) with 13 in H. set (w := Nat.max (longest names) 13) in *.
    step H lines Hl. apply ok_inj in H. subst out. split; [reflexivity | ]. apply each_spec in Hl as (blocks & -> & F).
    exists ks, w, blocks. split; [exact W | ]. split; [exact N | ]. split; [unfold w; lia | ].
    pose proof (nic_names_spec ks names Hn) as FN.
    split.
    { intros k i x Hk' Hi Hr. destruct (Forall2_in_l _ _ _ _ _ k FN Hk') as (s & Hs & P). destruct (P i Hi) as (o & Ho & ->).
      unfold reports in Hr, Ho. rewrite Hr in Ho. apply ok_inj in Ho. subst o. cbn [text_or_none] in Hs. apply longest_ge in Hs. unfold w. lia. }
    split.
    { destruct (le_lt_dec (longest names) 13) as [Q | Q]; [left; unfold w; lia | ]. right. destruct (longest_some names) as [Y | (s & Hs & Ls)]; [lia | ].
      destruct (Forall2_in_r _ _ _ _ _ s FN Hs) as (k & Hk' & P).
      destruct (proj1 (proj2 (proj2 W) k) Hk') as (i & Hi & _).
      destruct (P i Hi) as (o & Ho & Es). exists k, i.
      destruct o as [x | ].
      - exists x. split; [exact Hk' | ]. split; [exact Hi | ]. split; [exact Ho | ]. cbn [text_or_none] in Es. subst s. rewrite Ls. unfold w. lia.
      - cbn [text_or_none] in Es. rewrite Es in Ls. change (length (L "None")) with 4 in Ls. lia. }
    split; [reflexivity | ]. eapply Forall2_impl; [ | exact F]. cbn beta. intros k block Hb. now apply (nic_lines_spec verb).
Qed.

Lemma subtypes_of_spec : forall ks l, subtypes_of m ks = Ok l ->
  forall x, In x l <-> exists k i, In k ks /\ In (k, i) h /\ x = get_all_subtypes (i_props i).
Proof.
  induction ks as [ | k ks IH]; intros l H x; cbn [subtypes_of] in H.
  - apply ok_inj in H. subst. split; [intros [] | intros (k & i & [] & _)].
  - step H i Hi. step H r Hr. apply ok_inj in H. subst l. apply the_item in Hi. cbn [In]. rewrite (IH r Hr x). split.
    + intros [<- | (k' & i' & A & B & C)]; [exists k, i; auto | exists k', i'; auto].
    + intros (k' & i' & [<- | A] & B & C); [left | right; exists k', i'; auto]. subst x. do 2 f_equal.
      apply the_item in B, Hi. rewrite B in Hi. now apply ok_inj in Hi.
Qed.
Lemma all_subtypes_spec : forall rt l, all_subtypes E m rt = Ok l -> forall t, In t l <-> subtype_of E h rt t.
Proof.
  intros rt l H t. unfold all_subtypes in H. step H ks Hk. step H ls Hls. apply ok_inj in H. subst l.
  pose proof (find_all_wanted E h (Some rt) [] [] ks ids (no_conds _) Hk) as (_ & _ & W).
  rewrite list_union_In. pose proof (subtypes_of_spec ks ls Hls) as S. split.
  - intros (x & Hx & Ht). apply S in Hx as (k & i & A & B & ->). apply W in A as (i' & A & C).
    assert (i' = i) as -> by (apply the_item in A, B; rewrite A in B; now apply ok_inj in B).
    destruct (ids_good E h k i ids B) as [Ri _]. apply (subtypes_In _ _ _ Ri) in Ht as (q & x & O & Ht). now exists k, i, q, x.
  - intros (k & i & q & x & A & B & O & Ht). destruct (ids_good E h k i ids A) as [Ri _]. exists (get_all_subtypes (i_props i)). split.
    + apply S. exists k, i. split; [apply W; now exists i | ]. now split.
    + apply (subtypes_In _ _ _ Ri). now exists q, x.
Qed.
Lemma variant_spec : forall width label l block, variant_lines width label l = Ok block -> words_row width label l block.
Proof.
  intros width label [ | x l] block H; cbn [variant_lines] in H; [apply ok_inj in H; subst; now left | ]. right. split; [discriminate | ]. now apply wrap_wrapped.
Qed.
(** the text of the system types of a hardware section *)
Theorem hardware_spec : forall width out, info_hardware E m width = Ok out ->
  exists sec scsi ide eth, only_child (VIRTUAL_HW_SECTION v) (VIRTUAL_HW_SECTION_ATTRIB v) (iv_vs m) (Some sec)
  /\ (forall t, In t scsi <-> subtype_of E h (L "scsi") t) /\ (forall t, In t ide <-> subtype_of E h (L "ide") t)
  /\ (forall t, In t eth <-> subtype_of E h (L "ethernet") t)
  /\ let types := first_text (VIRTUAL_SYSTEM_TYPE E) (match below (SYSTEM v) sec with s :: _ => Some s | [] => None end) in
  match out with
  | None => ~ says_something types /\ scsi = [] /\ ide = [] /\ eth = []
  | Some text => (says_something types \/ scsi <> [] \/ ide <> [] \/ eth <> []) /\
      exists a b c d, text = join [NL] (L "Hardware Variants:" :: a ++ b ++ c ++ d)
      /\ (~ says_something types -> a = [])
      /\ (forall t, types = Some t -> t <> [] -> wrapped width (L "  System types:             ") (spaces 28) t a)
      /\ words_row width (L "  SCSI device types:        ") scsi b
      /\ words_row width (L "  IDE device types:         ") ide c
      /\ words_row width (L "  Ethernet device types:    ") eth d
  end.
Proof.
  intros width out H. unfold info_hardware in H. fold v in H. step H o Ho. step H scsi Hs. step H ide Hi. step H eth He.
  assert (S : exists sec, o = Some sec).
  { pose proof (find_child_spec (iv_vs m) (VIRTUAL_HW_SECTION v) (VIRTUAL_HW_SECTION_ATTRIB v) true) as S. unfold virtual_hw_section in Ho. rewrite Ho in S.
    destruct o as [s | ]; [eauto | now destruct S]. }
  destruct S as [sec ->]. exists sec, scsi, ide, eth. split; [exact (find_child_only _ _ _ _ _ Ho) | ].
  split; [exact (all_subtypes_spec _ _ Hs) | ]. split; [exact (all_subtypes_spec _ _ Hi) | ]. split; [exact (all_subtypes_spec _ _ He) | ]. cbn zeta.
  set (types := first_text (VIRTUAL_SYSTEM_TYPE E) (match below (SYSTEM v) sec with s :: _ => Some s | [] => None end)).
  assert (T : (system_types E sec = None /\ ~ says_something types) \/ exists t, types = Some t /\ t <> [] /\ system_types E sec = Some (split_on " "%char t)).
  { unfold system_types, types. rewrite findall_below. fold v. destruct (below (SYSTEM v) sec) as [ | s l].
    - left. split; [reflexivity | ]. intros (t & X & _). discriminate X.
    - unfold findtext. rewrite findall_below. cbn [first_text]. destruct (below (VIRTUAL_SYSTEM_TYPE E) s) as [ | x l'].
      + left. split; [reflexivity | ]. intros (t & X & _). discriminate X.
      + destruct (etext x) as [[ | c t] | ].
        * left. split; [reflexivity | ]. intros (t & X & Y). injection X as <-. now apply Y.
        * right. exists (c :: t). split; [reflexivity | ]. split; [discriminate | reflexivity].
        * left. split; [reflexivity | ]. intros (t & X & Y). injection X as <-. now apply Y. }
  clearbody types.
  assert (H' : (system_types E sec = None /\ scsi = [] /\ ide = [] /\ eth = [] /\ out = None) \/
     ((system_types E sec <> None \/ scsi <> [] \/ ide <> [] \/ eth <> []) /\
      (do a <- match system_types E sec with
              | Some l => wrap width (L "  System types:             ") (blanks 28) (join (L " ") l)
              | None => Ok []
              end;
      do b <- variant_lines width (L "  SCSI device types:        ") scsi;
      do c <- variant_lines width (L "  IDE device types:         ") ide;
      do d <- variant_lines width (L "  Ethernet device types:    ") eth;
      Ok (Some (join [NL] (L "Hardware Variants:" :: a ++ b ++ c ++ d)))) = Ok out)).
  { destruct (system_types E sec) as [l | ]; [right; split; [left; discriminate | exact H] | ].
    destruct scsi; [ | right; split; [right; left; discriminate | exact H]].
    destruct ide; [ | right; split; [right; right; left; discriminate | exact H]].
    destruct eth; [ | right; split; [right; right; right; discriminate | exact H]].
    left. apply ok_inj in H. subst. repeat split. }
  clear H. destruct H' as [(A & B & C & D & ->) | [A H]].
  - destruct T as [[_ T] | (t & _ & _ & T)]; [ | congruence]. repeat split; assumption.
  - step H a Ha. step H b Hb. step H c Hc. step H d Hd. apply ok_inj in H. subst out. split.
    + destruct T as [[T _] | (t & T1 & T2 & _)]; [ | left; now exists t]. destruct A as [A | A]; [now destruct (A T) | now right].
    + exists a, b, c, d. split; [reflexivity | ]. split.
      { intros N. destruct T as [[T _] | (t & T1 & T2 & _)]; [ | exfalso; apply N; now exists t]. rewrite T in Ha. apply ok_inj in Ha. now subst. }
      split.
      { intros t Et Nt. destruct T as [[_ T] | (t' & T1 & T2 & T3)]; [exfalso; apply T; now exists t | ].
        assert (t' = t) as -> by congruence. rewrite T3 in Ha. change (L " ") with [" "%char] in Ha. rewrite join_split_on in Ha. now apply wrap_wrapped. }
      split; [now apply variant_spec | ]. split; now apply variant_spec.
Qed.
End Hardware.
