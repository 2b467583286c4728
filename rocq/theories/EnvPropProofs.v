(** Proofs about environment properties. *)
From Coq Require Import Lia.
From Verif Require Import PyBase PyBaseProofs PyDict PyDictProofs PyRegex PyRegexProofs XmlModel XmlSpec XmlProofs
  NamesModel ValidationSpec ValidationProofs SelectProofs ProfileModel ProfileSpec ProfileDocProofs SectionProofs
  NetworkModel NetworkProofs EnvPropModel EnvPropSpec.

(** ** The qualifiers *)

Lemma all_digits_forallb : forall s, all_digits s <-> forallb is_digit s = true.
Proof. intros s. unfold all_digits. rewrite forallb_forall. tauto. Qed.

Lemma limit_match : forall name ds b, all_digits ds -> ds <> [] ->
  re_match (LIMIT name) (name ++ L "(" ++ ds ++ L ")" ++ b) = Some [(1, ds)].
Proof.
  intros name ds b Hd Hn. apply wins_match with b. unfold LIMIT. apply wins_seq.
  replace (name ++ L "(" ++ ds ++ L ")" ++ b) with ((name ++ L "(") ++ (ds ++ (")"%char :: b)))
    by (rewrite <- app_assoc; reflexivity).
  apply wins_str.
  assert (W : wins (RSeq (RGroup 1 (RPlus (RChr is_digit))) (RLit ")"%char)) (fun x => [x])
    (mkst (ds ++ ")"%char :: b) []) (mkst b [(1, ds)])).
  { apply wins_seq, wins_group_plus_munch.
    - now apply all_digits_forallb.
    - intros c t E. now injection E as <- <-.
    - exact Hn.
    - apply wins_lit. now exists []. }
  exact W.
Qed.

Lemma limit_match_inv : forall name t g, re_match (LIMIT name) t = Some g ->
  exists ds b, t = name ++ L "(" ++ ds ++ L ")" ++ b /\ all_digits ds /\ ds <> [] /\ group 1 g = Some ds.
Proof.
  intros name t g H.
  assert (Hm : exists b, mt (LIMIT name) t b).
  { apply re_test_spec. unfold re_test. now rewrite H. }
  destruct Hm as [b Hm]. unfold LIMIT in Hm. apply mt_seq_inv in Hm as (u & H1 & H2).
  apply mt_str_inv in H1. subst t. apply mt_seq_inv in H2 as (u2 & H2 & H3).
  apply mt_group_inv in H2. apply mt_plus_chr in H2 as (ds & -> & Hds & Hn).
  apply mt_lit_inv in H3. subst u2. exists ds, b.
  assert (E : (name ++ L "(") ++ ds ++ ")"%char :: b = name ++ L "(" ++ ds ++ L ")" ++ b)
    by (rewrite <- app_assoc; reflexivity).
  rewrite E in *. apply all_digits_forallb in Hds. rewrite (limit_match name ds b Hds Hn) in H.
  injection H as <-. repeat split; auto.
Qed.

Lemma limit_says : forall name qual n, limit name qual = Some n <-> says name qual n.
Proof.
  intros name qual n. unfold limit. split.
  - destruct (re_search (LIMIT name) qual) as [g|] eqn:E; [|discriminate].
    apply re_search_at in E as (a & t & -> & Hm & Hfirst).
    destruct (limit_match_inv _ _ _ Hm) as (ds & b & -> & Hd & Hn & Hg). rewrite Hg. intros H. injection H as <-.
    exists a, ds, b. repeat split; auto. intros a' ds' b' E Hd' Hn'.
    destruct (Nat.le_gt_cases (length a) (length a')) as [Hl|Hl]; [exact Hl|].
    exfalso.
    pose proof (Hfirst a' _ E Hl) as F. now rewrite (limit_match name ds' b' Hd' Hn') in F.
  - intros (a & ds & b & -> & Hd & Hn & -> & Hfirst).
    destruct (re_search (LIMIT name) (a ++ name ++ L "(" ++ ds ++ L ")" ++ b)) as [g|] eqn:E.
    + apply re_search_at in E as (a2 & t2 & E2 & Hm & Hf2).
      destruct (limit_match_inv _ _ _ Hm) as (ds2 & b2 & -> & Hd2 & Hn2 & Hg).
      rewrite Hg. f_equal. f_equal.
      pose proof (Hfirst _ _ _ E2 Hd2 Hn2) as Hl.
      assert (Hl2 : length a2 = length a).
      { destruct (Nat.le_gt_cases (length a2) (length a)) as [Hle|Hgt]; [lia|].
        pose proof (Hf2 a _ eq_refl Hgt) as F. rewrite (limit_match name ds b Hd Hn) in F. discriminate. }
      assert (Ha : a2 = a /\ name ++ L "(" ++ ds2 ++ L ")" ++ b2 = name ++ L "(" ++ ds ++ L ")" ++ b).
      { clear - E2 Hl2. revert a E2 Hl2. induction a2 as [|x a2 IH]; intros [|y a] E2 Hl2; try discriminate.
        - split; [reflexivity|now symmetry].
        - cbn in E2. injection E2 as -> E2. cbn in Hl2. destruct (IH a E2) as [-> ->]; [lia|]. now split. }
      destruct Ha as [_ Ha]. apply app_inv_head in Ha. apply app_inv_head in Ha.
      refine (proj1 (span_unique _ is_digit ds2 (L ")" ++ b2) ds (L ")" ++ b) _ _ _ _ Ha)).
      * now apply all_digits_forallb.
      * now apply all_digits_forallb.
      * intros c t E. now injection E as <- _.
      * intros c t E. now injection E as <- _.
    + exfalso. clear Hfirst. revert E. induction a as [|c a IH]; cbn [app re_search].
      * pose proof (limit_match name ds b Hd Hn) as M.
        destruct (name ++ L "(" ++ ds ++ L ")" ++ b) as [|x s]; cbn [re_search]; rewrite M; discriminate.
      * destruct (re_match (LIMIT name) (c :: a ++ name ++ L "(" ++ ds ++ L ")" ++ b)); [discriminate|exact IH].
Qed.

(** ** Validation *)

Lemma canonical_spec : forall ptype value w, canonical ptype value = Ok w <-> stored_as ptype value w.
Proof.
  intros ptype value w. unfold canonical, stored_as. destruct (str_eqb ptype (L "boolean")) eqn:E.
  - apply str_eqb_eq in E. subst ptype.
    change yes_words with [L "true"; L "1"; L "t"; L "y"; L "yes"].
    change no_words with [L "false"; L "0"; L "f"; L "n"; L "no"].
    set (ys := [L "true"; L "1"; L "t"; L "y"; L "yes"]). set (ns := [L "false"; L "0"; L "f"; L "n"; L "no"]).
    assert (Hex : forall x, In x ys -> In x ns -> False).
    { intros x Hy Hn. cbn [ys In] in Hy. cbn [ns In] in Hn.
      repeat (destruct Hy as [Hy|Hy]); try contradiction; subst x;
        repeat (destruct Hn as [Hn|Hn]); try contradiction; discriminate. }
    destruct (mem_str (lower value) ys) eqn:Ey.
    + apply mem_str_In in Ey. split.
      * intros H. injection H as <-. split; [intros _; now left|intros F; now contradiction F].
      * intros [H _]. destruct (H eq_refl) as [[_ ->]|[Hn _]]; [reflexivity|]. exfalso. eauto.
    + assert (Hy : ~ In (lower value) ys) by (intros F; apply mem_str_In in F; congruence).
      destruct (mem_str (lower value) ns) eqn:En.
      * apply mem_str_In in En. split.
        -- intros H. injection H as <-. split; [intros _; now right|intros F; now contradiction F].
        -- intros [H _]. destruct (H eq_refl) as [[F _]|[_ ->]]; [contradiction|reflexivity].
      * assert (Hn : ~ In (lower value) ns) by (intros F; apply mem_str_In in F; congruence).
        split; [discriminate|]. intros [H _]. destruct (H eq_refl) as [[F _]|[F _]]; contradiction.
  - assert (Hne : ptype <> L "boolean") by (intros F; apply str_eqb_eq in F; congruence). split.
    + intros H. injection H as <-. split; [contradiction|reflexivity].
    + intros [_ H]. now rewrite (H Hne).
Qed.

Lemma canonical_err : forall ptype value e, canonical ptype value = Err e -> e = EValueUnsupported.
Proof.
  intros ptype value e. unfold canonical. destruct (str_eqb ptype (L "boolean")); [|discriminate].
  destruct (mem_str (lower value) yes_words); [discriminate|].
  destruct (mem_str (lower value) no_words); [discriminate|]. congruence.
Qed.

Lemma stored_conforms_bool : forall ptype value w, stored_as ptype value w ->
  ptype = L "boolean" -> w = L "true" \/ w = L "false".
Proof. intros ptype value w [H _] E. destruct (H E) as [[_ ->]|[_ ->]]; auto. Qed.

Lemma validate_spec : forall v prop value w, validate_value v prop value = Ok w <->
  stored_as (get_attr_or prop (PROP_TYPE v) []) value w /\
  conforms (get_attr_or prop (PROP_TYPE v) []) (get_attr_or prop (PROP_QUAL v) []) w.
Proof.
  intros v prop value w. unfold validate_value.
  set (ptype := get_attr_or prop (PROP_TYPE v) []). set (qual := get_attr_or prop (PROP_QUAL v) []).
  assert (HL : forall x, too_long qual x = false <-> (forall n, says (L "MaxLen") qual n -> (N.of_nat (length x) <= n)%N)).
  { intros x. unfold too_long. destruct (limit (L "MaxLen") qual) as [n|] eqn:E.
    - rewrite N.ltb_ge. split.
      + intros H m Hm. apply limit_says in Hm. rewrite E in Hm. now injection Hm as <-.
      + intros H. apply H, limit_says, E.
    - split; [|reflexivity]. intros _ m Hm. apply limit_says in Hm. congruence. }
  assert (HS : forall x, too_short qual x = false <-> (forall n, says (L "MinLen") qual n -> (n <= N.of_nat (length x))%N)).
  { intros x. unfold too_short. destruct (limit (L "MinLen") qual) as [n|] eqn:E.
    - rewrite N.ltb_ge. split.
      + intros H m Hm. apply limit_says in Hm. rewrite E in Hm. now injection Hm as <-.
      + intros H. apply H, limit_says, E.
    - split; [|reflexivity]. intros _ m Hm. apply limit_says in Hm. congruence. }
  split.
  - destruct (canonical ptype value) as [x|] eqn:Ec; [|discriminate]. cbn [rbind].
    destruct (too_long qual x) eqn:El; [discriminate|]. destruct (too_short qual x) eqn:Es; [discriminate|].
    intros H. injection H as <-. apply canonical_spec in Ec. split; [exact Ec|].
    split; [now apply stored_conforms_bool with value|now apply HL|now apply HS].
  - intros [Hs [H1 H2 H3]]. apply canonical_spec in Hs. rewrite Hs. cbn [rbind].
    rewrite (proj2 (HL w) H2), (proj2 (HS w) H3). reflexivity.
Qed.

Lemma validate_err : forall v prop value e, validate_value v prop value = Err e -> e = EValueUnsupported.
Proof.
  intros v prop value e. unfold validate_value.
  destruct (canonical (get_attr_or prop (PROP_TYPE v) []) value) as [x|] eqn:Ec; cbn [rbind].
  - destruct (too_long _ x); [congruence|]. destruct (too_short _ x); congruence.
  - intros H. injection H as <-. now apply canonical_err in Ec.
Qed.

(** ** The document *)

Lemma product_NoDup : forall v, NoDup (map fst (PRODUCT_SECTION_ATTRIB v)).
Proof. intros v. destruct v; cbn [PRODUCT_SECTION_ATTRIB map fst]; repeat constructor; auto. Qed.

Notation is_product v := (answers (PRODUCT_SECTION v) (PRODUCT_SECTION_ATTRIB v)).

Lemma sections_none : forall v vs, (forall x, In x (echildren vs) -> ~ is_product v x) ->
  filter (child_match (PRODUCT_SECTION v) (PRODUCT_SECTION_ATTRIB v)) (echildren vs) = [].
Proof. intros v vs H. apply filter_out. intros x Hx. now apply not_answers_match, H. Qed.

Lemma sections_one : forall v vs A sec B, echildren vs = A ++ sec :: B -> is_product v sec ->
  (forall x, In x (A ++ B) -> ~ is_product v x) ->
  filter (child_match (PRODUCT_SECTION v) (PRODUCT_SECTION_ATTRIB v)) (echildren vs) = [sec].
Proof.
  intros v vs A sec B Hc Hs Hno. rewrite Hc, filter_app. cbn [filter].
  rewrite (proj2 (child_match_spec _ _ _) Hs), (filter_out _ A), (filter_out _ B); [reflexivity| |];
    intros x Hx; apply not_answers_match, Hno, in_or_app; auto.
Qed.

Lemma properties_one : forall v vs A sec B, echildren vs = A ++ sec :: B -> is_product v sec ->
  (forall x, In x (A ++ B) -> ~ is_product v x) -> properties v vs = with_tag (PROPERTY v) sec.
Proof.
  intros v vs A sec B Hc Hs Hno. unfold properties. rewrite (sections_one v vs A sec B Hc Hs Hno).
  cbn [flat_map]. apply app_nil_r.
Qed.

Lemma outside_one : forall v vs A sec B, echildren vs = A ++ sec :: B -> is_product v sec ->
  outside_product v vs = outside_product v (set_children (A ++ B) vs).
Proof.
  intros v vs A sec B Hc Hs. unfold outside_product. rewrite Hc, set_children_children, !filter_app. cbn [filter].
  now rewrite (proj2 (child_match_spec _ _ _) Hs).
Qed.

Lemma sbc_trans : forall a b c, same_but_children a b -> same_but_children b c -> same_but_children a c.
Proof. intros a b c (H1 & H2 & H3 & H4) (G1 & G2 & G3 & G4). repeat split; congruence. Qed.

Lemma product_same : forall v a b, same_but_children a b -> is_product v a -> is_product v b.
Proof.
  intros v a b (H1 & H2 & _) [Ht Ha]. split; [congruence|]. intros k w Hk. unfold get_attr. rewrite <- H2.
  now apply Ha.
Qed.

Lemma has_key_spec : forall v key p, has_key v key p = true <-> key_of v p = Some key.
Proof.
  intros v key p. unfold has_key. destruct (key_of v p) as [k|]; [|split; discriminate].
  rewrite str_eqb_eq. split; [now intros ->|]. intros H. now injection H.
Qed.

Lemma info_not_property : forall v, v <> V0 -> str_eqb (INFO v) (PROPERTY v) = false.
Proof. intros v Hv. destruct v; [contradiction| |]; reflexivity. Qed.

Definition base (v : version) (key : str) (old : option elem) : elem :=
  match old with Some p => p | None => new_property v key end.
Definition isnew (old : option elem) : bool := match old with Some _ => false | None => true end.

Lemma put_cases : forall v vs vs1 sec key old prop, v <> V0 ->
  ensure_section v vs (PRODUCT_SECTION v) (L "Product Information") (PRODUCT_SECTION_ATTRIB v) = Ok (vs1, sec) ->
  find_child sec (PROPERTY v) [(PROP_KEY v, key)] false = Ok old ->
  etag prop = PROPERTY v -> key_of v prop = Some key ->
  let vs' := put_property v vs1 sec key old prop in
  edited_at v vs vs' key (isnew old) (base v key old) prop /\
  etag (base v key old) = PROPERTY v /\ key_of v (base v key old) = Some key /\
  same_but_children vs vs' /\ outside_product v vs' = outside_product v vs /\
  (other_product_content v vs' = other_product_content v vs \/
   ((forall x, In x (echildren vs) -> ~ is_product v x) /\
    other_product_content v vs' = [Elem (INFO v) [] (Some (L "Product Information")) None []])) /\
  (exists sec', product_section v vs' = Ok (Some sec') /\
     find_child sec' (PROPERTY v) [(PROP_KEY v, key)] false = Ok (Some prop)).
Proof.
  intros v vs vs1 sec key old prop Hv0 Een Efc Htag Hkey. cbn zeta.
  destruct (ensure_section_spec _ _ _ _ _ _ _ (product_NoDup v) Een) as (A & B & Hc1 & Hs & Hno & Hsb & Hnew).
  pose proof (find_child_spec sec (PROPERTY v) [(PROP_KEY v, key)] false) as Hf. rewrite Efc in Hf.
  unfold put_property.
  set (sec' := match old with
               | Some _ => set_children (update_first (child_match (PROPERTY v) [(PROP_KEY v, key)])
                                           (fun _ => prop) (echildren sec)) sec
               | None => set_children (echildren sec ++ [prop]) sec
               end).
  assert (Hans : forall x, etag x = PROPERTY v -> key_of v x = Some key -> answers (PROPERTY v) [(PROP_KEY v, key)] x).
  { intros x H1 H2. split; [exact H1|]. intros k w [E|[]]. injection E as <- <-. exact H2. }
  assert (Hsec : exists pre post, echildren sec' = pre ++ prop :: post /\ same_but_children sec sec' /\
    answers (PROPERTY v) [(PROP_KEY v, key)] (base v key old) /\
    (forall x, In x (pre ++ post) -> ~ answers (PROPERTY v) [(PROP_KEY v, key)] x) /\
    (if isnew old then post = [] /\ echildren sec = pre else echildren sec = pre ++ base v key old :: post)).
  { destruct old as [n|]; cbn [isnew base].
    - destruct Hf as (pre & post & Hc & Ha & Hno'). exists pre, post. unfold sec'.
      rewrite set_children_children, Hc, (update_split _ (fun _ => prop) pre n post).
      + split; [reflexivity|]. split; [apply set_children_same|]. split; [exact Ha|]. split; [exact Hno'|].
        reflexivity.
      + now apply child_match_spec.
      + intros x Hx. apply not_answers_match, Hno', in_or_app. now left.
    - destruct Hf as [_ Hno']. exists (echildren sec), []. unfold sec'. rewrite set_children_children.
      split; [reflexivity|]. split; [apply set_children_same|]. split.
      + apply Hans; [reflexivity|]. unfold key_of, get_attr, new_property. cbn [eattrib dget]. now rewrite str_eqb_refl.
      + rewrite app_nil_r. split; [exact Hno'|]. now split. }
  clearbody sec'. destruct Hsec as (pre & post & Hsc & Hss & Hbase & Hnoprop & Hold).
  rewrite Hc1, (update_split _ (fun _ => sec') A sec B).
  2:{ now apply child_match_spec. }
  2:{ intros x Hx. apply not_answers_match, Hno, in_or_app. now left. }
  set (vs' := set_children (A ++ sec' :: B) vs1).
  assert (Hc' : echildren vs' = A ++ sec' :: B) by apply set_children_children.
  assert (Hs' : is_product v sec') by (now apply product_same with sec).
  set (f := fun c => str_eqb (etag c) (PROPERTY v)).
  assert (Hfp : f prop = true) by (unfold f; rewrite Htag; apply str_eqb_refl).
  assert (Hfb : f (base v key old) = true) by (unfold f; rewrite (proj1 Hbase); apply str_eqb_refl).
  assert (Hpvs : properties v vs = filter f (echildren sec)).
  { destruct Hnew as [->|(H1 & _ & _ & ->)].
    - now apply properties_one with A B.
    - unfold properties. rewrite sections_none by (now rewrite H1). cbn [flat_map echildren filter]. unfold f.
      cbn [etag]. now rewrite info_not_property. }
  assert (Hpvs' : properties v vs' = filter f pre ++ prop :: filter f post).
  { rewrite (properties_one v vs' A sec' B Hc' Hs' Hno). unfold with_tag. fold f. rewrite Hsc, filter_app.
    cbn [filter]. now rewrite Hfp. }
  split.
  { exists (filter f pre), (filter f post). split; [exact Hpvs'|]. split; [exact Hkey|]. split.
    - intros x Hx F. rewrite <- filter_app in Hx. apply filter_In in Hx as [Hx Hfx]. apply (Hnoprop x Hx).
      apply Hans; [now apply str_eqb_eq|exact F].
    - rewrite Hpvs. destruct old as [n|]; cbn [isnew base] in *.
      + rewrite Hold, filter_app. cbn [filter]. now rewrite Hfb.
      + destruct Hold as [-> ->]. now repeat split. }
  split; [apply Hbase|]. split; [apply (proj2 Hbase); now left|].
  split.
  { apply sbc_trans with vs1; [exact Hsb|apply set_children_same]. }
  assert (Hout1 : outside_product v vs1 = outside_product v vs).
  { destruct Hnew as [->|(H1 & _)]; [reflexivity|].
    rewrite (outside_one v vs1 A sec B Hc1 Hs). unfold outside_product. now rewrite set_children_children, H1. }
  split.
  { rewrite <- Hout1, (outside_one v vs1 A sec B Hc1 Hs), (outside_one v vs' A sec' B Hc' Hs').
    unfold outside_product. now rewrite !set_children_children. }
  assert (Hrest : filter (fun c => negb (f c)) (echildren sec') = filter (fun c => negb (f c)) (echildren sec)).
  { rewrite Hsc, filter_app. cbn [filter]. rewrite Hfp. cbn [negb].
    destruct old as [n|]; cbn [isnew base] in *.
    - rewrite Hold, filter_app. cbn [filter]. now rewrite Hfb.
    - destruct Hold as [-> ->]. cbn [filter]. apply app_nil_r. }
  split.
  { unfold other_product_content. rewrite (sections_one v vs' A sec' B Hc' Hs' Hno). cbn [flat_map].
    change (fun c => negb (str_eqb (etag c) (PROPERTY v))) with (fun c => negb (f c)).
    rewrite app_nil_r, Hrest. destruct Hnew as [->|(H1 & _ & _ & ->)].
    - left. rewrite (sections_one v vs A sec B Hc1 Hs Hno). cbn [flat_map]. now rewrite app_nil_r.
    - right. split; [now rewrite H1|]. cbn [echildren filter]. unfold f. cbn [etag].
      now rewrite info_not_property. }
  exists sec'. split.
  - unfold product_section, find_child. rewrite find_all_one. now rewrite (sections_one v vs' A sec' B Hc' Hs' Hno).
  - unfold find_child. rewrite find_all_one, Hsc, filter_app. cbn [filter].
    rewrite (proj2 (child_match_spec _ _ _) (Hans prop Htag Hkey)), (filter_out _ pre), (filter_out _ post);
      [reflexivity| |]; intros x Hx; apply not_answers_match, Hnoprop, in_or_app; auto.
Qed.

(** ** Setting a property *)

Lemma attr_same : forall k x e, get_attr (set_attr k x e) k = Some x.
Proof. intros k x e. unfold get_attr, set_attr. rewrite eattrib_set_attribs. apply dget_dset_same, str_eqb_eq. Qed.
Lemma attr_other : forall k k' x e, k' <> k -> get_attr (set_attr k x e) k' = get_attr e k'.
Proof.
  intros k k' x e H. unfold get_attr, set_attr. rewrite eattrib_set_attribs. apply dget_dset_other; [apply str_eqb_eq|exact H].
Qed.
Lemma opt_attr_get : forall k k' x e, get_attr (set_opt_attr k x e) k' =
  if str_eqb k' k then match x with Some t => Some t | None => get_attr e k' end else get_attr e k'.
Proof.
  intros k k' x e. destruct (str_eqb k' k) eqn:E.
  - apply str_eqb_eq in E. subst k'. destruct x; cbn [set_opt_attr]; [apply attr_same|reflexivity].
  - assert (k' <> k) by (intros F; apply str_eqb_eq in F; congruence).
    destruct x; cbn [set_opt_attr]; [now apply attr_other|reflexivity].
Qed.
Lemma opt_attr_fields : forall k x e, etag (set_opt_attr k x e) = etag e /\ etext (set_opt_attr k x e) = etext e /\
  etail (set_opt_attr k x e) = etail e /\ echildren (set_opt_attr k x e) = echildren e.
Proof. intros k [x|] e; destruct e; repeat split. Qed.

Lemma set_note_spec : forall p tag text p', set_note p tag text = Ok p' ->
  same_but_children p p' /\
  match text with
  | Some t => exists e, with_tag tag p' = [e] /\ etext e = Some t
  | None => p' = p
  end /\
  (forall t, t <> tag -> with_tag t p' = with_tag t p).
Proof.
  intros p tag [t|] p' H; cbn [set_note] in H.
  - destruct (set_or_make_child p tag (Some t) [] []) as [[q c]|] eqn:E; [|discriminate].
    cbn [rbind fst] in H. injection H as <-.
    pose proof (set_or_make_child_spec p tag (Some t) [] [] (NoDup_nil _)) as S. rewrite E in S.
    destruct S as (S1 & _ & S2 & S3 & _). split; [exact S1|]. split.
    + exists c. split; [now apply find_child_with_tag|now apply S2].
    + intros u Hu. rewrite !with_tag_match. now apply (set_child_other _ _ _ _ _ _ _ E).
  - injection H as <-. split; [repeat split|]. split; reflexivity.
Qed.

Lemma set_note_err : forall p tag text e, set_note p tag text = Err e ->
  e = ELookupError /\ 1 < length (with_tag tag p).
Proof.
  intros p tag [t|] e H; cbn [set_note] in H; [|discriminate].
  pose proof (set_or_make_child_spec p tag (Some t) [] [] (NoDup_nil _)) as S.
  destruct (set_or_make_child p tag (Some t) [] []) as [[q c]|er]; [discriminate|].
  cbn [rbind] in H. injection H as <-. destruct S as (-> & A & x & M & y & B & Hc & Hx & Hy).
  split; [reflexivity|]. rewrite with_tag_match, Hc, !filter_app. cbn [filter]. rewrite filter_app. cbn [filter].
  rewrite (proj2 (child_match_spec _ _ _) Hx), (proj2 (child_match_spec _ _ _) Hy).
  rewrite !app_length. cbn [length]. rewrite app_length. cbn [length]. lia.
Qed.

Lemma tags_differ : forall v, PROP_VALUE v <> PROP_TYPE v /\ PROP_VALUE v <> PROP_USER_CONFIGABLE v /\
  PROP_TYPE v <> PROP_USER_CONFIGABLE v /\ PROP_KEY v <> PROP_VALUE v /\ PROP_KEY v <> PROP_TYPE v /\
  PROP_KEY v <> PROP_USER_CONFIGABLE v /\ PROP_QUAL v <> PROP_VALUE v /\ PROP_QUAL v <> PROP_TYPE v /\
  PROP_QUAL v <> PROP_USER_CONFIGABLE v /\ PROPERTY_LABEL v <> PROPERTY_DESC v.
Proof.
  intros v. destruct v; repeat split; intros E;
    match type of E with ?a = ?b => assert (F : str_eqb a b = true) by now apply str_eqb_eq end;
    vm_compute in F; discriminate.
Qed.

Lemma eqb_false : forall a b, a <> b -> str_eqb a b = false.
Proof. intros a b H. destruct (str_eqb a b) eqn:E; [|reflexivity]. apply str_eqb_eq in E. contradiction. Qed.

(** Everything about one call. *)
Lemma set_property_cases : forall v vs key value uc ty label desc vs' r, v <> V0 ->
  set_property v vs key value uc ty label desc = (vs', r) ->
  (vs' = vs /\ r = Err ELookupError /\ ~ unambiguous v vs key) \/
  (exists nw p p', edited_at v vs vs' key nw p p' /\ etag p = PROPERTY v /\ key_of v p = Some key /\
     same_but_children vs vs' /\ outside_product v vs' = outside_product v vs /\
     (other_product_content v vs' = other_product_content v vs \/
      ((forall x, In x (echildren vs) -> ~ is_product v x) /\
       other_product_content v vs' = [Elem (INFO v) [] (Some (L "Product Information")) None []])) /\
     let T := match type_set nw ty with Some t => t | None => get_attr_or p (PROP_TYPE v) [] end in
     let Q := get_attr_or p (PROP_QUAL v) [] in
     match r with
     | Ok w => property_set v uc (type_set nw ty) label desc w p p' /\
         get_property_value v vs' key = Ok (value_of v p') /\
         match value_checked v nw ty value p with
         | None => w = None
         | Some x => exists y, w = Some y /\ stored_as T x y /\ conforms T Q y
         end
     | Err EValueUnsupported =>
         property_set v uc (type_set nw ty) None None None p p' /\
         exists x, value_checked v nw ty value p = Some x /\ ~ exists y, stored_as T x y /\ conforms T Q y
     | Err ELookupError => ~ unambiguous v vs key
     | Err _ => False
     end).
Proof.
  intros v vs key value uc ty label desc vs' r Hv H.
  destruct (tags_differ v) as (D1 & D2 & D3 & D4 & D5 & D6 & D7 & D8 & D9 & D10).
  assert (H0 : set_property v vs key value uc ty label desc = (vs', r)) by exact H.
  unfold set_property in H.
  assert (E0 : forall (A : Type) (a b : A), match v with V0 => a | _ => b end = b).
  { intros A a b. destruct v; [contradiction| |]; reflexivity. }
  rewrite E0 in H. clear E0.
  destruct (ensure_section v vs (PRODUCT_SECTION v) (L "Product Information") (PRODUCT_SECTION_ATTRIB v))
    as [[vs1 sec]|e] eqn:Een.
  2:{ injection H as <- <-. left. destruct (ensure_section_error _ _ _ _ _ _ Een) as (-> & A & x & M & y & B & Hc & Hx & Hy).
      split; [reflexivity|]. split; [reflexivity|]. intros [F _]. now apply (F A x M y B). }
  destruct (find_child sec (PROPERTY v) [(PROP_KEY v, key)] false) as [old|e] eqn:Efc.
  2:{ left. pose proof (find_child_spec sec (PROPERTY v) [(PROP_KEY v, key)] false) as Hf. rewrite Efc in Hf.
      injection H as <- <-.
      destruct (ensure_section_spec _ _ _ _ _ _ _ (product_NoDup v) Een) as (A & B & Hc1 & Hs & Hno & Hsb & Hnew).
      destruct e; try contradiction; [destruct Hf; discriminate|].
      destruct Hf as (pre & x & mid & y & post & Hc & Hx & Hy).
      destruct Hnew as [->|(_ & _ & _ & ->)].
      - split; [reflexivity|]. split; [reflexivity|]. intros [_ [F _]].
        set (f := fun c => str_eqb (etag c) (PROPERTY v)).
        apply (F (filter f pre) x (filter f mid) y (filter f post)).
        + rewrite (properties_one v vs A sec B Hc1 Hs Hno). unfold with_tag. fold f.
          rewrite Hc, filter_app. cbn [filter]. rewrite filter_app. cbn [filter].
          assert (Fx : f x = true) by (unfold f; rewrite (proj1 Hx); apply str_eqb_refl).
          assert (Fy : f y = true) by (unfold f; rewrite (proj1 Hy); apply str_eqb_refl).
          now rewrite Fx, Fy.
        + apply (proj2 Hx). now left.
        + apply (proj2 Hy). now left.
      - exfalso. cbn [echildren] in Hc. destruct pre as [|a [|b pre]]; destruct mid; discriminate. }
  right.
  set (p := base v key old) in *.
  assert (Hpb : match old with Some p => p | None => Elem (PROPERTY v) [(PROP_KEY v, key)] None None [] end = p).
  { now destruct old. }
  rewrite Hpb in H.
  set (pt := match old, ty with None, None => Some (L "string") | _, _ => ty end) in H.
  assert (Hpt : pt = type_set (isnew old) ty) by (unfold pt, type_set; destruct old, ty; reflexivity).
  set (prop1 := set_opt_attr (PROP_USER_CONFIGABLE v) (option_map bool_str uc) p) in H.
  set (prop2 := set_opt_attr (PROP_TYPE v) pt prop1) in H.
  assert (Hp2 : forall k, get_attr prop2 k =
    if str_eqb k (PROP_TYPE v) then match pt with Some t => Some t | None => get_attr p k end
    else if str_eqb k (PROP_USER_CONFIGABLE v)
         then match uc with Some b => Some (bool_str b) | None => get_attr p k end
         else get_attr p k).
  { intros k. unfold prop2. rewrite opt_attr_get. unfold prop1. rewrite opt_attr_get.
    destruct (str_eqb k (PROP_TYPE v)) eqn:E1.
    - apply str_eqb_eq in E1. subst k. rewrite (eqb_false _ _ D3). reflexivity.
    - destruct (str_eqb k (PROP_USER_CONFIGABLE v)); [|reflexivity]. now destruct uc. }
  assert (Fp2 : etag prop2 = etag p /\ etext prop2 = etext p /\ etail prop2 = etail p /\ echildren prop2 = echildren p).
  { unfold prop2, prop1.
    destruct (opt_attr_fields (PROP_TYPE v) pt (set_opt_attr (PROP_USER_CONFIGABLE v) (option_map bool_str uc) p)) as (-> & -> & -> & ->).
    apply opt_attr_fields. }
  assert (Hv2 : get_attr prop2 (PROP_VALUE v) = value_of v p).
  { rewrite Hp2, (eqb_false _ _ D1), (eqb_false _ _ D2). reflexivity. }
  assert (Hk2 : get_attr prop2 (PROP_KEY v) = key_of v p).
  { rewrite Hp2, (eqb_false _ _ D5), (eqb_false _ _ D6). reflexivity. }
  assert (Hq2 : get_attr_or prop2 (PROP_QUAL v) [] = get_attr_or p (PROP_QUAL v) []).
  { unfold get_attr_or. rewrite Hp2, (eqb_false _ _ D8), (eqb_false _ _ D9). reflexivity. }
  assert (Ht2 : get_attr_or prop2 (PROP_TYPE v) [] =
    match type_set (isnew old) ty with Some t => t | None => get_attr_or p (PROP_TYPE v) [] end).
  { unfold get_attr_or. rewrite Hp2, str_eqb_refl, Hpt. destruct (type_set (isnew old) ty); reflexivity. }
  clearbody prop2. clear prop1.
  set (value1 := match pt, value with Some _, None => get_attr prop2 (PROP_VALUE v) | _, _ => value end) in H.
  assert (Hvc : value1 = value_checked v (isnew old) ty value p).
  { unfold value1, value_checked. rewrite <- Hpt, Hv2. destruct value, pt; reflexivity. }
  clearbody value1. subst value1.
  assert (Hpk : key_of v p = Some key /\ etag p = PROPERTY v).
  { pose proof (find_child_spec sec (PROPERTY v) [(PROP_KEY v, key)] false) as Hf. rewrite Efc in Hf.
    unfold p. destruct old as [n|]; cbn [base].
    - destruct Hf as (pre & post & _ & [F1 F2] & _). split; [apply F2; now left|exact F1].
    - split; [|reflexivity]. unfold key_of, get_attr, new_property. cbn [eattrib dget]. now rewrite str_eqb_refl. }
  destruct Hpk as [Hpk Hpt'].
  (* any final property with the same tag and key *)
  assert (Hput : forall q, etag q = PROPERTY v -> key_of v q = Some key ->
    let d := put_property v vs1 sec key old q in
    edited_at v vs d key (isnew old) p q /\ etag p = PROPERTY v /\ key_of v p = Some key /\
    same_but_children vs d /\ outside_product v d = outside_product v vs /\
    (other_product_content v d = other_product_content v vs \/
     ((forall x, In x (echildren vs) -> ~ is_product v x) /\
      other_product_content v d = [Elem (INFO v) [] (Some (L "Product Information")) None []])) /\
    get_property_value v d key = Ok (value_of v q)).
  { intros q Hq1 Hq2'. pose proof (put_cases v vs vs1 sec key old q Hv Een Efc Hq1 Hq2') as P. cbn zeta in P.
    destruct P as (P1 & P2 & P3 & P4 & P5 & P6 & s' & P7 & P8). cbn zeta.
    do 6 (split; [assumption|]).
    unfold get_property_value. rewrite P7. cbn [rbind]. rewrite P8. cbn [rbind].
    destruct v; [contradiction| |]; reflexivity. }
  assert (Hamb : forall tag (q : elem), echildren q = echildren p -> tag = PROPERTY_LABEL v \/ tag = PROPERTY_DESC v ->
    1 < length (with_tag tag q) -> ~ unambiguous v vs key).
  { intros tag q Hq Htag Hl (_ & _ & F).
    assert (Hin : In p (properties v vs)).
    { destruct (Hput p Hpt' Hpk) as ((pre & post & _ & _ & _ & E) & _).
      destruct old as [n|]; cbn [isnew] in E.
      - rewrite E. apply in_elt.
      - destruct E as (_ & _ & Ep). exfalso. rewrite Ep in Hq. unfold with_tag in Hl. rewrite Hq in Hl.
        cbn in Hl. lia. }
    destruct (F p Hin Hpk) as [F1 F2]. unfold with_tag in *. rewrite Hq in Hl. destruct Htag; subst tag; lia. }
  (* validation *)
  set (vc := value_checked v (isnew old) ty value p) in *.
  destruct (match vc with None => Ok None | Some x => do w <- validate_value v prop2 x; Ok (Some w) end)
    as [w|e] eqn:Eval.
  2:{ injection H as <- <-.
      destruct vc as [x|] eqn:Evc; [|discriminate].
      destruct (validate_value v prop2 x) as [y|e'] eqn:Ev; [discriminate|]. cbn [rbind] in Eval.
      injection Eval as <-. pose proof (validate_err _ _ _ _ Ev) as ->.
      exists (isnew old), p, prop2.
      destruct (Hput prop2) as (P1 & P2 & P3 & P4 & P5 & P6 & _).
      { rewrite (proj1 Fp2). exact Hpt'. } { unfold key_of. rewrite Hk2. exact Hpk. }
      do 6 (split; [assumption|]). cbn zeta. split.
      - destruct Fp2 as (F1 & F2 & F3 & F4). unfold with_tag.
        split; [exact F1|exact F2|exact F3|exact Hv2| | | | | |]; unfold with_tag; rewrite ?F4; try reflexivity.
        + rewrite Hp2, str_eqb_refl, Hpt. reflexivity.
        + rewrite Hp2, str_eqb_refl, (eqb_false (PROP_USER_CONFIGABLE v)) by congruence. destruct uc as [[]|]; reflexivity.
        + intros k K1 K2 K3. rewrite Hp2, (eqb_false _ _ K2), (eqb_false _ _ K3). reflexivity.
      - exists x. split; [exact Evc|]. rewrite <- Ht2, <- Hq2. intros (y & Hy).
        apply validate_spec in Hy. congruence. }
  set (prop3 := set_opt_attr (PROP_VALUE v) w prop2) in H.
  assert (Fp3 : etag prop3 = etag p /\ etext prop3 = etext p /\ etail prop3 = etail p /\ echildren prop3 = echildren p).
  { unfold prop3. destruct (opt_attr_fields (PROP_VALUE v) w prop2) as (-> & -> & -> & ->). exact Fp2. }
  assert (Hp3 : forall k, get_attr prop3 k =
    if str_eqb k (PROP_VALUE v) then match w with Some x => Some x | None => value_of v p end else get_attr prop2 k).
  { intros k. unfold prop3. rewrite opt_attr_get. destruct (str_eqb k (PROP_VALUE v)) eqn:E; [|reflexivity].
    apply str_eqb_eq in E. subst k. now rewrite Hv2. }
  clearbody prop3.
  assert (Hk3 : key_of v prop3 = Some key).
  { unfold key_of. rewrite Hp3, (eqb_false _ _ D4), Hk2. exact Hpk. }
  destruct (set_note prop3 (PROPERTY_LABEL v) label) as [prop4|e] eqn:E4.
  2:{ injection H as <- <-. destruct (set_note_err _ _ _ _ E4) as [-> Hl].
      exists (isnew old), p, prop3. destruct (Hput prop3) as (P1 & P2 & P3 & P4 & P5 & P6 & _).
      { rewrite (proj1 Fp3). exact Hpt'. } { exact Hk3. }
      do 6 (split; [assumption|]). cbn zeta. apply (Hamb (PROPERTY_LABEL v) prop3); auto. apply Fp3. }
  destruct (set_note_spec _ _ _ _ E4) as ((S1 & S2 & S3 & S4) & S5 & S6).
  assert (Hk4 : key_of v prop4 = Some key).
  { unfold key_of, get_attr. rewrite <- S2. exact Hk3. }
  destruct (set_note prop4 (PROPERTY_DESC v) desc) as [prop5|e] eqn:E5.
  2:{ injection H as <- <-. destruct (set_note_err _ _ _ _ E5) as [-> Hl].
      exists (isnew old), p, prop4. destruct (Hput prop4) as (P1 & P2 & P3 & P4 & P5 & P6 & _).
      { rewrite <- S1, (proj1 Fp3). exact Hpt'. } { exact Hk4. }
      do 6 (split; [assumption|]). cbn zeta. apply (Hamb (PROPERTY_DESC v) prop3); auto; [apply Fp3|].
      rewrite <- (S6 (PROPERTY_DESC v)) by congruence. exact Hl. }
  destruct (set_note_spec _ _ _ _ E5) as ((R1 & R2 & R3 & R4) & R5 & R6).
  assert (Hk5 : key_of v prop5 = Some key).
  { unfold key_of, get_attr. rewrite <- R2. exact Hk4. }
  injection H as <- <-. exists (isnew old), p, prop5.
  destruct (Hput prop5) as (P1 & P2 & P3 & P4 & P5 & P6 & P7).
  { rewrite <- R1, <- S1, (proj1 Fp3). exact Hpt'. } { exact Hk5. }
  do 6 (split; [assumption|]). cbn zeta.
  assert (Hp5 : forall k, get_attr prop5 k = get_attr prop3 k).
  { intros k. unfold get_attr. now rewrite <- R2, <- S2. }
  assert (W3 : forall t, with_tag t prop3 = with_tag t p).
  { intros t. unfold with_tag. now rewrite (proj2 (proj2 (proj2 Fp3))). }
  split.
  { destruct Fp3 as (F1 & F2 & F3 & F4). split.
    - congruence.
    - congruence.
    - congruence.
    - unfold value_of at 1. rewrite Hp5, Hp3, str_eqb_refl. reflexivity.
    - rewrite Hp5, Hp3, (eqb_false (PROP_TYPE v)) by congruence. rewrite Hp2, str_eqb_refl, Hpt. reflexivity.
    - rewrite Hp5, Hp3, (eqb_false (PROP_USER_CONFIGABLE v)) by congruence.
      rewrite Hp2, str_eqb_refl, (eqb_false (PROP_USER_CONFIGABLE v)) by congruence. destruct uc as [[]|]; reflexivity.
    - intros k K1 K2 K3. rewrite Hp5, Hp3, (eqb_false _ _ K1), Hp2, (eqb_false _ _ K2), (eqb_false _ _ K3). reflexivity.
    - destruct label as [t|].
      + destruct S5 as (e & He & Het). exists e. split; [|exact Het]. rewrite R6 by congruence. exact He.
      + subst prop4. rewrite R6 by congruence. apply W3.
    - destruct desc as [t|].
      + exact R5.
      + subst prop5. rewrite S6 by congruence. apply W3.
    - intros t T1 T2. rewrite R6, S6 by congruence. apply W3. }
  split; [exact P7|]. fold vc.
  destruct vc as [x|] eqn:Evc.
  - destruct (validate_value v prop2 x) as [y|] eqn:Ev; [|discriminate]. cbn [rbind] in Eval. injection Eval as <-.
    exists y. split; [reflexivity|]. rewrite <- Ht2, <- Hq2. now apply validate_spec.
  - now injection Eval as <-.
Qed.

(** ** Consequences *)

Lemma V0_nothing : forall vs key value uc ty label desc,
  set_property V0 vs key value uc ty label desc = (vs, Err ENotImplemented).
Proof. reflexivity. Qed.

Lemma version_V0 : forall v : version, v = V0 \/ v <> V0.
Proof. intros v. destruct v; [now left| |]; right; discriminate. Qed.

Lemma edited_others : forall v vs vs' key nw p p', edited_at v vs vs' key nw p p' -> key_of v p = Some key ->
  filter (fun x => negb (has_key v key x)) (properties v vs') =
  filter (fun x => negb (has_key v key x)) (properties v vs).
Proof.
  intros v vs vs' key nw p p' (pre & post & -> & Hk & Hno & Hold) Hp.
  assert (Fp : has_key v key p = true) by now apply has_key_spec.
  assert (Fp' : has_key v key p' = true) by now apply has_key_spec.
  rewrite filter_app. cbn [filter]. rewrite Fp'. cbn [negb].
  destruct nw.
  - destruct Hold as (-> & -> & _). cbn [filter]. apply app_nil_r.
  - rewrite Hold, filter_app. cbn [filter]. now rewrite Fp.
Qed.

Lemma others_untouched : forall v vs key value uc ty label desc vs' r,
  set_property v vs key value uc ty label desc = (vs', r) ->
  filter (fun x => negb (has_key v key x)) (properties v vs') =
    filter (fun x => negb (has_key v key x)) (properties v vs) /\
  same_but_children vs vs' /\ outside_product v vs' = outside_product v vs /\
  (other_product_content v vs' = other_product_content v vs \/
   ((forall x, In x (echildren vs) -> ~ answers (PRODUCT_SECTION v) (PRODUCT_SECTION_ATTRIB v) x) /\
    other_product_content v vs' = [Elem (INFO v) [] (Some (L "Product Information")) None []])).
Proof.
  intros v vs key value uc ty label desc vs' r H. destruct (version_V0 v) as [->|Hv].
  - rewrite V0_nothing in H. injection H as <- <-. do 3 (split; [repeat split|]). now left.
  - destruct (set_property_cases _ _ _ _ _ _ _ _ _ _ Hv H) as
      [(-> & _)|(nw & p & p' & He & _ & Hk & Hs & Ho & Hc & _)].
    + do 3 (split; [repeat split|]). now left.
    + split; [now apply edited_others with nw p p'|]. split; [exact Hs|]. now split.
Qed.

Lemma set_ok : forall v vs key value uc ty label desc vs' w,
  set_property v vs key value uc ty label desc = (vs', Ok w) ->
  exists nw p p', edited_at v vs vs' key nw p p' /\
    property_set v uc (type_set nw ty) label desc w p p' /\
    get_property_value v vs' key = Ok (value_of v p') /\
    let T := get_attr_or p' (PROP_TYPE v) [] in
    let Q := get_attr_or p' (PROP_QUAL v) [] in
    match value_checked v nw ty value p with
    | None => w = None
    | Some x => exists y, w = Some y /\ stored_as T x y /\ conforms T Q y
    end.
Proof.
  intros v vs key value uc ty label desc vs' w H. destruct (version_V0 v) as [->|Hv].
  - rewrite V0_nothing in H. discriminate.
  - destruct (tags_differ v) as (D1 & D2 & D3 & D4 & D5 & D6 & D7 & D8 & D9 & D10).
    destruct (set_property_cases _ _ _ _ _ _ _ _ _ _ Hv H) as
      [(_ & F & _)|(nw & p & p' & He & _ & Hk & _ & _ & _ & Hps & Hg & Hw)]; [discriminate|].
    exists nw, p, p'. split; [exact He|]. split; [exact Hps|]. split; [exact Hg|]. cbn zeta.
    assert (ET : get_attr_or p' (PROP_TYPE v) [] =
      match type_set nw ty with Some t => t | None => get_attr_or p (PROP_TYPE v) [] end).
    { unfold get_attr_or. rewrite (ps_type _ _ _ _ _ _ _ _ Hps). now destruct (type_set nw ty). }
    assert (EQ : get_attr_or p' (PROP_QUAL v) [] = get_attr_or p (PROP_QUAL v) []).
    { unfold get_attr_or. now rewrite (ps_attr _ _ _ _ _ _ _ _ Hps (PROP_QUAL v)). }
    rewrite ET, EQ. exact Hw.
Qed.

Lemma set_refused : forall v vs key value uc ty label desc vs' e,
  set_property v vs key value uc ty label desc = (vs', Err e) ->
  (e = ENotImplemented /\ v = V0 /\ vs' = vs) \/
  (e = ELookupError /\ ~ unambiguous v vs key) \/
  (e = EValueUnsupported /\ exists nw p p' x, edited_at v vs vs' key nw p p' /\
     property_set v uc (type_set nw ty) None None None p p' /\
     value_checked v nw ty value p = Some x /\
     ~ exists y, stored_as (get_attr_or p' (PROP_TYPE v) []) x y /\
         conforms (get_attr_or p' (PROP_TYPE v) []) (get_attr_or p' (PROP_QUAL v) []) y).
Proof.
  intros v vs key value uc ty label desc vs' e H. destruct (version_V0 v) as [->|Hv].
  - rewrite V0_nothing in H. injection H as <- <-. now left.
  - right. destruct (tags_differ v) as (D1 & D2 & D3 & D4 & D5 & D6 & D7 & D8 & D9 & D10).
    destruct (set_property_cases _ _ _ _ _ _ _ _ _ _ Hv H) as
      [(_ & F & Hu)|(nw & p & p' & He & _ & Hk & _ & _ & _ & Hr)].
    + injection F as ->. now left.
    + cbn zeta in Hr. destruct e; try contradiction.
      * right. split; [reflexivity|]. destruct Hr as (Hps & x & Hx & Hno). exists nw, p, p', x.
        do 3 (split; [assumption|]).
        assert (ET : get_attr_or p' (PROP_TYPE v) [] =
          match type_set nw ty with Some t => t | None => get_attr_or p (PROP_TYPE v) [] end).
        { unfold get_attr_or. rewrite (ps_type _ _ _ _ _ _ _ _ Hps). now destruct (type_set nw ty). }
        assert (EQ : get_attr_or p' (PROP_QUAL v) [] = get_attr_or p (PROP_QUAL v) []).
        { unfold get_attr_or. now rewrite (ps_attr _ _ _ _ _ _ _ _ Hps (PROP_QUAL v)). }
        rewrite ET, EQ. exact Hno.
      * left. now split.
Qed.

(** No value changes when a value is refused. *)
Lemma refused_values : forall v vs key value uc ty label desc vs',
  set_property v vs key value uc ty label desc = (vs', Err EValueUnsupported) ->
  (map (fun p => (key_of v p, value_of v p)) (properties v vs') =
   map (fun p => (key_of v p, value_of v p)) (properties v vs)) \/
  (map (fun p => (key_of v p, value_of v p)) (properties v vs') =
   map (fun p => (key_of v p, value_of v p)) (properties v vs) ++ [(Some key, None)]).
Proof.
  intros v vs key value uc ty label desc vs' H.
  destruct (set_refused _ _ _ _ _ _ _ _ _ _ H) as [(F & _)|[(F & _)|(_ & nw & p & p' & x & He & Hps & _)]];
    try discriminate.
  destruct (tags_differ v) as (D1 & D2 & D3 & D4 & D5 & D6 & D7 & D8 & D9 & D10).
  destruct He as (pre & post & -> & Hk & Hno & Hold).
  pose proof (ps_value _ _ _ _ _ _ _ _ Hps) as Hv. cbn in Hv.
  assert (Hkp : key_of v p' = key_of v p).
  { unfold key_of. apply (ps_attr _ _ _ _ _ _ _ _ Hps); assumption. }
  destruct nw.
  - right. destruct Hold as (-> & -> & Ep). rewrite map_app. cbn [map]. rewrite Hk, Hv, Ep.
    unfold value_of, get_attr, new_property. cbn [eattrib dget].
    rewrite (eqb_false (PROP_VALUE v)) by congruence. reflexivity.
  - left. rewrite Hold, !map_app. cbn [map]. now rewrite Hkp, Hv.
Qed.

(** Values that obey their declarations keep doing so. *)
Lemma invariant : forall v vs key value uc ty label desc vs' w,
  set_property v vs key value uc ty label desc = (vs', Ok w) ->
  (forall p, In p (properties v vs) -> prop_conforms v p) ->
  forall p, In p (properties v vs') -> prop_conforms v p.
Proof.
  intros v vs key value uc ty label desc vs' w H Hall q Hq.
  destruct (tags_differ v) as (D1 & D2 & D3 & D4 & D5 & D6 & D7 & D8 & D9 & D10).
  destruct (set_ok _ _ _ _ _ _ _ _ _ _ H) as (nw & p & p' & He & Hps & _ & Hw). cbn zeta in Hw.
  destruct He as (pre & post & Hp & Hk & Hno & Hold). rewrite Hp in Hq.
  assert (Hin : forall x, In x (pre ++ post) -> In x (properties v vs)).
  { intros x Hx. destruct nw.
    - destruct Hold as (-> & -> & _). now rewrite app_nil_r in Hx.
    - rewrite Hold. apply in_app_iff in Hx as [Hx|Hx]; apply in_or_app; [now left|right; now right]. }
  apply in_app_iff in Hq as [Hq|[<-|Hq]].
  - apply Hall, Hin, in_or_app. now left.
  - intros y Hy. unfold value_checked in Hw.
    rewrite (ps_value _ _ _ _ _ _ _ _ Hps) in Hy.
    destruct w as [z|].
    + injection Hy as <-.
      destruct (match value with Some x => Some x | None => match type_set nw ty with Some _ => value_of v p | None => None end end)
        as [x|]; [|discriminate].
      destruct Hw as (y & E & _ & Hc). injection E as <-. exact Hc.
    + destruct value as [x|].
      { destruct Hw as (y' & E & _). discriminate. }
      destruct (type_set nw ty) as [t|] eqn:Et.
      { rewrite Hy in Hw. destruct Hw as (y' & E & _). discriminate. }
      assert (nw = false) as -> by (destruct ty, nw; [discriminate|discriminate|discriminate|reflexivity]).
      unfold get_attr_or. rewrite (ps_type _ _ _ _ _ _ _ _ Hps), (ps_attr _ _ _ _ _ _ _ _ Hps (PROP_QUAL v)) by assumption.
      cbn [type_set]. apply (Hall p); [|exact Hy]. rewrite Hold. apply in_elt.
  - apply Hall, Hin, in_or_app. now right.
Qed.

(** ** Reading other properties *)

Notation is_prod_b v := (child_match (PRODUCT_SECTION v) (PRODUCT_SECTION_ATTRIB v)).

Lemma get_spec : forall v vs k, v <> V0 -> get_property_value v vs k =
  match filter (is_prod_b v) (echildren vs) with
  | _ :: _ :: _ => Err ELookupError
  | _ => match filter (has_key v k) (properties v vs) with
         | [] => Ok None
         | [p] => Ok (value_of v p)
         | _ => Err ELookupError
         end
  end.
Proof.
  intros v vs k Hv. unfold get_property_value, product_section, properties.
  assert (E0 : forall (A : Type) (a b : A), match v with V0 => a | _ => b end = b).
  { intros A a b. destruct v; [contradiction| |]; reflexivity. }
  rewrite E0. unfold find_child at 1. rewrite find_all_one. destruct (filter (is_prod_b v) (echildren vs)) as [|s [|s2 r]]; [reflexivity| |reflexivity].
  cbn [rbind flat_map]. rewrite app_nil_r. unfold find_child. rewrite find_all_one.
  assert (E : filter (child_match (PROPERTY v) [(PROP_KEY v, k)]) (echildren s) =
              filter (has_key v k) (with_tag (PROPERTY v) s)).
  { unfold with_tag. induction (echildren s) as [|c l IH]; [reflexivity|]. cbn [filter]. rewrite IH.
    unfold child_match. destruct (str_eqb (etag c) (PROPERTY v)) eqn:Et; cbn [andb filter]; [|reflexivity].
    assert (Em : attrib_match [(PROP_KEY v, k)] c = has_key v k c).
    { unfold attrib_match, has_key, key_of. cbn [forallb]. rewrite andb_true_r. reflexivity. }
    now rewrite Em. }
  rewrite E. destruct (filter (has_key v k) (with_tag (PROPERTY v) s)) as [|p [|q r]]; reflexivity.
Qed.

Lemma filter_other_key : forall v key k l, k <> key ->
  filter (has_key v k) l = filter (has_key v k) (filter (fun x => negb (has_key v key x)) l).
Proof.
  intros v key k l Hk. induction l as [|x l IH]; [reflexivity|]. cbn [filter].
  destruct (has_key v key x) eqn:E1; cbn [negb filter].
  - destruct (has_key v k x) eqn:E2; [|exact IH]. apply has_key_spec in E1, E2. congruence.
  - destruct (has_key v k x); now rewrite IH.
Qed.

Lemma with_key_other : forall v vs key value uc ty label desc vs' r k,
  set_property v vs key value uc ty label desc = (vs', r) -> k <> key ->
  filter (has_key v k) (properties v vs') = filter (has_key v k) (properties v vs).
Proof.
  intros v vs key value uc ty label desc vs' r k H Hk.
  rewrite (filter_other_key v key k (properties v vs') Hk), (filter_other_key v key k (properties v vs) Hk).
  now rewrite (proj1 (others_untouched _ _ _ _ _ _ _ _ _ _ H)).
Qed.

Lemma ok_sections : forall v vs key value uc ty label desc vs' w,
  set_property v vs key value uc ty label desc = (vs', Ok w) ->
  length (filter (is_prod_b v) (echildren vs)) <= 1 /\ length (filter (is_prod_b v) (echildren vs')) <= 1.
Proof.
  intros v vs key value uc ty label desc vs' w H. destruct (version_V0 v) as [->|Hv].
  - rewrite V0_nothing in H. discriminate.
  - split.
    + destruct (filter (is_prod_b v) (echildren vs)) as [|a [|b r]] eqn:E; cbn [length]; try lia. exfalso.
      unfold set_property, ensure_section, find_child in H. rewrite find_all_one, E in H.
      destruct v; [contradiction| |]; discriminate.
    + destruct (set_ok _ _ _ _ _ _ _ _ _ _ H) as (nw & p & p' & _ & _ & Hg & _).
      rewrite (get_spec v vs' key Hv) in Hg.
      destruct (filter (is_prod_b v) (echildren vs')) as [|a [|b r]]; cbn [length]; try lia. discriminate.
Qed.

Lemma get_other : forall v vs key value uc ty label desc vs' w k,
  set_property v vs key value uc ty label desc = (vs', Ok w) -> k <> key ->
  get_property_value v vs' k = get_property_value v vs k.
Proof.
  intros v vs key value uc ty label desc vs' w k H Hk. destruct (version_V0 v) as [->|Hv]; [reflexivity|].
  rewrite !get_spec by exact Hv. rewrite (with_key_other _ _ _ _ _ _ _ _ _ _ _ H Hk).
  destruct (ok_sections _ _ _ _ _ _ _ _ _ _ H) as [H1 H2].
  destruct (filter (is_prod_b v) (echildren vs)) as [|a [|b r]];
    destruct (filter (is_prod_b v) (echildren vs')) as [|a' [|b' r']]; cbn [length] in *; try lia; reflexivity.
Qed.
