(** A package that is written and opened again. *)
From Coq Require Import List Ascii Bool ZArith Lia.
Import ListNotations.
From Verif Require Import PyBase PyBaseProofs PyDict PyDictProofs XmlModel XmlSpec XmlProofs XmlProps NamesModel ItemModel GenerateSpec ValidationModel ItemReachProofs HardwareIdProofs HardwareModel HardwareSpec HardwareProofs RereadSpec RereadProofs
  UpdateProofs OvfWriteProps TarProps ProfileModel ProfileSpec NetworkModel NetworkSpec NetworkProofs DriveModel DriveSpec EnvPropModel EditPropModel ProductModel InfoModel PlatformModel ValidateHwModel RefreshModel RefreshSpec RefreshProofs RefreshProps
  ManifestModel ManifestSpec RawModel SelectModel PathModel PathSpec PathProofs TarModel TarSpec TarProofs ArchiveProofs ReopenProofs OvfWriteModel OvfWriteSpec OvfWriteProofs
  OpenModel OpenSpec OpenNameProofs OpenHwProofs OpenFileProofs OpenProofs SaveModel SaveSpec.
Local Open Scope nat_scope.

(** ** Children by filter *)
Definition answering (t : str) (a : list (str * str)) (p : elem) : list elem := filter (child_match t a) (echildren p).
Lemma none_filter : forall p t a, none p t a <-> answering t a p = [].
Proof.
  intros p t a. unfold none, answering. split.
  - intros H. induction (echildren p) as [|x l IH]; [reflexivity|]. cbn [filter]. destruct (child_match t a x) eqn:M.
    + apply child_match_spec in M. exfalso. apply (H x); [now left|exact M].
    + apply IH. intros y Hy. apply H. now right.
  - intros H x I A. assert (F : In x (filter (child_match t a) (echildren p))) by (apply filter_In; split; [exact I|now apply child_match_spec]).
    rewrite H in F. exact F.
Qed.
Lemma no_answer : forall t a l, (forall x, In x l -> ~ answers t a x) -> filter (child_match t a) l = [].
Proof.
  intros t a l H. induction l as [|x l IH]; [reflexivity|]. cbn [filter]. destruct (child_match t a x) eqn:M.
  - apply child_match_spec in M. exfalso. apply (H x); [now left|exact M].
  - apply IH. intros y Hy. apply H. now right.
Qed.
Lemma filter_one : forall (f : elem -> bool) l e, filter f l = [e] -> exists A B, l = A ++ e :: B /\ f e = true /\ (forall x, In x (A ++ B) -> f x = false).
Proof.
  induction l as [|y l IH]; intros e H; [discriminate|]. cbn [filter] in H. destruct (f y) eqn:Fy.
  - injection H as -> H. exists [], l. split; [reflexivity|]. split; [exact Fy|]. intros x Hx. cbn [app] in Hx. destruct (f x) eqn:Fx; [|reflexivity].
    assert (In x []); [|contradiction]. rewrite <- H. apply filter_In. now split.
  - destruct (IH e H) as (A & B & -> & Fe & N). exists (y :: A), B. split; [reflexivity|]. split; [exact Fe|]. intros x [<-|Hx]; [exact Fy|exact (N x Hx)].
Qed.
Lemma only_filter : forall p t a e, only p t a e <-> answering t a p = [e].
Proof.
  intros p t a e. unfold answering. split.
  - intros (A & B & -> & An & N). rewrite filter_app. cbn [filter]. rewrite (proj2 (child_match_spec t a e) An), !no_answer; [reflexivity| |]; intros x Hx; apply N, in_or_app; auto.
  - intros H. destruct (filter_one _ _ _ H) as (A & B & Ec & Fe & N). exists A, B. split; [exact Ec|]. split; [now apply child_match_spec|].
    intros x Hx An. apply child_match_spec in An. rewrite (N x Hx) in An. discriminate.
Qed.
Lemma at_most_filter : forall p t a o, at_most p t a o <-> answering t a p = match o with Some e => [e] | None => [] end.
Proof. intros p t a [e|]; [apply only_filter|apply none_filter]. Qed.
Lemma required_only : forall p t a e, only p t a e -> required p t a = Ok e.
Proof.
  intros p t a e H. pose proof (required_spec p t a) as S. destruct (required p t a) as [x|x].
  - f_equal. exact (only_fun _ _ _ _ _ S H).
  - destruct S as [[_ S]|[_ S]]; exfalso; [exact (only_several _ _ _ _ H S)|exact (only_none _ _ _ _ H S)].
Qed.
Lemma optional_at_most : forall p t a o, at_most p t a o -> find_child p t a false = Ok o.
Proof.
  intros p t a o H. pose proof (optional_spec p t a) as S. destruct (find_child p t a false) as [x|x].
  - f_equal. exact (at_most_fun _ _ _ _ _ S H).
  - destruct S as [_ S]. exfalso. exact (at_most_several _ _ _ _ H S).
Qed.

(** ** Layout *)
Lemma same_tag : forall e e', same_content e e' -> etag e' = etag e.
Proof. intros e e' H. now destruct H. Qed.
Lemma same_attr : forall e e', same_content e e' -> eattrib e' = eattrib e.
Proof. intros e e' H. now destruct H. Qed.
Lemma same_get : forall e e' k, same_content e e' -> get_attr e' k = get_attr e k.
Proof. intros e e' k H. unfold get_attr. now rewrite (same_attr _ _ H). Qed.
Lemma same_children : forall e e', same_content e e' -> Forall2 same_content (echildren e) (echildren e').
Proof. intros e e' H. now destruct H. Qed.
Lemma same_match : forall t a e e', same_content e e' -> child_match t a e' = child_match t a e.
Proof.
  intros t a e e' H. destruct (child_match t a e) eqn:M.
  - apply child_match_spec in M as [M1 M2]. apply child_match_spec. split; [now rewrite (same_tag _ _ H)|]. intros k v Hk. rewrite (same_get _ _ k H). now apply M2.
  - destruct (child_match t a e') eqn:M'; [|reflexivity]. rewrite <- M. symmetry. apply child_match_spec in M' as [M1 M2]. apply child_match_spec. split; [now rewrite <- (same_tag _ _ H)|].
    intros k v Hk. rewrite <- (same_get _ _ k H). now apply M2.
Qed.
Lemma same_filter : forall (f : elem -> bool) l l', (forall e e', same_content e e' -> f e' = f e) -> Forall2 same_content l l' -> Forall2 same_content (filter f l) (filter f l').
Proof.
  intros f l l' H F. induction F as [|x x' l l' S F IH]; cbn [filter]; [constructor|]. rewrite (H _ _ S). destruct (f x); [now constructor|exact IH].
Qed.
Lemma only_same : forall p p' t a e, same_content p p' -> only p t a e -> exists e', only p' t a e' /\ same_content e e'.
Proof.
  intros p p' t a e S H. apply only_filter in H. pose proof (same_filter (child_match t a) _ _ (same_match t a) (same_children _ _ S)) as F.
  unfold answering in H. rewrite H in F. inversion F as [|x y l l' Sx Fl Ex Ey]; subst. inversion Fl; subst. exists y. split; [|exact Sx]. apply only_filter. unfold answering. now symmetry.
Qed.
Lemma at_most_same : forall p p' t a o, same_content p p' -> at_most p t a o -> exists o', at_most p' t a o' /\ same_section o o'.
Proof.
  intros p p' t a [e|] S H.
  - destruct (only_same p p' t a e S H) as (e' & H' & Se). exists (Some e'). now split.
  - exists None. split; [|exact I]. apply none_filter in H. apply none_filter. pose proof (same_filter (child_match t a) _ _ (same_match t a) (same_children _ _ S)) as F.
    unfold answering in *. rewrite H in F. now inversion F.
Qed.
Lemma same_trans : forall a b c, same_content a b -> same_content b c -> same_content a c.
Proof.
  fix IH 4. intros a b c H1 H2. destruct H1 as [t at1 x x' l l' cs cs' F1 X1]. inversion H2 as [t2 a2 y y' m m' ds ds' F2 X2]; subst.
  constructor.
  - clear X1 X2 H2. revert ds' F2. induction F1 as [|u u' us us' U F1 IHF]; intros ds' F2; inversion F2; subst; constructor.
    + exact (IH _ _ _ U H1).
    + now apply IHF.
  - intros ->. rewrite (X1 eq_refl). apply X2. now inversion F1.
Qed.
Lemma same_itself : forall a, same_content a a.
Proof. fix IH 1. intros [t a x l cs]. constructor; [|reflexivity]. induction cs as [|c cs IHc]; constructor; [apply IH|exact IHc]. Qed.
Lemma column_same : forall t k o o', same_section o o' -> column t k o' = column t k o.
Proof.
  intros t k [s|] [s'|] H; try contradiction; [|reflexivity]. cbn [column same_section] in *.
  assert (F : Forall2 same_content (filter (fun c => str_eqb (etag c) t) (echildren s)) (filter (fun c => str_eqb (etag c) t) (echildren s'))).
  { apply same_filter; [|exact (same_children _ _ H)]. intros e e' Se. now rewrite (same_tag _ _ Se). }
  induction F as [|x x' l l' S F IH]; [reflexivity|]. cbn [map]. now rewrite IH, (same_get _ _ k S).
Qed.
Lemma config_same : forall v s s', same_content s s' -> config_ids v s' = config_ids v s.
Proof.
  intros v s s' H. unfold config_ids.
  assert (F : Forall2 same_content (find_all_children s [CONFIG v] []) (find_all_children s' [CONFIG v] [])).
  { unfold find_all_children. cbn [flat_map]. rewrite !app_nil_r. apply same_filter; [|exact (same_children _ _ H)]. intros e e' Se. now apply same_match. }
  assert (G : forall acc, fold_left (fun ids c => if is_default v c then get_attr c (CONFIG_ID v) :: ids else ids ++ [get_attr c (CONFIG_ID v)]) (find_all_children s' [CONFIG v] []) acc =
    fold_left (fun ids c => if is_default v c then get_attr c (CONFIG_ID v) :: ids else ids ++ [get_attr c (CONFIG_ID v)]) (find_all_children s [CONFIG v] []) acc).
  { induction F as [|x x' l l' S F IH]; intros acc; [reflexivity|]. cbn [fold_left]. assert (D : is_default v x' = is_default v x) by (unfold is_default; now rewrite (same_get _ _ _ S)). rewrite D, (same_get _ _ _ S). apply IH. }
  apply G.
Qed.

(** ** Sections in place *)
Lemma update_one : forall f new A e B, f e = true -> (forall x, In x A -> f x = false) -> update_first f (fun _ => new) (A ++ e :: B) = A ++ new :: B.
Proof.
  intros f new A e B Fe H. induction A as [|x A IH]; cbn [app update_first]; [now rewrite Fe|]. rewrite (H x (or_introl eq_refl)). f_equal. apply IH. intros y Hy. apply H. now right.
Qed.
Lemma replaced : forall p t a e new, only p t a e -> exists A B, echildren p = A ++ e :: B /\ echildren (replace t a new p) = A ++ new :: B /\ answers t a e.
Proof.
  intros p t a e new (A & B & Ec & An & N). exists A, B. split; [exact Ec|]. split; [|exact An]. unfold replace. destruct p as [t0 a0 x0 l0 cs]. cbn [set_children echildren] in *. rewrite Ec.
  apply update_one; [now apply child_match_spec|]. intros x Hx. destruct (child_match t a x) eqn:M; [|reflexivity]. apply child_match_spec in M. exfalso. apply (N x); [apply in_or_app; now left|exact M].
Qed.
Lemma only_replace : forall p t a e new, only p t a e -> answers t a new -> only (replace t a new p) t a new.
Proof.
  intros p t a e new H An. destruct (replaced p t a e new H) as (A & B & Ec & Er & Ae). apply only_filter. apply only_filter in H. unfold answering in *. rewrite Er. rewrite Ec in H.
  rewrite filter_app in *. cbn [filter] in *. rewrite (proj2 (child_match_spec t a new) An). rewrite (proj2 (child_match_spec t a e) Ae) in H.
  destruct (filter (child_match t a) A) as [|u U]; [|destruct U; discriminate]. injection H as H. cbn [app]. now rewrite H.
Qed.
Definition apart (s s' : str * list (str * str)) : Prop := forall x, answers (fst s) (snd s) x -> answers (fst s') (snd s') x -> False.
Lemma answering_replace : forall p t a e new t' a', only p t a e -> answers t a new -> apart (t, a) (t', a') -> answering t' a' (replace t a new p) = answering t' a' p.
Proof.
  intros p t a e new t' a' H An D. destruct (replaced p t a e new H) as (A & B & Ec & Er & Ae). unfold answering. rewrite Er, Ec, !filter_app. cbn [filter].
  destruct (child_match t' a' new) eqn:M1; [apply child_match_spec in M1; exfalso; exact (D new An M1)|].
  destruct (child_match t' a' e) eqn:M2; [apply child_match_spec in M2; exfalso; exact (D e Ae M2)|]. reflexivity.
Qed.
Lemma only_replace_other : forall p t a e new t' a' e', only p t a e -> answers t a new -> apart (t, a) (t', a') -> only p t' a' e' -> only (replace t a new p) t' a' e'.
Proof. intros p t a e new t' a' e' H An D O. apply only_filter. rewrite (answering_replace p t a e new t' a' H An D). now apply only_filter. Qed.
Lemma at_most_replace_other : forall p t a e new t' a' o, only p t a e -> answers t a new -> apart (t, a) (t', a') -> at_most p t' a' o -> at_most (replace t a new p) t' a' o.
Proof. intros p t a e new t' a' o H An D O. apply at_most_filter. rewrite (answering_replace p t a e new t' a' H An D). now apply at_most_filter. Qed.
Lemma replace_tag : forall t a new p, etag (replace t a new p) = etag p /\ eattrib (replace t a new p) = eattrib p.
Proof. intros t a new p. destruct p. now split. Qed.
Lemma answers_like : forall t a e e', etag e' = etag e -> eattrib e' = eattrib e -> answers t a e -> answers t a e'.
Proof. intros t a e e' T A [H1 H2]. split; [congruence|]. intros k v Hk. unfold get_attr. rewrite A. now apply H2. Qed.

Definition sec_refs (v : version) := (REFERENCES v, @nil (str * str)).
Definition sec_disks (v : version) := (DISK_SECTION v, DISK_SECTION_ATTRIB v).
Definition sec_nets (v : version) := (NETWORK_SECTION v, NETWORK_SECTION_ATTRIB v).
Definition sec_deploy (v : version) := (DEPLOY_OPT_SECTION v, @nil (str * str)).
Definition sec_system (v : version) := (VIRTUAL_SYSTEM v, VIRTUAL_SYSTEM_ATTRIB v).
Definition sec_prod (v : version) := (PRODUCT_SECTION v, PRODUCT_SECTION_ATTRIB v).
Definition sec_ann (v : version) := (ANNOTATION_SECTION v, ANNOTATION_SECTION_ATTRIB v).
Definition sec_hw (v : version) := (VIRTUAL_HW_SECTION v, VIRTUAL_HW_SECTION_ATTRIB v).
Lemma apart_tags : forall s s', fst s <> fst s' -> apart s s'.
Proof. intros s s' H x [T _] [T' _]. congruence. Qed.
Lemma apart_attr : forall s s' k a b, In (k, a) (snd s) -> In (k, b) (snd s') -> a <> b -> apart s s'.
Proof. intros s s' k a b I I' N x [_ H] [_ H']. specialize (H k a I). specialize (H' k b I'). congruence. Qed.
Ltac apart_now := first [apply apart_tags; vm_compute; discriminate | eapply apart_attr; [left; reflexivity|left; reflexivity|vm_compute; discriminate]].
Lemma apart_root : forall v, apart (sec_system v) (sec_refs v) /\ apart (sec_system v) (sec_disks v) /\ apart (sec_system v) (sec_nets v) /\ apart (sec_system v) (sec_deploy v) /\
  apart (sec_refs v) (sec_system v) /\ apart (sec_refs v) (sec_disks v) /\ apart (sec_refs v) (sec_nets v) /\ apart (sec_refs v) (sec_deploy v) /\
  apart (sec_disks v) (sec_system v) /\ apart (sec_disks v) (sec_refs v) /\ apart (sec_disks v) (sec_nets v) /\ apart (sec_disks v) (sec_deploy v) /\
  apart (sec_nets v) (sec_system v) /\ apart (sec_nets v) (sec_refs v) /\ apart (sec_nets v) (sec_disks v) /\ apart (sec_nets v) (sec_deploy v) /\
  apart (sec_hw v) (sec_prod v) /\ apart (sec_hw v) (sec_ann v).
Proof. intros v. destruct v; repeat split; apart_now. Qed.

Definition roots (v : version) := [sec_refs v; sec_disks v; sec_nets v; sec_deploy v; sec_system v].
Definition parts (v : version) := [sec_prod v; sec_ann v; sec_hw v].
Lemma apart_roots : forall v i j s s', i <> j -> nth_error (roots v) i = Some s -> nth_error (roots v) j = Some s' -> apart s s'.
Proof.
  intros v i j s s' N H H'. destruct v; do 5 (destruct i as [|i]; [injection H as <-; do 5 (destruct j as [|j]; [injection H' as <-; first [now elim N|apart_now]|]); destruct j; discriminate|]); destruct i; discriminate.
Qed.
Lemma apart_parts : forall v i j s s', i <> j -> nth_error (parts v) i = Some s -> nth_error (parts v) j = Some s' -> apart s s'.
Proof.
  intros v i j s s' N H H'. destruct v; do 3 (destruct i as [|i]; [injection H as <-; do 3 (destruct j as [|j]; [injection H' as <-; first [now elim N|apart_now]|]); destruct j; discriminate|]); destruct i; discriminate.
Qed.
Definition holds (p : elem) (s : str * list (str * str)) (x : option elem) : Prop := holds_section p (fst s) (snd s) x.
Definition has (p : elem) (s : str * list (str * str)) (x : option elem) : Prop := at_most p (fst s) (snd s) x.
Definition put_at (s : str * list (str * str)) (x : option elem) (p : elem) : elem := put_section (fst s) (snd s) x p.
Lemma put_keeps : forall p s s' x, holds p s x -> apart s s' -> answering (fst s') (snd s') (put_at s x p) = answering (fst s') (snd s') p.
Proof.
  intros p s s' [e|] H A; [|reflexivity]. destruct H as [An (e0 & O)]. destruct s as [t a], s' as [t' a']. exact (answering_replace p t a e0 e t' a' O An A).
Qed.
Lemma holds_put : forall p s s' x y, holds p s x -> apart s s' -> holds p s' y -> holds (put_at s x p) s' y.
Proof.
  intros p s s' x y H A Hy. pose proof (put_keeps p s s' x H A) as Q. destruct y as [e|].
  - destruct Hy as [An (e0 & O)]. split; [exact An|]. exists e0. apply only_filter. rewrite Q. now apply only_filter.
  - apply none_filter. rewrite Q. now apply none_filter.
Qed.
Lemma has_put : forall p s s' x y, holds p s x -> apart s s' -> has p s' y -> has (put_at s x p) s' y.
Proof. intros p s s' x y H A Hy. apply at_most_filter. rewrite (put_keeps p s s' x H A). now apply at_most_filter. Qed.
Lemma put_has : forall p s x, holds p s x -> has (put_at s x p) s x.
Proof.
  intros p s [e|] H; [|exact H]. destruct H as [An (e0 & O)]. exact (only_replace p _ _ e0 e O An).
Qed.
Lemma put_tag : forall p s x, etag (put_at s x p) = etag p /\ eattrib (put_at s x p) = eattrib p.
Proof. intros p s [e|]; [apply replace_tag|now split]. Qed.

Lemma beyond_put : forall l p s x, holds p s x -> In s l -> beyond l (put_at s x p) = beyond l p.
Proof.
  intros l p s [e|] H I; [|reflexivity]. destruct H as [An (e0 & O)]. destruct s as [t a]. destruct (replaced p t a e0 e O) as (A & B & Ec & Er & Ae). cbn [fst snd] in *.
  unfold beyond, put_at, put_section. cbn [fst snd]. rewrite Er, Ec, !filter_app. cbn [filter].
  assert (X : forall z, answers t a z -> existsb (fun s => child_match (fst s) (snd s) z) l = true).
  { intros z Az. apply existsb_exists. exists (t, a). split; [exact I|]. now apply child_match_spec. }
  now rewrite (X e An), (X e0 Ae).
Qed.
Lemma beyond_same : forall l p p', same_content p p' -> Forall2 same_content (beyond l p) (beyond l p').
Proof.
  intros l p p' S. apply same_filter; [|exact (same_children _ _ S)]. intros e e' Se. f_equal. induction l as [|s l IH]; [reflexivity|]. cbn [existsb]. now rewrite IH, (same_match _ _ _ _ Se).
Qed.
Lemma same_all : forall l, Forall2 same_content l l.
Proof. induction l; constructor; [apply same_itself|assumption]. Qed.

(** ** The files *)
Lemma dget_ref : forall (refs : list (str * ref)) h r, NoDup (map fst refs) -> In (h, r) refs -> dget str_eqb h refs = Some r.
Proof. intros refs h r ND I. apply dget_Some_In; [exact str_eqb_eq|exact ND|exact I]. Qed.
Lemma names_column : forall v refs, names_in v refs = flat_map (fun o => match o with Some h => [h] | None => [] end) (column (FILE v) (FILE_HREF v) (Some refs)).
Proof. intros v refs. unfold names_in, column, findall. now rewrite flat_map_concat_map, flat_map_concat_map, map_map. Qed.

Section Files.
  Variables (E : env) (w : world) (capacity : str -> result str) (fuel : nat) (o : ovf) (data : str -> str) (m : vmd).
  Hypothesis CD : forall h r, In (h, r) (o_files o) -> content w r = Some (data h).
  Hypothesis ND : NoDup (map fst (o_files o)).
  Hypothesis ALL : forall h, In h (names_in (o_version o) (o_references o)) <-> In h (map fst (o_files o)).
  Hypothesis HREF : forall e, In e (echildren (o_references o)) -> etag e = FILE (o_version o) -> get_attr e (FILE_HREF (o_version o)) <> None.
  Hypothesis CAP : forall x c, capacity x = Ok c -> exists n, py_int c = Some n /\ (0 <= n < 2 ^ 63)%Z.
  Hypothesis UNITS : plain_units (o_version o) (vmd_of o).
  Hypothesis REF : refresh_files (env_of E o) (files_now w capacity (o_files o)) fuel (vmd_of o) = Ok m.
  Let v := o_version o.
  Let W := files_now w capacity (o_files o).

  Lemma now_there : forall h d, In h (map fst (o_files o)) -> RefreshModel.w_exists W h d = true /\ RefreshModel.w_size W h d = Ok (Z.of_nat (length (data h))).
  Proof.
    intros h d I. apply in_map_iff in I as ([h' r] & E1 & I). cbn [fst] in E1. subst h'. unfold W, files_now. cbn [RefreshModel.w_exists RefreshModel.w_size].
    rewrite (dget_ref _ _ _ ND I), (CD h r I). now split.
  Qed.
  Lemma now_measured : measured W.
  Proof.
    intros h d c H. unfold W, files_now in H. cbn [RefreshModel.w_capacity] in H. destruct (dget str_eqb h (o_files o)) as [r|]; [|discriminate]. destruct (content w r) as [x|]; [|discriminate]. exact (CAP x c H).
  Qed.
  Lemma sources_names : map fst (m_sources (vmd_of o)) = map fst (o_files o).
  Proof. cbn [vmd_of m_sources]. rewrite map_map. apply map_ext. reflexivity. Qed.

  Lemma all_kept :
    (etag (m_refs m) = etag (o_references o) /\ eattrib (m_refs m) = eattrib (o_references o)) /\
    (forall k, k <> FILE_SIZE v -> column (FILE v) k (Some (m_refs m)) = column (FILE v) k (Some (o_references o))) /\
    (forall e, In e (echildren (m_refs m)) -> etag e = FILE v -> exists h, get_attr e (FILE_HREF v) = Some h /\ In h (map fst (o_files o)) /\
       get_attr e (FILE_SIZE v) = Some (zdec (Z.of_nat (length (data h))))) /\
    filter (fun hr : str * ref => dmem str_eqb (fst hr) (m_sources m)) (o_files o) = o_files o /\
    match o_disks o, m_disks m with
    | None, None => True
    | Some s, Some s' => etag s' = etag s /\ eattrib s' = eattrib s /\
        forall k, k <> DISK_CAPACITY v -> k <> DISK_CAP_UNITS v -> column (DISK v) k (Some s') = column (DISK v) k (Some s)
    | _, _ => False
    end.
  Proof.
    assert (ND' : NoDup (map fst (m_sources (vmd_of o)))) by (rewrite sources_names; exact ND).
    destruct (C61_refreshed (env_of E o) W fuel (vmd_of o) m now_measured UNITS ND' REF) as (_ & S & (T1 & T2 & _ & _) & F & D).
    cbn [m_refs m_disks vmd_of env_of e_ver] in *. fold v in S, F, D.
    split; [now split|].
    assert (SAME : m_sources m = m_sources (vmd_of o)).
    { rewrite S. cbn [vmd_of m_sources]. assert (Z : forall l, (forall h, In h (map fst l) -> In h (map fst (o_files o))) ->
        filter (fun nd : str * str => RefreshModel.w_exists W (fst nd) (snd nd)) (map (fun hr : str * ref => (fst hr, [])) l) = map (fun hr => (fst hr, [])) l).
      { induction l as [|[h r] l IH]; intros Hl; [reflexivity|]. cbn [map filter fst snd]. rewrite (proj1 (now_there h [] (Hl h (or_introl eq_refl)))). f_equal. apply IH. intros x Hx. apply Hl. now right. }
      now apply Z. }
    (* no File is gone *)
    assert (KEEP : forall xs ys, files_refreshed v W (vmd_of o) xs ys -> (forall x, In x xs -> In x (echildren (o_references o))) ->
      (forall k, k <> FILE_SIZE v -> map (fun e => get_attr e k) (filter (fun c => str_eqb (etag c) (FILE v)) ys) = map (fun e => get_attr e k) (filter (fun c => str_eqb (etag c) (FILE v)) xs)) /\
      (forall e, In e ys -> etag e = FILE v -> exists h, get_attr e (FILE_HREF v) = Some h /\ In h (map fst (o_files o)) /\ get_attr e (FILE_SIZE v) = Some (zdec (Z.of_nat (length (data h)))))).
    { intros xs ys F'. induction F' as [|x xs ys N F' IH|x x' xs ys h d z Tx Hx TH SZ SB GS F' IH|x xs ys Tx NO F' IH]; intros SUB.
      - split; [reflexivity|intros e []].
      - destruct (IH (fun y Hy => SUB y (or_intror Hy))) as [I1 I2]. split.
        + intros k Hk. cbn [filter]. destruct (str_eqb (etag x) (FILE v)) eqn:Q; [apply str_eqb_eq in Q; contradiction|]. now apply I1.
        + intros e [<-|He] Te; [contradiction|now apply I2].
      - destruct (IH (fun y Hy => SUB y (or_intror Hy))) as [I1 I2]. destruct SB as (SB1 & _ & _ & _ & SB2).
        assert (IN : In h (map fst (o_files o))). { destruct TH as [TH _]. rewrite <- sources_names. apply in_map_iff. now exists (h, d). }
        split.
        + intros k Hk. cbn [filter]. rewrite SB1. destruct (str_eqb (etag x) (FILE v)) eqn:Q; cbn [map]; [|now apply I1]. f_equal; [|now apply I1]. apply SB2. intros [F1|[]]. now apply Hk.
        + intros e [<-|He] Te; [|now apply I2]. exists h. split; [rewrite SB2; [exact Hx|intros [F1|[]]; exact (proj1 (size_apart v) (eq_sym F1))]|]. split; [exact IN|].
          rewrite GS. rewrite (proj2 (now_there h d IN)) in SZ. now injection SZ as <-.
      - exfalso. pose proof (HREF x (SUB x (or_introl eq_refl)) Tx) as HN. fold v in HN. destruct (get_attr x (FILE_HREF v)) as [h|] eqn:G; [|contradiction].
        assert (IN : In h (map fst (o_files o))). { apply ALL. fold v. unfold names_in. apply in_flat_map. exists x. split; [|rewrite G; now left]. apply filter_In. split; [apply SUB; now left|now apply str_eqb_eq]. }
        apply (NO h []); [reflexivity|]. split; [|exact (proj1 (now_there h [] IN))]. cbn [vmd_of m_sources]. apply in_map_iff in IN as ([h' r] & E1 & I). cbn [fst] in E1. subst h'. apply in_map_iff. exists (h, r). now split. }
    destruct (KEEP _ _ F (fun x Hx => Hx)) as [K1 K2].
    split; [exact K1|]. split; [exact K2|]. split.
    - rewrite SAME. cbn [vmd_of m_sources]. assert (Z : forall l, (forall h, In h (map fst l) -> In h (map fst (o_files o))) -> filter (fun hr : str * ref => dmem str_eqb (fst hr) (map (fun hr => (fst hr, [])) (o_files o) : list (str * str))) l = l).
      { induction l as [|[h r] l IH]; intros Hl; [reflexivity|]. cbn [filter fst]. assert (Q : dmem str_eqb h (map (fun hr : str * ref => (fst hr, [])) (o_files o) : list (str * str)) = true).
        { unfold dmem. pose proof (Hl h (or_introl eq_refl)) as I. destruct (dget str_eqb h (map (fun hr : str * ref => (fst hr, [])) (o_files o) : list (str * str))) eqn:G; [reflexivity|]. apply dget_None in G; [|exact str_eqb_eq]. exfalso. apply G. rewrite map_map. exact I. }
        rewrite Q. f_equal. apply IH. intros x Hx. apply Hl. now right. }
      now apply Z.
    - destruct (o_disks o) as [s|], (m_disks m) as [s'|]; try exact D. destruct D as (D & T3 & T4 & _). split; [exact T3|]. split; [exact T4|].
      intros k K3 K4. cbn [column]. clear -D K3 K4. induction D as [|x y l l' R D IH]; [reflexivity|]. cbn [filter].
      destruct R as [_|x' c n _ _ _ (SB1 & _ & _ & _ & SB2) _]; [destruct (str_eqb (etag x) (DISK v)); cbn [map]; [f_equal|]; exact IH|].
      rewrite SB1. destruct (str_eqb (etag x) (DISK v)); cbn [map]; [|exact IH]. f_equal; [|exact IH]. apply SB2. intros [F1|[F1|[]]]; congruence.
  Qed.
End Files.

(** ** The envelope that is written *)
Lemma update_tag : forall E h sec sec', update_xml E h sec = Ok sec' -> etag sec' = etag sec /\ eattrib sec' = eattrib sec.
Proof.
  intros E h sec sec' H. unfold update_xml in H. destruct (_ && _); [injection H as <-; now split|].
  destruct (natural_sort (map fst h)) as [keys|]; [|discriminate]. cbn [rbind] in H.
  revert H. apply (fold_result_inv _ _ _ (fun s => etag s = etag sec /\ eattrib s = eattrib sec)).
  2:{ destruct sec. now split. }
  intros s k s' _ [H1 H2] H. destruct (hitem k h) as [i|]; [|discriminate]. cbn [rbind] in H.
  destruct (generate_items E i) as [xs|]; [|discriminate]. cbn [rbind] in H. injection H as <-.
  revert s H1 H2. induction xs as [|x xs IH]; intros s H1 H2; [now split|]. cbn [fold_left].
  destruct (add_child_spec s x [INFO (e_ver E); SYSTEM (e_ver E); ITEM (e_ver E)]) as ((S1 & S2 & _) & _). apply IH; congruence.
Qed.

Lemma net_beyond : forall v sec d o l, at_most (n_env d) (fst (sec_nets v)) (snd (sec_nets v)) o -> n_attached d = is_some o -> In (sec_nets v) l ->
  beyond l (n_env (refresh_networks v sec d)) = beyond l (n_env d) /\ eattrib (n_env (refresh_networks v sec d)) = eattrib (n_env d).
Proof.
  intros v sec d o l M AT I. cbn [fst snd sec_nets] in M.
  assert (OK : net_ok v d).
  { destruct o as [s|]; cbn [is_some] in AT.
    - destruct M as (A & B & Ec & An & N). exact (NO_one v d A s B AT Ec An N).
    - exact (NO_none v d AT M). }
  assert (X : forall z, answers (NETWORK_SECTION v) (NETWORK_SECTION_ATTRIB v) z -> existsb (fun s => child_match (fst s) (snd s) z) l = true).
  { intros z Az. apply existsb_exists. exists (sec_nets v). split; [exact I|]. now apply child_match_spec. }
  destruct (refresh_cases v sec d OK) as [(Ha & Hno & R)|(A & s & B & Ha & Hc & Hs & Hno & R)].
  - rewrite R. now split.
  - cbv zeta in R. set (s' := set_children (thin v sec (echildren s)) s) in *.
    assert (AS : answers (NETWORK_SECTION v) (NETWORK_SECTION_ATTRIB v) s') by (apply (answers_like _ _ s); [now destruct s|now destruct s|exact Hs]).
    destruct R as [[NW R]|[NW R]]; rewrite R; cbn [n_env]; (split; [|now destruct (n_env d)]); unfold beyond; destruct (n_env d) as [t0 a0 x0 l0 cs]; cbn [set_children echildren] in *; rewrite Hc, !filter_app; cbn [filter].
    + now rewrite (X s Hs).
    + now rewrite (X s Hs), (X s' AS).
Qed.
Lemma update_rest : forall E h sec sec', update_xml E h sec = Ok sec' -> NoDup (map fst h) -> other_children (e_ver E) sec' = other_children (e_ver E) sec.
Proof.
  intros E h sec sec' U ND. destruct (update_content E h sec sec' ND U) as [[_ ->]|[_ (xs & G & H)]]; [reflexivity|]. exact (proj1 (UpdateHistoryProofs.other_children_after E h sec xs sec' G H)).
Qed.
Lemma net_answering : forall v sec d o, at_most (n_env d) (fst (sec_nets v)) (snd (sec_nets v)) o -> n_attached d = is_some o ->
  (forall s, apart (sec_nets v) s -> answering (fst s) (snd s) (n_env (refresh_networks v sec d)) = answering (fst s) (snd s) (n_env d)) /\
  etag (n_env (refresh_networks v sec d)) = etag (n_env d) /\
  exists o', at_most (n_env (refresh_networks v sec d)) (NETWORK_SECTION v) (NETWORK_SECTION_ATTRIB v) o' /\
    networks v (refresh_networks v sec d) = column (NETWORK v) (NETWORK_NAME v) o'.
Proof.
  intros v sec d o M AT. cbn [fst snd sec_nets] in M.
  assert (OK : net_ok v d).
  { destruct o as [s|]; cbn [is_some] in AT.
    - destruct M as (A & B & Ec & An & N). exact (NO_one v d A s B AT Ec An N).
    - exact (NO_none v d AT M). }
  destruct (refresh_cases v sec d OK) as [(Ha & Hno & R)|(A & s & B & Ha & Hc & Hs & Hno & R)].
  - rewrite R. split; [reflexivity|]. split; [reflexivity|]. exists None. split; [exact Hno|]. unfold networks, network_section. now rewrite Ha.
  - cbv zeta in R. set (s' := set_children (thin v sec (echildren s)) s) in *.
    assert (AS : answers (NETWORK_SECTION v) (NETWORK_SECTION_ATTRIB v) s') by (apply (answers_like _ _ s); [now destruct s|now destruct s|exact Hs]).
    assert (NM : forall t a x, apart (sec_nets v) (t, a) -> answers (NETWORK_SECTION v) (NETWORK_SECTION_ATTRIB v) x -> child_match t a x = false).
    { intros t a x D An. destruct (child_match t a x) eqn:C; [|reflexivity]. apply child_match_spec in C. exfalso. exact (D x An C). }
    destruct R as [[NW R]|[NW R]]; rewrite R; cbn [n_env].
    + split; [intros [t a] D; unfold answering; cbn [fst snd]; destruct (n_env d) as [t0 a0 x0 l0 cs]; cbn [set_children echildren] in *; rewrite Hc, !filter_app; cbn [filter]; now rewrite (NM t a s D Hs)|].
      split; [now destruct (n_env d)|]. exists None. split; [|reflexivity]. intros x Hx. destruct (n_env d). cbn [set_children echildren] in Hx. exact (Hno x Hx).
    + split; [intros [t a] D; unfold answering; cbn [fst snd]; destruct (n_env d) as [t0 a0 x0 l0 cs]; cbn [set_children echildren] in *; rewrite Hc, !filter_app; cbn [filter]; now rewrite (NM t a s D Hs), (NM t a s' D AS)|].
      split; [now destruct (n_env d)|]. exists (Some s').
      assert (O : only (set_children (A ++ s' :: B) (n_env d)) (NETWORK_SECTION v) (NETWORK_SECTION_ATTRIB v) s').
      { exists A, B. destruct (n_env d). split; [reflexivity|]. split; [exact AS|exact Hno]. }
      split; [exact O|]. unfold networks, network_section. cbn [n_attached n_env column].
      apply only_filter in O. unfold answering in O. fold (is_netsec v) in O.
      assert (FD : find (is_netsec v) (echildren (set_children (A ++ s' :: B) (n_env d))) = Some s').
      { clear -O. change (child_match (NETWORK_SECTION v) (NETWORK_SECTION_ATTRIB v)) with (is_netsec v) in O. induction (echildren (set_children (A ++ s' :: B) (n_env d))) as [|y l IH]; [discriminate|]. cbn [filter find] in *. destruct (is_netsec v y); [now injection O as -> _|now apply IH]. }
      rewrite FD. reflexivity.
Qed.

Section Prepared.
  Variables (E : env) (w : world) (capacity : str -> result str) (fuel : nat) (o : ovf).
  Let v := o_version o.
  Hypothesis K : consistent o.

  Lemma prepared : forall env refs l m, prepare E capacity fuel w o = Ok (env, refs, l) ->
    refresh_files (env_of E o) (files_now w capacity (o_files o)) fuel (vmd_of o) = Ok m ->
    answers (REFERENCES v) [] (m_refs m) ->
    match o_disks o, m_disks m with
    | Some _, Some s' => answers (DISK_SECTION v) (DISK_SECTION_ATTRIB v) s'
    | None, None => True
    | _, _ => False
    end ->
    refs = m_refs m /\ l = filter (fun hr : str * ref => dmem str_eqb (fst hr) (m_sources m)) (o_files o) /\
    etag env = envelope_tag v /\
    exists sec sys nets, update_xml (env_of E o) (o_hardware o) (o_hardware_section o) = Ok sec /\
      only env (REFERENCES v) [] (m_refs m) /\
      at_most env (DISK_SECTION v) (DISK_SECTION_ATTRIB v) (m_disks m) /\
      at_most env (NETWORK_SECTION v) (NETWORK_SECTION_ATTRIB v) nets /\
      (forall n, In n (column (NETWORK v) (NETWORK_NAME v) nets) <-> In n (column (NETWORK v) (NETWORK_NAME v) (o_networks o)) /\ in_use v sec n) /\
      at_most env (DEPLOY_OPT_SECTION v) [] (o_deploy o) /\
      only env (VIRTUAL_SYSTEM v) (VIRTUAL_SYSTEM_ATTRIB v) sys /\
      at_most sys (PRODUCT_SECTION v) (PRODUCT_SECTION_ATTRIB v) (o_product o) /\
      at_most sys (ANNOTATION_SECTION v) (ANNOTATION_SECTION_ATTRIB v) (o_annotation o) /\
      only sys (VIRTUAL_HW_SECTION v) (VIRTUAL_HW_SECTION_ATTRIB v) sec /\
      (eattrib env = eattrib (o_envelope o) /\ beyond (envelope_sections v) env = beyond (envelope_sections v) (o_envelope o)) /\
      (etag sys = etag (o_system o) /\ eattrib sys = eattrib (o_system o) /\ beyond (system_sections v) sys = beyond (system_sections v) (o_system o)).
  Proof.
    intros env refs l m P R AR AD. unfold prepare in P. fold v in P.
    destruct (update_xml (env_of E o) (o_hardware o) (o_hardware_section o)) as [sec|] eqn:U; [|discriminate]. cbn [rbind] in P.
    destruct (validate_hardware _ _ _ _); [|discriminate]. cbn [rbind] in P. rewrite R in P. cbn [rbind] in P. injection P as P1 P2 P3. subst refs l.
    split; [reflexivity|]. split; [reflexivity|].
    destruct K as [K1 K2 K3 K4 K5 K6 K7 K8 K9 K10 K11 K12]. fold v in K1, K2, K3, K4, K5, K6, K7, K8, K9.
    destruct (update_tag _ _ _ _ U) as [TS AS].
    assert (HS : answers (VIRTUAL_HW_SECTION v) (VIRTUAL_HW_SECTION_ATTRIB v) sec) by exact (answers_like _ _ _ _ TS AS (proj1 K9)).
    change (holds (o_system o) (sec_prod v) (o_product o)) in K7. change (holds (o_system o) (sec_ann v) (o_annotation o)) in K8.
    assert (K9' : holds (o_system o) (sec_hw v) (Some sec)) by exact (conj HS (proj2 K9)).
    (* the system *)
    assert (NP : forall i j, nth_error (parts v) i <> None -> nth_error (parts v) j <> None -> i <> j -> apart (nth i (parts v) (sec_hw v)) (nth j (parts v) (sec_hw v))).
    { intros i j Hi Hj N. destruct (nth_error (parts v) i) as [x|] eqn:Ei; [|contradiction]. destruct (nth_error (parts v) j) as [y|] eqn:Ej; [|contradiction].
      rewrite (nth_error_nth _ _ _ Ei), (nth_error_nth _ _ _ Ej). exact (apart_parts v i j x y N Ei Ej). }
    assert (NR : forall i j, nth_error (roots v) i <> None -> nth_error (roots v) j <> None -> i <> j -> apart (nth i (roots v) (sec_hw v)) (nth j (roots v) (sec_hw v))).
    { intros i j Hi Hj N. destruct (nth_error (roots v) i) as [x|] eqn:Ei; [|contradiction]. destruct (nth_error (roots v) j) as [y|] eqn:Ej; [|contradiction].
      rewrite (nth_error_nth _ _ _ Ei), (nth_error_nth _ _ _ Ej). exact (apart_roots v i j x y N Ei Ej). }
    Ltac nn := cbn; discriminate.
    pose proof (NP 0 1 ltac:(nn) ltac:(nn) ltac:(nn)) as P01. pose proof (NP 0 2 ltac:(nn) ltac:(nn) ltac:(nn)) as P02. pose proof (NP 1 2 ltac:(nn) ltac:(nn) ltac:(nn)) as P12.
    pose proof (NP 1 0 ltac:(nn) ltac:(nn) ltac:(nn)) as P10. pose proof (NP 2 0 ltac:(nn) ltac:(nn) ltac:(nn)) as P20. pose proof (NP 2 1 ltac:(nn) ltac:(nn) ltac:(nn)) as P21.
    cbn [nth parts] in P01, P02, P12, P10, P20, P21.
    set (y1 := put_at (sec_prod v) (o_product o) (o_system o)) in *.
    assert (Y1 : has y1 (sec_prod v) (o_product o)) by exact (put_has _ _ _ K7).
    assert (Y2 : holds y1 (sec_ann v) (o_annotation o)) by exact (holds_put _ _ _ _ _ K7 P01 K8).
    assert (Y3 : holds y1 (sec_hw v) (Some sec)) by exact (holds_put _ _ _ _ _ K7 P02 K9').
    set (y2 := put_at (sec_ann v) (o_annotation o) y1) in *.
    assert (Z1 : has y2 (sec_prod v) (o_product o)) by exact (has_put _ _ _ _ _ Y2 P10 Y1).
    assert (Z2 : has y2 (sec_ann v) (o_annotation o)) by exact (put_has _ _ _ Y2).
    assert (Z3 : holds y2 (sec_hw v) (Some sec)) by exact (holds_put _ _ _ _ _ Y2 P12 Y3).
    set (sys := put_at (sec_hw v) (Some sec) y2).
    assert (S1 : has sys (sec_prod v) (o_product o)) by exact (has_put _ _ _ _ _ Z3 P20 Z1).
    assert (S2 : has sys (sec_ann v) (o_annotation o)) by exact (has_put _ _ _ _ _ Z3 P21 Z2).
    assert (S3 : has sys (sec_hw v) (Some sec)) by exact (put_has _ _ _ Z3).
    assert (HY : answers (VIRTUAL_SYSTEM v) (VIRTUAL_SYSTEM_ATTRIB v) sys).
    { apply (answers_like _ _ (o_system o)); [unfold sys, y2, y1; rewrite !(proj1 (put_tag _ _ _)); reflexivity|unfold sys, y2, y1; rewrite !(proj2 (put_tag _ _ _)); reflexivity|exact (proj1 K6)]. }
    (* the envelope *)
    assert (R6 : holds (o_envelope o) (sec_system v) (Some sys)) by exact (conj HY (proj2 K6)).
    assert (R2 : holds (o_envelope o) (sec_refs v) (Some (m_refs m))) by exact (conj AR (proj2 K2)).
    assert (R3 : holds (o_envelope o) (sec_disks v) (m_disks m)).
    { destruct (o_disks o) as [d|], (m_disks m) as [d'|]; try contradiction; [exact (conj AD (proj2 K3))|exact K3]. }
    change (holds (o_envelope o) (sec_nets v) (o_networks o)) in K4. change (holds (o_envelope o) (sec_deploy v) (o_deploy o)) in K5.
    pose proof (NR 4 0 ltac:(nn) ltac:(nn) ltac:(nn)) as Q40. pose proof (NR 4 1 ltac:(nn) ltac:(nn) ltac:(nn)) as Q41. pose proof (NR 4 2 ltac:(nn) ltac:(nn) ltac:(nn)) as Q42. pose proof (NR 4 3 ltac:(nn) ltac:(nn) ltac:(nn)) as Q43.
    pose proof (NR 2 0 ltac:(nn) ltac:(nn) ltac:(nn)) as Q20. pose proof (NR 2 1 ltac:(nn) ltac:(nn) ltac:(nn)) as Q21. pose proof (NR 2 3 ltac:(nn) ltac:(nn) ltac:(nn)) as Q23. pose proof (NR 2 4 ltac:(nn) ltac:(nn) ltac:(nn)) as Q24.
    pose proof (NR 3 0 ltac:(nn) ltac:(nn) ltac:(nn)) as Q30. pose proof (NR 3 1 ltac:(nn) ltac:(nn) ltac:(nn)) as Q31. pose proof (NR 3 2 ltac:(nn) ltac:(nn) ltac:(nn)) as Q32. pose proof (NR 3 4 ltac:(nn) ltac:(nn) ltac:(nn)) as Q34.
    pose proof (NR 0 1 ltac:(nn) ltac:(nn) ltac:(nn)) as Q01. pose proof (NR 0 2 ltac:(nn) ltac:(nn) ltac:(nn)) as Q02. pose proof (NR 0 3 ltac:(nn) ltac:(nn) ltac:(nn)) as Q03. pose proof (NR 0 4 ltac:(nn) ltac:(nn) ltac:(nn)) as Q04.
    pose proof (NR 1 0 ltac:(nn) ltac:(nn) ltac:(nn)) as Q10. pose proof (NR 1 2 ltac:(nn) ltac:(nn) ltac:(nn)) as Q12. pose proof (NR 1 3 ltac:(nn) ltac:(nn) ltac:(nn)) as Q13. pose proof (NR 1 4 ltac:(nn) ltac:(nn) ltac:(nn)) as Q14.
    cbn [nth roots] in Q40, Q41, Q42, Q43, Q20, Q21, Q23, Q24, Q30, Q31, Q32, Q34, Q01, Q02, Q03, Q04, Q10, Q12, Q13, Q14. clear NP NR.
    set (e1 := put_at (sec_system v) (Some sys) (o_envelope o)).
    assert (A1 : has e1 (sec_system v) (Some sys)) by exact (put_has _ _ _ R6).
    assert (A2 : holds e1 (sec_refs v) (Some (m_refs m))) by exact (holds_put _ _ _ _ _ R6 Q40 R2).
    assert (A3 : holds e1 (sec_disks v) (m_disks m)) by exact (holds_put _ _ _ _ _ R6 Q41 R3).
    assert (A4 : holds e1 (sec_nets v) (o_networks o)) by exact (holds_put _ _ _ _ _ R6 Q42 K4).
    assert (A5 : holds e1 (sec_deploy v) (o_deploy o)) by exact (holds_put _ _ _ _ _ R6 Q43 K5).
    set (e1' := put_at (sec_nets v) (o_networks o) e1).
    assert (B1 : has e1' (sec_system v) (Some sys)) by exact (has_put _ _ _ _ _ A4 Q24 A1).
    assert (B2 : holds e1' (sec_refs v) (Some (m_refs m))) by exact (holds_put _ _ _ _ _ A4 Q20 A2).
    assert (B3 : holds e1' (sec_disks v) (m_disks m)) by exact (holds_put _ _ _ _ _ A4 Q21 A3).
    assert (B4 : has e1' (sec_nets v) (o_networks o)) by exact (put_has _ _ _ A4).
    assert (B5 : holds e1' (sec_deploy v) (o_deploy o)) by exact (holds_put _ _ _ _ _ A4 Q23 A5).
    set (e2 := put_at (sec_deploy v) (o_deploy o) e1').
    assert (C1 : has e2 (sec_system v) (Some sys)) by exact (has_put _ _ _ _ _ B5 Q34 B1).
    assert (C2 : holds e2 (sec_refs v) (Some (m_refs m))) by exact (holds_put _ _ _ _ _ B5 Q30 B2).
    assert (C3 : holds e2 (sec_disks v) (m_disks m)) by exact (holds_put _ _ _ _ _ B5 Q31 B3).
    assert (C4 : has e2 (sec_nets v) (o_networks o)) by exact (has_put _ _ _ _ _ B5 Q32 B4).
    assert (C5 : has e2 (sec_deploy v) (o_deploy o)) by exact (put_has _ _ _ B5).
    set (e2' := put_at (sec_refs v) (Some (m_refs m)) e2).
    assert (F1 : has e2' (sec_system v) (Some sys)) by exact (has_put _ _ _ _ _ C2 Q04 C1).
    assert (F2 : has e2' (sec_refs v) (Some (m_refs m))) by exact (put_has _ _ _ C2).
    assert (F3 : holds e2' (sec_disks v) (m_disks m)) by exact (holds_put _ _ _ _ _ C2 Q01 C3).
    assert (F4 : has e2' (sec_nets v) (o_networks o)) by exact (has_put _ _ _ _ _ C2 Q02 C4).
    assert (F5 : has e2' (sec_deploy v) (o_deploy o)) by exact (has_put _ _ _ _ _ C2 Q03 C5).
    set (e3 := put_at (sec_disks v) (m_disks m) e2').
    assert (G1 : has e3 (sec_system v) (Some sys)) by exact (has_put _ _ _ _ _ F3 Q14 F1).
    assert (G2 : has e3 (sec_refs v) (Some (m_refs m))) by exact (has_put _ _ _ _ _ F3 Q10 F2).
    assert (G3 : has e3 (sec_disks v) (m_disks m)) by exact (put_has _ _ _ F3).
    assert (G4 : at_most e3 (NETWORK_SECTION v) (NETWORK_SECTION_ATTRIB v) (o_networks o)) by exact (has_put _ _ _ _ _ F3 Q12 F4).
    assert (G5 : has e3 (sec_deploy v) (o_deploy o)) by exact (has_put _ _ _ _ _ F3 Q13 F5).
    assert (TE : etag e3 = envelope_tag v) by (unfold e3, e2', e2, e1', e1; rewrite !(proj1 (put_tag _ _ _)); exact K1).
    change (n_env (refresh_networks v sec (mkNet e3 (is_some (o_networks o)))) = env) in P1.
    destruct (apart_root v) as (D1 & D2 & D3 & D4 & D5 & D6 & D7 & D8 & D9 & D10 & D11 & D12 & D13 & D14 & D15 & D16 & D17 & D18).
    destruct (net_answering v sec (mkNet e3 (is_some (o_networks o))) (o_networks o) G4 eq_refl) as (N1 & N2 & nets & N3 & N4). cbn [n_env] in N1, N2. rewrite P1 in N1, N2, N3.
    split; [rewrite N2; exact TE|]. exists sec, sys, nets. split; [reflexivity|].
    split; [apply only_filter; rewrite (N1 (sec_refs v) D14 : answering (REFERENCES v) [] env = answering (REFERENCES v) [] e3); now apply only_filter|].
    split; [apply at_most_filter; rewrite (N1 (sec_disks v) D15 : answering (DISK_SECTION v) (DISK_SECTION_ATTRIB v) env = answering (DISK_SECTION v) (DISK_SECTION_ATTRIB v) e3); now apply at_most_filter|].
    split; [exact N3|]. split.
    { intros n. rewrite <- N4. assert (RE : net_reachable v (mkNet e3 (is_some (o_networks o)))).
      { apply (N_open v e3). unfold open_networks. rewrite (optional_at_most _ _ _ _ G4). cbn [rbind]. now destruct (o_networks o). }
      rewrite (refresh_names v sec _ n RE). assert (NN : networks v (mkNet e3 (is_some (o_networks o))) = column (NETWORK v) (NETWORK_NAME v) (o_networks o)); [|now rewrite NN].
      unfold networks, network_section. cbn [n_attached n_env]. destruct (o_networks o) as [s|]; [|reflexivity]. cbn [is_some column].
      apply only_filter in G4. unfold answering in G4. change (child_match (NETWORK_SECTION v) (NETWORK_SECTION_ATTRIB v)) with (is_netsec v) in G4.
      assert (FD : find (is_netsec v) (echildren e3) = Some s).
      { clear -G4. induction (echildren e3) as [|y l IH]; [discriminate|]. cbn [filter find] in *. destruct (is_netsec v y); [now injection G4 as -> _|now apply IH]. }
      now rewrite FD. }
    split; [apply at_most_filter; rewrite (N1 (sec_deploy v) D16 : answering (DEPLOY_OPT_SECTION v) [] env = answering (DEPLOY_OPT_SECTION v) [] e3); now apply at_most_filter|].
    split; [apply only_filter; rewrite (N1 (sec_system v) D13 : answering (VIRTUAL_SYSTEM v) (VIRTUAL_SYSTEM_ATTRIB v) env = answering (VIRTUAL_SYSTEM v) (VIRTUAL_SYSTEM_ATTRIB v) e3); now apply only_filter|].
    split; [exact S1|]. split; [exact S2|]. split; [exact S3|]. split.
    - destruct (net_beyond v sec (mkNet e3 (is_some (o_networks o))) (o_networks o) (envelope_sections v) G4 eq_refl) as [NB NE]; [right; right; left; reflexivity|]. cbn [n_env] in NB, NE.
      split; [rewrite <- P1, NE; unfold e3, e2', e2, e1', e1; rewrite !(proj2 (put_tag _ _ _)); reflexivity|].
      rewrite <- P1, NB. unfold e3. rewrite (beyond_put _ _ _ _ F3) by (right; left; reflexivity). unfold e2'. rewrite (beyond_put _ _ _ _ C2) by (left; reflexivity).
      unfold e2. rewrite (beyond_put _ _ _ _ B5) by (do 3 right; left; reflexivity). unfold e1'. rewrite (beyond_put _ _ _ _ A4) by (do 2 right; left; reflexivity).
      unfold e1. rewrite (beyond_put _ _ _ _ R6) by (do 4 right; left; reflexivity). reflexivity.
    - split; [unfold sys, y2, y1; rewrite !(proj1 (put_tag _ _ _)); reflexivity|]. split; [unfold sys, y2, y1; rewrite !(proj2 (put_tag _ _ _)); reflexivity|].
      unfold sys. rewrite (beyond_put _ _ _ _ Z3) by (do 2 right; left; reflexivity). unfold y2. rewrite (beyond_put _ _ _ _ Y2) by (right; left; reflexivity).
      unfold y1. rewrite (beyond_put _ _ _ _ K7) by (left; reflexivity). reflexivity.
  Qed.
End Prepared.

(** ** The package that is read from the written envelope *)
Lemma is_item_iff : forall v x, is_item_elem v x = true -> is_item v x.
Proof. intros v x H. unfold is_item_elem, item_tags in H. unfold is_item. apply mem_str_In in H. destruct v; cbn [In] in H; intuition. Qed.

(** Devices with the same records, as they are read *)
Lemma values_or_none : forall ps : props, (exists n q x, ItemSpec.own ps n q x) \/ forall n q x, ~ ItemSpec.own ps n q x.
Proof.
  intros ps. destruct (existsb (fun nd : str * vdict => existsb (fun vs : value * list profile => match snd vs with [] => false | _ => true end) (snd nd)) ps) eqn:X.
  - left. apply existsb_exists in X as ([n d] & I & X). cbn [snd] in X. apply existsb_exists in X as ([x [|q l]] & I' & X); [discriminate X|]. exists n, q, x, d, (q :: l). split; [exact I|]. split; [exact I'|now left].
  - right. intros n q x (d & l & I & I' & Q). apply Bool.not_true_iff_false in X. apply X. apply existsb_exists. exists (n, d). split; [exact I|]. apply existsb_exists. exists (x, l). split; [exact I'|].
    cbn [snd]. destruct l; [destruct Q|reflexivity].
Qed.
Lemma read_same : forall E sec h0 h, read_hardware E sec = Ok h0 -> same_devices h h0 -> same_hardware E h h0.
Proof.
  intros E sec h0 h R SD. destruct (UpdateHistoryProofs.read_hardware_ok E sec h0 R) as [([ND _] & ID & _) _]. split; [exact ND|]. split.
  - intros k i I _. destruct (proj1 (SD k (i_props i)) (ex_intro _ i (conj I eq_refl))) as (j & J & Q). exists j. split; [exact J|]. intros n q. unfold ItemSpec.reports. now rewrite Q.
  - intros k j J. destruct (proj2 (SD k (i_props j)) (ex_intro _ j (conj J eq_refl))) as (i & I & Q). exists i. split; [exact I|]. split; [|intros n q; unfold ItemSpec.reports; now rewrite Q].
    unfold has_values. rewrite Q. destruct (values_or_none (i_props j)) as [Y|N]; [exact Y|]. elim (ID k j J). intros q x. apply N.
Qed.

Section Core.
  Variables (E : env) (digest : str -> str -> str) (w w2 w3 : world) (capacity : str -> result str) (fuel : nat) (o : ovf) (data : str -> str).
  Variables (c : container) (path : str) (env refs root : elem) (l : list (str * ref)).
  Let v := o_version o.
  Hypothesis K : consistent o.
  Hypothesis HR : hardware_ready (env_of E o) (o_hardware o) (o_hardware_section o).
  Hypothesis CD : forall h r, In (h, r) (o_files o) -> content w r = Some (data h).
  Hypothesis ND : NoDup (map fst (o_files o)).
  Hypothesis ALL : forall h, In h (names_in (o_version o) (o_references o)) <-> In h (map fst (o_files o)).
  Hypothesis CAP : forall x c, capacity x = Ok c -> exists n, py_int c = Some n /\ (0 <= n < 2 ^ 63)%Z.
  Hypothesis UNITS : plain_units (o_version o) (vmd_of o).
  Hypothesis PREP : prepare E capacity fuel w o = Ok (env, refs, l).

  Lemma names_kept : names_in v refs = names_in v (o_references o) /\ l = o_files o.
  Proof.
    pose proof PREP as P. unfold prepare in P. destruct (update_xml _ _ _); [|discriminate]. cbn [rbind] in P. destruct (validate_hardware _ _ _ _); [|discriminate]. cbn [rbind] in P.
    destruct (refresh_files (env_of E o) (files_now w capacity (o_files o)) fuel (vmd_of o)) as [m|] eqn:R; [|discriminate]. cbn [rbind] in P. injection P as _ P2 P3. subst refs l.
    destruct (all_kept E w capacity fuel o data m CD ND ALL (k_hrefs o K) CAP UNITS R) as (_ & B & _ & D & _). split; [|exact D].
    rewrite !names_column. fold v in B. rewrite (B (FILE_HREF v)); [reflexivity|]. destruct v; vm_compute; discriminate.
  Qed.

  Hypothesis SC : same_content env root.
  Hypothesis LOAD : forall elems, map fst elems = names_in v (o_references o) ->
    (forall h s, In (h, Some s) elems -> py_int s = Some (Z.of_nat (length (data h)))) ->
    exists refs', load_files (digest (checksum_algorithm v)) w2 c path elems = Ok (refs', []) /\
      map fst refs' = names_in v (o_references o) /\ forall h r, In (h, r) refs' -> content w3 r = Some (data h).

  Lemma hardware_again : forall sec sec2, update_xml (env_of E o) (o_hardware o) (o_hardware_section o) = Ok sec -> same_content sec sec2 ->
    exists h2, read_hardware (env_of E o) sec2 = Ok h2 /\ same_hardware (env_of E o) (o_hardware o) h2.
  Proof.
    intros sec sec2 U S. destruct HR as [H1 H2 H3].
    destruct (update_content _ _ _ _ (proj1 (reachable_ids _ _ H1)) U) as [[LU ->]|[NU _]].
    - destruct (H3 LU) as (h0 & R & SD & PI). exists h0. split; [|exact (read_same _ _ _ _ R SD)]. rewrite <- R. unfold read_hardware. f_equal.
      rewrite (read_all_like (env_of E o) _ _ (same_children _ _ S)).
      + symmetry. rewrite <- (read_all_like (env_of E o) (echildren (o_hardware_section o)) (echildren (o_hardware_section o))); [reflexivity| |].
        * apply same_children, same_itself.
        * intros x Hx Ix y Hy. destruct (PI x y Hx (is_item_iff _ _ Ix) Hy) as [P1 P2]. split; [exact P1|now apply mem_str_In].
      + intros x Hx Ix y Hy. destruct (PI x y Hx (is_item_iff _ _ Ix) Hy) as [P1 P2]. split; [exact P1|now apply mem_str_In].
    - exact (reread _ _ _ _ _ H1 H2 U NU S).
  Qed.

  Lemma core : exists o2, open_envelope E digest w2 c path root = Ok o2 /\ same_package E w w3 o o2.
  Proof.
    pose proof PREP as P. unfold prepare in P. destruct (update_xml _ _ _); [|discriminate]. cbn [rbind] in P. destruct (validate_hardware _ _ _ _); [|discriminate]. cbn [rbind] in P.
    destruct (refresh_files (env_of E o) (files_now w capacity (o_files o)) fuel (vmd_of o)) as [m|] eqn:R; [|discriminate]. clear P.
    destruct (all_kept E w capacity fuel o data m CD ND ALL (k_hrefs o K) CAP UNITS R) as ((Tr & Ar) & Cr & Fr & Fl & Dk). fold v in Cr, Fr, Dk.
    assert (AR : answers (REFERENCES v) [] (m_refs m)) by exact (answers_like _ _ _ _ Tr Ar (proj1 (k_references o K))).
    assert (AD : match o_disks o, m_disks m with Some _, Some s' => answers (DISK_SECTION v) (DISK_SECTION_ATTRIB v) s' | None, None => True | _, _ => False end).
    { pose proof (k_disks o K) as KD. destruct (o_disks o) as [s|], (m_disks m) as [s'|]; try contradiction; [|exact I].
      destruct Dk as (T & A & _). exact (answers_like _ _ _ _ T A (proj1 KD)). }
    destruct (prepared E w capacity fuel o K env refs l m PREP R AR AD) as (Er & El & Te & sec & sys & nets & U & O1 & O2 & O3 & NN & O4 & O5 & O6 & O7 & O8 & (XE & BE) & (XT & XS & BS)). fold v in BE, BS. fold v in Te, O1, O2, O3, NN, O4, O5, O6, O7, O8.
    destruct (only_same _ _ _ _ _ SC O1) as (refs2 & Q1 & S1). destruct (at_most_same _ _ _ _ _ SC O2) as (disks2 & Q2 & S2).
    destruct (at_most_same _ _ _ _ _ SC O3) as (nets2 & Q3 & S3). destruct (at_most_same _ _ _ _ _ SC O4) as (dep2 & Q4 & S4).
    destruct (only_same _ _ _ _ _ SC O5) as (sys2 & Q5 & S5). destruct (at_most_same _ _ _ _ _ S5 O6) as (prod2 & Q6 & S6).
    destruct (at_most_same _ _ _ _ _ S5 O7) as (ann2 & Q7 & S7). destruct (only_same _ _ _ _ _ S5 O8) as (sec2 & Q8 & S8).
    destruct (hardware_again sec sec2 U S8) as (h2 & RH & SH).
    assert (TR : etag root = envelope_tag v) by (rewrite (same_tag _ _ SC); exact Te). destruct (root_ok root v TR) as [I1 I2].
    assert (PR : named (match dep2 with Some s => config_ids v s | None => [] end) = o_profiles o).
    { rewrite (k_profiles o K). fold v. destruct (o_deploy o) as [s|], dep2 as [s2|]; try contradiction; [|reflexivity]. f_equal. now apply config_same. }
    assert (PL : for_product_string (read_class v prod2) = o_platform o).
    { rewrite (k_platform o K). fold v. destruct (o_product o) as [s|], prod2 as [s2|]; try contradiction; [|reflexivity]. f_equal. now apply same_get. }
    assert (FE : exists es, file_elems v (findall (FILE v) refs2) = Ok es /\ map fst es = names_in v (o_references o) /\
       forall h s, In (h, Some s) es -> py_int s = Some (Z.of_nat (length (data h)))).
    { assert (FF : Forall2 same_content (findall (FILE v) (m_refs m)) (findall (FILE v) refs2)).
      { apply (same_filter (fun x => str_eqb (etag x) (FILE v))); [|exact (same_children _ _ S1)]. intros x x' S. now rewrite (same_tag _ _ S). }
      assert (FI : forall x, In x (findall (FILE v) (m_refs m)) -> exists h, get_attr x (FILE_HREF v) = Some h /\ get_attr x (FILE_SIZE v) = Some (zdec (Z.of_nat (length (data h))))).
      { intros x Hx. apply filter_In in Hx as [Hx Tx]. apply str_eqb_eq in Tx. destruct (Fr x Hx Tx) as (h & G1 & _ & G2). now exists h. }
      assert (NI : names_in v (m_refs m) = names_in v (o_references o)) by (rewrite <- Er; exact (proj1 names_kept)). rewrite <- NI. unfold names_in. clear -FF FI.
      induction FF as [|x x' xs xs' S FF IH]; [exists []; split; [reflexivity|]; split; [reflexivity|intros h s []]|].
      destruct IH as (es & H1 & H2 & H3); [intros y Hy; apply FI; now right|]. destruct (FI x (or_introl eq_refl)) as (h & G1 & G2).
      exists ((h, Some (zdec (Z.of_nat (length (data h))))) :: es). split; [|split].
      - cbn [file_elems]. rewrite (same_get _ _ _ S), G1, H1, (same_get _ _ _ S), G2. reflexivity.
      - cbn [map fst flat_map]. rewrite G1, H2. reflexivity.
      - intros h' s [Q|Q]; [|now apply H3]. injection Q as -> <-. apply py_int_zdec. }
    destruct FE as (es & FE & EN & ES). destruct (LOAD es EN ES) as (rf & LF & LN & LC).
    exists (mkOvf v root refs2 disks2 nets2 dep2 sys2 prod2 ann2 sec2 (o_profiles o) h2 (o_platform o) rf []). split.
    - unfold open_envelope. rewrite I1, I2. cbn [negb rbind]. rewrite (required_only _ _ _ _ Q1). cbn [rbind].
      rewrite (optional_at_most _ _ _ _ Q2). cbn [rbind]. rewrite (optional_at_most _ _ _ _ Q3). cbn [rbind]. rewrite (optional_at_most _ _ _ _ Q4). cbn [rbind].
      rewrite (required_only _ _ _ _ Q5). cbn [rbind]. rewrite (optional_at_most _ _ _ _ Q6). cbn [rbind]. rewrite (optional_at_most _ _ _ _ Q7). cbn [rbind].
      rewrite (required_only _ _ _ _ Q8). cbn [rbind]. cbv zeta. rewrite PR, PL. unfold env_of in RH. fold v in RH. rewrite RH. cbn [rbind]. rewrite FE. cbn [rbind]. rewrite LF. reflexivity.
    - constructor; cbn [o_version o_profiles o_platform o_hardware o_product o_annotation o_deploy o_networks o_disks o_references o_files o_complaints o_hardware_section o_envelope o_system]; fold v; try reflexivity; try assumption.
      + destruct (update_tag _ _ _ _ U) as [TS AS]. split; [rewrite (same_tag _ _ S8); exact TS|]. split; [rewrite (same_attr _ _ S8); exact AS|].
        change (other_children v) with (other_children (e_ver (env_of E o))). rewrite <- (update_rest _ _ _ _ U (proj1 (reachable_ids _ _ (h_history _ _ _ HR)))). apply same_filter; [|exact (same_children _ _ S8)].
        intros x x' S. unfold is_item_elem. now rewrite (same_tag _ _ S).
      + exists sec. split; [exact U|]. intros n. rewrite (column_same _ _ _ _ S3). apply NN.
      + intros k N1 N2. rewrite (column_same _ _ _ _ S2). destruct (o_disks o) as [s|], (m_disks m) as [s'|]; try contradiction; [|reflexivity]. now apply Dk.
      + intros k N1. rewrite (column_same _ _ (Some (m_refs m)) (Some refs2) S1). now apply Cr.
      + intros h d. split.
        * intros (r2 & I & C2). rewrite (LC h r2 I) in C2. injection C2 as <-. assert (IH : In h (map fst rf)) by (apply in_map_iff; exists (h, r2); now split).
          rewrite LN in IH. apply ALL, in_map_iff in IH as ([h' r] & Q & I'). cbn [fst] in Q. subst h'. exists r. split; [exact I'|now apply CD].
        * intros (r & I & C2). rewrite (CD h r I) in C2. injection C2 as <-. assert (IH : In h (map fst (o_files o))) by (apply in_map_iff; exists (h, r); now split).
          apply ALL in IH. fold v in IH. rewrite <- LN in IH. apply in_map_iff in IH as ([h' r2] & Q & I'). cbn [fst] in Q. subst h'. exists r2. split; [exact I'|now apply LC].
      + split; [rewrite TR; symmetry; exact (k_version o K)|]. split; [rewrite (same_attr _ _ SC); exact XE|]. rewrite <- BE. now apply beyond_same.
      + split; [rewrite (same_tag _ _ S5); exact XT|]. split; [rewrite (same_attr _ _ S5); exact XS|]. rewrite <- BS. now apply beyond_same.
  Qed.
End Core.

(** ** Writing and opening *)
Lemma no_ext : ~ In "/"%char (L ".ovf"). Proof. cbn. intuition discriminate. Qed.
Lemma hash_name : forall v, algorithm_name (manifest_algorithm v). Proof. intros []; [now left|now left|now right]. Qed.

Lemma create_tar : forall dg w1 w2 t f s z, w_tars w1 = w_tars w2 -> create dg w1 (Tar t) f s z = create dg w2 (Tar t) f s z.
Proof.
  intros dg w1 w2 t f s z H. unfold create. rewrite <- H. destruct (w_tars w1 t) as [a|] eqn:T; [|reflexivity]. destruct (resolve a (normpath f)) as [n|]; [|reflexivity]. cbn [rbind content]. now rewrite <- H.
Qed.
Lemma created_tar : forall dg w t f s z r cs, create dg w (Tar t) f s z = Ok (r, cs) -> exists n, r = InTar t n.
Proof.
  intros dg w t f s z r cs H. unfold create in H. destruct (w_tars w t) as [a|]; [|discriminate]. destruct (resolve a (normpath f)) as [n|]; [|discriminate]. cbn [rbind] in H.
  destruct (content w (InTar t n)); [|discriminate]. destruct (match z with Some _ => _ | None => _ end); [|discriminate]. cbn [rbind] in H. injection H as <- _. now exists n.
Qed.
Lemma load_tar : forall dg w1 w2 t p es, w_tars w1 = w_tars w2 -> load_files dg w1 (Tar t) p es = load_files dg w2 (Tar t) p es.
Proof.
  intros dg w1 w2 t p es H. unfold load_files. rewrite !(create_tar dg w1 w2 _ _ _ _ H).
  assert (LE : forall en fs, load_each dg w1 (Tar t) en fs = load_each dg w2 (Tar t) en fs).
  { intros en. induction fs as [|[h z] fs IH]; [reflexivity|]. cbn [load_each]. rewrite (create_tar dg w1 w2 _ _ _ _ H), IH. reflexivity. }
  destruct (create dg w2 (Tar t) (splitext_root (basename p) ++ L ".mf") None None) as [[r cs]|e] eqn:C.
  - destruct (created_tar _ _ _ _ _ _ _ _ C) as [n ->]. cbn [content]. rewrite H. destruct (match w_tars w2 t with Some _ => _ | None => _ end); [|reflexivity]. cbn [rbind].
    rewrite (create_tar dg w1 w2 _ _ _ _ H). destruct (create _ w2 _ (basename p) _ _); [|reflexivity]. cbn [rbind]. now rewrite LE.
  - destruct (is_environment_error e); [|reflexivity]. cbn [rbind]. rewrite (create_tar dg w1 w2 _ _ _ _ H). destruct (create _ w2 _ (basename p) _ _); [|reflexivity]. cbn [rbind]. now rewrite LE.
Qed.

Section Written.
  Variables (E : env) (digest : str -> str -> str) (print : elem -> str) (parse : str -> option elem) (capacity : str -> result str) (fuel : nat).
  Variables (w w' : world) (wd input : str) (same : bool) (output : str) (o : ovf) (data : str -> str) (d : list str) (u : str).
  Let v := o_version o.
  Hypothesis K : consistent o.
  Hypothesis HR : hardware_ready (env_of E o) (o_hardware o) (o_hardware_section o).
  Hypothesis CAP : images_measured capacity.
  Hypothesis UNITS : plain_units (o_version o) (vmd_of o).
  Hypothesis XML : read_as_printed E print parse capacity fuel w o.
  Hypothesis HEX : forall a x, hex_digest (digest a x).
  Hypothesis PROPER : forall c, In c (d ++ [u]) -> proper c.
  Hypothesis WR : write E digest print capacity fuel w wd input same output o = (w', Ok tt).

  Lemma saved_ovf : forall W B, output = path_of (W ++ [B ++ L ".ovf"]) -> W <> [] -> (forall c, In c W -> proper c) -> stem B -> ~ In NL B ->
    copyable w W (B ++ L ".ovf") (B ++ L ".mf") (names_in (o_version o) (o_references o)) (o_files o) data ->
    exists o2, factory E digest parse w' (path_of (d ++ [u])) output [] = Ok o2 /\ same_package E w w' o o2.
  Proof.
    intros W B Eo WN WP SB NB CP.
    assert (PX : forall c, In c (W ++ [B ++ L ".ovf"]) -> proper c) by (intros c H; apply in_app_iff in H as [H|[<-|[]]]; [now apply WP|exact (stem_proper B _ SB no_ext)]).
    assert (KO : kind_of output (L ".ovf")).
    { apply (by_extension output (L "ovf")); [now left|]. exists (path_of W ++ ["/"%char]), B. rewrite Eo. split; [rewrite path_of_snoc; change (L "/") with ["/"%char]; rewrite <- app_assoc; reflexivity|].
      split; [right; now exists (path_of W)|]. exact SB. }
    pose proof (kind_unique _ _ KO) as DT.
    unfold write in WR. destruct output as [|x0 xs] eqn:EO; [exfalso; clear -Eo; destruct W; cbn [app path_of flat_map] in Eo; discriminate|]. rewrite <- EO in *. clear x0 xs EO.
    destruct (prepare E capacity fuel w o) as [[[env refs] l]|e] eqn:P; [|discriminate].
    rewrite DT in WR. cbn [str_eqb] in WR. change (str_eqb (L ".ovf") (L ".ova")) with false in WR. change (str_eqb (L ".ovf") (L ".ovf")) with true in WR. cbv iota in WR.
    destruct (names_kept E w capacity fuel o data env refs l K (c_data _ _ _ _ _ _ _ CP) (c_refs _ _ _ _ _ _ _ CP) (c_all _ _ _ _ _ _ _ CP) CAP UNITS P) as [NK LK]. rewrite NK, LK, Eo in WR.
    destruct (C65_reopened _ _ _ _ _ _ _ _ _ _ _ WN WP SB NB CP (hash_name _) (HEX _) WR) as [RD LD].
    destruct (XML env refs l P) as (root & PA & SC).
    assert (SC' : same_content env root) by exact (same_trans _ _ _ (C22_reindent_content env 0) SC).
    destruct (core E digest w w' w' capacity fuel o data (Dir (path_of W)) (path_of (W ++ [B ++ L ".ovf"])) env refs root l K HR (c_data _ _ _ _ _ _ _ CP) (c_refs _ _ _ _ _ _ _ CP) (c_all _ _ _ _ _ _ _ CP) CAP UNITS P SC' LD) as (o2 & OE & SP).
    assert (RD' : read w' output = Some (print (xml_reindent env 0))) by (rewrite Eo; exact RD).
    assert (CC : dirname (normpath output) = path_of W).
    { rewrite Eo. match goal with |- dirname (normpath ?p) = _ => replace (normpath p) with p by (symmetry; exact (norm_path_of _ (fun H => app_cons_not_nil W [] _ (eq_sym H)) PX)) end.
      apply (dirname_path W _ WN WP). exact (proj2 (proj2 (proj2 (stem_proper B _ SB no_ext)))). }
    assert (OE' : open_envelope E digest w' (Dir (path_of W)) output root = Ok o2) by (rewrite Eo; exact OE).
    exists o2. split; [|exact SP]. unfold factory. rewrite DT. unfold open_ovf. cbn [is_nil rbind]. unfold descriptor. rewrite DT. cbn [rbind].
    change (str_eqb (L ".ovf") (L ".ova") || str_eqb (L ".ovf") (L ".box")) with false. cbv iota. cbn [rbind]. rewrite RD', PA, (proj2 (str_eqb_eq _ _) eq_refl), CC, OE'. reflexivity.
  Qed.

  Lemma saved_ova : forall W B, kind_of output (L ".ova") -> wd = path_of W -> stem_of output B -> W <> [] -> (forall c, In c W -> proper c) -> ~ In NL B ->
    packable w W (B ++ L ".ovf") (B ++ L ".mf") (names_in (o_version o) (o_references o)) (o_files o) data ->
    exists o2, factory E digest parse w' (path_of (d ++ [u])) output [] = Ok o2 /\ same_package E w w' o o2.
  Proof.
    intros W B KO Ew SO WN WP NB PK. pose proof (kind_unique _ _ KO) as DT.
    unfold write in WR. destruct output as [|x0 xs] eqn:EO; [exfalso; clear -SO; destruct SO as (dir & e & H & _); destruct dir, B; discriminate|]. rewrite <- EO in *. clear x0 xs EO.
    destruct (prepare E capacity fuel w o) as [[[env refs] l]|e] eqn:P; [|discriminate].
    rewrite DT in WR. change (str_eqb (L ".ova") (L ".ova")) with true in WR. cbv iota in WR.
    destruct (names_kept E w capacity fuel o data env refs l K (p_data _ _ _ _ _ _ _ PK) (p_refs _ _ _ _ _ _ _ PK) (p_all _ _ _ _ _ _ _ PK) CAP UNITS P) as [NK LK]. rewrite NK, LK, Ew in WR.
    destruct (write_ova (digest (checksum_algorithm v)) w (path_of W) input same output (manifest_algorithm v) (print (xml_reindent env 0)) (names_in v (o_references o)) (o_files o)) as [a|e] eqn:WO.
    2:{ unfold v in WO. rewrite WO in WR. discriminate. }
    pose proof WO as WO'. unfold v in WO'. rewrite WO' in WR. injection WR as WR.
    assert (TW : w_tars w' (normpath output) = Some a) by (rewrite <- WR; cbn [put_tar w_tars]; now rewrite (proj2 (str_eqb_eq _ _) eq_refl)).
    destruct (C47_reopened _ _ _ _ _ _ _ _ _ _ _ _ _ WN WP SO NB PK (hash_name _) (HEX _) WO w' (normpath output) d u PROPER TW) as (p & UT & _ & LD1).
    set (xml := print (xml_reindent env 0)) in *.
    assert (LD' : forall elems, map fst elems = names_in v (o_references o) -> (forall h s, In (h, Some s) elems -> py_int s = Some (Z.of_nat (length (data h)))) ->
      exists refs', load_files (digest (checksum_algorithm v)) (put w' p xml) (Tar (normpath output)) p elems = Ok (refs', []) /\
        map fst refs' = names_in v (o_references o) /\ forall h r, In (h, r) refs' -> content w' r = Some (data h)).
    { intros elems H1 H2. rewrite (load_tar _ (put w' p xml) w'); [|reflexivity]. now apply LD1. }
    destruct (XML env refs l P) as (root & PA & SC).
    assert (SC' : same_content env root) by exact (same_trans _ _ _ (C22_reindent_content env 0) SC).
    destruct (core E digest w (put w' p xml) w' capacity fuel o data (Tar (normpath output)) p env refs root l K HR (p_data _ _ _ _ _ _ _ PK) (p_refs _ _ _ _ _ _ _ PK) (p_all _ _ _ _ _ _ _ PK) CAP UNITS P SC' LD') as (o2 & OE & SP).
    exists o2. split; [|exact SP].
    - unfold factory. rewrite DT. unfold open_ovf. cbn [is_nil rbind]. unfold descriptor. rewrite DT. cbn [rbind].
      change (str_eqb (L ".ova") (L ".ova") || str_eqb (L ".ova") (L ".box")) with true. cbv iota. rewrite UT. cbn [rbind fst snd t_link t_data]. fold xml in PA. rewrite PA.
      assert (NE : str_eqb output p = false).
      { destruct (str_eqb output p) eqn:Eq; [|reflexivity]. apply str_eqb_eq in Eq. subst p. pose proof (untar_iff d u (w_tars w' (normpath output)) PROPER) as UI. rewrite UT in UI.
        pose proof (kind_fun _ _ _ KO (extracted_kind _ _ _ _ _ UI)) as F. discriminate F. }
      rewrite NE, OE. reflexivity.
  Qed.
End Written.

Lemma opened_consistent : forall E digest parse w d u input output o, (forall c, In c (d ++ [u]) -> proper c) -> (forall t r, parse t = Some r -> ~ In NL (etag r)) ->
  factory E digest parse w (path_of (d ++ [u])) input output = Ok o -> consistent o.
Proof.
  intros E digest parse w d u input output o PD PP F. pose proof (factory_spec E digest parse w d u input output PD PP) as S. rewrite F in S.
  destruct S as (_ & c & p & t & w' & root & _ & _ & De). destruct De as [D1 D2 D3 D4 D5 D6 D7 D8 D9 D10 D11 D12 D13 D14 D15 D16 D17 D18]. subst root.
  assert (HO : forall p t a e, only p t a e -> holds_section p t a (Some e)) by (intros q tg a e Ho; split; [exact (proj2 (only_In _ _ _ _ Ho))|now exists e]).
  assert (HM : forall p t a e, at_most p t a e -> holds_section p t a e) by (intros q tg a [e|] Ho; [now apply HO|exact Ho]).
  constructor; auto.
Qed.
Lemma box_not_written : forall E digest print capacity fuel w wd input same output o, kind_of output (L ".box") ->
  exists e, write E digest print capacity fuel w wd input same output o = (w, Err e) /\ (forall x, prepare E capacity fuel w o = Ok x -> e = ENotImplemented).
Proof.
  intros E digest print capacity fuel w wd input same output o K. pose proof (kind_unique _ _ K) as DT. unfold write. destruct output as [|x xs] eqn:EO.
  - exfalso. vm_compute in DT. discriminate DT.
  - rewrite <- EO in *. destruct (prepare E capacity fuel w o) as [[[e r] l]|e]; [|exists e; split; [reflexivity|discriminate]].
    rewrite DT. change (str_eqb (L ".box") (L ".ova")) with false. change (str_eqb (L ".box") (L ".ovf")) with false. exists ENotImplemented. split; [reflexivity|reflexivity].
Qed.
