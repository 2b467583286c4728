(** The system types of the virtual hardware. *)
From Coq Require Import Lia.
From Verif Require Import PyBase PyBaseProofs PyDict PyDictProofs ValidationModel ValidationSpec PlatformModel XmlModel XmlSpec
  XmlProofs NamesModel ItemModel HardwareModel ProfileModel ProfileSpec ProfileProofs ProfileDocProofs NetworkModel WildListModel EditHwModel EditHwSpec
  EditHwRunProofs.

Lemma findall_with : forall t e, findall t e = filter (child_match t []) (echildren e).
Proof. intros t e. exact (with_tag_match t e). Qed.

(** The text set with [set_or_make_child] is found again. *)
Lemma findtext_set : forall e tag text ord r, set_or_make_child e tag (Some text) [] ord = Ok r ->
  findtext tag (fst r) = text /\ etag (fst r) = etag e.
Proof.
  intros e tag text ord [e' c] H. pose proof (set_or_make_child_spec e tag (Some text) [] ord (NoDup_nil _)) as S.
  rewrite H in S. destruct S as ((T & _) & _ & Tx & Fc & _). cbn [fst]. split; [|now symmetry].
  unfold findtext. rewrite findall_with, (found_one _ _ _ Fc), (Tx text eq_refl). reflexivity.
Qed.

Lemma update_first_filter : forall t f cs c r, filter (fun c => str_eqb (etag c) t) cs = c :: r -> etag (f c) = t ->
  filter (fun c => str_eqb (etag c) t) (update_first (fun c => str_eqb (etag c) t) f cs) = f c :: r /\
  forall u, u <> t -> filter (fun c => str_eqb (etag c) u) (update_first (fun c => str_eqb (etag c) t) f cs) = filter (fun c => str_eqb (etag c) u) cs.
Proof.
  intros t f. induction cs as [|x cs IH]; intros c r H Hf; cbn [filter update_first] in *; [discriminate|].
  destruct (str_eqb (etag x) t) eqn:Ex.
  - injection H as -> Hr. cbn [filter]. rewrite (proj2 (str_eqb_eq _ _) Hf). split; [now f_equal|].
    intros u Hu. apply str_eqb_eq in Ex.
    assert (F1 : str_eqb (etag (f c)) u = false) by (apply str_eqb_neq; congruence).
    assert (F2 : str_eqb (etag c) u = false) by (apply str_eqb_neq; congruence). now rewrite F1, F2.
  - cbn [filter]. rewrite Ex. destruct (IH c r H Hf) as [H1 H2]. split; [exact H1|]. intros u Hu. rewrite (H2 u Hu). reflexivity.
Qed.

Lemma join_nonempty : forall l : list str, l <> [] -> (forall w, In w l -> w <> []) -> join (L " ") l <> [].
Proof.
  intros [|x [|y l]] Hl Hw; [contradiction| |]; cbn [join].
  - apply Hw. now left.
  - intros F. apply app_eq_nil in F as [F _]. apply (Hw x); [now left|exact F].
Qed.

Theorem system_types_set : forall E sec l sec', l <> [] ->
  (forall w, In w l -> w <> [] /\ ~ In " "%char w) -> set_system_types E sec l = Ok sec' ->
  system_types E sec' = Some l /\ forall t, t <> SYSTEM (e_ver E) -> findall t sec' = findall t sec.
Proof.
  intros E sec l sec' Hl Hw H. unfold set_system_types in H.
  assert (Sp : split_on " "%char (join (L " ") l) = l).
  { apply split_on_join; [exact Hl|]. intros w Hin. destruct (Hw w Hin) as [_ Hn]. apply forallb_forall. intros c Hc.
    apply Bool.negb_true_iff. destruct (Ascii.eqb c " ") eqn:Ec; [|reflexivity]. apply Ascii.eqb_eq in Ec as ->. contradiction. }
  assert (Ne : join (L " ") l <> []) by (apply join_nonempty; [exact Hl|]; intros w Hin; exact (proj1 (Hw w Hin))).
  assert (Fin : forall sys r, findall (SYSTEM (e_ver E)) sec' = sys :: r -> findtext (VIRTUAL_SYSTEM_TYPE E) sys = join (L " ") l ->
    system_types E sec' = Some l).
  { intros sys r Hs Ht. unfold system_types. rewrite Hs, Ht. destruct (join (L " ") l) as [|c t] eqn:Ej; [contradiction|]. now rewrite Sp. }
  destruct (findall (SYSTEM (e_ver E)) sec) as [|sys rest] eqn:Es.
  - step H r1 E1. step H r2 E2. step H r3 E3. injection H as <-.
    destruct (findtext_set _ _ _ _ _ E1) as [_ T1]. destruct (findtext_set _ _ _ _ _ E2) as [_ T2]. destruct (findtext_set _ _ _ _ _ E3) as [X3 T3].
    assert (T : etag (fst r3) = SYSTEM (e_ver E)) by (rewrite T3, T2, T1; reflexivity).
    destruct (add_child_spec sec (fst r3) [INFO (e_ver E); SYSTEM (e_ver E); ITEM (e_ver E)]) as (_ & pre & post & C1 & C2 & _).
    unfold findall in *. rewrite C1, filter_app in Es. apply app_eq_nil in Es as [Es1 Es2]. split.
    + apply (Fin (fst r3) []); [|exact X3]. rewrite C2, filter_app, Es1. cbn [filter app]. rewrite (proj2 (str_eqb_eq _ _) T), Es2. reflexivity.
    + intros t Ht. rewrite C2, C1, !filter_app. cbn [filter].
      assert (Fq : str_eqb (etag (fst r3)) t = false) by (apply str_eqb_neq; congruence). now rewrite Fq.
  - step H r Er. injection H as <-. destruct (findtext_set _ _ _ _ _ Er) as [X T].
    assert (Ts : etag sys = SYSTEM (e_ver E)).
    { assert (I : In sys (findall (SYSTEM (e_ver E)) sec)) by (rewrite Es; now left). apply filter_In in I as [_ I]. now apply str_eqb_eq. }
    destruct (update_first_filter (SYSTEM (e_ver E)) (fun _ => fst r) (echildren sec) sys rest Es) as [H1 H2]; [congruence|].
    assert (C : forall cs, echildren (set_children cs sec) = cs) by (intros cs; destruct sec; reflexivity).
    unfold findall in *. rewrite C. split; [|exact H2]. apply (Fin (fst r) rest); [rewrite C; exact H1|exact X].
Qed.
