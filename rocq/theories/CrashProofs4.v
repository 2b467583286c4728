(** Proofs about interrupted writing: the package it was made from. *)
From Coq Require Import List Ascii Bool Lia ZArith.
Import ListNotations.
From Verif Require Import PyBase PyBaseProofs PyDict PyDictProofs ManifestModel ManifestSpec RawModel SelectModel ItemModel PathModel PathSpec PathProofs TarModel TarSpec TarProofs
  XmlModel XmlSpec NamesModel DriveModel NetworkModel EnvPropModel EditPropModel InfoModel ProductModel PlatformModel HardwareModel ProfileModel ArchiveProofs ReopenProofs OvfWriteModel OvfWriteSpec OvfWriteProofs OpenModel OpenSpec OpenNameProofs OpenProofs CrashModel CrashSpec CrashProofs.
Local Open Scope nat_scope.

Section Same.
  Variables (digest : str -> str) (w w' : world) (c : container).
  Variable ok : str -> Prop.
  Hypothesis Agree : forall n r, ok n -> (match c with Dir d => r = OnDisk d (normpath n) | Tar t => exists x, r = InTar t x end) -> content w' r = content w r.
  Hypothesis Tars : forall t, c = Tar t -> w_tars w' t = w_tars w t.
  Lemma create_same : forall n sum size, ok n -> create digest w' c n sum size = create digest w c n sum size.
  Proof.
    intros n sum size Hn. unfold create. destruct c as [d|t].
    - cbn [rbind]. now rewrite (Agree n (OnDisk d (normpath n)) Hn eq_refl).
    - rewrite (Tars t eq_refl). destruct (w_tars w t) as [a|]; [|reflexivity]. destruct (resolve a (normpath n)) as [x|]; [|reflexivity]. cbn [rbind].
      now rewrite (Agree n (InTar t x) Hn (ex_intro _ x eq_refl)).
  Qed.
  Lemma create_ref : forall n sum size r cs, create digest w c n sum size = Ok (r, cs) -> match c with Dir d => r = OnDisk d (normpath n) | Tar t => exists x, r = InTar t x end.
  Proof.
    intros n sum size r cs H. unfold create in H. destruct c as [d|t].
    - cbn [rbind] in H. destruct (content w _); [|discriminate]. match type of H with rbind ?x _ = _ => destruct x; [|discriminate] end. cbn [rbind] in H. now injection H as <- _.
    - destruct (w_tars w t) as [a|]; [|discriminate]. destruct (resolve a (normpath n)) as [x|]; [|discriminate]. cbn [rbind] in H. destruct (content w _); [|discriminate].
      match type of H with rbind ?y _ = _ => destruct y; [|discriminate] end. cbn [rbind] in H. injection H as <- _. now exists x.
  Qed.
  Lemma load_each_same : forall entries files, (forall h, In h (map fst files) -> ok h) -> load_each digest w' c entries files = load_each digest w c entries files.
  Proof.
    intros entries. induction files as [|[h s] files IH]; intros H; [reflexivity|]. cbn [load_each]. rewrite create_same by (apply H; now left).
    rewrite IH by (intros x Hx; apply H; now right). reflexivity.
  Qed.
  Lemma load_files_same : forall path elems, ok (splitext_root (basename path) ++ L ".mf") -> ok (basename path) -> (forall h, In h (map fst elems) -> ok h) ->
    load_files digest w' c path elems = load_files digest w c path elems.
  Proof.
    intros path elems OM OD OE. unfold load_files. rewrite (create_same _ None None OM).
    assert (E : forall entries, load_each digest w' c entries (fold_left (fun d e => dset str_eqb (fst e) (snd e) d) elems []) = load_each digest w c entries (fold_left (fun d e => dset str_eqb (fst e) (snd e) d) elems [])).
    { intros entries. apply load_each_same. intros h Hh.
      assert (G : forall es acc, In h (map fst (fold_left (fun d (e : str * option str) => dset str_eqb (fst e) (snd e) d) es acc)) -> In h (map fst es) \/ In h (map fst acc)).
      { induction es as [|[k v] es IH]; intros acc Hx; [now right|]. cbn [fold_left fst snd] in Hx. destruct (IH _ Hx) as [Y|Y]; [left; now right|].
        apply (dset_keys_in str_eqb str_eqb_eq) in Y as [->|Y]; [left; now left|now right]. }
      destruct (G elems [] Hh) as [X|[]]. now apply OE. }
    destruct (create digest w c (splitext_root (basename path) ++ L ".mf") None None) as [[r cs]|e] eqn:C.
    - rewrite (Agree _ r OM (create_ref _ _ _ _ _ C)). destruct (content w r); [|reflexivity]. cbn [rbind]. rewrite (create_same _ _ None OD).
      destruct (create digest w c (basename path) _ None); [|reflexivity]. cbn [rbind]. now rewrite E.
    - destruct (is_environment_error e); [|reflexivity]. cbn [rbind]. rewrite (create_same _ _ None OD).
      destruct (create digest w c (basename path) _ None); [|reflexivity]. cbn [rbind]. now rewrite E.
  Qed.
End Same.

Lemma open_envelope_same : forall E digest w w' c path root,
  (forall v refs files, required root (REFERENCES v) [] = Ok refs -> file_elems v (findall (FILE v) refs) = Ok files ->
     load_files (digest (checksum_algorithm v)) w' c path files = load_files (digest (checksum_algorithm v)) w c path files) ->
  open_envelope E digest w' c path root = open_envelope E digest w c path root.
Proof.
  intros E digest w w' c path root H. unfold open_envelope. destruct (is_envelope root); [|reflexivity]. cbn [negb].
  destruct (ovf_version root) as [v|]; [|reflexivity]. cbn [rbind].
  destruct (required root (REFERENCES v) []) as [refs|] eqn:R; [|reflexivity]. cbn [rbind].
  do 8 (match goal with |- rbind ?x _ = rbind ?x _ => destruct x; [cbn [rbind]|reflexivity] end).
  destruct (file_elems v (findall (FILE v) refs)) as [files|] eqn:F; [|reflexivity]. cbn [rbind]. now rewrite (H v refs files R F).
Qed.

Theorem archive_opens_same : forall E digest parse w w' d u input output k,
  (forall x, In x (d ++ [u]) -> proper x) -> kind_of input k -> k = L ".ova" \/ k = L ".box" ->
  (forall m p, extracted d u (w_tars w (normpath input)) m p -> t_link m = None) ->
  w_tars w' (normpath input) = w_tars w (normpath input) ->
  factory E digest parse w' (path_of (d ++ [u])) input output = factory E digest parse w (path_of (d ++ [u])) input output.
Proof.
  intros E digest parse w w' d u input output k PU K KA NLk ET. unfold factory. rewrite (kind_unique _ _ K).
  assert (OO : open_ovf E digest parse w' (path_of (d ++ [u])) input output = open_ovf E digest parse w (path_of (d ++ [u])) input output); [|now rewrite OO].
  unfold open_ovf. destruct (if is_nil output then Ok tt else do _ <- detect_type output; Ok tt); [|reflexivity]. cbn [rbind]. unfold descriptor. rewrite (kind_unique _ _ K). cbn [rbind].
  assert (KB : str_eqb k (L ".ova") || str_eqb k (L ".box") = true) by (destruct KA as [->| ->]; reflexivity). rewrite KB, ET.
  pose proof (untar_iff d u (w_tars w (normpath input)) PU) as UI. destruct (untar (path_of (d ++ [u])) (w_tars w (normpath input))) as [[m p]|e]; [|reflexivity]. cbn [rbind fst snd].
  rewrite (NLk m p UI). cbn [rbind]. destruct (parse (t_data m)) as [root|]; [|reflexivity].
  assert (IP : str_eqb input p = false).
  { destruct (str_eqb input p) eqn:Q; [|reflexivity]. apply str_eqb_eq in Q. subst p. pose proof (kind_fun _ _ _ K (extracted_kind _ _ _ _ _ UI)) as Z. subst k. destruct KA as [Z|Z]; discriminate Z. }
  rewrite IP. apply open_envelope_same. intros v refs files _ _. apply (load_files_same _ _ _ _ (fun _ => True)); try exact I; try (intros; exact I).
  - intros n r _ (x & ->). cbn [content put w_tars]. now rewrite ET.
  - intros t Et. injection Et as <-. cbn [put w_tars]. exact ET.
Qed.

Theorem directory_opens_same : forall E digest parse w w' W B output wd,
  W <> [] -> (forall c, In c W -> proper c) -> stem B ->
  (forall q, inside W q -> w_files w' q = w_files w q) ->
  (forall t root v refs h, read w (path_of (W ++ [B ++ L ".ovf"])) = Some t -> parse t = Some root -> only root (REFERENCES v) [] refs -> listed v refs h ->
     inside W (follow W (normpath h))) ->
  factory E digest parse w' wd (path_of (W ++ [B ++ L ".ovf"])) output = factory E digest parse w wd (path_of (W ++ [B ++ L ".ovf"])) output.
Proof.
  intros E digest parse w w' W B output wd WN WP SB Same Down.
  pose proof (stem_proper B _ SB no_slash_ovf) as PD. pose proof (stem_proper B _ SB no_slash_mf) as PM. pose proof (root_plain B SB) as RP.
  pose proof (place_snoc W _ WP PD) as PLD. change (list ascii) with str in *. set (D := (B ++ L ".ovf") : str) in *. set (f := path_of (W ++ [D])) in *.
  assert (WD : forall c, In c (W ++ [D]) -> proper c) by (intros c I; apply in_app_or in I as [I | [<- | []]]; [now apply WP|exact PD]).
  assert (NL0 : W ++ [D] <> []) by (intros Q; now apply app_eq_nil in Q as [Q _]).
  assert (KF : kind_of f (L ".ovf")).
  { apply (by_extension f (L "ovf")); [now left|]. unfold f. rewrite path_of_snoc. exists (path_of W ++ L "/"), B. destruct SB as [S1 S2]. split; [rewrite <- !app_assoc; reflexivity|]. split; [right; now exists (path_of W)|]. now split. }
  assert (RF : read w' f = read w f) by (unfold read; rewrite PLD; apply Same; now exists [D]).
  unfold factory. rewrite (kind_unique _ _ KF).
  assert (OO : open_ovf E digest parse w' wd f output = open_ovf E digest parse w wd f output); [|now rewrite OO].
  unfold open_ovf. destruct (if is_nil output then Ok tt else do _ <- detect_type output; Ok tt); [|reflexivity]. cbn [rbind]. unfold descriptor. rewrite (kind_unique _ _ KF). cbn [rbind].
  change (str_eqb (L ".ovf") (L ".ova") || str_eqb (L ".ovf") (L ".box")) with false. cbv iota. rewrite RF. cbn [rbind].
  destruct (read w f) as [t|] eqn:Rt; [|reflexivity]. destruct (parse t) as [root|] eqn:Pt; [|reflexivity].
  rewrite (proj2 (str_eqb_eq f f) eq_refl). apply open_envelope_same. intros v refs files Rq Fe.
  unfold f at 1 3. rewrite (norm_path_of _ NL0 WD). rewrite (dirname_path W D WN WP (proj2 (proj2 (proj2 PD)))).
  apply (load_files_same _ _ _ _ (fun n => inside W (follow W (normpath n)))).
  - intros n r Hn ->. cbn [content]. unfold read. rewrite (join_place W _ WN WP). apply Same. exact Hn.
  - intros t0 Et. discriminate.
  - unfold f. rewrite (basename_path W D (proj2 (proj2 (proj2 PD)))), RP. pose proof (plain_one _ PM) as PL. rewrite (plain_normpath _ _ PL).
    rewrite (proj2 (normal_follow _ _ _ W PL (plain_normpath _ _ PL))). eexists. reflexivity.
  - unfold f. rewrite (basename_path W D (proj2 (proj2 (proj2 PD)))). pose proof (plain_one _ PD) as PL. rewrite (plain_normpath _ _ PL).
    rewrite (proj2 (normal_follow _ _ _ W PL (plain_normpath _ _ PL))). eexists. reflexivity.
  - intros h Hh. pose proof (required_spec root (REFERENCES v) []) as RS. rewrite Rq in RS. apply (Down t root v refs h eq_refl Pt RS).
    clear -Fe Hh. unfold listed. assert (G : forall l, (forall x, In x l -> In x (echildren refs) /\ etag x = FILE v) -> forall files, file_elems v l = Ok files -> In h (map fst files) ->
      exists e, In e (echildren refs) /\ etag e = FILE v /\ get_attr e (FILE_HREF v) = Some h).
    { clear Fe Hh. induction l as [|e l IH]; intros Hl fs Fe Hh; cbn [file_elems] in Fe; [injection Fe as <-; destruct Hh|]. destruct (get_attr e (FILE_HREF v)) as [h0|] eqn:G; [|discriminate].
      destruct (file_elems v l) as [r|]; [|discriminate]. cbn [rbind] in Fe. injection Fe as <-. destruct Hh as [Q|Hh].
      - cbn [fst] in Q. subst h0. exists e. destruct (Hl e (or_introl eq_refl)) as [H1 H2]. now split.
      - apply (IH (fun x Hx => Hl x (or_intror Hx)) r eq_refl Hh). }
    apply (G (findall (FILE v) refs)) with (files := files); [|exact Fe|exact Hh]. intros x Hx. unfold findall in Hx. apply filter_In in Hx as [H1 H2]. split; [exact H1|now apply str_eqb_eq].
Qed.
