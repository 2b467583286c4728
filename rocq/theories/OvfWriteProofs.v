(** Proofs about packages on the disk. *)
From Coq Require Import List Ascii ZArith Lia Bool.
Import ListNotations.
From Verif Require Import PyBase PyBaseProofs PyDict PyDictProofs ManifestModel ManifestSpec ManifestProofs RawModel SelectModel ItemModel PsetProofs PathModel PathSpec PathProofs
  TarModel TarSpec TarProofs ArchiveProofs ReopenProofs OvfWriteModel OvfWriteSpec.
From Verif Require DeployProofs.
Local Open Scope nat_scope.

(** ** Paths *)
Lemma first_slashes_path : forall W, W <> [] -> (forall c, In c W -> proper c) -> first_slashes (path_of W) = L "/".
Proof.
  intros [ | c W] N P; [contradiction | ]. destruct (P c (or_introl eq_refl)) as (NE & _ & _ & NS). destruct c as [ | x c]; [contradiction | ].
  assert (X : Ascii.eqb "/"%char x = false). { destruct (Ascii.eqb_spec "/"%char x) as [<- | _]; [ | reflexivity]. elim NS. now left. }
  unfold first_slashes. change (path_of ((x :: c) :: W)) with ("/"%char :: x :: c ++ path_of W). cbn [starts_with L String.list_ascii_of_string]. rewrite X. now rewrite !andb_false_r.
Qed.
Lemma norm_path_of : forall W, W <> [] -> (forall c, In c W -> proper c) -> normpath (path_of W) = path_of W.
Proof.
  intros W N P. rewrite normpath_abs by now apply path_of_slash.
  rewrite (first_slashes_path W N P), (place_path_of W P). symmetry. now apply path_of_join.
Qed.
Lemma rstrip_snoc : forall s, rstrip_slashes (s ++ ["/"%char]) = rstrip_slashes s.
Proof. intros s. unfold rstrip_slashes. rewrite rev_app_distr. reflexivity. Qed.
Lemma rstrip_none : forall s c, c <> "/"%char -> rstrip_slashes (s ++ [c]) = s ++ [c].
Proof.
  intros s c H. unfold rstrip_slashes. rewrite rev_app_distr. cbn [rev app lstrip_slashes].
  destruct (Ascii.eqb_spec c "/"%char); [contradiction | ]. cbn [rev]. now rewrite rev_involutive.
Qed.
Lemma dirname_path : forall (W : list str) (c : str), W <> [] -> (forall x, In x W -> proper x) -> ~ In "/"%char c -> dirname (path_of (W ++ [c])) = path_of W.
Proof.
  intros W c N P NS. unfold dirname. rewrite (basename_path W c NS).
  assert (E : path_of (W ++ [c]) = (path_of W ++ ["/"%char]) ++ c) by (rewrite path_of_snoc; change (L "/") with ["/"%char]; now rewrite app_assoc).
  rewrite E, firstn_root, rstrip_snoc.
  destruct (exists_last N) as (W' & x & ->). assert (Px : proper x) by (apply P, in_or_app; right; now left).
  destruct (exists_last (proj1 Px)) as (x' & y & ->). 
  assert (Y : y <> "/"%char). { intros ->. destruct Px as (_ & _ & _ & Q). apply Q, in_or_app. right. now left. }
  rewrite path_of_snoc. rewrite !app_assoc. rewrite (rstrip_none _ _ Y). now destruct ((path_of W' ++ L "/") ++ x').
Qed.
Lemma basename_join : forall d h : str, ~ In "/"%char h -> basename (path_join d h) = h.
Proof.
  intros d h NS. unfold path_join. destruct (starts_with (L "/") h) eqn:S.
  - apply starts_slash in S as (t & ->). elim NS. now left.
  - destruct d as [ | x d]; [now apply basename_plain | ]. destruct (ends_with (L "/") (x :: d)) eqn:E.
    + apply basename_dir; [right | exact NS]. apply ends_with_spec in E as (t & E). exists t. exact E.
    + rewrite app_assoc. apply basename_dir; [right; exists (x :: d); reflexivity | exact NS].
Qed.

(** ** Copying *)
Section Copy.
Variables (W : list str) (data : str -> str).
Hypothesis WN : W <> [].
Hypothesis WP : forall c, In c W -> proper c.
Let dest := path_of W.

Record fit (w : world) (refs : list (str * ref)) : Prop := {
  f_refs : NoDup (map fst refs);
  f_plain : forall h r, In (h, r) refs -> exists l, plain_name h l;
  f_data : forall h r, In (h, r) refs -> content w r = Some (data h);
  f_disk : forall h d n, In (h, OnDisk d n) refs -> n = h
    /\ (path_join d n = path_join dest n \/ (~ In "/"%char h /\ place (path_join d n) <> W ++ [h]))
    /\ forall h' r' l, In (h', r') refs -> h' <> h -> plain_name h' l -> place (path_join d n) <> W ++ l;
  f_tar : forall h t n, In (h, InTar t n) refs -> normpath n = h }.

Lemma copy_one : forall w h r refs l, fit w ((h, r) :: refs) -> plain_name h l ->
  exists w', copy_to w dest r = Ok w' /\ (forall t, w_tars w' t = w_tars w t) /\ w_files w' (W ++ l) = Some (data h)
    /\ forall q, q <> W ++ l -> w_files w' q = w_files w q.
Proof.
  intros w h r refs l F PL. pose proof (f_data _ _ F h r (or_introl eq_refl)) as D. destruct r as [d n | t n].
  - destruct (f_disk _ _ F h d n (or_introl eq_refl)) as (-> & C & _). unfold copy_to.
    destruct (str_eqb (path_join d h) (path_join dest h)) eqn:E.
    + apply str_eqb_eq in E. exists w. split; [reflexivity | ]. split; [reflexivity | ]. split; [ | reflexivity].
      cbn [content] in D. unfold read in D. rewrite E in D. unfold dest in D. rewrite (join_place W h WN WP) in D.
      destruct (normal_follow h h l W PL (plain_normpath _ _ PL)) as [_ FW]. now rewrite FW in D.
    + destruct C as [C | [NS C]]; [rewrite C, (proj2 (str_eqb_eq _ _) eq_refl) in E; discriminate E | ].
      rewrite D. cbv zeta. rewrite (basename_join d h NS).
      destruct (normal_follow h h l W PL (plain_normpath _ _ PL)) as [_ FW].
      assert (T : place (path_join dest h) = W ++ l) by (unfold dest; now rewrite (join_place W h WN WP)).
      assert (LH : l = [h]). { pose proof (plain_split _ _ PL) as S. rewrite (split_plain h NS) in S. now symmetry. }
      destruct (strs_eqb (place (path_join d h)) (place (path_join dest h))) eqn:E2.
      { apply strs_eqb_eq in E2. rewrite T, LH in E2. contradiction. }
      eexists. split; [reflexivity | ]. split; [reflexivity | ]. rewrite <- T. split; [apply put_same | ].
      intros q Q. now apply put_other.
  - pose proof (f_tar _ _ F h t n (or_introl eq_refl)) as EN. cbn [content] in D. unfold copy_to. destruct (w_tars w t) as [a | ]; [ | discriminate].
    destruct (getmember a n) as [m | ]; [ | discriminate]. cbn [option_map] in D. injection D as D.
    destruct (normal_follow n h l W PL EN) as [_ FW].
    assert (T : place (path_join dest n) = W ++ l) by (unfold dest; now rewrite (join_place W n WN WP)).
    eexists. split; [reflexivity | ]. split; [reflexivity | ]. rewrite <- T, <- D. split; [apply put_same | ]. intros q Q. now apply put_other.
Qed.
Lemma copy_spec : forall refs w, fit w refs -> exists w', copy_all w dest refs = (w', Ok tt) /\ (forall t, w_tars w' t = w_tars w t)
  /\ (forall h r l, In (h, r) refs -> plain_name h l -> w_files w' (W ++ l) = Some (data h))
  /\ (forall q, (forall h r l, In (h, r) refs -> plain_name h l -> q <> W ++ l) -> w_files w' q = w_files w q).
Proof.
  induction refs as [ | [h r] refs IH]; intros w F.
  - exists w. split; [reflexivity | ]. split; [reflexivity | ]. split; [contradiction | reflexivity].
  - destruct (f_plain _ _ F h r (or_introl eq_refl)) as (l & PL). destruct (copy_one w h r refs l F PL) as (w1 & E & T1 & P1 & Q1).
    pose proof (f_refs _ _ F) as ND. cbn [map fst] in ND. inversion ND as [ | ? ? N1 N2]; subst.
    assert (NE : forall h' r', In (h', r') refs -> h' <> h) by (intros h' r' I ->; apply N1, in_map_iff; now exists (h, r')).
    assert (F1 : fit w1 refs).
    { constructor; [exact N2 | | | | ].
      - intros h' r' I. exact (f_plain _ _ F h' r' (or_intror I)).
      - intros h' r' I. rewrite <- (f_data _ _ F h' r' (or_intror I)). destruct r' as [d n | t n]; cbn [content].
        + unfold read. apply Q1. destruct (f_disk _ _ F h' d n (or_intror I)) as (_ & _ & X).
          apply (X h r l (or_introl eq_refl)); [ | exact PL]. intros <-. now apply (NE h (OnDisk d n) I).
        + now rewrite T1.
      - intros h' d n I. destruct (f_disk _ _ F h' d n (or_intror I)) as (A & B & C). split; [exact A | ]. split; [exact B | ].
        intros h2 r2 l2 I2. exact (C h2 r2 l2 (or_intror I2)).
      - intros h' t n I. exact (f_tar _ _ F h' t n (or_intror I)). }
    destruct (IH w1 F1) as (w2 & E2 & T2 & P2 & Q2). exists w2. cbn [copy_all]. rewrite E. split; [exact E2 | ].
    split; [intros t; now rewrite T2, T1 | ]. split.
    + intros h' r' l' [X | I] PL'.
      * injection X as -> ->. pose proof (plain_unique _ _ _ PL PL') as U. subst l'. rewrite Q2; [exact P1 | ].
        intros h2 r2 l2 I2 PL2 EQ. apply app_inv_head in EQ. subst l2. apply (NE h2 r2 I2). exact (plain_same _ _ _ PL2 PL).
      * exact (P2 h' r' l' I PL').
    + intros q NQ. rewrite Q2; [apply Q1; exact (NQ h r l (or_introl eq_refl) PL) | ].
      intros h2 r2 l2 I2 PL2. exact (NQ h2 r2 l2 (or_intror I2) PL2).
Qed.
End Copy.

(** ** Writing *)
Theorem write_ovf_spec : forall digest w W B algo xml hrefs refs data,
  W <> [] -> (forall c, In c W -> proper c) -> stem B -> ~ In NL B ->
  copyable w W (B ++ L ".ovf") (B ++ L ".mf") hrefs refs data ->
  algorithm_name algo -> (forall d, hex_digest (digest d)) ->
  exists w' text, write_ovf digest w (path_of (W ++ [B ++ L ".ovf"])) algo xml hrefs refs = (w', Ok tt)
    /\ complete w' W (B ++ L ".ovf") (B ++ L ".mf") xml text hrefs data
    /\ only_package w w' W (B ++ L ".ovf") (B ++ L ".mf") hrefs
    /\ parse_manifest text = (B ++ L ".ovf", (algo, digest xml)) :: map (fun h => (h, (algo, digest (data h)))) hrefs.
Proof.
  intros digest w W B algo xml hrefs refs data WN WP SB NB P HA HD.
  pose proof (stem_proper B _ SB no_slash_ovf) as PD. pose proof (stem_proper B _ SB no_slash_mf) as PM.
  pose proof (root_path W B SB) as RP. pose proof (stem_newline B (L ".ovf") NB no_newline_ovf (stem_nonempty B SB)) as FD.
  assert (DM : W ++ [B ++ L ".ovf"] <> W ++ [B ++ L ".mf"]).
  { intros E. apply app_inv_head in E. injection E as E. apply app_inv_head in E. discriminate E. }
  assert (EM : path_of (W ++ [B]) ++ L ".mf" = path_of (W ++ [B ++ L ".mf"])) by (rewrite !path_of_snoc; now rewrite <- !app_assoc).
  unfold write_ovf. change (list ascii) with str in *.
  set (D := (B ++ L ".ovf") : str) in *. set (M := (B ++ L ".mf") : str) in *.
  assert (WD : forall c, In c (W ++ [D]) -> proper c) by (intros c I; apply in_app_or in I as [I | [<- | []]]; auto).
  rewrite norm_path_of by (try exact WD; intros E; now apply app_eq_nil in E as [E _]).
  rewrite (dirname_path W D WN WP (proj2 (proj2 (proj2 PD)))), (basename_path W D (proj2 (proj2 (proj2 PD)))), RP, EM.
  pose proof (place_snoc W D WP PD) as PLD. pose proof (place_snoc W M WP PM) as PLM.
  set (w1 := put w (path_of (W ++ [D])) xml). cbv zeta.
  assert (INH : forall h r, In (h, r) refs -> In h hrefs) by (intros h r I; apply (c_all _ _ _ _ _ _ _ P); apply in_map_iff; now exists (h, r)).
  assert (NW : forall c h l, In h hrefs -> plain_name h l -> W ++ [c] = W ++ l -> c = h).
  { intros c h l I PL E. apply app_inv_head in E. subst l. destruct PL as (_ & _ & ->). cbn. now rewrite ?app_nil_r. }
  assert (F : fit W data w1 refs).
  { constructor.
    - exact (c_refs _ _ _ _ _ _ _ P).
    - intros h r I. exact (proj1 (c_names _ _ _ _ _ _ _ P h (INH h r I))).
    - intros h r I. rewrite <- (c_data _ _ _ _ _ _ _ P h r I). destruct r as [d n | t n]; [ | reflexivity]. cbn [content]. unfold read, w1. apply put_other.
      rewrite PLD. exact (proj1 (proj2 (proj2 (c_disk _ _ _ _ _ _ _ P h d n I)))).
    - intros h d n I. destruct (c_disk _ _ _ _ _ _ _ P h d n I) as (A & A2 & _ & _ & A3). auto.
    - exact (c_tar _ _ _ _ _ _ _ P). }
  destruct (copy_spec W data WN WP refs w1 F) as (w2 & E2 & T2 & P2 & Q2). rewrite E2.
  assert (RD : w_files w2 (W ++ [D]) = Some xml).
  { rewrite Q2.
    - pose proof (put_same w (path_of (W ++ [D])) xml) as PS. rewrite PLD in PS. exact PS.
    - intros h r l I PL E. apply (proj1 (proj2 (proj2 (c_names _ _ _ _ _ _ _ P h (INH h r I))))). symmetry. exact (NW D h l (INH h r I) PL E). }
  unfold read. rewrite PLD, RD.
  assert (C2 : forall h r, In (h, r) refs -> content w2 r = Some (data h)).
  { intros h r I. destruct (c_names _ _ _ _ _ _ _ P h (INH h r I)) as ((l & PL) & _). destruct r as [d n | t n].
    - destruct (f_disk _ _ _ _ F h d n I) as (-> & A2 & A3). cbn [content]. unfold read.
      assert (HERE : place (path_join d h) = W ++ l \/ place (path_join d h) <> W ++ l).
      { destruct (strs_eqb (place (path_join d h)) (W ++ l)) eqn:E; [left; now apply strs_eqb_eq | right].
        intros X. rewrite X in E. now rewrite (proj2 (strs_eqb_eq _ _) eq_refl) in E. }
      destruct HERE as [HERE | HERE]; [rewrite HERE; exact (P2 h _ l I PL) | ].
      rewrite Q2; [exact (f_data _ _ _ _ F h _ I) | ]. intros h' r' l' I' PL'.
      destruct (str_eqb h' h) eqn:EH.
      + apply str_eqb_eq in EH. subst h'. now rewrite (plain_unique _ _ _ PL' PL).
      + apply (A3 h' r' l' I'); [ | exact PL']. intros ->. now rewrite (proj2 (str_eqb_eq _ _) eq_refl) in EH.
    - rewrite <- (f_data _ _ _ _ F h _ I). cbn [content]. now rewrite T2. }
  assert (G : forall h, In h hrefs -> dget str_eqb h (checksums digest w2 refs) = Some (digest (data h))).
  { intros h Hh. rewrite dget_checksums. destruct (dget str_eqb h refs) as [r|] eqn:Er.
    - cbn [option_map]. now rewrite (C2 h r (dget_In str_eqb str_eqb_eq _ _ _ Er)).
    - apply (dget_None str_eqb str_eqb_eq) in Er. apply (c_all _ _ _ _ _ _ _ P) in Hh. contradiction. }
  destruct (manifest_round_trip algo D (digest xml) hrefs (checksums digest w2 refs) HA FD (HD xml)) as (text & EG & EP).
  { intros h Hh. destruct (c_names _ _ _ _ _ _ _ P h Hh) as (_ & FN & _). split; [exact FN|]. exists (digest (data h)). split; [now apply G|apply HD]. }
  { constructor; [|exact (c_files _ _ _ _ _ _ _ P)]. intros FF. now destruct (c_names _ _ _ _ _ _ _ P D FF) as (_ & _ & N & _). }
  rewrite EG. exists (put w2 (path_of (W ++ [M])) text), text. split; [reflexivity | ]. split; [ | split].
  - split; [rewrite put_other; [exact RD | now rewrite PLM] | ]. split; [pose proof (put_same w2 (path_of (W ++ [M])) text) as PS; rewrite PLM in PS; exact PS | ].
    intros h l I PL. rewrite put_other.
    + apply (c_all _ _ _ _ _ _ _ P) in I. apply in_map_iff in I as ([h' r] & X & I). cbn [fst] in X. subst h'. exact (P2 h r l I PL).
    + rewrite PLM. intros E. apply (proj2 (proj2 (proj2 (c_names _ _ _ _ _ _ _ P h I)))). symmetry. exact (NW M h l I PL (eq_sym E)).
  - split; [intros t; cbn [put w_tars]; now rewrite T2 | ]. intros q QD QM QH. rewrite put_other by now rewrite PLM. rewrite Q2.
    + unfold w1. apply put_other. now rewrite PLD.
    + intros h r l I PL. exact (QH h l (INH h r I) PL).
  - rewrite EP. f_equal. apply map_ext_in. intros h Hh. now rewrite (G h Hh).
Qed.

(** ** Opening *)
Section Open.
Variables (digest : str -> str) (w : world) (W : list str) (B xml text : str) (hrefs : list str) (data : str -> str) (algo : str).
Hypothesis WN : W <> [].
Hypothesis WP : forall c, In c W -> proper c.
Hypothesis SB : stem B.
Hypothesis C : complete w W (B ++ L ".ovf") (B ++ L ".mf") xml text hrefs data.
Hypothesis HN : NoDup hrefs.
Hypothesis HP : forall h, In h hrefs -> (exists l, plain_name h l) /\ h <> B ++ L ".ovf" /\ h <> B ++ L ".mf".
Hypothesis EP : parse_manifest text = (B ++ L ".ovf", (algo, digest xml)) :: map (fun h => (h, (algo, digest (data h)))) hrefs.

Lemma create_dir : forall h l d (sum size : option str), plain_name h l -> w_files w (W ++ l) = Some d ->
  (forall s, sum = Some s -> s = digest d) -> (forall s, size = Some s -> py_int s = Some (Z.of_nat (length d))) ->
  create digest w (Dir (path_of W)) h sum size = Ok (OnDisk (path_of W) h, []) /\ content w (OnDisk (path_of W) h) = Some d.
Proof.
  intros h l d sum size PL E HS HZ. unfold create. rewrite (plain_normpath _ _ PL). cbn [rbind].
  assert (K : content w (OnDisk (path_of W) h) = Some d).
  { cbn [content]. unfold read. rewrite (join_place W h WN WP). destruct (normal_follow h h l W PL (plain_normpath _ _ PL)) as [_ ->]. exact E. }
  rewrite K. split; [ | reflexivity].
  assert (S1 : (match sum with Some s => if str_eqb (digest d) s then [] else [BadChecksum h] | None => [] end) = []).
  { destruct sum as [s | ]; [ | reflexivity]. rewrite (HS s eq_refl), (proj2 (str_eqb_eq _ _) eq_refl). reflexivity. }
  rewrite S1. destruct size as [s | ]; [ | reflexivity]. rewrite (HZ s eq_refl), Z.eqb_refl. reflexivity.
Qed.
Lemma entries_get : forall h, In h hrefs -> dget str_eqb h (parse_manifest text) = Some (algo, digest (data h)).
Proof.
  intros h I. rewrite EP. cbn [dget]. destruct (str_eqb h (B ++ L ".ovf")) eqn:E.
  { apply str_eqb_eq in E. now elim (proj1 (proj2 (HP h I))). }
  apply (dget_Some_In str_eqb str_eqb_eq); [rewrite map_map; cbn [fst]; now rewrite map_id | ].
  apply in_map_iff. now exists h.
Qed.
Lemma load_dir : forall elems, (forall h, In h (map fst elems) -> In h hrefs) -> (forall h s, In (h, Some s) elems -> py_int s = Some (Z.of_nat (length (data h)))) ->
  exists refs, load_each digest w (Dir (path_of W)) (parse_manifest text) elems = Ok (refs, []) /\ map fst refs = map fst elems
    /\ forall h r, In (h, r) refs -> content w r = Some (data h).
Proof.
  induction elems as [ | [h size] elems IH]; intros A S.
  - exists []. split; [reflexivity | ]. split; [reflexivity | contradiction].
  - assert (I : In h hrefs) by (apply A; now left). destruct (HP h I) as ((l & PL) & _).
    destruct (create_dir h l (data h) (option_map snd (dget str_eqb h (parse_manifest text))) size PL) as [E K].
    + exact (proj2 (proj2 C) h l I PL).
    + intros s X. rewrite (entries_get h I) in X. now injection X as <-.
    + intros s ->. apply S. now left.
    + destruct IH as (refs & E2 & M2 & C2); [intros h' I'; apply A; now right | intros h' s' I'; apply S; now right | ].
      exists ((h, OnDisk (path_of W) h) :: refs). cbn [load_each]. rewrite E, E2. cbn [rbind fst snd app]. split; [reflexivity | ].
      split; [cbn [map fst]; now rewrite M2 | ]. intros h' r' [X | X]; [injection X as <- <-; exact K | exact (C2 h' r' X)].
Qed.
Theorem reopen_dir : forall elems, map fst elems = hrefs -> (forall h s, In (h, Some s) elems -> py_int s = Some (Z.of_nat (length (data h)))) ->
  exists refs, load_files digest w (Dir (path_of W)) (path_of (W ++ [B ++ L ".ovf"])) elems = Ok (refs, [])
    /\ map fst refs = hrefs /\ forall h r, In (h, r) refs -> content w r = Some (data h).
Proof.
  intros elems EE ES.
  pose proof (stem_proper B _ SB no_slash_ovf) as PD. pose proof (stem_proper B _ SB no_slash_mf) as PM.
  pose proof (basename_path W _ (proj2 (proj2 (proj2 PD)))) as BP.
  unfold load_files. match goal with |- context [basename ?p] => replace (basename p) with (B ++ L ".ovf") by (symmetry; exact BP) end. rewrite (root_plain B SB).
  destruct (create_dir (B ++ L ".mf") [B ++ L ".mf"] text None None (plain_one _ PM) (proj1 (proj2 C))) as [E1 K1]; [discriminate | discriminate | ].
  rewrite E1, K1. cbn [rbind].
  rewrite (fold_fresh _ elems []) by (cbn [map app]; now rewrite EE). cbn [app].
  assert (CMP : compare_file_lists (path_of (W ++ [B ++ L ".ovf"])) (map fst elems) (map fst (parse_manifest text)) = []).
  { unfold compare_file_lists. match goal with |- context [basename ?p] => replace (basename p) with (B ++ L ".ovf") by (symmetry; exact BP) end. rewrite EE, EP. cbn [map fst]. rewrite map_map. cbn [fst]. rewrite map_id.
    assert (X1 : forall l, (forall h, In h l -> In h hrefs) -> flat_map (fun n => if str_eqb n (B ++ L ".ovf") then [] else if mem_str n hrefs then [] else [NotInReferences n]) l = []).
    { induction l as [ | n l IHl]; intros A; [reflexivity | ]. cbn [flat_map]. rewrite IHl by (intros; apply A; now right).
      destruct (str_eqb n (B ++ L ".ovf")); [reflexivity | ]. now rewrite (proj2 (mem_str_In n hrefs) (A n (or_introl eq_refl))). }
    assert (X2 : forall l, (forall h, In h l -> In h hrefs) -> flat_map (fun n => if mem_str n ((B ++ L ".ovf") :: hrefs) then [] else [NotInManifest n]) l = []).
    { induction l as [ | n l IHl]; intros A; [reflexivity | ]. cbn [flat_map]. rewrite IHl by (intros; apply A; now right).
      assert (mem_str n ((B ++ L ".ovf") :: hrefs) = true) as -> by (apply mem_str_In; right; apply A; now left). reflexivity. }
    cbn [flat_map]. rewrite (proj2 (str_eqb_eq _ _) eq_refl). rewrite X1 by auto. rewrite X2 by auto.
    match goal with |- context [mem_str ?a ?l] => assert (mem_str a l = true) as -> by (apply mem_str_In; now left) end. reflexivity. }
  rewrite CMP.
  destruct (create_dir (B ++ L ".ovf") [B ++ L ".ovf"] xml (option_map snd (dget str_eqb (B ++ L ".ovf") (parse_manifest text))) None (plain_one _ PD) (proj1 C)) as [E2 _]; [ | discriminate | ].
  { intros s X. rewrite EP in X. cbn [dget] in X. rewrite (proj2 (str_eqb_eq _ _) eq_refl) in X. now injection X as <-. }
  rewrite E2. cbn [rbind].
  destruct (load_dir elems) as (refs & E3 & M3 & C3); [now rewrite EE | exact ES | ].
  exists refs. rewrite E3. cbn [rbind fst snd app]. split; [reflexivity | ]. split; [now rewrite M3 | exact C3].
Qed.
End Open.

(** ** Nothing else changes *)
Lemma put_change : forall w p d q, w_files (put w p d) q <> w_files w q -> q = place p.
Proof.
  intros w p d q H. destruct (strs_eqb q (place p)) eqn:E; [now apply strs_eqb_eq | ]. elim H. apply put_other.
  intros X. rewrite X, (proj2 (strs_eqb_eq _ _) eq_refl) in E. discriminate E.
Qed.
Lemma other_file : forall a b : option str, a = b \/ a <> b.
Proof.
  intros [a | ] [b | ]; [ | now right | now right | now left]. destruct (str_eqb a b) eqn:E.
  - apply str_eqb_eq in E. left. now subst.
  - right. intros X. injection X as ->. now rewrite (proj2 (str_eqb_eq _ _) eq_refl) in E.
Qed.
Lemma copy_change : forall w dest r w', copy_to w dest r = Ok w' -> (forall t, w_tars w' t = w_tars w t) /\
  forall q, w_files w' q <> w_files w q -> q = place (path_join dest (name_there r)).
Proof.
  intros w dest [d n | t n] w' H; unfold copy_to in H; cbn [name_there].
  - destruct (str_eqb _ _); [injection H as <-; split; [reflexivity | intros q N; now elim N] | ].
    destruct (content w _) as [x | ]; [ | discriminate]. cbv zeta in H. destruct (strs_eqb _ _); [discriminate | ]. injection H as <-.
    split; [reflexivity | ]. intros q. apply put_change.
  - destruct (w_tars w t) as [a | ]; [ | discriminate]. destruct (getmember a n) as [m | ]; [ | discriminate]. injection H as <-.
    split; [reflexivity | ]. intros q. apply put_change.
Qed.
Lemma copy_all_change : forall dest refs w w' e, copy_all w dest refs = (w', e) -> (forall t, w_tars w' t = w_tars w t) /\
  forall q, w_files w' q <> w_files w q -> exists h r, In (h, r) refs /\ q = place (path_join dest (name_there r)).
Proof.
  intros dest. induction refs as [ | [h r] refs IH]; intros w w' e H; cbn [copy_all] in H.
  - injection H as <- _. split; [reflexivity | intros q N; now elim N].
  - destruct (copy_to w dest r) as [w1 | x] eqn:E; [ | injection H as <- _; split; [reflexivity | intros q N; now elim N]].
    destruct (copy_change _ _ _ _ E) as [T1 C1]. destruct (IH _ _ _ H) as [T2 C2]. split; [intros t; now rewrite T2 | ].
    intros q N. destruct (other_file (w_files w' q) (w_files w1 q)) as [S | S].
    + rewrite S in N. exists h, r. split; [now left | now apply C1].
    + destruct (C2 q S) as (h' & r' & I & Q). exists h', r'. split; [now right | exact Q].
Qed.
Theorem write_confined : forall digest w output algo xml hrefs refs w' e, write_ovf digest w output algo xml hrefs refs = (w', e) ->
  (forall t, w_tars w' t = w_tars w t) /\
  forall q, w_files w' q <> w_files w q -> q = place output \/ q = place (splitext_root output ++ L ".mf")
    \/ exists h r, In (h, r) refs /\ q = place (path_join (dirname (normpath output)) (name_there r)).
Proof.
  intros digest w output algo xml hrefs refs w' e H. unfold write_ovf in H. cbv zeta in H.
  destruct (copy_all (put w output xml) (dirname (normpath output)) refs) as [w2 x] eqn:E.
  destruct (copy_all_change _ _ _ _ _ E) as [T C].
  assert (G : (forall t, w_tars w2 t = w_tars w t) /\ forall q, w_files w2 q <> w_files w q -> q = place output
    \/ exists h r, In (h, r) refs /\ q = place (path_join (dirname (normpath output)) (name_there r))).
  { split; [exact T | ]. intros q N. destruct (other_file (w_files w2 q) (w_files (put w output xml) q)) as [S | S].
    - rewrite S in N. left. exact (put_change _ _ _ _ N).
    - right. exact (C q S). }
  clear T C E. destruct G as [T C].
  assert (G : (forall t, w_tars w2 t = w_tars w t) /\
    forall q, w_files w2 q <> w_files w q -> q = place output \/ q = place (splitext_root output ++ L ".mf")
      \/ exists h r, In (h, r) refs /\ q = place (path_join (dirname (normpath output)) (name_there r))).
  { split; [exact T | ]. intros q N. destruct (C q N) as [Q | Q]; [now left | right; now right]. }
  destruct x as [u | x]; [ | injection H as <- _; exact G]. destruct (read w2 output) as [now | ]; [ | injection H as <- _; exact G].
  destruct (generate_manifest _ _ _ _ _) as [text | x]; [ | injection H as <- _; exact G]. injection H as <- _.
  split; [exact T | ]. intros q N. destruct (other_file (w_files (put w2 (splitext_root output ++ L ".mf") text) q) (w_files w2 q)) as [S | S].
  - apply (proj2 G q). intros X. apply N. rewrite <- X. exact S.
  - right. left. exact (put_change _ _ _ _ S).
Qed.

(** ** The directory of a path *)
Lemma lstrip_slashes_spec : forall s, exists a, s = a ++ lstrip_slashes s /\ (forall c, In c a -> c = "/"%char) /\ forall t, lstrip_slashes s <> "/"%char :: t.
Proof.
  induction s as [ | c s (a & E & A & N)].
  - exists []. split; [reflexivity | ]. split; [intros c [] | intros t; discriminate].
  - cbn [lstrip_slashes]. destruct (Ascii.eqb_spec c "/"%char) as [-> | H].
    + exists ("/"%char :: a). split; [cbn; now rewrite <- E | ]. split; [ | exact N]. intros c [<- | Hc]; [reflexivity | now apply A].
    + exists []. split; [reflexivity | ]. split; [intros x [] | ]. intros t F. injection F as -> _. now apply H.
Qed.
Theorem directory_spec : forall p, exists s, p = dirname p ++ s ++ basename p /\ (forall c, In c s -> c = "/"%char)
  /\ ~ In "/"%char (basename p) /\ (dirname p = [] -> s = [])
  /\ ((forall t, dirname p <> t ++ ["/"%char]) \/ (s = [] /\ forall c, In c (dirname p) -> c = "/"%char)).
Proof.
  intros p. destruct (DeployProofs.split_slash_last p) as (dir & E & _ & N). unfold dirname.
  set (b := basename p) in *. clearbody b. subst p. rewrite firstn_root.
  destruct (lstrip_slashes_spec (rev dir)) as (a & Ea & A & L0). unfold rstrip_slashes.
  assert (D : dir = rev (lstrip_slashes (rev dir)) ++ rev a).
  { rewrite <- rev_app_distr, <- Ea. symmetry. apply rev_involutive. }
  destruct (rev (lstrip_slashes (rev dir))) as [ | c d] eqn:Er.
  - exists []. split; [reflexivity | ]. split; [intros c [] | ]. split; [exact N | ]. split; [reflexivity | ]. right. split; [reflexivity | ].
    intros c Hc. apply A. rewrite D in Hc. apply in_rev. exact Hc.
  - exists (rev a). split; [rewrite D at 1; now rewrite <- app_assoc | ]. split; [intros x Hx; apply A, in_rev; exact Hx | ].
    split; [exact N | ]. split; [discriminate | ]. left. intros t F. rewrite F in Er. apply (L0 (rev t)).
    rewrite <- (rev_involutive (lstrip_slashes (rev dir))), Er, rev_app_distr. reflexivity.
Qed.

(** ** The sum of the descriptor *)
Theorem descriptor_sum : forall digest w output algo xml hrefs refs w',
  write_ovf digest w output algo xml hrefs refs = (w', Ok tt) -> place (splitext_root output ++ L ".mf") <> place output ->
  exists now rest, read w' output = Some now /\
    read w' (splitext_root output ++ L ".mf") = Some (algo ++ L "(" ++ basename output ++ L ")= " ++ digest now ++ [NL] ++ rest).
Proof.
  intros digest w output algo xml hrefs refs w' H Hp. unfold write_ovf in H. cbv zeta in H.
  destruct (copy_all _ _ _) as [w2 [u | x]]; [ | discriminate]. destruct (read w2 output) as [now | ] eqn:R; [ | discriminate].
  unfold generate_manifest in H. destruct (manifest_files _ _ _) as [tail | x]; [ | discriminate]. cbn [rbind] in H.
  assert (X : forall (a b : world), (a, @Ok unit tt) = (b, Ok tt) -> b = a) by (intros a b F; now injection F as <-).
  apply X in H as ->. exists now, tail. unfold read in *. split.
  - rewrite put_other by (intros F; apply Hp; now rewrite F). exact R.
  - rewrite put_same. unfold manifest_line. f_equal. now rewrite <- !app_assoc.
Qed.
