(** Proofs about interrupted writing: that it is noticed. *)
From Coq Require Import List Ascii Bool Lia ZArith.
Import ListNotations.
From Verif Require Import PyBase PyBaseProofs PyDict PyDictProofs ManifestModel ManifestSpec ManifestProofs RawModel SelectModel ItemModel PathModel PathSpec PathProofs TarModel TarSpec TarProofs
  PsetProofs DriveModel LinkProofs SearchProofs ArchiveProofs ReopenProofs OvfWriteModel OvfWriteSpec OvfWriteProofs CrashModel CrashSpec CrashProofs CrashProofs2.
Local Open Scope nat_scope.

Theorem archive_noticed : forall digest w W input same output B algo xml hrefs refs data w',
  W <> [] -> (forall c, In c W -> proper c) -> stem_of output B -> ~ In NL B ->
  packable w W (B ++ L ".ovf") (B ++ L ".mf") hrefs refs data ->
  algorithm_name algo -> (forall d, hex_digest (digest d)) ->
  (same = false -> forall h n, ~ In (h, InTar (normpath output) n) refs) ->
  stopped w (fst (ova_steps digest w (path_of W) input same output algo xml hrefs refs)) w' ->
  w_tars w' (normpath output) = w_tars w (normpath output) \/ w_tars w' (normpath output) = None \/ w_tars w' (normpath output) = Some [] \/
  exists k, forall path elems, basename path = B ++ L ".ovf" -> map fst elems = hrefs ->
    (forall h s, In (h, Some s) elems -> py_int s = Some (Z.of_nat (length (data h)))) ->
    exists refs', load_files digest w' (Tar (normpath output)) path elems = Ok (refs', map NoSuchFile (skipn k hrefs)) /\
      map fst refs' = firstn k hrefs /\ forall h r, In (h, r) refs' -> content w' r = Some (data h).
Proof.
  intros digest w W input same output B algo xml hrefs refs data w' WN WP SO NB P HA HD Out S.
  destruct (write_ova_spec digest w W input same output B algo xml hrefs refs data WN WP SO NB P HA HD) as (text & a & EW & PK & EP).
  pose proof (ova_steps_spec digest w (path_of W) input same output algo xml hrefs refs Out) as OS. rewrite EW in OS. destruct OS as (ws & FW & ES). rewrite ES in S. cbn [fst] in S.
  apply stopped_split in S as [S|S]; [left; exact (writes_stopped_tars _ _ _ _ FW S)|].
  destruct (stopped_pack (paths_of output input same) a _ _ (normpath output) (or_introl eq_refl) S) as [E|[E|(j & E)]].
  - left. rewrite E. now apply writes_tars.
  - right. now left.
  - right. right. destruct j as [|j]; [left; exact E|]. right. exists (j - 1). intros path elems BP Ek Hz.
    apply (cut_short digest w' (normpath output) a j path B xml text hrefs data algo (stem_of_stem _ _ SO) BP PK (p_files _ _ _ _ _ _ _ P)); [|exact EP|exact E|exact Ek|exact Hz].
    intros h Hh. destruct (p_names _ _ _ _ _ _ _ P h Hh) as (A & _ & C). now split.
Qed.

(** ** Files beside a descriptor *)
Lemma stopped_value : forall es w w' q, stopped w es w' ->
  w_files w' q = w_files w q \/ exists p d n, In (Write p d) es /\ q = place p /\ w_files w' q = Some (firstn n d).
Proof.
  assert (PV : forall es w q, w_files (perform w es) q = w_files w q \/ exists p d, In (Write p d) es /\ q = place p /\ w_files (perform w es) q = Some d).
  { induction es as [|e es IH]; intros w q; [now left|]. change (perform w (e :: es)) with (perform (apply w e) es). destruct (IH (apply w e) q) as [E|(p & d & H & Q & E)].
    - rewrite E. destruct e as [p d|ts|ts m]; [|now left|now left]. cbn [apply]. destruct (place_dec q (place p)) as [->|N].
      + right. exists p, d. split; [now left|]. split; [reflexivity|]. apply put_same.
      + left. now apply put_other.
    - right. exists p, d. split; [now right|]. now split. }
  intros es w w' q (b & a & -> & [->|(e & r & -> & A)]).
  - destruct (PV b w q) as [E|(p & d & H & Q & E)]; [now left|]. right. exists p, d, (length d). split; [apply in_or_app; now left|]. split; [exact Q|]. now rewrite firstn_all.
  - destruct A as [p d n|ts m].
    + destruct (place_dec q (place p)) as [->|N].
      * right. exists p, d, n. split; [apply in_or_app; right; now left|]. split; [reflexivity|]. apply put_same.
      * rewrite put_other by exact N. destruct (PV b w q) as [E|(p' & d' & H & Q & E)]; [now left|]. right. exists p', d', (length d'). split; [apply in_or_app; now left|]. split; [exact Q|]. now rewrite firstn_all.
    + cbn [w_files]. destruct (PV b w q) as [E|(p' & d' & H & Q & E)]; [now left|]. right. exists p', d', (length d'). split; [apply in_or_app; now left|]. split; [exact Q|]. now rewrite firstn_all.
Qed.

Section Copying.
  Variables (W : list str) (data : str -> str).
  Hypothesis WN : W <> [].
  Hypothesis WP : forall c, In c W -> proper c.

  Lemma copy_step_write : forall w h r refs l e, fit W data w ((h, r) :: refs) -> plain_name h l -> In e (fst (copy_step w (path_of W) r)) ->
    exists p, e = Write p (data h) /\ place p = W ++ l.
  Proof.
    intros w h r refs l e F PL H. pose proof (OvfWriteProofs.f_data _ _ _ _ F h r (or_introl eq_refl)) as D. unfold copy_step in H. destruct r as [d n|t n].
    - destruct (OvfWriteProofs.f_disk _ _ _ _ F h d n (or_introl eq_refl)) as (-> & C & _). destruct (str_eqb _ _) eqn:E; [destruct H|].
      destruct C as [C|[NS C]]; [rewrite C, (proj2 (str_eqb_eq _ _) eq_refl) in E; discriminate E|]. rewrite D in H. cbv zeta in H. rewrite (basename_join d h NS) in H.
      destruct (strs_eqb _ _); [destruct H|]. destruct H as [<-|[]]. eexists. split; [reflexivity|]. rewrite (join_place W h WN WP).
      exact (proj2 (normal_follow h h l W PL (plain_normpath _ _ PL))).
    - pose proof (OvfWriteProofs.f_tar _ _ _ _ F h t n (or_introl eq_refl)) as EN. cbn [content] in D. destruct (w_tars w t) as [a|]; [|destruct H].
      destruct (getmember a n) as [m|]; [|destruct H]. cbn [option_map] in D. injection D as D. destruct H as [<-|[]]. eexists. rewrite <- D. split; [reflexivity|].
      rewrite (join_place W n WN WP). exact (proj2 (normal_follow n h l W PL EN)).
  Qed.
  Lemma copy_steps_write : forall refs w e, fit W data w refs -> In e (fst (copy_steps w (path_of W) refs)) ->
    exists h r l p, In (h, r) refs /\ plain_name h l /\ e = Write p (data h) /\ place p = W ++ l.
  Proof.
    induction refs as [|[h r] refs IH]; intros w e F H; [destruct H|]. cbn [copy_steps] in H.
    destruct (OvfWriteProofs.f_plain _ _ _ _ F h r (or_introl eq_refl)) as (l & PL). apply In_andthen in H as [H|(u & _ & H)].
    - destruct (copy_step_write w h r refs l e F PL H) as (p & -> & PP). exists h, r, l, p. split; [now left|]. now split.
    - destruct (copy_one W data WN WP w h r refs l F PL) as (w1 & E & T1 & P1 & Q1). pose proof (copy_step_spec w (path_of W) r) as CS. rewrite E in CS. destruct CS as [_ CS]. rewrite CS in H.
      pose proof (f_refs _ _ _ _ F) as ND. cbn [map fst] in ND. apply NoDup_cons_iff in ND as [N1 N2].
      assert (NE : forall h' r', In (h', r') refs -> h' <> h) by (intros h' r' I ->; apply N1, in_map_iff; now exists (h, r')).
      destruct (IH w1 e) as (h' & r' & l' & p & Hr & R).
      { constructor; [exact N2 | | | | ].
        - intros h' r' I. exact (OvfWriteProofs.f_plain _ _ _ _ F h' r' (or_intror I)).
        - intros h' r' I. rewrite <- (OvfWriteProofs.f_data _ _ _ _ F h' r' (or_intror I)). destruct r' as [d n | t n]; cbn [content].
          + unfold read. apply Q1. destruct (OvfWriteProofs.f_disk _ _ _ _ F h' d n (or_intror I)) as (_ & _ & X).
            apply (X h r l (or_introl eq_refl)); [ | exact PL]. intros <-. now apply (NE h (OnDisk d n) I).
          + now rewrite T1.
        - intros h' d n I. destruct (OvfWriteProofs.f_disk _ _ _ _ F h' d n (or_intror I)) as (A & B & C). split; [exact A | ]. split; [exact B | ].
          intros h2 r2 l2 I2. exact (C h2 r2 l2 (or_intror I2)).
        - intros h' t n I. exact (OvfWriteProofs.f_tar _ _ _ _ F h' t n (or_intror I)). }
      { exact H. }
      exists h', r', l', p. split; [now right|exact R].
  Qed.
End Copying.

Lemma load_each_parts : forall digest w W entries data files,
  W <> [] -> (forall c, In c W -> proper c) ->
  (forall h s, In (h, s) files -> exists t l, s = Some t /\ py_int t = Some (Z.of_nat (length (data h))) /\ plain_name h l /\
     (w_files w (W ++ l) = None \/ exists n, w_files w (W ++ l) = Some (firstn n (data h)))) ->
  exists refs cs, load_each digest w (Dir (path_of W)) entries files = Ok (refs, cs) /\
    forall h, In h (map fst files) -> In (NoSuchFile h) cs \/ In (BadSize h) cs \/ exists r, In (h, r) refs /\ content w r = Some (data h).
Proof.
  intros digest w W entries data files WN WP. induction files as [|[h s] files IH]; intros H; [exists [], []; split; [reflexivity|intros h []]|].
  destruct IH as (refs & cs & E & R); [intros h' s' Hh; apply H; now right|]. destruct (H h s (or_introl eq_refl)) as (t & l & -> & Ht & PL & V).
  cbn [load_each]. assert (PP : read w (path_join (path_of W) h) = w_files w (W ++ l)).
  { unfold read. rewrite (join_place W h WN WP). now rewrite (proj2 (normal_follow h h l W PL (plain_normpath _ _ PL))). }
  unfold create. rewrite (plain_normpath h l PL). cbn [rbind content]. rewrite PP. destruct V as [V|(n & V)]; rewrite V.
  - cbn [is_environment_error]. rewrite E. cbn [rbind fst snd]. exists refs, (NoSuchFile h :: cs). split; [reflexivity|]. intros x [<-|Hx]; [left; now left|].
    destruct (R x Hx) as [Q|[Q|Q]]; [left; now right|right; left; now right|right; now right].
  - rewrite Ht. cbn [rbind]. rewrite E. cbn [rbind fst snd]. eexists _, _. split; [reflexivity|]. intros x [<-|Hx].
    + destruct (Z.eqb (Z.of_nat (length (firstn n (data h)))) (Z.of_nat (length (data h)))) eqn:Z.
      * right. right. exists (OnDisk (path_of W) h). split; [now left|]. cbn [content]. rewrite PP, V. f_equal. apply Z.eqb_eq in Z. apply Nat2Z.inj in Z. rewrite firstn_length in Z. apply firstn_all2. exact (proj1 (Nat.min_r_iff _ _) Z).
      * right. left. apply in_or_app. left. apply in_or_app. right. now left.
    + destruct (R x Hx) as [Q|[Q|(r & Q1 & Q2)]]; [left; apply in_or_app; now right|right; left; apply in_or_app; now right|]. right. right. exists r. split; [now right|exact Q2].
Qed.

Theorem directory_noticed : forall digest w W B algo xml hrefs refs data w' elems,
  W <> [] -> (forall c, In c W -> proper c) -> stem B ->
  copyable w W (B ++ L ".ovf") (B ++ L ".mf") hrefs refs data ->
  (forall h l, In h hrefs -> plain_name h l -> w_files w (W ++ l) = None \/ w_files w (W ++ l) = Some (data h)) ->
  stopped w (fst (ovf_steps digest w (path_of (W ++ [B ++ L ".ovf"])) algo xml hrefs refs)) w' ->
  read w' (path_of (W ++ [B ++ L ".ovf"])) = Some xml ->
  map fst elems = hrefs -> (forall h s, In (h, s) elems -> exists t, s = Some t /\ py_int t = Some (Z.of_nat (length (data h)))) ->
  exists refs' cs, load_files digest w' (Dir (path_of W)) (path_of (W ++ [B ++ L ".ovf"])) elems = Ok (refs', cs) /\
    forall h, In h hrefs -> In (NoSuchFile h) cs \/ In (BadSize h) cs \/ exists r, In (h, r) refs' /\ content w' r = Some (data h).
Proof.
  intros digest w W B algo xml hrefs refs data w' elems WN WP SB P Fresh S RX Ek Hz.
  pose proof (stem_proper B _ SB no_slash_ovf) as PD. pose proof (stem_proper B _ SB no_slash_mf) as PM.
  pose proof (root_path W B SB) as RP. pose proof (root_plain B SB) as RB.
  assert (EM : path_of (W ++ [B]) ++ L ".mf" = path_of (W ++ [B ++ L ".mf"])) by (rewrite !path_of_snoc; now rewrite <- !app_assoc).
  pose proof (place_snoc W _ WP PD) as PLD. pose proof (place_snoc W _ WP PM) as PLM.
  change (list ascii) with str in *. set (D := (B ++ L ".ovf") : str) in *. set (M := (B ++ L ".mf") : str) in *.
  assert (WD : forall c, In c (W ++ [D]) -> proper c) by (intros c I; apply in_app_or in I as [I | [<- | []]]; [now apply WP|exact PD]).
  assert (NL0 : W ++ [D] <> []) by (intros E; now apply app_eq_nil in E as [E _]).
  set (f := path_of (W ++ [D])) in *.
  assert (Fit : fit W data (put w f xml) refs).
  { constructor.
    - exact (c_refs _ _ _ _ _ _ _ P).
    - intros h r Hr. apply (c_names _ _ _ _ _ _ _ P). apply (c_all _ _ _ _ _ _ _ P). apply in_map_iff. now exists (h, r).
    - intros h r Hr. rewrite <- (c_data _ _ _ _ _ _ _ P h r Hr). destruct r as [d n|t n]; [|reflexivity]. cbn [content]. unfold read. apply put_other. rewrite PLD.
      now destruct (c_disk _ _ _ _ _ _ _ P h d n Hr) as (_ & _ & N & _).
    - intros h d n Hr. destruct (c_disk _ _ _ _ _ _ _ P h d n Hr) as (A & C & _ & _ & X). split; [exact A|]. now split.
    - exact (c_tar _ _ _ _ _ _ _ P). }
  (* what is written to the place of a file is its data *)
  assert (Only : forall h l p d, In h hrefs -> plain_name h l -> In (Write p d) (fst (ovf_steps digest w f algo xml hrefs refs)) -> W ++ l = place p -> d = data h).
  { intros h l p d Hh PL Hw EP. destruct (c_names _ _ _ _ _ _ _ P h Hh) as (_ & _ & N1 & N2). unfold ovf_steps in Hw. apply In_andthen in Hw as [[E|[]]|(u & _ & Hw)].
    - injection E as <- _. rewrite PLD in EP. apply app_inv_head in EP. subst l. elim N1. exact (plain_same h D _ PL (plain_one _ PD)).
    - apply In_andthen in Hw as [Hw|(u' & _ & Hw)].
      + cbn [fst] in Hw. change (perform w [Write f xml]) with (put w f xml) in Hw. unfold f at 2 in Hw. rewrite (norm_path_of _ NL0 WD) in Hw. rewrite (dirname_path W D WN WP (proj2 (proj2 (proj2 PD)))) in Hw.
        destruct (copy_steps_write W data WN WP refs _ _ Fit Hw) as (h' & r' & l' & p' & Hr & PL' & E & PP). injection E as -> ->. rewrite PP in EP. apply app_inv_head in EP. subst l'.
        f_equal. exact (plain_same h' h l PL' PL).
      + apply manifest_effects in Hw as (x & E). injection E as -> _. rewrite RP in EP. pose proof (eq_trans EP (eq_trans (f_equal place EM) PLM)) as EP2. clear EP. rename EP2 into EP. apply app_inv_head in EP. subst l. elim N2. exact (plain_same h M _ PL (plain_one _ PM)). }
  assert (Val : forall h l, In h hrefs -> plain_name h l -> w_files w' (W ++ l) = None \/ exists n, w_files w' (W ++ l) = Some (firstn n (data h))).
  { intros h l Hh PL. destruct (stopped_value _ _ _ (W ++ l) S) as [E|(p & d & n & Hw & EP & E)].
    - rewrite E. destruct (Fresh h l Hh PL) as [Q|Q]; [now left|right]. exists (length (data h)). now rewrite firstn_all.
    - right. exists n. rewrite E. do 2 f_equal. exact (Only h l p d Hh PL Hw EP). }
  unfold load_files. rewrite (fold_fresh _ elems []) by (cbn [map app]; rewrite Ek; exact (c_files _ _ _ _ _ _ _ P)). cbn [app].
  unfold f. rewrite (basename_path W D (proj2 (proj2 (proj2 PD)))). fold f.
  set (me := match create digest w' (Dir (path_of W)) (splitext_root D ++ L ".mf") None None with Ok (r, _) => _ | Err e => _ end).
  assert (ME : exists entries, me = Ok entries).
  { unfold me, create. cbn [rbind]. destruct (content w' (OnDisk (path_of W) (normpath (splitext_root D ++ L ".mf")))) as [x|] eqn:C.
    - cbn [rbind app]. rewrite C. eexists. reflexivity.
    - cbn [is_environment_error]. now exists []. }
  destruct ME as (entries & ->). cbn [rbind].
  assert (CD : exists cs, create digest w' (Dir (path_of W)) D (option_map snd (dget str_eqb D entries)) None = Ok (OnDisk (path_of W) D, cs)).
  { unfold create. rewrite (plain_normpath D _ (plain_one D PD)). cbn [rbind content]. rewrite (join_snoc W D WN WP PD). fold f. rewrite RX. eexists. reflexivity. }
  destruct CD as (c2 & ->). cbn [rbind].
  destruct (load_each_parts digest w' W entries data elems WN WP) as (refs' & cs & E & R).
  { intros h s Hs. destruct (Hz h s Hs) as (t & -> & Ht). assert (Hh : In h hrefs) by (rewrite <- Ek; apply in_map_iff; now exists (h, Some t)).
    destruct (c_names _ _ _ _ _ _ _ P h Hh) as ((l & PL) & _). exists t, l. split; [reflexivity|]. split; [exact Ht|]. split; [exact PL|]. now apply Val. }
  rewrite E. cbn [rbind fst snd]. eexists _, _. split; [reflexivity|]. intros h Hh. rewrite <- Ek in Hh.
  destruct (R h Hh) as [Q|[Q|Q]]; [left|right; left|right; right; exact Q]; apply in_or_app; right; apply in_or_app; now right.
Qed.
