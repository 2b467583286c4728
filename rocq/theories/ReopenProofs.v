(** Proofs about archives that are written and opened again, continued. *)
From Coq Require Import Lia.
From Verif Require Import PyBase PyBaseProofs PyDict PyDictProofs ManifestModel ManifestSpec ManifestProofs RawModel SelectModel PathModel PathSpec PathProofs
  ItemModel PsetProofs DriveModel LinkProofs SearchProofs TarModel TarSpec TarProofs ArchiveProofs.
Local Open Scope nat_scope.

Lemma plain_one : forall c, proper c -> plain_name c [c].
Proof. intros c Pc. split; [discriminate|]. split; [intros x [<-|[]]; exact Pc|reflexivity]. Qed.
Lemma place_snoc : forall W c, (forall x, In x W -> proper x) -> proper c -> place (path_of (W ++ [c])) = W ++ [c].
Proof. intros W c WP Pc. apply place_path_of. intros y Hy. apply in_app_iff in Hy as [Hy|[<-|[]]]; [now apply WP|exact Pc]. Qed.
Lemma stem_of_stem : forall path B, stem_of path B -> stem B.
Proof. intros path B (dir & e & _ & _ & H & Hc & _). now split. Qed.
Lemma dget_checksums : forall digest w refs h, dget str_eqb h (checksums digest w refs) =
  option_map (fun r => match content w r with Some d => digest d | None => [] end) (dget str_eqb h refs).
Proof.
  intros digest w refs h. induction refs as [|[k r] refs IH]; [reflexivity|]. cbn [checksums map dget fst snd]. destruct (str_eqb h k); [reflexivity|exact IH].
Qed.
Lemma stem_newline : forall B e : str, ~ In NL B -> ~ In NL e -> B <> [] -> file_name_ok (B ++ e).
Proof. intros B e H He N. split; [intros E; apply app_eq_nil in E as [E _]; contradiction|]. rewrite in_app_iff. tauto. Qed.
Lemma stem_nonempty : forall B, stem B -> B <> [].
Proof. intros B [_ (c & Hc & _)] ->. destruct Hc. Qed.
Lemma no_newline_ovf : ~ In NL (L ".ovf"). Proof. vm_compute. intuition discriminate. Qed.
Lemma no_newline_mf : ~ In NL (L ".mf"). Proof. vm_compute. intuition discriminate. Qed.

Theorem write_ova_spec : forall digest w W input same output B algo xml hrefs refs data,
  W <> [] -> (forall c, In c W -> proper c) -> stem_of output B -> ~ In NL B ->
  packable w W (B ++ L ".ovf") (B ++ L ".mf") hrefs refs data ->
  algorithm_name algo -> (forall d, hex_digest (digest d)) ->
  exists text a, write_ova digest w (path_of W) input same output algo xml hrefs refs = Ok a /\
    packed (B ++ L ".ovf") (B ++ L ".mf") xml text hrefs data a /\
    parse_manifest text = (B ++ L ".ovf", (algo, digest xml)) :: map (fun h => (h, (algo, digest (data h)))) hrefs.
Proof.
  intros digest w W input same output B algo xml hrefs refs data WN WP SO NB P HA HD.
  pose proof (stem_of_stem _ _ SO) as SB. pose proof (stem_proper B _ SB no_slash_ovf) as PD. pose proof (stem_proper B _ SB no_slash_mf) as PM.
  pose proof (root_path W B SB) as RP. pose proof (stem_newline B (L ".ovf") NB no_newline_ovf (stem_nonempty B SB)) as FD.
  assert (DM : W ++ [B ++ L ".ovf"] <> W ++ [B ++ L ".mf"]).
  { intros E. apply app_inv_head in E. injection E as E. apply app_inv_head in E. discriminate E. }
  assert (EM : path_of (W ++ [B]) ++ L ".mf" = path_of (W ++ [B ++ L ".mf"])) by (rewrite !path_of_snoc; now rewrite <- !app_assoc).
  unfold write_ova. rewrite (stem_root _ _ SO). change (list ascii) with str in *.
  set (D := (B ++ L ".ovf") : str) in *. set (M := (B ++ L ".mf") : str) in *.
  rewrite (join_snoc W D WN WP PD), (basename_path W D (proj2 (proj2 (proj2 PD)))), RP, EM.
  pose proof (place_snoc W D WP PD) as PLD. pose proof (place_snoc W M WP PM) as PLM.
  set (w1 := put w (path_of (W ++ [D])) xml).
  assert (C1 : forall h r, In (h, r) refs -> content w1 r = Some (data h)).
  { intros h r Hr. rewrite <- (p_data _ _ _ _ _ _ _ P h r Hr). destruct r as [d n|t n]; [|reflexivity]. cbn [content]. unfold read, w1. apply put_other.
    rewrite PLD. exact (proj1 (proj2 (p_disk _ _ _ _ _ _ _ P h d n Hr))). }
  assert (G : forall h, In h hrefs -> dget str_eqb h (checksums digest w1 refs) = Some (digest (data h))).
  { intros h Hh. rewrite dget_checksums. destruct (dget str_eqb h refs) as [r|] eqn:Er.
    - cbn [option_map]. now rewrite (C1 h r (dget_In str_eqb str_eqb_eq _ _ _ Er)).
    - apply (dget_None str_eqb str_eqb_eq) in Er. apply (p_all _ _ _ _ _ _ _ P) in Hh. contradiction. }
  destruct (manifest_round_trip algo D (digest xml) hrefs (checksums digest w1 refs) HA FD (HD xml)) as (text & EG & EP).
  { intros h Hh. destruct (p_names _ _ _ _ _ _ _ P h Hh) as (_ & F & _). split; [exact F|]. exists (digest (data h)). split; [now apply G|apply HD]. }
  { constructor; [|exact (p_files _ _ _ _ _ _ _ P)]. intros F. now destruct (p_names _ _ _ _ _ _ _ P D F) as (_ & _ & N & _). }
  rewrite EG. cbn [rbind]. set (w2 := put w1 (path_of (W ++ [M])) text).
  destruct (tar_spec digest W data WN WP w2 input same B xml text hrefs refs SB) as (a & EA & PA).
  - constructor.
    + exact (p_refs _ _ _ _ _ _ _ P).
    + intros h r Hr. apply (p_names _ _ _ _ _ _ _ P). apply (p_all _ _ _ _ _ _ _ P). apply in_map_iff. now exists (h, r).
    + intros h r Hr. rewrite <- (C1 h r Hr). destruct r as [d n|t n]; [|reflexivity]. cbn [content]. unfold read, w2. apply put_other.
      rewrite PLM. exact (proj1 (proj2 (proj2 (p_disk _ _ _ _ _ _ _ P h d n Hr)))).
    + intros h d n Hr. destruct (p_disk _ _ _ _ _ _ _ P h d n Hr) as (E & _ & _ & H). now split.
    + exact (p_tar _ _ _ _ _ _ _ P).
  - exact (p_all _ _ _ _ _ _ _ P).
  - unfold w2. rewrite put_other by (rewrite PLM; exact DM). transitivity (w_files (put w (path_of (W ++ [D])) xml) (place (path_of (W ++ [D])))); [now rewrite PLD|apply put_same].
  - unfold w2. transitivity (w_files (put w1 (path_of (W ++ [M])) text) (place (path_of (W ++ [M])))); [now rewrite PLM|apply put_same].
  - intros h Hh. exact (proj2 (proj2 (p_names _ _ _ _ _ _ _ P h Hh))).
  - exists text, a. split; [exact EA|]. split; [exact PA|]. rewrite EP. f_equal. apply map_ext_in. intros h Hh. now rewrite (G h Hh).
Qed.

(** ** Opening it again *)
Lemma Forall2_In_r : forall (A B : Type) (R : A -> B -> Prop) l l' y, Forall2 R l l' -> In y l' -> exists x, In x l /\ R x y.
Proof. intros A B R l l' y F. induction F as [|x z l l' H F IH]; intros Hy; [destruct Hy|]. destruct Hy as [<-|Hy]; [exists x; split; [now left|exact H]|]. destruct (IH Hy) as (x' & Hx & HR). exists x'. split; [now right|exact HR]. Qed.
Lemma Forall2_In_l : forall (A B : Type) (R : A -> B -> Prop) l l' x, Forall2 R l l' -> In x l -> exists y, In y l' /\ R x y.
Proof. intros A B R l l' x F. induction F as [|x0 z l l' H F IH]; intros Hy; [destruct Hy|]. destruct Hy as [<-|Hy]; [exists z; split; [now left|exact H]|]. destruct (IH Hy) as (x' & Hx & HR). exists x'. split; [now right|exact HR]. Qed.

Lemma resolve_unique : forall (a : archive) h m, (forall x y, In x a -> In y a -> normpath (t_name x) = normpath (t_name y) -> x = y) ->
  In m a -> normpath (t_name m) = h -> normpath h = h -> exists n, resolve a h = Some n /\ getmember a n = Some m.
Proof.
  intros a h m U Hm En Eh. assert (GM : forall n, (exists x, In x a /\ t_name x = n) -> normpath n = h -> getmember a n = Some m).
  { intros n (x & Hx & Ex) Enn. destruct (getmember a n) as [m'|] eqn:E.
    - destruct (getmember_name a n m' E) as [Hm' E']. f_equal. apply U; [exact Hm'|exact Hm|]. now rewrite E', Enn.
    - unfold getmember in E. pose proof (find_none _ _ E x (proj1 (in_rev _ _) Hx)) as F. cbn in F. rewrite Ex in F. rewrite (proj2 (str_eqb_eq n n) eq_refl) in F. discriminate. }
  unfold resolve. destruct (getmember a h) as [m'|] eqn:E.
  - exists h. split; [reflexivity|]. apply GM; [|exact Eh]. destruct (getmember_name a h m' E) as [Hm' E']. now exists m'.
  - destruct (find (fun x => str_eqb (normpath (t_name x)) h) a) as [m'|] eqn:Ef.
    + apply find_some in Ef as [Hm' E']. apply str_eqb_eq in E'. exists (t_name m'). split; [reflexivity|]. apply GM; [now exists m'|exact E'].
    + exfalso. pose proof (find_none _ _ Ef m Hm) as F. cbn in F. rewrite En in F. rewrite (proj2 (str_eqb_eq h h) eq_refl) in F. discriminate.
Qed.
Lemma fold_fresh : forall (V : Type) (es : list (str * V)) acc, NoDup (map fst acc ++ map fst es) ->
  fold_left (fun d e => dset str_eqb (fst e) (snd e) d) es acc = acc ++ es.
Proof.
  intros V. induction es as [|[k v] es IH]; intros acc H; [now rewrite app_nil_r|]. cbn [fold_left fst snd].
  assert (Hk : ~ In k (map fst acc)) by (apply NoDup_remove_2 in H; rewrite in_app_iff in H; tauto).
  rewrite (dset_fresh str_eqb str_eqb_eq) by exact Hk. rewrite IH; [now rewrite <- app_assoc|]. rewrite map_app, <- app_assoc. exact H.
Qed.

Section Open.
  Variable digest : str -> str.
  Variables (w : world) (out : str) (a : archive) (data : str -> str).
  Hypothesis Ea : w_tars w out = Some a.
  Hypothesis U : forall x y, In x a -> In y a -> normpath (t_name x) = normpath (t_name y) -> x = y.

  Lemma create_ok : forall h m (sum size : option str), In m a -> normpath (t_name m) = h -> normpath h = h ->
    (forall s, sum = Some s -> s = digest (t_data m)) ->
    (forall s, size = Some s -> py_int s = Some (Z.of_nat (length (t_data m)))) ->
    exists n, create digest w (Tar out) h sum size = Ok (InTar out n, []) /\ content w (InTar out n) = Some (t_data m).
  Proof.
    intros h m sum size Hm En Eh Hs Hz. destruct (resolve_unique a h m U Hm En Eh) as (n & ER & EG). exists n.
    assert (EC : content w (InTar out n) = Some (t_data m)) by (cbn [content]; now rewrite Ea, EG). split; [|exact EC].
    unfold create. rewrite Eh, Ea, ER. cbn [rbind]. rewrite EC.
    assert ((match sum with Some s => if str_eqb (digest (t_data m)) s then [] else [BadChecksum n] | None => [] end) = []) as ->.
    { destruct sum as [s|]; [|reflexivity]. rewrite (Hs s eq_refl). now rewrite (proj2 (str_eqb_eq _ _) eq_refl). }
    destruct size as [s|]; [|reflexivity]. rewrite (Hz s eq_refl), Z.eqb_refl. reflexivity.
  Qed.
  Lemma load_each_ok : forall entries files, (forall h size, In (h, size) files -> exists m, In m a /\ normpath (t_name m) = h /\ normpath h = h /\ t_data m = data h /\
      (forall e, dget str_eqb h entries = Some e -> snd e = digest (data h)) /\ (forall s, size = Some s -> py_int s = Some (Z.of_nat (length (data h))))) ->
    exists refs, load_each digest w (Tar out) entries files = Ok (refs, []) /\ map fst refs = map fst files /\ forall h r, In (h, r) refs -> content w r = Some (data h).
  Proof.
    intros entries. induction files as [|[h size] files IH]; intros H; [exists []; split; [reflexivity|]; split; [reflexivity|intros h r []]|].
    destruct IH as (refs & E & K & C); [intros x s Hx; apply H; now right|]. destruct (H h size (or_introl eq_refl)) as (m & Hm & En & Eh & Ed & Hs & Hz).
    destruct (create_ok h m (option_map snd (dget str_eqb h entries)) size Hm En Eh) as (n & EC & CC).
    - intros s Es. destruct (dget str_eqb h entries) as [e|] eqn:Ee; [|discriminate]. injection Es as <-. rewrite Ed. now apply Hs.
    - intros s Es. rewrite Ed. now apply Hz.
    - exists ((h, InTar out n) :: refs). cbn [load_each]. rewrite EC, E. cbn [rbind fst snd app map]. split; [reflexivity|]. split; [now rewrite K|].
      intros x r [Ex|Hx]; [|now apply C]. injection Ex as <- <-. now rewrite CC, Ed.
  Qed.
End Open.

Theorem reopen_spec : forall digest w out a d wn B xml text hrefs data algo,
  (forall c, In c (d ++ [wn]) -> proper c) -> stem B ->
  packed (B ++ L ".ovf") (B ++ L ".mf") xml text hrefs data a ->
  NoDup hrefs -> (forall h, In h hrefs -> (exists l, plain_name h l) /\ h <> B ++ L ".ovf" /\ h <> B ++ L ".mf") ->
  parse_manifest text = (B ++ L ".ovf", (algo, digest xml)) :: map (fun h => (h, (algo, digest (data h)))) hrefs ->
  w_tars w out = Some a ->
  untar (path_of (d ++ [wn])) (w_tars w out) = Ok (mkMember (B ++ L ".ovf") None xml, path_of (d ++ [wn] ++ [B ++ L ".ovf"])) /\
  forall elems, map fst elems = hrefs -> (forall h s, In (h, Some s) elems -> py_int s = Some (Z.of_nat (length (data h)))) ->
    exists refs, load_files digest w (Tar out) (path_of (d ++ [wn] ++ [B ++ L ".ovf"])) elems = Ok (refs, []) /\
      map fst refs = hrefs /\ forall h r, In (h, r) refs -> content w r = Some (data h).
Proof.
  intros digest w out a d wn B xml text hrefs data algo WP SB (files & EA & F2) ND HN EP ET.
  pose proof (stem_proper B _ SB no_slash_ovf) as PD. pose proof (stem_proper B _ SB no_slash_mf) as PM. pose proof (root_plain B SB) as RP.
  assert (DM : B ++ L ".ovf" <> B ++ L ".mf") by (intros E; apply app_inv_head in E; discriminate E).
  assert (Ov : ovf_name (B ++ L ".ovf")).
  { destruct SB as [S1 S2]. exists [], B. split; [reflexivity|]. split; [now left|]. now split. }
  change (list ascii) with str in *.
  set (D := (B ++ L ".ovf") : str) in *. set (M := (B ++ L ".mf") : str) in *. rewrite (app_assoc d [wn] [D]).
  set (W := d ++ [wn]) in *. assert (WN : W <> []) by (unfold W; destruct d; discriminate).
  assert (NP : forall m, In m a -> exists h l, plain_name h l /\ normpath (t_name m) = h /\ (m = mkMember D None xml /\ h = D \/ m = mkMember M None text /\ h = M \/ In m files /\ In h hrefs /\ t_data m = data h)).
  { intros m Hm. rewrite EA in Hm. destruct Hm as [<-|[<-|Hm]].
    - exists D, [D]. pose proof (plain_one D PD) as PL. split; [exact PL|]. split; [exact (plain_normpath D [D] PL)|]. left. now split.
    - exists M, [M]. pose proof (plain_one M PM) as PL. split; [exact PL|]. split; [exact (plain_normpath M [M] PL)|]. right. left. now split.
    - destruct (Forall2_In_r _ _ _ _ _ m F2 Hm) as (h & Hh & E1 & E2). destruct (HN h Hh) as ((l & PL) & _). exists h, l. split; [exact PL|]. split; [exact E1|]. right. right. now split. }
  assert (U : forall x y, In x a -> In y a -> normpath (t_name x) = normpath (t_name y) -> x = y).
  { intros x y Hx Hy E. destruct (NP x Hx) as (h & l & PL & E1 & Cx). destruct (NP y Hy) as (h' & l' & PL' & E1' & Cy).
    assert (EH : h' = h) by congruence. rewrite EH in *. clear h' EH.
    destruct Cx as [[-> ->]|[[-> ->]|(Fx & Hh & _)]]; destruct Cy as [[-> Eh]|[[-> Eh]|(Fy & Hh' & _)]]; try reflexivity; try congruence;
      try (exfalso; destruct (HN _ Hh) as (_ & N1 & N2); congruence); try (exfalso; destruct (HN _ Hh') as (_ & N1 & N2); congruence).
    clear -F2 Fx Fy E1 E1' ND. revert ND Fx Fy. induction F2 as [|h0 m0 hs ms [H1 H2] F IH]; intros ND Fx Fy; [destruct Fx|].
    apply NoDup_cons_iff in ND as [N0 ND]. assert (NO : forall z, In z ms -> normpath (t_name z) = h0 -> False).
    { intros z Hz Ez. destruct (Forall2_In_r _ _ _ _ _ z F Hz) as (h' & Hh' & E' & _). apply N0. rewrite <- Ez, E'. exact Hh'. }
    destruct Fx as [<-|Fx]; destruct Fy as [<-|Fy]; [reflexivity| | |now apply IH].
    - exfalso. apply (NO y Fy). congruence.
    - exfalso. apply (NO x Fx). congruence. }
  assert (HD : In (mkMember D None xml) a) by (rewrite EA; now left).
  assert (HM : In (mkMember M None text) a) by (rewrite EA; right; now left).
  split.
  - rewrite ET. pose proof (untar_spec d wn a WP) as US. fold W in US. destruct (untar (path_of W) (Some a)) as [[m p]|e].
    + destruct US as ((A & R & Eq & _ & NA) & -> & _). assert (Em : m = mkMember D None xml).
      { rewrite EA in Eq. destruct A as [|x A]; cbn [app] in Eq; injection Eq as Ex _; [now symmetry|]. exfalso. apply (NA x (or_introl eq_refl)). rewrite <- Ex. exact Ov. }
      subst m. cbn [t_name]. now rewrite (join_snoc W D WN WP PD).
    + exfalso. destruct US as (_ & [E|[(x & Hx & Bad)|No]]).
      * rewrite E in EA. discriminate.
      * destruct (NP x Hx) as (h & l & PL & E1 & _). destruct (normal_follow (t_name x) h l W PL E1) as [R FW]. destruct Bad as [(t & Et & _)|Bad]; [rewrite Et in R; discriminate R|].
        apply Bad. apply inside_beside. rewrite FW. now exists l.
      * exact (No _ HD Ov).
  - intros elems Ek Hz. unfold load_files. rewrite (basename_path W D (proj2 (proj2 (proj2 PD)))), RP.
    rewrite (fold_fresh _ elems []) by (cbn [map app]; rewrite Ek; exact ND). cbn [app].
    destruct (create_ok digest w out a ET U M (mkMember M None text) None None HM (plain_normpath M _ (plain_one M PM)) (plain_normpath M _ (plain_one M PM))) as (nm & E1 & C1); [discriminate|discriminate|].
    change (B ++ L ".mf") with M. rewrite E1. rewrite C1. cbn [rbind t_data]. rewrite EP.
    set (entries := (D, (algo, digest xml)) :: map (fun h => (h, (algo, digest (data h)))) hrefs).
    assert (GE : forall h, In h hrefs -> dget str_eqb h entries = Some (algo, digest (data h))).
    { intros h Hh. apply (dget_Some_In str_eqb str_eqb_eq).
      - unfold entries. cbn [map fst]. rewrite map_map. cbn [fst]. rewrite map_id. constructor; [|exact ND]. intros F. now destruct (HN D F) as (_ & N & _).
      - right. apply in_map_iff. now exists h. }
    assert (GD : dget str_eqb D entries = Some (algo, digest xml)) by (unfold entries; cbn [dget]; now rewrite (proj2 (str_eqb_eq D D) eq_refl)).
    rewrite GD. cbn [option_map snd].
    destruct (create_ok digest w out a ET U D (mkMember D None xml) (Some (digest xml)) None HD (plain_normpath D _ (plain_one D PD)) (plain_normpath D _ (plain_one D PD))) as (nd & E2 & C2); [intros s Es; now injection Es|discriminate|].
    rewrite E2. cbn [rbind snd].
    destruct (load_each_ok digest w out a data ET U entries elems) as (refs & E3 & K3 & C3).
    { intros h size Hs. assert (Hh : In h hrefs) by (rewrite <- Ek; apply in_map_iff; now exists (h, size)). destruct (Forall2_In_l _ _ _ _ _ h F2 Hh) as (m & Hm & Em1 & Em2).
      exists m. destruct (HN h Hh) as ((l & PL) & _). split; [rewrite EA; right; now right|]. split; [exact Em1|]. split; [exact (plain_normpath h l PL)|]. split; [exact Em2|]. split.
      - intros e Ee. rewrite (GE h Hh) in Ee. now injection Ee as <-.
      - intros s ->. now apply Hz. }
    rewrite E3. cbn [rbind fst snd]. exists refs. split; [|split; [now rewrite K3|exact C3]]. rewrite app_nil_r. do 2 f_equal.
    unfold compare_file_lists. rewrite Ek. unfold entries. cbn [map fst]. rewrite map_map. cbn [fst]. rewrite map_id.
    rewrite (basename_path W D (proj2 (proj2 (proj2 PD)))). set (ms := D :: hrefs).
    assert (FM : forall l, (forall n, In n l -> n = D \/ In n hrefs) -> flat_map (fun n => if str_eqb n D then [] else if mem_str n hrefs then [] else [NotInReferences n]) l = []).
    { induction l as [|n l IH]; intros H; [reflexivity|]. cbn [flat_map]. rewrite IH by (intros x Hx; apply H; now right). destruct (str_eqb n D) eqn:En; [reflexivity|].
      destruct (H n (or_introl eq_refl)) as [->|Hn]; [rewrite (proj2 (str_eqb_eq D D) eq_refl) in En; discriminate|]. now rewrite (proj2 (mem_str_In n hrefs) Hn). }
    rewrite FM by (intros n [<-|Hn]; [now left|now right]).
    assert (FH : flat_map (fun n => if mem_str n ms then [] else [NotInManifest n]) hrefs = []).
    { assert (G : forall l, (forall n, In n l -> In n hrefs) -> flat_map (fun n => if mem_str n ms then [] else [NotInManifest n]) l = []); [|now apply G].
      induction l as [|n l IH]; intros H; [reflexivity|]. cbn [flat_map]. rewrite IH by (intros x Hx; apply H; now right).
      assert (mem_str n ms = true) as -> by (apply mem_str_In; right; apply H; now left). reflexivity. }
    rewrite FH. assert (mem_str D ms = true) as -> by (apply mem_str_In; now left). reflexivity.
Qed.
