(** Proofs about interrupted writing: what is left of the package. *)
From Coq Require Import List Ascii Bool Lia ZArith.
Import ListNotations.
From Verif Require Import PyBase PyBaseProofs PyDict PyDictProofs ManifestModel ManifestSpec ManifestProofs RawModel SelectModel ItemModel PathModel PathSpec PathProofs TarModel TarSpec TarProofs
  PsetProofs DriveModel LinkProofs SearchProofs ArchiveProofs ReopenProofs OvfWriteModel OvfWriteSpec OvfWriteProofs CrashModel CrashSpec CrashProofs.
Local Open Scope nat_scope.

Lemma stopped_split : forall a b w w', stopped w (a ++ b) w' -> stopped w a w' \/ stopped (perform w a) b w'.
Proof.
  intros a. induction a as [|x a IH]; intros b w w' S; [right; exact S|]. destruct S as (bf & af & E & H). destruct bf as [|y bf].
  - cbn [app] in E. left. exists [], (x :: a). split; [reflexivity|]. destruct H as [H|(e & r & Ea & A)]; [now left|]. right. rewrite Ea in E. injection E as <- _. exists x, a. now split.
  - cbn [app] in E. injection E as <- E. destruct (IH b (apply w x) w') as [S|S].
    + exists bf, af. split; [exact E|exact H].
    + left. destruct S as (b2 & a2 & Ea & H2). exists (x :: b2), a2. split; [now rewrite Ea|exact H2].
    + right. exact S.
Qed.
Lemma no_write : forall w es w', (forall e, In e es -> ~ is_write e) -> stopped w es w' -> forall q, w_files w' q = w_files w q.
Proof. intros w es w' N S q. apply (stopped_file _ _ _ _ S). intros e He W. apply (N e He). now destruct e. Qed.
Lemma pack_no_write : forall ts a e, In e (Begin ts :: map (Append ts) a) -> ~ is_write e.
Proof. intros ts a e [<-|H]; [exact (fun x => x)|]. apply in_map_iff in H as (m & <- & _). exact (fun x => x). Qed.
Lemma writes_stopped_tars : forall w ws w' t, Forall is_write ws -> stopped w ws w' -> w_tars w' t = w_tars w t.
Proof. intros w ws w' t F S. apply (stopped_tar _ _ _ _ S). intros e He. rewrite Forall_forall in F. specialize (F e He). now destruct e. Qed.

(** ** Overwriting the input *)
Lemma carried_where : forall digest wd refs w w' l, carry_over digest w wd refs = Ok (w', l) ->
  forall h d n, In (h, OnDisk d n) l -> d = wd \/ In (h, OnDisk d n) refs.
Proof.
  intros digest wd. induction refs as [|[h0 [d0 n0|t0 n0]] refs IH]; intros w w' l H h d n Hr; cbn [carry_over] in H.
  - injection H as <- <-. destruct Hr.
  - destruct (carry_over digest w wd refs) as [[w1 l1]|e] eqn:C; [|discriminate]. cbn [rbind fst snd] in H. injection H as <- <-.
    destruct Hr as [E|Hr]; [right; left; exact E|]. destruct (IH _ _ _ C h d n Hr) as [X|X]; [now left|right; now right].
  - destruct (content w (InTar t0 n0)) as [data|]; [|discriminate]. destruct (create digest _ (Dir wd) h0 None None) as [rc|e] eqn:K; [|discriminate]. cbn [rbind] in H.
    destruct (carry_over digest (put w (path_join wd n0) data) wd refs) as [[w1 l1]|e] eqn:C; [|discriminate]. cbn [rbind fst snd] in H. injection H as <- <-.
    destruct Hr as [E|Hr]; [|destruct (IH _ _ _ C h d n Hr) as [X|X]; [now left|right; now right]].
    unfold create in K. cbn [rbind] in K. destruct (content _ _); [|discriminate]. cbn [rbind] in K. injection K as <-. cbn [fst] in E. injection E as _ <- _. now left.
Qed.

Section Ova.
  Variables (digest : str -> str) (w : world) (W : list str) (output B algo xml : str) (hrefs : list str) (refs : list (str * ref)) (data : str -> str).
  Hypothesis WN : W <> [].
  Hypothesis WP : forall c, In c W -> proper c.
  Hypothesis SO : stem_of output B.
  Hypothesis P : packable w W (B ++ L ".ovf") (B ++ L ".mf") hrefs refs data.

  Lemma fine_after : forall text, fine W data (put (put w (path_of (W ++ [B ++ L ".ovf"])) xml) (path_of (W ++ [B ++ L ".mf"])) text) refs.
  Proof.
    intros text. pose proof (stem_of_stem _ _ SO) as SB. pose proof (stem_proper B _ SB no_slash_ovf) as PD. pose proof (stem_proper B _ SB no_slash_mf) as PM.
    pose proof (place_snoc W _ WP PD) as PLD. pose proof (place_snoc W _ WP PM) as PLM. change (list ascii) with str in *. constructor.
    - exact (p_refs _ _ _ _ _ _ _ P).
    - intros h r Hr. apply (p_names _ _ _ _ _ _ _ P). apply (p_all _ _ _ _ _ _ _ P). apply in_map_iff. now exists (h, r).
    - intros h r Hr. rewrite <- (p_data _ _ _ _ _ _ _ P h r Hr). destruct r as [d n|t n]; [|reflexivity]. cbn [content]. unfold read.
      destruct (p_disk _ _ _ _ _ _ _ P h d n Hr) as (_ & N1 & N2 & _). rewrite put_other by (rewrite PLM; exact N2). apply put_other. rewrite PLD. exact N1.
    - intros h d n Hr. destruct (p_disk _ _ _ _ _ _ _ P h d n Hr) as (E & _ & _ & H). now split.
    - exact (p_tar _ _ _ _ _ _ _ P).
  Qed.

  Theorem in_place : forall input w', ~ In NL B -> algorithm_name algo -> (forall d, hex_digest (digest d)) ->
    stopped w (fst (ova_steps digest w (path_of W) input true output algo xml hrefs refs)) w' ->
    (forall t, w_tars w' t = w_tars w t) \/
    (w_files w' (W ++ [B ++ L ".ovf"]) = Some xml /\
     forall h r, In (h, r) refs -> exists d, (d = path_of W \/ r = OnDisk d h) /\ read w' (path_join d h) = Some (data h)).
  Proof.
    intros input w' NB HA HD S. destruct (write_ova_spec digest w W input true output B algo xml hrefs refs data WN WP SO NB P HA HD) as (text & a & EW & PK & _).
    pose proof (stem_of_stem _ _ SO) as SB. pose proof (stem_proper B _ SB no_slash_ovf) as PD. pose proof (stem_proper B _ SB no_slash_mf) as PM.
    pose proof (root_path W B SB) as RP.
    assert (EM : path_of (W ++ [B]) ++ L ".mf" = path_of (W ++ [B ++ L ".mf"])) by (rewrite !path_of_snoc; now rewrite <- !app_assoc).
    pose proof (place_snoc W _ WP PD) as PLD. pose proof (place_snoc W _ WP PM) as PLM.
    assert (DM : W ++ [B ++ L ".ovf"] <> W ++ [B ++ L ".mf"]).
    { intros E. apply app_inv_head in E. injection E as E. apply app_inv_head in E. discriminate E. }
    pose proof fine_after as FA. pose proof (p_names _ _ _ _ _ _ _ P) as NM.
    unfold write_ova in EW. unfold ova_steps in S. rewrite (stem_root _ _ SO) in EW, S. change (list ascii) with str in *.
    set (D := (B ++ L ".ovf") : str) in *. set (M := (B ++ L ".mf") : str) in *.
    rewrite (join_snoc W D WN WP PD) in EW, S. rewrite RP, EM in EW.
    set (f := path_of (W ++ [D])) in *.
    rewrite (andthen_ok _ _ _ _ tt) in S by reflexivity. cbn [fst snd] in S. change (perform w [Write f xml]) with (put w f xml) in S.
    unfold manifest_steps in S. assert (R1 : read (put w f xml) f = Some xml) by apply put_same. rewrite R1 in S. rewrite RP, EM in S.
    destruct (generate_manifest algo (basename f) (digest xml) hrefs (checksums digest (put w f xml) refs)) as [text'|e]; [|discriminate EW]. cbn [rbind] in EW.
    rewrite (andthen_ok _ _ _ _ tt) in S by reflexivity. cbn [fst snd] in S.
    set (mfp := path_of (W ++ [M])) in *. change (perform (put w f xml) [Write mfp text']) with (put (put w f xml) mfp text') in S.
    set (w2 := put (put w f xml) mfp text') in *.
    pose proof (tar_steps_spec digest w2 (path_of W) input true output f hrefs refs) as TS. rewrite EW in TS. destruct TS as (ws & FW & _ & Ews & ETS); [discriminate|]. specialize (Ews eq_refl).
    rewrite ETS in S. cbn [fst] in S.
    change ([Write f xml] ++ [Write mfp text'] ++ ws ++ ?x) with ((Write f xml :: Write mfp text' :: ws) ++ x) in S.
    apply stopped_split in S as [S|S].
    { left. intros t. refine (writes_stopped_tars _ _ _ _ _ S). constructor; [exact I|]. constructor; [exact I|exact FW]. }
    right. change (perform w (Write f xml :: Write mfp text' :: ws)) with (perform w2 ws) in S.
    pose proof (no_write _ _ _ (pack_no_write _ a) S) as SF.
    pose proof (FA text' : fine W data w2 refs) as F. destruct (carry_over_spec digest W data WN WP refs w2 F) as (w3 & refs' & EC & K & HP & HC).
    pose proof (carry_spec digest (path_of W) refs w2) as CS. rewrite EC in CS. destruct CS as [_ CS]. rewrite <- Ews in CS. rewrite CS in SF.
    split.
    - rewrite SF. rewrite HP.
      + unfold w2. rewrite put_other.
        * rewrite <- PLD. apply put_same.
        * rewrite PLM. exact DM.
      + intros h t n l Hh PL E. apply app_inv_head in E. subst l. assert (Hh' : In h hrefs) by (apply (p_all _ _ _ _ _ _ _ P); apply in_map_iff; now exists (h, InTar t n)).
        destruct (NM h Hh') as (_ & _ & N & _). apply N. exact (plain_same h _ _ PL (plain_one _ PD)).
    - intros h r Hr. assert (Hh : In h (map fst refs')) by (rewrite K; apply in_map_iff; now exists (h, r)). apply in_map_iff in Hh as ([h2 r2] & E & H2). cbn [fst] in E. subst h2.
      destruct (HC h r2 H2) as (d & -> & C2). exists d. split.
      + destruct (carried_where _ _ _ _ _ _ EC h d h H2) as [X|X]; [now left|right].
        pose proof (dget_Some_In str_eqb str_eqb_eq refs h r (p_refs _ _ _ _ _ _ _ P) Hr) as G1. pose proof (dget_Some_In str_eqb str_eqb_eq refs h _ (p_refs _ _ _ _ _ _ _ P) X) as G2. congruence.
      + cbn [content] in C2. unfold read in *. now rewrite SF.
  Qed.
End Ova.

(** ** A new archive that is cut short *)
Lemma stopped_pack : forall ts a w w' t, In t ts -> stopped w (Begin ts :: map (Append ts) a) w' ->
  w_tars w' t = w_tars w t \/ w_tars w' t = None \/ exists j, w_tars w' t = Some (firstn j a).
Proof.
  intros ts a w w' t Ht (bf & af & E & H). destruct bf as [|x bf].
  - cbn [app] in E. subst af. destruct H as [->|(e & r & Ea & A)]; [now left|]. injection Ea as <- _. inversion A.
  - cbn [app] in E. injection E as <- E. assert (X : exists b, bf = map (Append ts) b /\ exists c, a = b ++ c).
    { clear -E. revert a E. induction bf as [|y bf IH]; intros a E; [exists []; split; [reflexivity|now exists a]|]. destruct a as [|m a]; [discriminate|]. cbn [map app] in E. injection E as <- E.
      destruct (IH a E) as (b & -> & c & ->). exists (m :: b). split; [reflexivity|now exists c]. }
    destruct X as (b & -> & c & ->). change (perform w (Begin ts :: map (Append ts) b)) with (perform (apply w (Begin ts)) (map (Append ts) b)) in H.
    assert (B0 : w_tars (apply w (Begin ts)) t = Some []) by (cbn [apply w_tars]; now rewrite (proj2 (mem_str_In t ts) Ht)).
    destruct (appended ts b (apply w (Begin ts))) as (_ & _ & AP). specialize (AP t [] Ht B0). cbn [app] in AP.
    destruct H as [->|(e & r & Ea & A)].
    + right. right. exists (length b). rewrite AP. f_equal. rewrite firstn_app, Nat.sub_diag, firstn_all. cbn [firstn]. now rewrite app_nil_r.
    + rewrite Ea in E. rewrite map_app in E. apply app_inv_head in E. destruct c as [|m c]; [discriminate|]. cbn [map] in E. injection E as <- _.
      inversion A; subst. right. left. cbn [w_tars]. now rewrite (proj2 (mem_str_In t ts) Ht).
Qed.

Lemma load_each_app : forall digest w c entries l1 l2, load_each digest w c entries (l1 ++ l2) =
  do x <- load_each digest w c entries l1; do y <- load_each digest w c entries l2; Ok (fst x ++ fst y, snd x ++ snd y).
Proof.
  intros digest w c entries. induction l1 as [|[h size] l1 IH]; intros l2; cbn [app load_each rbind].
  - destruct (load_each digest w c entries l2) as [[a b]|e]; reflexivity.
  - destruct (create digest w c h _ size) as [[r cs]|e].
    + rewrite IH. destruct (load_each digest w c entries l1) as [x|e]; [|reflexivity]. cbn [rbind]. destruct (load_each digest w c entries l2) as [y|e]; [|reflexivity]. cbn [rbind fst snd]. now rewrite app_assoc.
    + destruct (is_environment_error e); [|reflexivity]. rewrite IH. destruct (load_each digest w c entries l1) as [x|e']; [|reflexivity]. cbn [rbind]. now destruct (load_each digest w c entries l2).
Qed.
Lemma load_missing : forall digest w out a entries files, w_tars w out = Some a ->
  (forall h, In h (map fst files) -> normpath h = h /\ forall m, In m a -> normpath (t_name m) <> h) ->
  load_each digest w (Tar out) entries files = Ok ([], map (fun f => NoSuchFile (fst f)) files).
Proof.
  intros digest w out a entries files Ea. induction files as [|[h size] files IH]; intros H; [reflexivity|]. cbn [load_each map fst].
  destruct (H h (or_introl eq_refl)) as [Nh Mh]. unfold create. rewrite Nh, Ea.
  assert (resolve a h = None) as ->.
  { unfold resolve. destruct (getmember a h) as [m|] eqn:G.
    - apply getmember_name in G as [Hm En]. elim (Mh m Hm). now rewrite En.
    - destruct (find (fun m => str_eqb (normpath (t_name m)) h) a) as [m|] eqn:F; [|reflexivity]. apply find_some in F as [Hm F]. apply str_eqb_eq in F. elim (Mh m Hm F). }
  cbn [rbind is_environment_error]. rewrite IH by (intros x Hx; apply H; now right). reflexivity.
Qed.

Theorem cut_short : forall digest w out a j path B xml text hrefs data algo,
  stem B -> basename path = B ++ L ".ovf" ->
  packed (B ++ L ".ovf") (B ++ L ".mf") xml text hrefs data a ->
  NoDup hrefs -> (forall h, In h hrefs -> (exists l, plain_name h l) /\ h <> B ++ L ".ovf" /\ h <> B ++ L ".mf") ->
  parse_manifest text = (B ++ L ".ovf", (algo, digest xml)) :: map (fun h => (h, (algo, digest (data h)))) hrefs ->
  w_tars w out = Some (firstn (S j) a) ->
  forall elems, map fst elems = hrefs -> (forall h s, In (h, Some s) elems -> py_int s = Some (Z.of_nat (length (data h)))) ->
    exists refs, load_files digest w (Tar out) path elems = Ok (refs, map NoSuchFile (skipn (j - 1) hrefs)) /\
      map fst refs = firstn (j - 1) hrefs /\ forall h r, In (h, r) refs -> content w r = Some (data h).
Proof.
  intros digest w out a j path B xml text hrefs data algo SB BN (files & EA & F2) ND HN EP ET elems Ek Hz.
  pose proof (stem_proper B _ SB no_slash_ovf) as PD. pose proof (stem_proper B _ SB no_slash_mf) as PM. pose proof (root_plain B SB) as RP.
  assert (DM : B ++ L ".ovf" <> B ++ L ".mf") by (intros E; apply app_inv_head in E; discriminate E).
  change (list ascii) with str in *. set (D := (B ++ L ".ovf") : str) in *. set (M := (B ++ L ".mf") : str) in *.
  assert (NP : forall m, In m a -> exists h l, plain_name h l /\ normpath (t_name m) = h /\ (m = mkMember D None xml /\ h = D \/ m = mkMember M None text /\ h = M \/ In m files /\ In h hrefs /\ t_data m = data h)).
  { intros m Hm. rewrite EA in Hm. destruct Hm as [<-|[<-|Hm]].
    - exists D, [D]. pose proof (plain_one D PD) as PL. split; [exact PL|]. split; [exact (plain_normpath D [D] PL)|]. left. now split.
    - exists M, [M]. pose proof (plain_one M PM) as PL. split; [exact PL|]. split; [exact (plain_normpath M [M] PL)|]. right. left. now split.
    - destruct (Forall2_In_r _ _ _ _ _ m F2 Hm) as (h & Hh & E1 & E2). destruct (HN h Hh) as ((l & PL) & _). exists h, l. split; [exact PL|]. split; [exact E1|]. right. right. now split. }
  assert (U : forall x y, In x a -> In y a -> normpath (t_name x) = normpath (t_name y) -> x = y).
  { intros x y Hx Hy E. destruct (NP x Hx) as (h & l & PL & E1 & Cx). destruct (NP y Hy) as (h' & l' & PL' & E1' & Cy).
    assert (EH : h' = h) by congruence. rewrite EH in *. clear h' EH.
    destruct Cx as [[-> ->]|[[-> ->]|(Fx & Hh & _)]]; destruct Cy as [[-> Eh]|[[-> Eh]|(Fy & Hh' & _)]]; try reflexivity; try congruence;
      try (exfalso; destruct (HN _ Hh) as (_ & N1 & N2); congruence); try (exfalso; destruct (HN _ Hh') as (_ & N1 & N2); congruence).
    clear -F2 Fx Fy E1 E1' ND. revert ND Fx Fy. induction F2 as [|h0 m0 hs ms [H1 H2] F IH]; intros ND Fx Fy; [destruct Fx|].
    apply NoDup_cons_iff in ND as [N0 ND]. assert (NO : forall z, In z ms -> normpath (t_name z) = h0 -> False).
    { intros z Hz Ez. destruct (Forall2_In_r _ _ _ _ _ z F Hz) as (h' & Hh' & E' & _). apply N0. rewrite <- Ez, E'. exact Hh'. }
    destruct Fx as [<-|Fx]; destruct Fy as [<-|Fy]; [reflexivity| | |now apply IH].
    - exfalso. apply (NO y Fy). congruence.
    - exfalso. apply (NO x Fx). congruence. }
  set (a' := firstn (S j) a) in *.
  assert (Sub : forall m, In m a' -> In m a) by (intros m Hm; rewrite <- (firstn_skipn (S j) a); apply in_or_app; now left).
  assert (U' : forall x y, In x a' -> In y a' -> normpath (t_name x) = normpath (t_name y) -> x = y) by (intros x y Hx Hy; apply U; now apply Sub).
  assert (HD : In (mkMember D None xml) a') by (unfold a'; rewrite EA; now left).
  pose proof (plain_normpath D _ (plain_one D PD)) as ND'. pose proof (plain_normpath M _ (plain_one M PM)) as NM'.
  assert (Pre : forall m, In m a' -> m = mkMember D None xml \/ m = mkMember M None text \/ In m (firstn (j - 1) files)).
  { unfold a'. rewrite EA. cbn [firstn]. intros m [<-|Hm]; [now left|]. right. destruct j as [|j]; [destruct Hm|]. cbn [firstn] in Hm. destruct Hm as [<-|Hm]; [now left|]. right. now rewrite Nat.sub_succ, Nat.sub_0_r. }
  assert (Post : forall m, In m (firstn (j - 1) files) -> In m a').
  { unfold a'. rewrite EA. intros m Hm. destruct j as [|j]; [destruct Hm|]. rewrite Nat.sub_succ, Nat.sub_0_r in Hm. cbn [firstn]. right. now right. }
  assert (F2' : Forall2 (fun h m => normpath (t_name m) = h /\ t_data m = data h) (firstn (j - 1) hrefs) (firstn (j - 1) files)).
  { clear -F2. generalize (j - 1). induction F2 as [|x y l l' R F IH]; intros [|n]; cbn [firstn]; try constructor; [exact R|apply IH]. }
  set (k := j - 1) in *.
  assert (Parts : map fst (firstn k elems) = firstn k hrefs /\ map fst (skipn k elems) = skipn k hrefs) by (rewrite <- Ek, firstn_map, skipn_map; now split).
  destruct Parts as [K1 K2].
  (* the files *)
  assert (LE : forall entries, (forall h e, In h hrefs -> dget str_eqb h entries = Some e -> snd e = digest (data h)) ->
    exists refs, load_each digest w (Tar out) entries elems = Ok (refs, map NoSuchFile (skipn k hrefs)) /\ map fst refs = firstn k hrefs /\ forall h r, In (h, r) refs -> content w r = Some (data h)).
  { intros entries HE. rewrite <- (firstn_skipn k elems), load_each_app.
    destruct (load_each_ok digest w out a' data ET U' entries (firstn k elems)) as (refs & E3 & K3 & C3).
    { intros h size Hs. assert (Hh : In h (firstn k hrefs)) by (rewrite <- K1; apply in_map_iff; now exists (h, size)).
      assert (Hh2 : In h hrefs) by (rewrite <- (firstn_skipn k hrefs); apply in_or_app; now left).
      destruct (Forall2_In_l _ _ _ _ _ h F2' Hh) as (m & Hm & Em1 & Em2). exists m. destruct (HN h Hh2) as ((l & PL) & _).
      split; [now apply Post|]. split; [exact Em1|]. split; [exact (plain_normpath h l PL)|]. split; [exact Em2|]. split; [intros e; now apply HE|].
      intros s ->. apply Hz. rewrite <- (firstn_skipn k elems). apply in_or_app. now left. }
    rewrite E3. cbn [rbind]. rewrite (load_missing digest w out a' entries (skipn k elems) ET).
    - cbn [rbind fst snd app]. exists refs. rewrite app_nil_r, <- K2, map_map. split; [reflexivity|]. split; [now rewrite K3|exact C3].
    - rewrite K2. intros h Hh. assert (Hh2 : In h hrefs) by (rewrite <- (firstn_skipn k hrefs); apply in_or_app; now right). destruct (HN h Hh2) as ((l & PL) & N1 & N2).
      split; [exact (plain_normpath h l PL)|]. intros m Hm En. destruct (Pre m Hm) as [->|[->|Hm']]; cbn [t_name] in *.
      + apply N1. now rewrite <- En, ND'.
      + apply N2. now rewrite <- En, NM'.
      + destruct (Forall2_In_r _ _ _ _ _ m F2' Hm') as (h' & Hh' & E' & _). rewrite En in E'. subst h'.
        rewrite <- (firstn_skipn k hrefs) in ND. clear -ND Hh Hh'. revert ND Hh'. generalize (firstn k hrefs) as l. intros l. induction l as [|x l IH]; intros ND Hh'; [destruct Hh'|].
        cbn [app] in ND. apply NoDup_cons_iff in ND as [N0 ND]. destruct Hh' as [->|Hh']; [apply N0; apply in_or_app; now right|now apply IH]. }
  unfold load_files. rewrite BN, RP. rewrite (fold_fresh _ elems []) by (cbn [map app]; rewrite Ek; exact ND). cbn [app].
  change (B ++ L ".mf") with M.
  destruct j as [|j].
  - (* only the descriptor *)
    assert (create digest w (Tar out) M None None = Err EEnvironment) as ->.
    { unfold create. rewrite NM', ET. assert (resolve a' M = None) as ->; [|reflexivity]. unfold a'. rewrite EA. cbn [firstn]. unfold resolve, getmember. cbn [rev app find t_name option_map].
      destruct (str_eqb D M) eqn:Q; [apply str_eqb_eq in Q; contradiction|]. rewrite ND', Q. reflexivity. }
    cbn [is_environment_error rbind dget option_map].
    destruct (create_ok digest w out a' ET U' D (mkMember D None xml) None None HD ND' ND') as (nd & E2 & C2); [discriminate|discriminate|].
    rewrite E2. cbn [rbind snd]. destruct (LE []) as (refs & E3 & K3 & C3); [intros h e _ Q; discriminate|]. rewrite E3. cbn [rbind fst snd]. exists refs. split; [|now split].
    cbn [map compare_file_lists app]. reflexivity.
  - assert (HM : In (mkMember M None text) a') by (unfold a'; rewrite EA; right; now left).
    destruct (create_ok digest w out a' ET U' M (mkMember M None text) None None HM NM' NM') as (nm & E1 & C1); [discriminate|discriminate|].
    rewrite E1. rewrite C1. cbn [rbind t_data]. rewrite EP.
    set (entries := (D, (algo, digest xml)) :: map (fun h => (h, (algo, digest (data h)))) hrefs).
    assert (GE : forall h, In h hrefs -> dget str_eqb h entries = Some (algo, digest (data h))).
    { intros h Hh. apply (dget_Some_In str_eqb str_eqb_eq).
      - unfold entries. cbn [map fst]. rewrite map_map. cbn [fst]. rewrite map_id. constructor; [|exact ND]. intros F. now destruct (HN D F) as (_ & N & _).
      - right. apply in_map_iff. now exists h. }
    assert (GD : dget str_eqb D entries = Some (algo, digest xml)) by (unfold entries; cbn [dget]; now rewrite (proj2 (str_eqb_eq D D) eq_refl)).
    rewrite GD. cbn [option_map snd].
    destruct (create_ok digest w out a' ET U' D (mkMember D None xml) (Some (digest xml)) None HD ND' ND') as (nd & E2 & C2); [intros s Es; now injection Es|discriminate|].
    rewrite E2. cbn [rbind snd]. destruct (LE entries) as (refs & E3 & K3 & C3); [intros h e Hh Q; rewrite (GE h Hh) in Q; now injection Q as <-|].
    rewrite E3. cbn [rbind fst snd]. exists refs. split; [|now split]. cbn [app]. f_equal. f_equal.
    match goal with |- ?x ++ _ = _ => assert (x = []) as ->; [|reflexivity] end.
    unfold compare_file_lists. rewrite Ek. unfold entries. cbn [map fst]. rewrite map_map. cbn [fst]. rewrite map_id. rewrite BN. set (ms := D :: hrefs).
    assert (FM : forall l, (forall n, In n l -> n = D \/ In n hrefs) -> flat_map (fun n => if str_eqb n D then [] else if mem_str n hrefs then [] else [NotInReferences n]) l = []).
    { induction l as [|n l IH]; intros H; [reflexivity|]. cbn [flat_map]. rewrite IH by (intros x Hx; apply H; now right). destruct (str_eqb n D) eqn:En; [reflexivity|].
      destruct (H n (or_introl eq_refl)) as [->|Hn]; [rewrite (proj2 (str_eqb_eq D D) eq_refl) in En; discriminate|]. now rewrite (proj2 (mem_str_In n hrefs) Hn). }
    rewrite FM by (intros n [<-|Hn]; [now left|now right]).
    assert (FH : flat_map (fun n => if mem_str n ms then [] else [NotInManifest n]) hrefs = []).
    { assert (G : forall l, (forall n, In n l -> In n hrefs) -> flat_map (fun n => if mem_str n ms then [] else [NotInManifest n]) l = []); [|now apply G].
      induction l as [|n l IH]; intros H; [reflexivity|]. cbn [flat_map]. rewrite IH by (intros x Hx; apply H; now right).
      assert (mem_str n ms = true) as -> by (apply mem_str_In; right; apply H; now left). reflexivity. }
    rewrite FH. assert (mem_str D ms = true) as -> by (apply mem_str_In; now left). reflexivity.
Qed.
