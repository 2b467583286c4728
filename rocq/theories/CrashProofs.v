(** Proofs about interrupted writing. *)
From Coq Require Import List Ascii Bool Lia ZArith.
Import ListNotations.
From Verif Require Import PyBase PyBaseProofs PyDict PyDictProofs ManifestModel ManifestSpec RawModel SelectModel ItemModel PathModel PathSpec TarModel TarSpec TarProofs
  PsetProofs ArchiveProofs ReopenProofs OvfWriteModel OvfWriteSpec OvfWriteProofs CrashModel CrashSpec.
Local Open Scope nat_scope.

Lemma perform_app : forall a b w, perform w (a ++ b) = perform (perform w a) b.
Proof. intros a b w. apply fold_left_app. Qed.
Lemma andthen_ok : forall A B w (s : steps A) a (k : world -> A -> steps B), snd s = Ok a ->
  andthen w s k = (fst s ++ fst (k (perform w (fst s)) a), snd (k (perform w (fst s)) a)).
Proof. intros A B w s a k E. unfold andthen. now rewrite E. Qed.
Lemma andthen_err : forall A B w (s : steps A) e (k : world -> A -> steps B), snd s = Err e -> andthen w s k = (fst s, Err e).
Proof. intros A B w s e k E. unfold andthen. now rewrite E. Qed.

(** ** The steps lead to what the models of complete writing say *)
Lemma copy_step_spec : forall w dest r, match copy_to w dest r with
  | Ok w' => snd (copy_step w dest r) = Ok tt /\ perform w (fst (copy_step w dest r)) = w'
  | Err e => copy_step w dest r = ([], Err e)
  end.
Proof.
  intros w dest [d n|t n]; unfold copy_to, copy_step.
  - destruct (str_eqb _ _); [now split|]. destruct (content w (OnDisk d n)) as [data|]; [|reflexivity]. now destruct (strs_eqb _ _).
  - destruct (w_tars w t) as [a|]; [|reflexivity]. now destruct (getmember a n).
Qed.
Lemma copy_steps_spec : forall dest refs w w' e, copy_all w dest refs = (w', e) ->
  snd (copy_steps w dest refs) = e /\ perform w (fst (copy_steps w dest refs)) = w'.
Proof.
  intros dest. induction refs as [|[h r] refs IH]; intros w w' e H; [injection H as <- <-; now split|]. cbn [copy_all copy_steps] in *.
  pose proof (copy_step_spec w dest r) as S. destruct (copy_to w dest r) as [w1|er].
  - destruct S as [S1 S2]. rewrite (andthen_ok _ _ _ _ tt _ S1). cbn [fst snd]. rewrite perform_app, S2. now apply IH.
  - injection H as <- <-. rewrite S. now split.
Qed.
Theorem ovf_steps_spec : forall digest w output algo xml hrefs refs,
  snd (ovf_steps digest w output algo xml hrefs refs) = snd (write_ovf digest w output algo xml hrefs refs) /\
  (snd (ovf_steps digest w output algo xml hrefs refs) = Ok tt ->
    perform w (fst (ovf_steps digest w output algo xml hrefs refs)) = fst (write_ovf digest w output algo xml hrefs refs)).
Proof.
  intros digest w output algo xml hrefs refs. unfold ovf_steps, write_ovf. rewrite (andthen_ok _ _ _ _ tt) by reflexivity. cbn [fst snd perform fold_left apply].
  destruct (copy_all (put w output xml) (dirname (normpath output)) refs) as [w2 [[]|e]] eqn:C.
  - destruct (copy_steps_spec _ _ _ _ _ C) as [E1 E2]. rewrite (andthen_ok _ _ _ _ tt _ E1). cbn [fst snd].
    change (fold_left apply) with (fun es w => perform w es). cbn beta. rewrite E2. unfold manifest_steps. destruct (read w2 output) as [now|]; [|split; [reflexivity|discriminate]].
    destruct (generate_manifest _ _ _ _ _) as [text|e]; [|split; [reflexivity|discriminate]]. cbn [fst snd]. split; [reflexivity|]. intros _.
    cbn [app]. change (Write output xml :: fst (copy_steps (put w output xml) (dirname (normpath output)) refs) ++ ?x) with ([Write output xml] ++ (fst (copy_steps (put w output xml) (dirname (normpath output)) refs) ++ x)).
    rewrite perform_app. rewrite perform_app. change (perform w [Write output xml]) with (put w output xml). now rewrite E2.
  - destruct (copy_steps_spec _ _ _ _ _ C) as [E1 E2]. rewrite (andthen_err _ _ _ _ e _ E1). split; [reflexivity|discriminate].
Qed.

(** ** Archives *)
Definition is_write (e : effect) : Prop := match e with Write _ _ => True | _ => False end.
Lemma writes_tars : forall es w t, Forall is_write es -> w_tars (perform w es) t = w_tars w t.
Proof. intros es. induction es as [|e es IH]; intros w t F; [reflexivity|]. inversion F as [|? ? He Hes]; subst. cbn [perform fold_left]. change (fold_left apply es (apply w e)) with (perform (apply w e) es). rewrite IH by exact Hes. now destruct e. Qed.
Lemma appended : forall ts a w, (forall q, w_files (perform w (map (Append ts) a)) q = w_files w q) /\
  (forall t, ~ In t ts -> w_tars (perform w (map (Append ts) a)) t = w_tars w t) /\
  (forall t b, In t ts -> w_tars w t = Some b -> w_tars (perform w (map (Append ts) a)) t = Some (b ++ a)).
Proof.
  intros ts. induction a as [|m a IH]; intros w; [split; [reflexivity|split; [reflexivity|intros t b _ E; now rewrite app_nil_r]]|].
  cbn [map perform fold_left]. change (fold_left apply (map (Append ts) a) (apply w (Append ts m))) with (perform (apply w (Append ts m)) (map (Append ts) a)).
  destruct (IH (apply w (Append ts m))) as (F & N & S). split; [exact F|]. split.
  - intros t Ht. rewrite N by exact Ht. cbn [apply w_tars]. destruct (mem_str t ts) eqn:Em; [|reflexivity]. apply mem_str_In in Em. contradiction.
  - intros t b Ht Eb. rewrite (S t (b ++ [m]) Ht); [now rewrite <- app_assoc|]. cbn [apply w_tars]. rewrite (proj2 (mem_str_In t ts) Ht), Eb. reflexivity.
Qed.
Lemma carry_writes : forall digest wd refs w, Forall is_write (fst (carry_steps digest w wd refs)).
Proof.
  intros digest wd. induction refs as [|[h [d n|t n]] refs IH]; intros w; [constructor| |]; cbn [carry_steps].
  - unfold andthen. destruct (snd (carry_steps digest w wd refs)); cbn [fst]; [rewrite app_nil_r|]; apply IH.
  - destruct (content w (InTar t n)) as [data|]; [|constructor]. rewrite (andthen_ok _ _ _ _ tt) by reflexivity. cbn [fst]. constructor; [exact I|]. cbn [app].
    destruct (create _ _ _ _ _ _) as [rc|e]; [|constructor]. unfold andthen. destruct (snd (carry_steps digest _ wd refs)); cbn [fst]; [rewrite app_nil_r|]; apply IH.
Qed.
Lemma carry_spec : forall digest wd refs w, match carry_over digest w wd refs with
  | Ok (w', l) => snd (carry_steps digest w wd refs) = Ok l /\ perform w (fst (carry_steps digest w wd refs)) = w'
  | Err e => snd (carry_steps digest w wd refs) = Err e
  end.
Proof.
  intros digest wd. induction refs as [|[h [d n|t n]] refs IH]; intros w; [now split| |].
  - cbn [carry_over carry_steps]. specialize (IH w). destruct (carry_over digest w wd refs) as [[w' l]|e]; cbn [rbind fst snd].
    + destruct IH as [E1 E2]. rewrite (andthen_ok _ _ _ _ l _ E1). cbn [fst snd]. rewrite app_nil_r. now split.
    + now rewrite (andthen_err _ _ _ _ e _ IH).
  - cbn [carry_over carry_steps]. destruct (content w (InTar t n)) as [data|]; [|reflexivity].
    rewrite (andthen_ok _ _ _ _ tt) by reflexivity. cbn [fst snd]. change (perform w [Write (path_join wd n) data]) with (put w (path_join wd n) data).
    destruct (create _ _ _ _ _ _) as [rc|e]; [|reflexivity]. cbn [rbind]. specialize (IH (put w (path_join wd n) data)).
    destruct (carry_over digest (put w (path_join wd n) data) wd refs) as [[w' l]|e]; cbn [rbind fst snd].
    + destruct IH as [E1 E2]. rewrite (andthen_ok _ _ _ _ l _ E1). cbn [fst snd]. rewrite app_nil_r. split; [reflexivity|]. exact E2.
    + now rewrite (andthen_err _ _ _ _ e _ IH).
Qed.

(** Every run is some files, and then perhaps an archive. *)
Lemma append_shape : forall ts refs hrefs w, exists a, fst (append_steps w ts refs hrefs) = map (Append ts) a.
Proof.
  intros ts refs. induction hrefs as [|h hrefs IH]; intros w; [now exists []|]. cbn [append_steps]. destruct (dget str_eqb h refs) as [r|]; [|now exists []].
  destruct (add_to_archive w r) as [m|e]; [|now exists []]. rewrite (andthen_ok _ _ _ _ tt) by reflexivity. cbn [fst].
  destruct (IH (perform w [Append ts m])) as (a & E). exists (m :: a). rewrite E. reflexivity.
Qed.
Lemma head_shape : forall ts f w, exists a, fst (head_steps w ts f) = map (Append ts) a.
Proof. intros ts f w. unfold head_steps. destruct (read w f) as [x|]; [|now exists []]. destruct (read w _) as [t|]; cbn [fst]; eexists (_ :: _); cbn [map]; f_equal; [now instantiate (1 := [_])|now instantiate (1 := [])]. Qed.

(** ** Only the targets change *)
Definition writes_to (q : list str) (e : effect) : Prop := match e with Write p _ => q = place p | _ => False end.
Definition packs (t : str) (e : effect) : Prop := match e with Write _ _ => False | Begin ts => In t ts | Append ts _ => In t ts end.
Lemma place_dec : forall q p : list str, q = p \/ q <> p.
Proof. intros q p. destruct (strs_eqb q p) eqn:E; [left; now apply strs_eqb_eq|right; intros F; apply strs_eqb_eq in F; congruence]. Qed.
Lemma apply_file : forall w e q, ~ writes_to q e -> w_files (apply w e) q = w_files w q.
Proof. intros w [p d|ts|ts m] q N; [|reflexivity|reflexivity]. apply put_other. exact N. Qed.
Lemma apply_tar : forall w e t, ~ packs t e -> w_tars (apply w e) t = w_tars w t.
Proof. intros w [p d|ts|ts m] t N; [reflexivity| |]; cbn [apply w_tars]; destruct (mem_str t ts) eqn:E; try reflexivity; apply mem_str_In in E; contradiction. Qed.
Lemma perform_file : forall es w q, (forall e, In e es -> ~ writes_to q e) -> w_files (perform w es) q = w_files w q.
Proof. induction es as [|e es IH]; intros w q N; [reflexivity|]. change (perform w (e :: es)) with (perform (apply w e) es). rewrite IH by (intros x Hx; apply N; now right). apply apply_file, N. now left. Qed.
Lemma perform_tar : forall es w t, (forall e, In e es -> ~ packs t e) -> w_tars (perform w es) t = w_tars w t.
Proof. induction es as [|e es IH]; intros w t N; [reflexivity|]. change (perform w (e :: es)) with (perform (apply w e) es). rewrite IH by (intros x Hx; apply N; now right). apply apply_tar, N. now left. Qed.
Lemma amid_file : forall w e w' q, amid w e w' -> ~ writes_to q e -> w_files w' q = w_files w q.
Proof. intros w e w' q A N. destruct A as [p d n|ts m]; [|reflexivity]. apply put_other. exact N. Qed.
Lemma amid_tar : forall w e w' t, amid w e w' -> ~ packs t e -> w_tars w' t = w_tars w t.
Proof. intros w e w' t A N. destruct A as [p d n|ts m]; [reflexivity|]. cbn [w_tars]. destruct (mem_str t ts) eqn:E; [|reflexivity]. apply mem_str_In in E. contradiction. Qed.
Theorem stopped_file : forall w es w' q, stopped w es w' -> (forall e, In e es -> ~ writes_to q e) -> w_files w' q = w_files w q.
Proof.
  intros w es w' q (b & a & -> & [->|(e & r & -> & A)]) N.
  - apply perform_file. intros e He. apply N. apply in_or_app. now left.
  - rewrite (amid_file _ _ _ q A) by (apply N, in_or_app; right; now left). apply perform_file. intros x Hx. apply N. apply in_or_app. now left.
Qed.
Theorem stopped_tar : forall w es w' t, stopped w es w' -> (forall e, In e es -> ~ packs t e) -> w_tars w' t = w_tars w t.
Proof.
  intros w es w' t (b & a & -> & [->|(e & r & -> & A)]) N.
  - apply perform_tar. intros e He. apply N. apply in_or_app. now left.
  - rewrite (amid_tar _ _ _ t A) by (apply N, in_or_app; right; now left). apply perform_tar. intros x Hx. apply N. apply in_or_app. now left.
Qed.

Lemma In_andthen : forall A B w (s : steps A) (k : world -> A -> steps B) e, In e (fst (andthen w s k)) ->
  In e (fst s) \/ exists a, snd s = Ok a /\ In e (fst (k (perform w (fst s)) a)).
Proof. intros A B w s k e H. unfold andthen in H. destruct (snd s) as [a|er] eqn:E; cbn [fst] in H; [|now left]. apply in_app_or in H as [H|H]; [now left|right; now exists a]. Qed.
Lemma copy_step_effects : forall w dest r e, In e (fst (copy_step w dest r)) -> exists d, e = Write (path_join dest (name_there r)) d.
Proof.
  intros w dest [d n|t n] e H; unfold copy_step in H.
  - destruct (str_eqb _ _); [destruct H|]. destruct (content w _) as [data|]; [|destruct H]. destruct (strs_eqb _ _); [destruct H|]. destruct H as [<-|[]]. now exists data.
  - destruct (w_tars w t) as [a|]; [|destruct H]. destruct (getmember a n) as [m|]; [|destruct H]. destruct H as [<-|[]]. now exists (t_data m).
Qed.
Lemma copy_effects : forall dest refs w e, In e (fst (copy_steps w dest refs)) -> exists h r d, In (h, r) refs /\ e = Write (path_join dest (name_there r)) d.
Proof.
  intros dest. induction refs as [|[h r] refs IH]; intros w e H; [destruct H|]. cbn [copy_steps] in H. apply In_andthen in H as [H|([] & _ & H)].
  - destruct (copy_step_effects _ _ _ _ H) as (d & ->). exists h, r, d. split; [now left|reflexivity].
  - destruct (IH _ _ H) as (h' & r' & d & Hr & ->). exists h', r', d. split; [now right|reflexivity].
Qed.
Lemma manifest_effects : forall digest w f algo hrefs refs e, In e (fst (manifest_steps digest w f algo hrefs refs)) -> exists d, e = Write (splitext_root f ++ L ".mf") d.
Proof.
  intros digest w f algo hrefs refs e H. unfold manifest_steps in H. destruct (read w f) as [now|]; [|destruct H].
  destruct (generate_manifest _ _ _ _ _) as [text|er]; cbn [fst] in H; destruct H as [<-|[]]; eexists; reflexivity.
Qed.
Lemma ovf_effects : forall digest w output algo xml hrefs refs e, In e (fst (ovf_steps digest w output algo xml hrefs refs)) ->
  exists p d, e = Write p d /\ ovf_targets output refs (place p).
Proof.
  intros digest w output algo xml hrefs refs e H. unfold ovf_steps in H. apply In_andthen in H as [[<-|[]]|(u & _ & H)].
  - exists output, xml. split; [reflexivity|now left].
  - apply In_andthen in H as [H|(u' & _ & H)].
    + apply copy_effects in H as (h & r & d & Hr & ->). eexists _, d. split; [reflexivity|]. right. right. now exists h, r.
    + apply manifest_effects in H as (d & ->). eexists _, d. split; [reflexivity|]. right. now left.
Qed.
Lemma targets_dec : forall q es, (forall e, In e es -> ~ writes_to q e) \/ exists e, In e es /\ writes_to q e.
Proof.
  intros q. induction es as [|e es [IH|(x & Hx & W)]]; [left; intros e []| |right; exists x; split; [now right|exact W]].
  assert (X : writes_to q e \/ ~ writes_to q e) by (destruct e as [p d|ts|ts m]; cbn; [apply place_dec|now right|now right]).
  destruct X as [X|X]; [right; exists e; split; [now left|exact X]|left; intros y [<-|Hy]; [exact X|now apply IH]].
Qed.
Theorem ovf_confined : forall digest w output algo xml hrefs refs w', stopped w (fst (ovf_steps digest w output algo xml hrefs refs)) w' ->
  unchanged_but w w' (ovf_targets output refs) (fun _ => False).
Proof.
  intros digest w output algo xml hrefs refs w' S. split.
  - intros q N.
    destruct (targets_dec q (fst (ovf_steps digest w output algo xml hrefs refs))) as [No|(e & He & W)]; [exfalso; apply N; exact (stopped_file _ _ _ _ S No)|].
    destruct (ovf_effects _ _ _ _ _ _ _ _ He) as (p & d & -> & T). cbn in W. rewrite W. exact T.
  - intros t N. apply N. apply (stopped_tar _ _ _ _ S). intros e He. destruct (ovf_effects _ _ _ _ _ _ _ _ He) as (p & d & -> & T). cbn. tauto.
Qed.

Lemma carry_effects : forall digest wd refs w e, In e (fst (carry_steps digest w wd refs)) -> exists h t n d, In (h, InTar t n) refs /\ e = Write (path_join wd n) d.
Proof.
  intros digest wd. induction refs as [|[h [d n|t n]] refs IH]; intros w e H; [destruct H| |]; cbn [carry_steps] in H.
  - apply In_andthen in H as [H|(l & _ & [])]. destruct (IH _ _ H) as (h' & t & n' & d' & Hr & ->). exists h', t, n', d'. split; [now right|reflexivity].
  - destruct (content w (InTar t n)) as [data|]; [|destruct H]. apply In_andthen in H as [[<-|[]]|(u & _ & H)].
    + exists h, t, n, data. split; [now left|reflexivity].
    + destruct (create _ _ _ _ _ _) as [rc|er]; [|destruct H]. apply In_andthen in H as [H|(l & _ & [])].
      destruct (IH _ _ H) as (h' & t' & n' & d' & Hr & ->). exists h', t', n', d'. split; [now right|reflexivity].
Qed.
Lemma ova_effects : forall digest w wd input same output algo xml hrefs refs e, In e (fst (ova_steps digest w wd input same output algo xml hrefs refs)) ->
  (exists p d, e = Write p d /\ ova_targets wd output same refs (place p)) \/ e = Begin (paths_of output input same) \/ exists m, e = Append (paths_of output input same) m.
Proof.
  intros digest w wd input same output algo xml hrefs refs e H. unfold ova_steps in H. apply In_andthen in H as [[<-|[]]|(u & _ & H)].
  - left. eexists _, _. split; [reflexivity|now left].
  - apply In_andthen in H as [H|(u' & _ & H)].
    + apply manifest_effects in H as (d & ->). left. eexists _, d. split; [reflexivity|]. right. now left.
    + unfold tar_steps in H. apply In_andthen in H as [H|(refs' & _ & H)].
      * destruct same; [|destruct H]. apply carry_effects in H as (h & t & n & d & Hr & ->). left. eexists _, d. split; [reflexivity|]. right. right. split; [reflexivity|]. now exists h, t, n.
      * apply In_andthen in H as [[<-|[]]|(u2 & _ & H)]; [right; now left|]. right. right.
        apply In_andthen in H as [H|(u3 & _ & H)].
        -- match type of H with In _ (fst (head_steps ?w0 _ ?f)) => destruct (head_shape (paths_of output input same) f w0) as (a & E) end. rewrite E in H. apply in_map_iff in H as (m & <- & _). now exists m.
        -- match type of H with In _ (fst (append_steps ?w0 _ _ _)) => destruct (append_shape (paths_of output input same) refs' hrefs w0) as (a & E) end. rewrite E in H. apply in_map_iff in H as (m & <- & _). now exists m.
Qed.
Theorem ova_confined : forall digest w wd input same output algo xml hrefs refs w', stopped w (fst (ova_steps digest w wd input same output algo xml hrefs refs)) w' ->
  unchanged_but w w' (ova_targets wd output same refs) (fun t => t = normpath output \/ same = true /\ t = input).
Proof.
  intros digest w wd input same output algo xml hrefs refs w' S. split.
  - intros q N. destruct (targets_dec q (fst (ova_steps digest w wd input same output algo xml hrefs refs))) as [No|(e & He & W)]; [exfalso; apply N; exact (stopped_file _ _ _ _ S No)|].
    destruct (ova_effects _ _ _ _ _ _ _ _ _ _ _ He) as [(p & d & -> & T)|[->|(m & ->)]]; cbn in W; try contradiction. rewrite W. exact T.
  - intros t N. destruct (mem_str t (paths_of output input same)) eqn:M.
    + apply mem_str_In in M as [<-|M]; [now left|]. destruct same; [|destruct M]. destruct M as [<-|[]]. right. now split.
    + exfalso. apply N. apply (stopped_tar _ _ _ _ S). intros e He P. assert (M' : In t (paths_of output input same)); [|apply mem_str_In in M'; congruence].
      destruct (ova_effects _ _ _ _ _ _ _ _ _ _ _ He) as [(p & d & -> & T)|[->|(m & ->)]]; [destruct P|exact P|exact P].
Qed.

(** ** The steps to an archive *)
Definition stable (ts : list str) (r : ref) : Prop := match r with OnDisk _ _ => True | InTar t _ => ~ In t ts end.
Lemma add_agrees : forall ts r w w0, stable ts r -> (forall q, w_files w q = w_files w0 q) -> (forall t, ~ In t ts -> w_tars w t = w_tars w0 t) ->
  add_to_archive w r = add_to_archive w0 r.
Proof. intros ts [d n|t n] w w0 S F N; unfold add_to_archive; cbn [content]; [unfold read; now rewrite F|]. cbn in S. now rewrite (N t S). Qed.
Lemma append_spec : forall ts refs w0, (forall h r, In (h, r) refs -> stable ts r) -> forall hrefs w,
  (forall q, w_files w q = w_files w0 q) -> (forall t, ~ In t ts -> w_tars w t = w_tars w0 t) ->
  match add_all w0 refs hrefs with
  | Ok a => append_steps w ts refs hrefs = (map (Append ts) a, Ok tt)
  | Err e => snd (append_steps w ts refs hrefs) = Err e
  end.
Proof.
  intros ts refs w0 St. induction hrefs as [|h hrefs IH]; intros w F N; [reflexivity|]. cbn [add_all append_steps].
  destruct (dget str_eqb h refs) as [r|] eqn:Er; [|reflexivity]. rewrite (add_agrees ts r w w0 (St _ _ (dget_In str_eqb str_eqb_eq _ _ _ Er)) F N).
  destruct (add_to_archive w0 r) as [m|e]; [|reflexivity]. cbn [rbind]. rewrite (andthen_ok _ _ _ _ tt) by reflexivity. cbn [fst snd].
  specialize (IH (perform w [Append ts m]) F). destruct (add_all w0 refs hrefs) as [a|e]; cbn [rbind].
  - rewrite IH; [reflexivity|]. intros t Ht. cbn [perform fold_left apply w_tars]. destruct (mem_str t ts) eqn:M; [apply mem_str_In in M; contradiction|now apply N].
  - apply IH. intros t Ht. cbn [perform fold_left apply w_tars]. destruct (mem_str t ts) eqn:M; [apply mem_str_In in M; contradiction|now apply N].
Qed.
Lemma carried_on_disk : forall digest wd refs w w' l, carry_over digest w wd refs = Ok (w', l) -> forall h r, In (h, r) l -> exists d n, r = OnDisk d n.
Proof.
  intros digest wd. induction refs as [|[h0 [d0 n0|t0 n0]] refs IH]; intros w w' l H h r Hr; cbn [carry_over] in H.
  - injection H as <- <-. destruct Hr.
  - destruct (carry_over digest w wd refs) as [[w1 l1]|e] eqn:C; [|discriminate]. cbn [rbind fst snd] in H. injection H as <- <-.
    destruct Hr as [E|Hr]; [injection E as <- <-; now exists d0, n0|]. exact (IH _ _ _ C h r Hr).
  - destruct (content w (InTar t0 n0)) as [data|]; [|discriminate]. destruct (create digest _ (Dir wd) h0 None None) as [rc|e] eqn:K; [|discriminate]. cbn [rbind] in H.
    destruct (carry_over digest (put w (path_join wd n0) data) wd refs) as [[w1 l1]|e] eqn:C; [|discriminate]. cbn [rbind fst snd] in H. injection H as <- <-.
    destruct Hr as [E|Hr]; [|exact (IH _ _ _ C h r Hr)]. injection E as <- <-. unfold create in K. cbn [rbind] in K. destruct (content _ _); [|discriminate]. cbn [rbind] in K. injection K as <-. cbn [fst]. eexists _, _. reflexivity.
Qed.
Lemma tar_steps_spec : forall digest w wd input same output ovf_file hrefs refs,
  (same = false -> forall h n, ~ In (h, InTar (normpath output) n) refs) ->
  match tar digest w wd input same ovf_file hrefs refs with
  | Ok a => exists ws, Forall is_write ws /\ (same = false -> ws = []) /\ (same = true -> ws = fst (carry_steps digest w wd refs)) /\
      tar_steps digest w wd input same output ovf_file hrefs refs = (ws ++ Begin (paths_of output input same) :: map (Append (paths_of output input same)) a, Ok tt)
  | Err e => snd (tar_steps digest w wd input same output ovf_file hrefs refs) = Err e
  end.
Proof.
  intros digest w wd input same output ovf_file hrefs refs Out. unfold tar, tar_steps. set (ts := paths_of output input same).
  assert (C : match (if same then carry_over digest w wd refs else Ok (w, refs)) with
    | Ok (w1, l) => snd (if same then carry_steps digest w wd refs else ([], Ok refs)) = Ok l /\ perform w (fst (if same then carry_steps digest w wd refs else ([], Ok refs))) = w1
       /\ (forall h r, In (h, r) l -> stable ts r)
    | Err e => snd (if same then carry_steps digest w wd refs else ([], Ok refs)) = Err e
    end).
  { destruct same.
    - pose proof (carry_spec digest wd refs w) as CS. destruct (carry_over digest w wd refs) as [[w1 l]|e] eqn:E; [|exact CS]. destruct CS as [C1 C2]. split; [exact C1|]. split; [exact C2|].
      intros h r Hr. destruct (carried_on_disk _ _ _ _ _ _ E h r Hr) as (d & n & ->). exact I.
    - split; [reflexivity|]. split; [reflexivity|]. intros h [d n|t n] Hr; [exact I|]. cbn. intros [E|[]]. apply (Out eq_refl h n). now rewrite E. }
  assert (FW : Forall is_write (fst (if same then carry_steps digest w wd refs else ([], Ok refs)))) by (destruct same; [apply carry_writes|constructor]).
  set (cs := if same then carry_steps digest w wd refs else ([], Ok refs)) in *.
  destruct (if same then carry_over digest w wd refs else Ok (w, refs)) as [[w1 l]|e]; cbn [rbind].
  2: { rewrite (andthen_err _ _ _ _ e _ C). reflexivity. }
  destruct C as (C1 & C2 & St). rewrite (andthen_ok _ _ _ _ l _ C1), C2. rewrite (andthen_ok _ _ _ _ tt) by reflexivity. cbn [fst snd].
  set (w1' := if same then _ else w1). assert (RF : forall q, w_files w1' q = w_files w1 q) by (unfold w1'; now destruct same).
  assert (RT : forall t, ~ In t ts -> w_tars w1' t = w_tars w1 t).
  { intros t Ht. unfold w1'. destruct same; [|reflexivity]. cbn [w_tars]. destruct (str_eqb t input) eqn:E; [|reflexivity]. exfalso. apply Ht. apply str_eqb_eq in E. subst t. right. now left. }
  change (perform w1 [Begin ts]) with (apply w1 (Begin ts)). set (w2 := apply w1 (Begin ts)).
  unfold head_steps. assert (RR : forall p, read w2 p = read w1' p) by (intros p; unfold read; now rewrite RF). rewrite (RR ovf_file).
  destruct (read w1' ovf_file) as [xml|]; [|now rewrite (andthen_err _ _ _ _ EEnvironment) by reflexivity].
  rewrite (andthen_ok _ _ _ _ tt) by reflexivity. cbn [fst snd]. rewrite RR.
  set (hd := mkMember (basename ovf_file) None xml). set (mf := splitext_root ovf_file ++ L ".mf").
  set (md := match read w1' mf with Some text => [mkMember (basename mf) None text] | None => [] end).
  assert (HM : Append ts hd :: match read w1' mf with Some text => [Append ts (mkMember (basename mf) None text)] | None => [] end = map (Append ts) (hd :: md)).
  { unfold md. cbn [map]. f_equal. now destruct (read w1' mf). }
  rewrite HM. set (w3 := perform w2 (map (Append ts) (hd :: md))).
  destruct (appended ts (hd :: md) w2) as (A1 & A2 & _).
  pose proof (append_spec ts l w1' St hrefs w3) as AP. destruct (add_all w1' l hrefs) as [a|e]; cbn [rbind].
  - exists (fst cs). split; [exact FW|]. split; [intros E; unfold cs; now rewrite E|]. split; [intros E; unfold cs; now rewrite E|].
    rewrite AP. { cbn [fst snd]. rewrite <- map_app. unfold md. reflexivity. } { intros q. unfold w3. rewrite A1. now rewrite RF. }
    intros t Ht. unfold w3. rewrite A2 by exact Ht. rewrite RT by exact Ht. unfold w2. apply apply_tar. exact Ht.
  - apply AP. { intros q. unfold w3. rewrite A1. now rewrite RF. }
    intros t Ht. unfold w3. rewrite A2 by exact Ht. rewrite RT by exact Ht. unfold w2. apply apply_tar. exact Ht.
Qed.
Theorem ova_steps_spec : forall digest w wd input same output algo xml hrefs refs,
  (same = false -> forall h n, ~ In (h, InTar (normpath output) n) refs) ->
  match write_ova digest w wd input same output algo xml hrefs refs with
  | Ok a => exists ws, Forall is_write ws /\
      ova_steps digest w wd input same output algo xml hrefs refs = (ws ++ Begin (paths_of output input same) :: map (Append (paths_of output input same)) a, Ok tt)
  | Err e => snd (ova_steps digest w wd input same output algo xml hrefs refs) = Err e
  end.
Proof.
  intros digest w wd input same output algo xml hrefs refs Out. unfold write_ova, ova_steps. set (f := path_join wd (basename (splitext_root output) ++ L ".ovf")).
  rewrite (andthen_ok _ _ _ _ tt) by reflexivity. cbn [fst snd]. change (perform w [Write f xml]) with (put w f xml).
  unfold manifest_steps. assert (read (put w f xml) f = Some xml) as -> by apply put_same.
  destruct (generate_manifest algo (basename f) (digest xml) hrefs (checksums digest (put w f xml) refs)) as [text|e]; cbn [rbind].
  2: { now rewrite (andthen_err _ _ _ _ e) by reflexivity. }
  rewrite (andthen_ok _ _ _ _ tt) by reflexivity. cbn [fst snd]. change (perform (put w f xml) [Write (splitext_root f ++ L ".mf") text]) with (put (put w f xml) (splitext_root f ++ L ".mf") text).
  pose proof (tar_steps_spec digest (put (put w f xml) (splitext_root f ++ L ".mf") text) wd input same output f hrefs refs Out) as TS.
  destruct (tar _ _ _ _ _ _ _ _) as [a|e]; [|exact TS]. destruct TS as (ws & F & _ & _ & ->). cbn [fst snd].
  exists (Write f xml :: Write (splitext_root f ++ L ".mf") text :: ws). split; [repeat constructor; exact F|reflexivity].
Qed.
Theorem ova_complete : forall digest w wd input same output algo xml hrefs refs,
  (same = false -> forall h n, ~ In (h, InTar (normpath output) n) refs) ->
  match write_ova digest w wd input same output algo xml hrefs refs with
  | Ok a => snd (ova_steps digest w wd input same output algo xml hrefs refs) = Ok tt /\
      w_tars (perform w (fst (ova_steps digest w wd input same output algo xml hrefs refs))) (normpath output) = Some a
  | Err e => snd (ova_steps digest w wd input same output algo xml hrefs refs) = Err e
  end.
Proof.
  intros digest w wd input same output algo xml hrefs refs Out. pose proof (ova_steps_spec digest w wd input same output algo xml hrefs refs Out) as S.
  destruct (write_ova _ _ _ _ _ _ _ _ _ _) as [a|e]; [|exact S]. destruct S as (ws & F & ->). cbn [fst snd]. split; [reflexivity|].
  rewrite perform_app. change (Begin ?t :: ?l) with ([Begin t] ++ l). rewrite perform_app. apply (proj2 (proj2 (appended _ a _)) (normpath output) []); [now left|].
  cbn [perform fold_left apply w_tars]. now rewrite (proj2 (mem_str_In (normpath output) (paths_of output input same)) (or_introl eq_refl)).
Qed.
