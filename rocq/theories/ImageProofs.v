(** Proofs about disk images. *)
From Coq Require Import ZArith Lia.
From Verif Require Import PyBase PyBaseProofs PyDict PyDictProofs PyRegex PyRegexProofs NetworkModel RawModel PathModel SelectModel
  SelectProofs ArchiveProofs DeploySpec DeployProofs InjectProofs ImageModel ImageSpec.
Local Open Scope Z_scope.

(** ** Files *)

Lemma touch_refl : forall l f, only_touches l f f.
Proof. intros l f p _. reflexivity. Qed.
Lemma touch_more : forall l l' f f', only_touches l f f' -> (forall x, In x l -> In x l') -> only_touches l' f f'.
Proof. intros l l' f f' H K p N. apply H. intros F. apply N, K, F. Qed.
Lemma touch_trans : forall l f f' f'', only_touches l f f' -> only_touches l f' f'' -> only_touches l f f''.
Proof. intros l f f' f'' H K p N. now rewrite (K p N), (H p N). Qed.
Lemma touch_dset : forall p d f, only_touches [p] f (dset str_eqb p d f).
Proof. intros p d f q N. apply dget_dset_other; [exact str_eqb_eq|]. intros ->. apply N. now left. Qed.
Lemma dget_filter_other : forall (f : drives) p q, q <> p -> dget str_eqb q (filter (fun e => negb (str_eqb p (fst e))) f) = dget str_eqb q f.
Proof.
  induction f as [|[k v] f IH]; intros p q N; [reflexivity|]. cbn [filter fst dget].
  destruct (str_eqb p k) eqn:E; cbn [negb].
  - apply str_eqb_eq in E. subst k. rewrite IH by exact N. apply str_eqb_neq in N. now rewrite N.
  - cbn [dget]. now rewrite IH.
Qed.
Lemma dget_filter_same : forall (f : drives) p, dget str_eqb p (filter (fun e => negb (str_eqb p (fst e))) f) = None.
Proof.
  induction f as [|[k v] f IH]; intros p; [reflexivity|]. cbn [filter fst].
  destruct (str_eqb p k) eqn:E; cbn [negb]; [apply IH|]. cbn [dget]. rewrite E. apply IH.
Qed.

(** ** One program *)

Lemma call_spec : forall P name args dst f r f', call_tool P name args f = (r, f') -> written name args = Some dst ->
  (forall d x, effect P name args f = Some (x, d) -> x = dst) ->
  only_touches [dst] f f' /\ (r = Ok tt \/ r = Err EHelperError \/ r = Err EHelperNotFound) /\
  (r = Ok tt -> installed P name = true /\ exists d, effect P name args f = Some (dst, d) /\ f' = dset str_eqb dst d f).
Proof.
  intros P name args dst f r f' H W X. unfold call_tool in H.
  destruct (installed P name) eqn:I; cbn [negb] in H; [|injection H as <- <-; split; [apply touch_refl|]; split; [auto|discriminate]].
  destruct (effect P name args f) as [[x d]|] eqn:E.
  - rewrite (X d x eq_refl) in *. destruct (p_fails P name args f).
    + injection H as <- <-. split; [|split; [auto|discriminate]]. destruct (p_junk P name args f); [apply touch_dset|apply touch_refl].
    + injection H as <- <-. split; [apply touch_dset|]. split; [auto|]. intros _. split; [reflexivity|]. exists d. auto.
  - rewrite W in H. injection H as <- <-. split; [|split; [auto|discriminate]].
    destruct (p_junk P name args f); [apply touch_dset|apply touch_refl].
Qed.
Lemma call_works : forall P name args f dst d, reliable P -> there P name -> effect P name args f = Some (dst, d) ->
  call_tool P name args f = (Ok tt, dset str_eqb dst d f).
Proof. intros P name args f dst d R [w I] E. unfold call_tool, installed. rewrite I. cbn [negb]. now rewrite E, R. Qed.
Lemma installed_there : forall P name, installed P name = true <-> there P name.
Proof.
  intros P name. unfold installed, there. destruct (p_version P name) as [w|]; split; intros H; eauto; try discriminate.
  destruct H as [w H]. discriminate.
Qed.
Lemma has_version_from : forall P name v, has_version P name v = true <-> version_from P name v.
Proof.
  intros P name v. unfold has_version, version_from. destruct (p_version P name) as [w|]; split; intros H; eauto; try discriminate.
  - destruct H as (x & F & H). now injection F as ->.
  - destruct H as (x & F & H). discriminate.
Qed.
Lemma version_there : forall P name v, version_from P name v -> there P name.
Proof. intros P name v (w & H & _). now exists w. Qed.

(** qemu-img convert *)
Lemma convert_effect : forall P fmt x y f, effect P (L "qemu-img") [L "convert"; L "-O"; fmt; x; y] f = qemu_convert P fmt None x y f.
Proof. reflexivity. Qed.
Lemma convert_sub_effect : forall P fmt s x y f,
  effect P (L "qemu-img") [L "convert"; L "-O"; fmt; L "-o"; L "subformat=" ++ s; x; y] f = qemu_convert P fmt (Some s) x y f.
Proof. reflexivity. Qed.
Lemma qemu_convert_spec : forall P fmt sub x y f z d', qemu_convert P fmt sub x y f = Some (z, d') ->
  z = y /\ x <> y /\ exists d, dget str_eqb x f = Some d /\ d' = mkDisk fmt sub (d_data d) /\
    (sub = Some (L "streamOptimized") -> version_from P (L "qemu-img") (2, 1, 0)).
Proof.
  intros P fmt sub x y f z d' H. unfold qemu_convert in H. destruct (dget str_eqb x f) as [d|]; [|discriminate].
  destruct (mem_str fmt qemu_formats); cbn [negb] in H; [|discriminate].
  destruct (str_eqb x y) eqn:E; [discriminate|]. apply str_eqb_neq in E.
  destruct (streamed d && negb (has_version P (L "qemu-img") (1, 2, 0))); [discriminate|].
  destruct (opt_eqb sub (Some (L "streamOptimized")) && negb (has_version P (L "qemu-img") (2, 1, 0))) eqn:V; [discriminate|].
  destruct (opt_eqb sub (Some (L "None"))); [discriminate|]. injection H as <- <-.
  split; [reflexivity|]. split; [exact E|]. exists d. split; [reflexivity|]. split; [reflexivity|]. intros ->.
  apply has_version_from. destruct (has_version P (L "qemu-img") (2, 1, 0)); [reflexivity|discriminate V].
Qed.
Lemma opt_eqb_eq : forall a b, opt_eqb a b = true <-> a = b.
Proof.
  intros [a|] [b|]; cbn [opt_eqb]; split; intros H; try discriminate; try reflexivity.
  - apply str_eqb_eq in H. now subst.
  - injection H as ->. apply str_eqb_refl.
Qed.
Lemma open_ok : forall c p f j, open_image c p f = Ok j -> j = mkImg c p.
Proof. intros c [|a p] f j H; cbn in H; [discriminate|]. destruct (dmem str_eqb (a :: p) f); [|discriminate]. now injection H as <-. Qed.
Lemma open_works : forall c p d f, p <> [] -> open_image c p (dset str_eqb p d f) = Ok (mkImg c p).
Proof.
  intros c [|a p] d f N; [congruence|]. unfold open_image, dmem. now rewrite (dget_dset_same str_eqb str_eqb_eq).
Qed.
Lemma open_err : forall c p f e, open_image c p f = Err e -> e <> EOutOfFuel.
Proof. intros c [|a p] f e H; cbn in H; [injection H as <-; discriminate|]. destruct (dmem str_eqb (a :: p) f); [discriminate|]. injection H as <-. discriminate. Qed.

(** A call and then the object for what it has written. *)
Definition then_open (P : programs) (name : str) (args : list str) (c : disk_class) (out : str) (f : drives) : io img :=
  ibind (call_tool P name args f) (fun _ f => lift (open_image c out f) f).
Lemma then_open_spec : forall P name args c out f r f', then_open P name args c out f = (r, f') -> written name args = Some out ->
  (forall d x, effect P name args f = Some (x, d) -> x = out) ->
  only_touches [out] f f' /\ r <> Err EOutOfFuel /\ r <> Err ENameError /\
  (forall j, r = Ok j -> j = mkImg c out /\ installed P name = true /\ exists d, effect P name args f = Some (out, d) /\ f' = dset str_eqb out d f).
Proof.
  intros P name args c out f r f' H W X. unfold then_open in H. destruct (call_tool P name args f) as [r1 f1] eqn:E.
  destruct (call_spec _ _ _ _ _ _ _ E W X) as (T & K & O). destruct K as [->|[->| ->]]; cbn [ibind] in H.
  - unfold lift in H. injection H as <- <-. split; [exact T|]. destruct (O eq_refl) as [I J].
    destruct (open_image c out f1) as [j|e] eqn:Eo.
    + split; [discriminate|]. split; [discriminate|]. intros j' F. injection F as <-. split; [now apply open_ok in Eo|]. auto.
    + split; [|split; [|discriminate]]; intros F; injection F as ->; destruct out; cbn in Eo; try discriminate;
        destruct (dmem str_eqb (a :: out) f1); discriminate.
  - injection H as <- <-. repeat split; try discriminate. exact T.
  - injection H as <- <-. repeat split; try discriminate. exact T.
Qed.
Lemma then_open_works : forall P name args c out f d, reliable P -> there P name -> out <> [] -> effect P name args f = Some (out, d) ->
  then_open P name args c out f = (Ok (mkImg c out), dset str_eqb out d f).
Proof.
  intros P name args c out f d R I N E. unfold then_open. rewrite (call_works _ _ _ _ _ _ R I E). cbn [ibind]. unfold lift.
  now rewrite open_works.
Qed.

(** ** Choosing the program *)

Lemma select_read : forall P, select P [(L "qemu-img", Some (1, 2, 0)); (L "vmdktool", None)] =
  if has_version P (L "qemu-img") (1, 2, 0) then Ok (L "qemu-img")
  else if installed P (L "vmdktool") then Ok (L "vmdktool") else Err EHelperNotFound.
Proof.
  intros P. unfold select, helper_select. cbn [select_installed select_installable fst snd]. unfold version_ok, installed, has_version. cbn [fst snd].
  destruct (p_version P (L "qemu-img")) as [v|]; [destruct (at_least v (1, 2, 0)); [reflexivity|]|];
    destruct (p_version P (L "vmdktool")); reflexivity.
Qed.
Lemma select_write : forall P, select P [(L "qemu-img", Some (2, 5, 1)); (L "vmdktool", None); (L "qemu-img", Some (2, 1, 0))] =
  if has_version P (L "qemu-img") (2, 5, 1) then Ok (L "qemu-img")
  else if installed P (L "vmdktool") then Ok (L "vmdktool")
  else if has_version P (L "qemu-img") (2, 1, 0) then Ok (L "qemu-img") else Err EHelperNotFound.
Proof.
  intros P. unfold select, helper_select. cbn [select_installed select_installable fst snd]. unfold version_ok, installed, has_version. cbn [fst snd].
  destruct (p_version P (L "qemu-img")) as [v|]; [destruct (at_least v (2, 5, 1)); [reflexivity|]|];
    destruct (p_version P (L "vmdktool")); try reflexivity; destruct (at_least v (2, 1, 0)); reflexivity.
Qed.
Lemma at_least_trans : forall v a b, at_least a b = true -> at_least v a = true -> at_least v b = true.
Proof.
  intros [[v1 v2] v3] [[a1 a2] a3] [[b1 b2] b3] H K. unfold at_least in *.
  rewrite ?orb_true_iff, ?andb_true_iff, ?orb_true_iff, ?andb_true_iff, ?Z.ltb_lt, ?Z.eqb_eq, ?Z.leb_le in *. lia.
Qed.
Lemma newer : forall P name a b, at_least a b = true -> version_from P name a -> version_from P name b.
Proof. intros P name a b H (w & E & K). exists w. split; [exact E|]. now apply (at_least_trans w a b). Qed.

(** ** Is it stream-optimized? *)

Lemma is_streamed_spec : forall i f b, is_streamed i f = Ok b -> (b = true <-> stream_optimized i f).
Proof.
  intros i f b H. unfold is_streamed in H. unfold stream_optimized. destruct (i_class i) eqn:C;
    try (injection H as <-; split; [discriminate|intros [F _]; discriminate F]).
  unfold vmdk_subformat in H. destruct (dget str_eqb (i_path i) f) as [d|] eqn:E; [|discriminate].
  destruct (d_sub d) as [s|] eqn:S; [|discriminate]. injection H as <-. split.
  - intros F. apply str_eqb_eq in F. subst s. split; [reflexivity|]. exists d. auto.
  - intros (_ & d' & E' & S'). injection E' as <-. rewrite S in S'. injection S' as ->. reflexivity.
Qed.
Lemma is_streamed_err : forall i f e, is_streamed i f = Err e -> e <> EOutOfFuel /\ e <> ENameError.
Proof.
  intros i f e H. unfold is_streamed, vmdk_subformat in H. destruct (i_class i); try discriminate.
  destruct (dget str_eqb (i_path i) f) as [d|]; [destruct (d_sub d); [discriminate|]|]; injection H as <-; split; discriminate.
Qed.
Lemma faithful_streamed : forall i f, faithful i f -> exists b, is_streamed i f = Ok b.
Proof.
  intros i f (d & E & F & S). unfold is_streamed, vmdk_subformat. destruct (i_class i) eqn:C; eauto. rewrite E.
  destruct (d_sub d); [eauto|]. now destruct (S eq_refl).
Qed.
Lemma raw_not_streamed : forall p f, is_streamed (mkImg RAW p) f = Ok false.
Proof. reflexivity. Qed.

(** ** Names *)

Lemma basename_root_plain : forall path, ~ In "/"%char (splitext_root (basename path)).
Proof.
  intros path F. destruct (split_slash_last path) as (dir & _ & _ & N). apply N.
  unfold splitext_root in F. rewrite <- (firstn_skipn (length (basename path) - length (splitext_ext (basename path))) (basename path)).
  apply in_or_app. now left.
Qed.
Lemma target_named : forall i dir ext, target i dir ext = named dir (splitext_root (basename (i_path i))) ext.
Proof. reflexivity. Qed.
Lemma file_stem_root : forall path stem, file_stem path stem -> ~ dots stem -> stem = splitext_root (basename path).
Proof.
  intros path stem (dir & ext & -> & D & NS & E) ND.
  assert (B : basename (dir ++ stem ++ ext) = stem ++ ext) by now apply basename_dir.
  change (list ascii) with str in *. rewrite B. clear B.
  destruct E as [[-> H]|(e & -> & Ne & _)].
  - rewrite app_nil_r in *. destruct (stem_spec stem) as (d & ext & E1 & D1 & NS1 & E2).
    assert (B : basename stem = stem) by now apply basename_plain. change (list ascii) with str in *. rewrite B in *.
    assert (d = []) as ->. { destruct D1 as [->|[x ->]]; [reflexivity|]. exfalso. apply NS. rewrite E1, !in_app_iff. left. right. now left. }
    cbn [app] in E1. destruct E2 as [[-> _]|(e & -> & Ne & Nd)]; [now rewrite app_nil_r in E1|].
    exfalso. apply Nd. now apply (H (splitext_root stem) e).
  - symmetry. apply (root_of [] stem e); [now left| | |exact Ne|].
    + intros F. apply NS, in_or_app. now left.
    + intros F. apply NS, in_or_app. right. now right.
    + destruct (forallb (fun c => Ascii.eqb c "."%char) stem) eqn:A; [now apply all_dots in A|].
      clear -A. induction stem as [|c s IH]; [discriminate|]. cbn [forallb] in A. destruct (Ascii.eqb c ".") eqn:C.
      * destruct (IH A) as (x & I & N). exists x. split; [now right|exact N].
      * exists c. split; [now left|]. intros ->. discriminate C.
Qed.
Lemma named_root : forall dir stem e, ~ dots stem -> ~ In "/"%char stem -> ~ In "/"%char e -> ~ In "."%char e ->
  splitext_root (basename (named dir stem ("."%char :: e))) = stem.
Proof.
  intros dir stem e ND NS Ne1 Ne2. unfold named.
  assert (N : ~ In "/"%char (stem ++ "."%char :: e)).
  { rewrite in_app_iff. intros [F|[F|F]]; [now apply NS|discriminate F|now apply Ne1]. }
  rewrite basename_join by exact N. rewrite <- (basename_plain _ N). symmetry. apply file_stem_root; [|exact ND].
  exists [], ("."%char :: e). split; [reflexivity|]. split; [now left|]. split; [exact N|]. right. exists e. auto.
Qed.
Lemma named_inj : forall dir stem e1 e2, ~ In "/"%char stem -> ~ In "/"%char e1 -> ~ In "/"%char e2 -> e1 <> e2 -> named dir stem e1 <> named dir stem e2.
Proof.
  intros dir stem e1 e2 N N1 N2 D F. apply D. apply join_inj in F; [now apply app_inv_head in F| |]; rewrite in_app_iff; tauto.
Qed.
Lemma named_full : forall dir stem e, e <> [] -> named dir stem e <> [].
Proof.
  intros dir stem e N. unfold named, path_join. assert (K : stem ++ e <> []) by (intros F; apply app_eq_nil in F as [_ F]; now apply N).
  destruct (starts_with (L "/") (stem ++ e)); [exact K|]. destruct dir as [|c dir]; [exact K|]. destruct (ends_with (L "/") (c :: dir)); discriminate.
Qed.

(** ** Conversions *)

Lemma no_slash_ext : forall e, In e [L ".img"; L ".vmdk"; L ".qcow2"] -> ~ In "/"%char e /\ e <> [].
Proof. intros e [<-|[<-|[<-|[]]]]; (split; [vm_compute; intuition discriminate|discriminate]). Qed.

Lemma to_raw_spec : forall P i dir f r f', to_raw P i dir f = (r, f') -> let out := target i dir (L ".img") in
  only_touches [out] f f' /\ r <> Err EOutOfFuel /\
  (forall j, r = Ok j -> j = mkImg RAW out /\ i_path i <> out /\
    exists d, dget str_eqb (i_path i) f = Some d /\ f' = dset str_eqb out (mkDisk (L "raw") None (d_data d)) f /\
      (there P (L "qemu-img") \/ (stream_optimized i f /\ there P (L "vmdktool")))).
Proof.
  intros P i dir f r f' H out. unfold to_raw in H. fold out in H.
  change (fun f0 : drives => ibind (call_tool P (L "qemu-img") [L "convert"; L "-O"; L "raw"; i_path i; out] f0) (fun _ f1 => lift (open_image RAW out f1) f1))
    with (then_open P (L "qemu-img") [L "convert"; L "-O"; L "raw"; i_path i; out] RAW out) in H.
  assert (Q : forall r f', then_open P (L "qemu-img") [L "convert"; L "-O"; L "raw"; i_path i; out] RAW out f = (r, f') ->
    only_touches [out] f f' /\ r <> Err EOutOfFuel /\
    (forall j, r = Ok j -> j = mkImg RAW out /\ i_path i <> out /\
      exists d, dget str_eqb (i_path i) f = Some d /\ f' = dset str_eqb out (mkDisk (L "raw") None (d_data d)) f /\
        (there P (L "qemu-img") \/ (stream_optimized i f /\ there P (L "vmdktool"))))).
  { clear. intros r f' H. apply then_open_spec in H as (T & N & _ & O); [|reflexivity|].
    - split; [exact T|]. split; [exact N|]. intros j ->. destruct (O j eq_refl) as (-> & I & d & E & ->). split; [reflexivity|].
      rewrite convert_effect in E. apply qemu_convert_spec in E as (_ & D & k & G & -> & _). split; [exact D|]. exists k. split; [exact G|].
      split; [reflexivity|]. left. now apply installed_there.
    - intros d x E. rewrite convert_effect in E. now apply qemu_convert_spec in E as (-> & _). }
  destruct (is_streamed i f) as [[|]|e] eqn:S; [|now apply Q|].
  - rewrite select_read in H. destruct (has_version P (L "qemu-img") (1, 2, 0)); [now apply Q|].
    destruct (installed P (L "vmdktool")) eqn:I.
    + change (str_eqb (L "vmdktool") (L "vmdktool")) with true in H. cbv iota in H.
      change (then_open P (L "vmdktool") [L "-s"; out; i_path i] RAW out f = (r, f')) in H.
      assert (X : forall d x, effect P (L "vmdktool") [L "-s"; out; i_path i] f = Some (x, d) -> x = out /\ i_path i <> out /\
        exists k, dget str_eqb (i_path i) f = Some k /\ d = mkDisk (L "raw") None (d_data k)).
      { intros d x E. change (effect P (L "vmdktool") [L "-s"; out; i_path i] f) with (vmdktool [L "-s"; out; i_path i] f) in E.
        unfold vmdktool in E. change (str_eqb (L "-s") (L "-s")) with true in E. cbv iota in E.
        destruct (dget str_eqb (i_path i) f) as [k|]; [|discriminate]. destruct (streamed k && negb (str_eqb (i_path i) out)) eqn:B; [|discriminate].
        injection E as <- <-. split; [reflexivity|]. split; [|exists k; auto]. apply andb_true_iff in B as [_ B]. intros F. rewrite F, str_eqb_refl in B. discriminate B. }
      apply then_open_spec in H as (T & N & _ & O); [|reflexivity|intros d x E; now apply X in E].
      split; [exact T|]. split; [exact N|]. intros j ->. destruct (O j eq_refl) as (-> & _ & d & E & ->). split; [reflexivity|].
      apply X in E as (_ & D & k & G & ->). split; [exact D|]. exists k. split; [exact G|]. split; [reflexivity|]. right.
      split; [now apply (is_streamed_spec _ _ _ S)|now apply installed_there].
    + injection H as <- <-. split; [apply touch_refl|]. split; discriminate.
  - injection H as <- <-. split; [apply touch_refl|]. split; [|discriminate]. apply is_streamed_err in S as [S _]. intros F. injection F as ->. now apply S.
Qed.

Lemma and_remove_spec : forall A path (r : io A) r' f', and_remove path r = (r', f') -> dget str_eqb path (snd r) <> None ->
  r' = fst r /\ dget str_eqb path f' = None /\ only_touches [path] (snd r) f'.
Proof.
  intros A path [r f] r' f' H N. unfold and_remove, remove in H. cbn [fst snd] in *. unfold dmem in H.
  destruct (dget str_eqb path f); [|congruence]. injection H as <- <-. split; [reflexivity|]. split; [apply dget_filter_same|].
  intros p K. apply dget_filter_other. intros ->. apply K. now left.
Qed.

Definition vmdk_out (i : img) (dir : str) : str := target i dir (L ".vmdk").
Definition img_out (i : img) (dir : str) : str := target i dir (L ".img").

Lemma vmdktool_effect : forall P out x f d z, effect P (L "vmdktool") [L "-z9"; L "-v"; out; x] f = Some (z, d) ->
  z = out /\ x <> out /\ exists k, dget str_eqb x f = Some k /\ d = mkDisk (L "vmdk") (Some (L "streamOptimized")) (d_data k).
Proof.
  intros P out x f d z E. change (effect P (L "vmdktool") [L "-z9"; L "-v"; out; x] f) with (vmdktool [L "-z9"; L "-v"; out; x] f) in E.
  unfold vmdktool in E. change (str_eqb (L "-z9") (L "-z9") && str_eqb (L "-v") (L "-v")) with true in E. cbv iota in E.
  destruct (dget str_eqb x f) as [k|]; [|discriminate]. destruct (str_eqb (d_format k) (L "raw") && negb (str_eqb x out)) eqn:B; [|discriminate].
  injection E as <- <-. split; [reflexivity|]. split; [|exists k; auto]. apply andb_true_iff in B as [_ B]. intros F. rewrite F, str_eqb_refl in B. discriminate B.
Qed.

(** What one conversion to a VMDK does, without a scratch file. *)
Definition direct (i : img) (out : str) (sub : option str) (f : drives) (r : result img) (f' : drives) : Prop :=
  only_touches [out] f f' /\ r <> Err EOutOfFuel /\
  (forall j, r = Ok j -> j = mkImg VMDK out /\ i_path i <> out /\
    exists d, dget str_eqb (i_path i) f = Some d /\ exists s, sub = Some s /\ f' = dset str_eqb out (mkDisk (L "vmdk") (Some s) (d_data d)) f).

Lemma vmdk_qemu : forall P i out sub f r f',
  then_open P (L "qemu-img") [L "convert"; L "-O"; L "vmdk"; L "-o"; L "subformat=" ++ sub_text sub; i_path i; out] VMDK out f = (r, f') ->
  direct i out sub f r f' /\ (forall j, r = Ok j -> there P (L "qemu-img") /\ (sub = Some (L "streamOptimized") -> version_from P (L "qemu-img") (2, 1, 0))).
Proof.
  intros P i out sub f r f' H. apply then_open_spec in H as (T & N & _ & O); [|reflexivity|].
  - assert (X : forall j, r = Ok j -> j = mkImg VMDK out /\ there P (L "qemu-img") /\ i_path i <> out /\ exists d, dget str_eqb (i_path i) f = Some d /\
      exists s, sub = Some s /\ f' = dset str_eqb out (mkDisk (L "vmdk") (Some s) (d_data d)) f /\ (sub = Some (L "streamOptimized") -> version_from P (L "qemu-img") (2, 1, 0))).
    { intros j ->. destruct (O j eq_refl) as (-> & I & d & E & ->). split; [reflexivity|]. split; [now apply installed_there|].
      rewrite convert_sub_effect in E. destruct sub as [s|].
      - cbn [sub_text] in E. apply qemu_convert_spec in E as (_ & D & k & G & -> & V). split; [exact D|]. exists k. split; [exact G|]. exists s. auto.
      - exfalso. cbn [sub_text] in E. unfold qemu_convert in E. destruct (dget str_eqb (i_path i) f) as [k|]; [|discriminate].
        destruct (mem_str (L "vmdk") qemu_formats); cbn [negb] in E; [|discriminate]. destruct (str_eqb (i_path i) out); [discriminate|].
        destruct (streamed k && negb (has_version P (L "qemu-img") (1, 2, 0))); [discriminate|]. discriminate E. }
    split.
    + split; [exact T|]. split; [exact N|]. intros j E. destruct (X j E) as (-> & _ & D & d & G & s & -> & -> & _). split; [reflexivity|]. split; [exact D|]. exists d. split; [exact G|]. now exists s.
    + intros j E. destruct (X j E) as (_ & I & _ & d & _ & s & _ & _ & V). auto.
  - intros d x E. rewrite convert_sub_effect in E. now apply qemu_convert_spec in E as (-> & _).
Qed.
Lemma vmdk_vmdktool : forall P i out f r f', then_open P (L "vmdktool") [L "-z9"; L "-v"; out; i_path i] VMDK out f = (r, f') ->
  direct i out (Some (L "streamOptimized")) f r f'.
Proof.
  intros P i out f r f' H. apply then_open_spec in H as (T & N & _ & O); [|reflexivity|intros d x E; now apply vmdktool_effect in E].
  split; [exact T|]. split; [exact N|]. intros j ->. destruct (O j eq_refl) as (-> & I & d & E & ->). split; [reflexivity|].
  apply vmdktool_effect in E as (_ & D & k & G & ->). split; [exact D|]. exists k. split; [exact G|]. eexists. split; reflexivity.
Qed.

Lemma scratch_false : forall P i, has_version P (L "qemu-img") (2, 5, 1) = true \/ installed P (L "vmdktool") = false \/ i_class i = RAW -> ~ needs_scratch P i.
Proof.
  intros P i [H|[H|H]] (A & B & C); [|apply installed_there in B; congruence|congruence].
  apply A. now apply has_version_from.
Qed.
Lemma scratch_true : forall P i, has_version P (L "qemu-img") (2, 5, 1) = false -> installed P (L "vmdktool") = true -> i_class i <> RAW -> needs_scratch P i.
Proof.
  intros P i A B C. split; [|split; [now apply installed_there|exact C]]. intros F. apply has_version_from in F. congruence.
Qed.

Lemma vmdk_step_raw : forall again P i dir f r f', i_class i = RAW \/ has_version P (L "qemu-img") (2, 5, 1) = true \/ installed P (L "vmdktool") = false ->
  vmdk_step again P i dir (Some (L "streamOptimized")) f = (r, f') ->
  direct i (vmdk_out i dir) (Some (L "streamOptimized")) f r f' /\ (forall j, r = Ok j -> can_stream P i).
Proof.
  intros again P i dir f r f' K H. unfold vmdk_step in H. change (opt_eqb (Some (L "streamOptimized")) (Some (L "streamOptimized"))) with true in H. cbv iota in H.
  fold (vmdk_out i dir) in H. set (out := vmdk_out i dir) in *.
  change (ibind (call_tool P (L "vmdktool") [L "-z9"; L "-v"; out; i_path i] f) (fun _ f0 => lift (open_image VMDK out f0) f0))
    with (then_open P (L "vmdktool") [L "-z9"; L "-v"; out; i_path i] VMDK out f) in H.
  change (ibind (call_tool P (L "qemu-img") [L "convert"; L "-O"; L "vmdk"; L "-o"; L "subformat=" ++ sub_text (Some (L "streamOptimized")); i_path i; out] f)
      (fun _ f0 => lift (open_image VMDK out f0) f0))
    with (then_open P (L "qemu-img") [L "convert"; L "-O"; L "vmdk"; L "-o"; L "subformat=" ++ sub_text (Some (L "streamOptimized")); i_path i; out] VMDK out f) in H.
  rewrite select_write in H.
  assert (Q : forall r f', then_open P (L "qemu-img") [L "convert"; L "-O"; L "vmdk"; L "-o"; L "subformat=" ++ sub_text (Some (L "streamOptimized")); i_path i; out] VMDK out f = (r, f') ->
    direct i out (Some (L "streamOptimized")) f r f' /\ (forall j, r = Ok j -> can_stream P i)).
  { clear. intros r f' H. apply vmdk_qemu in H as [H V]. split; [exact H|]. intros j E. left. now apply (V j E). }
  destruct (has_version P (L "qemu-img") (2, 5, 1)); [now apply Q|].
  destruct (installed P (L "vmdktool")) eqn:I.
  - change (str_eqb (L "vmdktool") (L "vmdktool")) with true in H. cbv iota in H.
    assert (C : i_class i = RAW) by (destruct K as [K|[K|K]]; [exact K|discriminate|discriminate]). rewrite C in H.
    split; [now apply (vmdk_vmdktool P)|]. intros j _. right. split; [now apply installed_there|now left].
  - destruct (has_version P (L "qemu-img") (2, 1, 0)); [now apply Q|].
    injection H as <- <-. split; [|discriminate]. split; [apply touch_refl|]. split; discriminate.
Qed.

Lemma vmdk_other : forall again P i dir sub f r f', sub <> Some (L "streamOptimized") -> vmdk_step again P i dir sub f = (r, f') ->
  direct i (vmdk_out i dir) sub f r f' /\ (forall j, r = Ok j -> there P (L "qemu-img")).
Proof.
  intros again P i dir sub f r f' N H. unfold vmdk_step in H. destruct (opt_eqb sub (Some (L "streamOptimized"))) eqn:E.
  - apply opt_eqb_eq in E. congruence.
  - fold (vmdk_out i dir) in H. set (out := vmdk_out i dir) in *.
    match type of H with ?X = _ => change X with (then_open P (L "qemu-img") [L "convert"; L "-O"; L "vmdk"; L "-o"; L "subformat=" ++ sub_text sub; i_path i; out] VMDK out f) in H end.
    apply vmdk_qemu in H as [H V]. split; [exact H|]. intros j J. now apply (V j J).
Qed.

Lemma img_vmdk : forall i dir, img_out i dir <> vmdk_out i dir.
Proof.
  intros i dir. unfold img_out, vmdk_out. rewrite !target_named. apply named_inj; [apply basename_root_plain| | |discriminate]; vm_compute; intuition discriminate.
Qed.
Lemma img_qcow2 : forall i dir, img_out i dir <> target i dir (L ".qcow2").
Proof.
  intros i dir. unfold img_out. rewrite !target_named. apply named_inj; [apply basename_root_plain| | |discriminate]; vm_compute; intuition discriminate.
Qed.
Lemma proper_root : forall path, proper_name path -> ~ dots (splitext_root (basename path)).
Proof. intros path (stem & H & N). now rewrite <- (file_stem_root path stem H N). Qed.
Lemma target_again : forall i dir ext, proper_name (i_path i) -> target (mkImg RAW (img_out i dir)) dir ext = target i dir ext.
Proof.
  intros i dir ext H. rewrite !target_named. cbn [i_path]. unfold img_out. rewrite target_named. change (L ".img") with ("."%char :: L "img").
  rewrite named_root; [reflexivity|now apply proper_root|apply basename_root_plain| |]; vm_compute; intuition discriminate.
Qed.

Lemma to_vmdk_scratch : forall P i dir f r f', proper_name (i_path i) -> needs_scratch P i ->
  to_vmdk P i dir (Some (L "streamOptimized")) f = (r, f') ->
  only_touches [vmdk_out i dir; img_out i dir] f f' /\ r <> Err EOutOfFuel /\
  (forall j, r = Ok j -> j = mkImg VMDK (vmdk_out i dir) /\ i_path i <> img_out i dir /\ absent f' (img_out i dir) /\ (can_stream P i \/ stream_optimized i f) /\
    exists d, contains_data f (i_path i) d /\ has_image f' (vmdk_out i dir) (L "vmdk") (Some (L "streamOptimized")) d) /\
  (absent f' (img_out i dir) \/ exists e, to_raw P i dir f = (Err e, f') /\ r = Err e).
Proof.
  intros P i dir f r f' PN (NV & TH & NR) H.
  assert (V : has_version P (L "qemu-img") (2, 5, 1) = false).
  { destruct (has_version P (L "qemu-img") (2, 5, 1)) eqn:V; [|reflexivity]. apply has_version_from in V. contradiction. }
  pose proof (proj2 (installed_there P (L "vmdktool")) TH) as I.
  unfold to_vmdk in H. unfold vmdk_step at 1 in H. change (opt_eqb (Some (L "streamOptimized")) (Some (L "streamOptimized"))) with true in H. cbv iota in H.
  rewrite select_write, V, I in H. change (str_eqb (L "vmdktool") (L "vmdktool")) with true in H. cbv iota in H.
  destruct (to_raw P i dir f) as [[temp|e] f1] eqn:R.
  - apply to_raw_spec in R as (T & _ & O). destruct (O temp eq_refl) as (-> & D & k & G & -> & W). clear O T.
    fold (img_out i dir) in *. set (f1 := dset str_eqb (img_out i dir) (mkDisk (L "raw") None (d_data k)) f) in *.
    assert (H' : and_remove (img_out i dir) (vmdk_step (fun _ f => (Err EOutOfFuel, f)) P (mkImg RAW (img_out i dir)) dir (Some (L "streamOptimized")) f1) = (r, f')).
    { destruct (i_class i); [exact H|exact H|now destruct NR|exact H]. }
    clear H. destruct (vmdk_step _ P (mkImg RAW (img_out i dir)) dir (Some (L "streamOptimized")) f1) as [r2 f2] eqn:S.
    apply vmdk_step_raw in S as [(T2 & N2 & O2) _]; [|now left].
    assert (EO : vmdk_out (mkImg RAW (img_out i dir)) dir = vmdk_out i dir) by now apply target_again. rewrite EO in *.
    assert (P1 : dget str_eqb (img_out i dir) f1 = Some (mkDisk (L "raw") None (d_data k))) by (apply dget_dset_same; exact str_eqb_eq).
    assert (P2 : dget str_eqb (img_out i dir) f2 <> None).
    { rewrite T2; [now rewrite P1|]. intros [F|[]]. symmetry in F. now apply (img_vmdk i dir). }
    apply and_remove_spec in H' as (-> & A & T3); [|exact P2]. cbn [fst snd] in *.
    assert (TT : only_touches [vmdk_out i dir; img_out i dir] f f').
    { apply touch_trans with f1; [apply (touch_more [img_out i dir]); [apply touch_dset|intros x [<-|[]]; right; now left]|].
      apply touch_trans with f2; [apply (touch_more [vmdk_out i dir]); [exact T2|intros x [<-|[]]; now left]|].
      apply (touch_more [img_out i dir]); [exact T3|intros x [<-|[]]; right; now left]. }
    split; [exact TT|]. split; [exact N2|]. split; [|now left]. intros j ->. destruct (O2 j eq_refl) as (-> & D2 & d & G2 & s & Es & ->).
    injection Es as <-. cbn [i_path] in *. rewrite P1 in G2. injection G2 as <-. split; [reflexivity|]. split; [exact D|]. split; [exact A|]. split.
    { destruct W as [W|[W _]]; [left; right; auto|now right]. }
    exists (d_data k). split; [exists k; auto|]. unfold has_image. rewrite T3.
    + apply dget_dset_same. exact str_eqb_eq.
    + intros [F|[]]. now apply (img_vmdk i dir).
  - destruct (i_class i); [| |now destruct NR|]; injection H as <- <-; apply to_raw_spec in R as R'; destruct R' as (T & N & _);
      (split; [apply (touch_more [img_out i dir]); [exact T|intros x [<-|[]]; right; now left]|]); (split; [intros F; injection F as ->; now apply N|]);
      (split; [discriminate|]); right; exists e; auto.
Qed.

Lemma raw_dec : forall c : disk_class, {c = RAW} + {c <> RAW}.
Proof. intros []; (left; reflexivity) || (right; discriminate). Qed.
Lemma scratch_dec : forall P i, needs_scratch P i \/ ~ needs_scratch P i.
Proof.
  intros P i. destruct (has_version P (L "qemu-img") (2, 5, 1)) eqn:V; [right; apply scratch_false; auto|].
  destruct (installed P (L "vmdktool")) eqn:I; [|right; apply scratch_false; auto].
  destruct (raw_dec (i_class i)) as [C|C]; [right; apply scratch_false; auto|left; now apply scratch_true].
Qed.
Lemma to_vmdk_direct : forall P i dir f r f', ~ needs_scratch P i -> to_vmdk P i dir (Some (L "streamOptimized")) f = (r, f') ->
  direct i (vmdk_out i dir) (Some (L "streamOptimized")) f r f' /\ (forall j, r = Ok j -> can_stream P i).
Proof.
  intros P i dir f r f' N H. unfold to_vmdk in H. apply vmdk_step_raw in H; [exact H|].
  destruct (raw_dec (i_class i)) as [C|C]; [now left|]. right. destruct (has_version P (L "qemu-img") (2, 5, 1)) eqn:V; [now left|]. right.
  destruct (installed P (L "vmdktool")) eqn:I; [|reflexivity]. exfalso. apply N. now apply scratch_true.
Qed.

(** ** convert_disk_if_needed *)

Theorem convert_if_needed_spec : forall P i kind dir f j f', proper_name (i_path i) -> convert_if_needed P i kind dir f = (Ok j, f') ->
  ((kind <> L "harddisk" \/ stream_optimized i f) /\ j = i /\ f' = f) \/
  (kind = L "harddisk" /\ ~ stream_optimized i f /\ can_stream P i /\ exists stem d, file_stem (i_path i) stem /\ ~ dots stem /\
    let out := named dir stem (L ".vmdk") in let scratch := named dir stem (L ".img") in
    j = mkImg VMDK out /\ contains_data f (i_path i) d /\ has_image f' out (L "vmdk") (Some (L "streamOptimized")) d /\
    (needs_scratch P i -> i_path i <> scratch /\ absent f' scratch /\ only_touches [out; scratch] f f') /\
    (~ needs_scratch P i -> i_path i <> out /\ only_touches [out] f f')).
Proof.
  intros P i kind dir f j f' PN H. unfold convert_if_needed in H. destruct (str_eqb kind (L "harddisk")) eqn:K; cbn [negb] in H.
  2: { injection H as <- <-. left. apply str_eqb_neq in K. auto. }
  apply str_eqb_eq in K. destruct (is_streamed i f) as [[|]|e] eqn:S; [| |discriminate].
  { injection H as <- <-. left. split; [right; now apply (is_streamed_spec _ _ _ S)|auto]. }
  assert (NS : ~ stream_optimized i f) by (intros F; apply (is_streamed_spec _ _ _ S) in F; discriminate F).
  change (convert_to P i (L "vmdk") dir (Some (L "streamOptimized")) f) with (to_vmdk P i dir (Some (L "streamOptimized")) f) in H.
  right. split; [exact K|]. split; [exact NS|].
  pose proof (scratch_dec P i) as SC.
  pose proof (stem_spec (i_path i)) as ST. pose proof (proper_root _ PN) as ND.
  destruct SC as [SC|SC].
  - destruct (to_vmdk_scratch _ _ _ _ _ _ PN SC H) as (T & _ & O & _). destruct (O j eq_refl) as (-> & D & A & [CS|CS] & d & C1 & C2); [|contradiction].
    split; [exact CS|]. exists (splitext_root (basename (i_path i))), d. split; [exact ST|]. split; [exact ND|]. cbv zeta.
    split; [reflexivity|]. split; [exact C1|]. split; [exact C2|]. split; [|intros F; contradiction]. intros _. split; [exact D|]. split; [exact A|exact T].
  - destruct (to_vmdk_direct _ _ _ _ _ _ SC H) as [(T & _ & O) CS]. destruct (O j eq_refl) as (-> & D & k & G & s & Es & ->). injection Es as <-.
    split; [now apply (CS (mkImg VMDK (vmdk_out i dir)))|]. exists (splitext_root (basename (i_path i))), (d_data k). split; [exact ST|]. split; [exact ND|]. cbv zeta.
    split; [reflexivity|]. split; [exists k; auto|]. split; [unfold has_image; apply dget_dset_same; exact str_eqb_eq|]. split; [intros F; contradiction|].
    intros _. split; [exact D|exact T].
Qed.

(** Nothing else is ever touched, and no scratch file stays behind once it was made. *)
Theorem convert_if_needed_any : forall P i kind dir f r f', proper_name (i_path i) -> convert_if_needed P i kind dir f = (r, f') ->
  r <> Err EOutOfFuel /\ exists stem, file_stem (i_path i) stem /\ ~ dots stem /\
    only_touches [named dir stem (L ".vmdk"); named dir stem (L ".img")] f f' /\
    (~ needs_scratch P i -> only_touches [named dir stem (L ".vmdk")] f f').
Proof.
  intros P i kind dir f r f' PN H. pose proof (stem_spec (i_path i)) as ST. pose proof (proper_root _ PN) as ND.
  assert (X : r <> Err EOutOfFuel /\ only_touches [vmdk_out i dir; img_out i dir] f f' /\ (~ needs_scratch P i -> only_touches [vmdk_out i dir] f f')).
  { unfold convert_if_needed in H. destruct (str_eqb kind (L "harddisk")); cbn [negb] in H.
    2: { injection H as <- <-. split; [discriminate|]. split; intros; apply touch_refl. }
    destruct (is_streamed i f) as [[|]|e] eqn:S.
    - injection H as <- <-. split; [discriminate|]. split; intros; apply touch_refl.
    - change (convert_to P i (L "vmdk") dir (Some (L "streamOptimized")) f) with (to_vmdk P i dir (Some (L "streamOptimized")) f) in H.
      destruct (scratch_dec P i) as [SC|SC].
      + apply to_vmdk_scratch in H as (T & N & _); [|exact PN|exact SC]. split; [exact N|]. split; [exact T|]. intros F; contradiction.
      + apply to_vmdk_direct in H as [(T & N & _) _]; [|exact SC]. split; [exact N|]. split; [|intros _; exact T].
        apply (touch_more [vmdk_out i dir]); [exact T|intros x [<-|[]]; now left].
    - injection H as <- <-. split; [|split; intros; apply touch_refl]. apply is_streamed_err in S as [S _]. intros F. injection F as ->. now apply S. }
  destruct X as (N & T1 & T2). split; [exact N|]. exists (splitext_root (basename (i_path i))). auto.
Qed.

(** ** It can be done *)

Lemma convert_possible : forall P fmt sub x y f d, dget str_eqb x f = Some d -> In fmt qemu_formats -> x <> y ->
  (streamed d = true -> version_from P (L "qemu-img") (1, 2, 0)) -> (sub = Some (L "streamOptimized") -> version_from P (L "qemu-img") (2, 1, 0)) ->
  sub <> Some (L "None") -> qemu_convert P fmt sub x y f = Some (y, mkDisk fmt sub (d_data d)).
Proof.
  intros P fmt sub x y f d G M N V1 V2 V3. unfold qemu_convert. rewrite G. apply mem_str_In in M. rewrite M. cbn [negb].
  apply str_eqb_neq in N. rewrite N.
  assert (streamed d && negb (has_version P (L "qemu-img") (1, 2, 0)) = false) as ->.
  { destruct (streamed d); [|reflexivity]. cbn [andb]. specialize (V1 eq_refl). apply has_version_from in V1. now rewrite V1. }
  assert (opt_eqb sub (Some (L "streamOptimized")) && negb (has_version P (L "qemu-img") (2, 1, 0)) = false) as ->.
  { destruct (opt_eqb sub (Some (L "streamOptimized"))) eqn:E; [|reflexivity]. apply opt_eqb_eq in E. apply V2, has_version_from in E. now rewrite E. }
  destruct (opt_eqb sub (Some (L "None"))) eqn:E; [apply opt_eqb_eq in E; contradiction|]. reflexivity.
Qed.

Lemma streamed_so : forall i f d, dget str_eqb (i_path i) f = Some d -> d_format d = disk_format (i_class i) -> streamed d = true -> stream_optimized i f.
Proof.
  intros i f d G F S. unfold streamed in S. apply andb_true_iff in S as [S1 S2]. split.
  - apply str_eqb_eq in S1. rewrite F in S1. destruct (i_class i); try reflexivity; discriminate S1.
  - exists d. split; [exact G|]. destruct (d_sub d) as [s|]; [|discriminate]. apply str_eqb_eq in S2. now subst.
Qed.

Theorem convert_if_needed_possible : forall P i dir f stem, reliable P -> faithful i f -> can_stream P i ->
  file_stem (i_path i) stem -> ~ dots stem ->
  i_path i <> named dir stem (L ".vmdk") -> i_path i <> named dir stem (L ".img") ->
  exists j f', convert_if_needed P i (L "harddisk") dir f = (Ok j, f').
Proof.
  intros P i dir f stem R FA CS ST ND N1 N2. rewrite (file_stem_root _ _ ST ND) in *.
  assert (PN : proper_name (i_path i)) by (exists stem; auto). clear stem ST ND.
  change (named dir (splitext_root (basename (i_path i))) (L ".vmdk")) with (vmdk_out i dir) in N1.
  change (named dir (splitext_root (basename (i_path i))) (L ".img")) with (img_out i dir) in N2.
  unfold convert_if_needed. change (str_eqb (L "harddisk") (L "harddisk")) with true. cbn [negb].
  destruct (faithful_streamed i f FA) as [b S]. rewrite S. destruct b; [eauto|].
  change (convert_to P i (L "vmdk") dir (Some (L "streamOptimized")) f) with (to_vmdk P i dir (Some (L "streamOptimized")) f).
  destruct FA as (d & G & FM & _).
  assert (NS : streamed d = false).
  { destruct (streamed d) eqn:E; [|reflexivity]. apply (streamed_so i f d G FM) in E. apply (is_streamed_spec _ _ _ S) in E. discriminate E. }
  unfold to_vmdk. unfold vmdk_step at 1. change (opt_eqb (Some (L "streamOptimized")) (Some (L "streamOptimized"))) with true. cbv iota.
  rewrite select_write. fold (vmdk_out i dir).
  assert (Q : version_from P (L "qemu-img") (2, 1, 0) -> exists j f',
    then_open P (L "qemu-img") [L "convert"; L "-O"; L "vmdk"; L "-o"; L "subformat=" ++ L "streamOptimized"; i_path i; vmdk_out i dir] VMDK (vmdk_out i dir) f = (Ok j, f')).
  { intros V. eexists _, _. apply then_open_works; [exact R|now apply version_there in V|now apply named_full|]. rewrite convert_sub_effect.
    apply convert_possible with (d := d); [exact G|right; right; now left|exact N1|congruence|intros _; exact V|discriminate]. }
  destruct (has_version P (L "qemu-img") (2, 5, 1)) eqn:V.
  { cbv iota. apply Q. apply has_version_from in V. now apply newer with (2, 5, 1). }
  destruct (installed P (L "vmdktool")) eqn:I.
  2: { assert (V1 : version_from P (L "qemu-img") (2, 1, 0)).
       { destruct CS as [CS|[CS _]]; [exact CS|]. apply installed_there in CS. congruence. }
       rewrite (proj2 (has_version_from _ _ _) V1). apply (Q V1). }
  change (str_eqb (L "vmdktool") (L "vmdktool")) with true. cbv iota. apply installed_there in I.
  assert (W : forall j f1 k, i_class j = RAW -> dget str_eqb (i_path j) f1 = Some k -> d_format k = L "raw" -> vmdk_out j dir = vmdk_out i dir -> i_path j <> vmdk_out i dir ->
    then_open P (L "vmdktool") [L "-z9"; L "-v"; vmdk_out i dir; i_path j] VMDK (vmdk_out i dir) f1 =
      (Ok (mkImg VMDK (vmdk_out i dir)), dset str_eqb (vmdk_out i dir) (mkDisk (L "vmdk") (Some (L "streamOptimized")) (d_data k)) f1)).
  { intros j f1 k Cj Gj Fj Oj Dj. apply then_open_works; [exact R|exact I|now apply named_full|].
    change (effect P (L "vmdktool") [L "-z9"; L "-v"; vmdk_out i dir; i_path j] f1) with (vmdktool [L "-z9"; L "-v"; vmdk_out i dir; i_path j] f1).
    unfold vmdktool. change (str_eqb (L "-z9") (L "-z9") && str_eqb (L "-v") (L "-v")) with true. cbv iota. rewrite Gj, Fj.
    apply str_eqb_neq in Dj. rewrite Dj. reflexivity. }
  destruct (raw_dec (i_class i)) as [C|C].
  { rewrite C. eexists _, _. apply (W i f d); [exact C|exact G|now rewrite FM, C|reflexivity|exact N1]. }
  assert (TQ : there P (L "qemu-img")).
  { destruct CS as [CS|[_ [CS|CS]]]; [now apply version_there in CS|contradiction|exact CS]. }
  assert (E : to_raw P i dir f = (Ok (mkImg RAW (img_out i dir)), dset str_eqb (img_out i dir) (mkDisk (L "raw") None (d_data d)) f)).
  { unfold to_raw. rewrite S. fold (img_out i dir).
    apply (then_open_works P (L "qemu-img") [L "convert"; L "-O"; L "raw"; i_path i; img_out i dir] RAW (img_out i dir)); [exact R|exact TQ|now apply named_full|].
    rewrite convert_effect. apply convert_possible; [exact G|now left|exact N2|congruence|discriminate|discriminate]. }
  assert (X : exists j f', and_remove (img_out i dir) (vmdk_step (fun _ f => (Err EOutOfFuel, f)) P (mkImg RAW (img_out i dir)) dir (Some (L "streamOptimized"))
      (dset str_eqb (img_out i dir) (mkDisk (L "raw") None (d_data d)) f)) = (Ok j, f')).
  { set (f1 := dset str_eqb (img_out i dir) (mkDisk (L "raw") None (d_data d)) f).
    assert (P1 : dget str_eqb (img_out i dir) f1 = Some (mkDisk (L "raw") None (d_data d))) by (apply dget_dset_same; exact str_eqb_eq).
    assert (EO : vmdk_out (mkImg RAW (img_out i dir)) dir = vmdk_out i dir) by now apply target_again.
    unfold vmdk_step. change (opt_eqb (Some (L "streamOptimized")) (Some (L "streamOptimized"))) with true. cbv iota.
    rewrite select_write, V, (proj2 (installed_there _ _) I). change (str_eqb (L "vmdktool") (L "vmdktool")) with true. cbv iota. cbn [i_class i_path].
    fold (vmdk_out (mkImg RAW (img_out i dir)) dir). rewrite EO.
    pose proof (W (mkImg RAW (img_out i dir)) f1 _ eq_refl P1 eq_refl EO (img_vmdk i dir)) as W'. unfold then_open in W'. cbn [i_path] in W'.
    rewrite W'. unfold and_remove, remove. cbn [snd fst]. unfold dmem. rewrite dget_dset_other; [|exact str_eqb_eq|apply img_vmdk]. rewrite P1. eauto. }
  destruct X as (j & f' & X). exists j, f'. destruct (i_class i); try (rewrite E; exact X). now destruct C.
Qed.

(** ** convert_to *)

Definition qcow2_out (i : img) (dir : str) : str := target i dir (L ".qcow2").
Definition q_direct (i : img) (out : str) (f : drives) (r : result img) (f' : drives) : Prop :=
  only_touches [out] f f' /\ r <> Err EOutOfFuel /\ r <> Err ENameError /\
  (forall j, r = Ok j -> j = mkImg QCOW2 out /\ i_path i <> out /\
    exists d, dget str_eqb (i_path i) f = Some d /\ f' = dset str_eqb out (mkDisk (L "qcow2") None (d_data d)) f).
Lemma qcow2_qemu : forall P i out f r f', then_open P (L "qemu-img") [L "convert"; L "-O"; L "qcow2"; i_path i; out] QCOW2 out f = (r, f') -> q_direct i out f r f'.
Proof.
  intros P i out f r f' H. apply then_open_spec in H as (T & N & N' & O); [|reflexivity|].
  - split; [exact T|]. split; [exact N|]. split; [exact N'|]. intros j ->. destruct (O j eq_refl) as (-> & I & d & E & ->). split; [reflexivity|].
    rewrite convert_effect in E. apply qemu_convert_spec in E as (_ & D & k & G & -> & _). split; [exact D|]. exists k. auto.
  - intros d x E. rewrite convert_effect in E. now apply qemu_convert_spec in E as (-> & _).
Qed.
Lemma qcow2_step_direct : forall again P i dir f r f', ~ stream_optimized i f \/ version_from P (L "qemu-img") (1, 2, 0) \/ ~ there P (L "vmdktool") ->
  qcow2_step again P i dir f = (r, f') -> q_direct i (qcow2_out i dir) f r f'.
Proof.
  intros again P i dir f r f' K H. unfold qcow2_step in H. fold (qcow2_out i dir) in H.
  match type of H with context [ibind (call_tool P (L "qemu-img") ?a f) ?k] => change (ibind (call_tool P (L "qemu-img") a f) k) with (then_open P (L "qemu-img") [L "convert"; L "-O"; L "qcow2"; i_path i; qcow2_out i dir] QCOW2 (qcow2_out i dir) f) in H end.
  destruct (is_streamed i f) as [[|]|e] eqn:S.
  - rewrite select_read in H. destruct (has_version P (L "qemu-img") (1, 2, 0)) eqn:V; [now apply qcow2_qemu in H|].
    destruct (installed P (L "vmdktool")) eqn:I.
    + exfalso. destruct K as [K|[K|K]]; [apply K; now apply (is_streamed_spec _ _ _ S)|apply has_version_from in K; congruence|apply K; now apply installed_there].
    + injection H as <- <-. split; [apply touch_refl|]. split; [discriminate|]. split; discriminate.
  - now apply qcow2_qemu in H.
  - injection H as <- <-. apply is_streamed_err in S as [S1 S2]. split; [apply touch_refl|]. split; [congruence|]. split; [congruence|discriminate].
Qed.
Lemma to_qcow2_spec : forall P i dir f r f', proper_name (i_path i) -> to_qcow2 P i dir f = (r, f') ->
  only_touches [qcow2_out i dir; img_out i dir] f f' /\ r <> Err EOutOfFuel /\
  (forall j, r = Ok j -> j = mkImg QCOW2 (qcow2_out i dir) /\ (only_touches [qcow2_out i dir] f f' \/ (i_path i <> img_out i dir /\ absent f' (img_out i dir))) /\
    exists d, contains_data f (i_path i) d /\ has_image f' (qcow2_out i dir) (L "qcow2") None d).
Proof.
  intros P i dir f r f' PN H.
  assert (K : (stream_optimized i f /\ ~ version_from P (L "qemu-img") (1, 2, 0) /\ there P (L "vmdktool")) \/
    (~ stream_optimized i f \/ version_from P (L "qemu-img") (1, 2, 0) \/ ~ there P (L "vmdktool")) \/ exists e, is_streamed i f = Err e).
  { destruct (is_streamed i f) as [b|e] eqn:S; [|eauto]. destruct b; [|right; left; left; intros F; apply (is_streamed_spec _ _ _ S) in F; discriminate F].
    destruct (has_version P (L "qemu-img") (1, 2, 0)) eqn:V; [apply has_version_from in V; auto|].
    destruct (installed P (L "vmdktool")) eqn:I.
    - left. split; [now apply (is_streamed_spec _ _ _ S)|]. split; [|now apply installed_there]. intros F. apply has_version_from in F. congruence.
    - right. left. right. right. intros F. apply installed_there in F. congruence. }
  destruct K as [(SO & NV & TH)|[K|[e K]]].
  - assert (S : is_streamed i f = Ok true).
    { destruct SO as (C & d & G & E). unfold is_streamed, vmdk_subformat. now rewrite C, G, E. }
    assert (V : has_version P (L "qemu-img") (1, 2, 0) = false).
    { destruct (has_version P (L "qemu-img") (1, 2, 0)) eqn:V; [|reflexivity]. apply has_version_from in V. contradiction. }
    unfold to_qcow2 in H. unfold qcow2_step at 1 in H. rewrite S, select_read, V, (proj2 (installed_there _ _) TH) in H.
    change (str_eqb (L "vmdktool") (L "vmdktool")) with true in H. cbv iota in H.
    destruct (to_raw P i dir f) as [[temp|e] f1] eqn:R; apply to_raw_spec in R as (T & N & O); fold (img_out i dir) in *.
    + destruct (O temp eq_refl) as (-> & D & k & G & -> & _). cbn [i_path] in H.
      destruct (qcow2_step _ P (mkImg RAW (img_out i dir)) dir _) as [r2 f2] eqn:Q.
      apply qcow2_step_direct in Q as (T2 & N2 & _ & O2); [|left; intros [F _]; discriminate F].
      assert (EO : qcow2_out (mkImg RAW (img_out i dir)) dir = qcow2_out i dir) by now apply target_again. rewrite EO in *.
      set (f1 := dset str_eqb (img_out i dir) (mkDisk (L "raw") None (d_data k)) f) in *.
      assert (P1 : dget str_eqb (img_out i dir) f1 = Some (mkDisk (L "raw") None (d_data k))) by (apply dget_dset_same; exact str_eqb_eq).
      assert (P2 : dget str_eqb (img_out i dir) f2 <> None).
      { rewrite T2; [now rewrite P1|]. intros [F|[]]. symmetry in F. now apply (img_qcow2 i dir). }
      apply and_remove_spec in H as (-> & A & T3); [|exact P2]. cbn [fst snd] in *.
      split.
      { apply touch_trans with f1; [apply (touch_more [img_out i dir]); [exact T|intros x [<-|[]]; right; now left]|].
        apply touch_trans with f2; [apply (touch_more [qcow2_out i dir]); [exact T2|intros x [<-|[]]; now left]|].
        apply (touch_more [img_out i dir]); [exact T3|intros x [<-|[]]; right; now left]. }
      split; [exact N2|]. intros j ->. destruct (O2 j eq_refl) as (-> & D2 & d & G2 & ->). cbn [i_path] in G2. rewrite P1 in G2. injection G2 as <-.
      split; [reflexivity|]. split; [right; split; [exact D|exact A]|]. exists (d_data k). split; [exists k; auto|]. unfold has_image. rewrite T3.
      * apply dget_dset_same. exact str_eqb_eq.
      * intros [F|[]]. now apply (img_qcow2 i dir).
    + injection H as <- <-. split; [apply (touch_more [img_out i dir]); [exact T|intros x [<-|[]]; right; now left]|]. split; discriminate.
  - unfold to_qcow2 in H. apply qcow2_step_direct in H as (T & N & _ & O); [|exact K].
    split; [apply (touch_more [qcow2_out i dir]); [exact T|intros x [<-|[]]; now left]|]. split; [exact N|].
    intros j ->. destruct (O j eq_refl) as (-> & D & d & G & ->). split; [reflexivity|]. split; [left; exact T|]. exists (d_data d). split; [exists d; auto|].
    unfold has_image. apply dget_dset_same. exact str_eqb_eq.
  - unfold to_qcow2, qcow2_step in H. rewrite K in H. injection H as <- <-. split; [apply touch_refl|]. split; [|discriminate].
    apply is_streamed_err in K as [K _]. congruence.
Qed.

Definition extension (c : disk_class) : str := match c with ISO => L ".iso" | QCOW2 => L ".qcow2" | RAW => L ".img" | VMDK => L ".vmdk" end.
Theorem convert_to_spec : forall P i fmt dir sub f r f', proper_name (i_path i) -> convert_to P i fmt dir sub f = (r, f') ->
  r <> Err EOutOfFuel /\
  (forall c, fmt = disk_format c -> c <> ISO -> exists stem, file_stem (i_path i) stem /\ ~ dots stem /\
    let out := named dir stem (extension c) in let scratch := named dir stem (L ".img") in
    only_touches [out; scratch] f f' /\
    (forall j, r = Ok j -> j = mkImg c out /\ (only_touches [out] f f' \/ (i_path i <> scratch /\ absent f' scratch)) /\
      exists d, contains_data f (i_path i) d /\ has_image f' out fmt (match c with VMDK => sub | _ => None end) d /\ (c = VMDK -> sub <> None))) /\
  ((forall c, fmt = disk_format c -> c = ISO) -> r = Err ENotImplemented /\ f' = f).
Proof.
  intros P i fmt dir sub f r f' PN H. unfold convert_to in H.
  pose proof (stem_spec (i_path i)) as ST. pose proof (proper_root _ PN) as ND.
  destruct (class_for_format fmt) as [c|] eqn:C.
  2: { injection H as <- <-. split; [discriminate|]. split; [|auto]. intros c F. symmetry in F. apply class_for_format_spec in F. congruence. }
  apply class_for_format_spec in C. subst fmt.
  assert (INJ : forall c', disk_format c = disk_format c' -> c' = c) by (intros [] F; destruct c; try reflexivity; discriminate F).
  destruct c.
  - injection H as <- <-. split; [discriminate|]. split; [|auto]. intros c F N. apply INJ in F. contradiction.
  - apply to_qcow2_spec in H as (T & N & O); [|exact PN]. split; [exact N|]. split; [|intros F; specialize (F QCOW2 eq_refl); discriminate F].
    intros c F _. apply INJ in F. subst c. exists (splitext_root (basename (i_path i))). split; [exact ST|]. split; [exact ND|]. cbv zeta. split; [exact T|].
    intros j ->. destruct (O j eq_refl) as (-> & A & d & C1 & C2). split; [reflexivity|]. split; [exact A|]. exists d. split; [exact C1|]. split; [exact C2|discriminate].
  - apply to_raw_spec in H as (T & N & O). split; [exact N|]. split; [|intros F; specialize (F RAW eq_refl); discriminate F].
    intros c F _. apply INJ in F. subst c. exists (splitext_root (basename (i_path i))). split; [exact ST|]. split; [exact ND|]. cbv zeta.
    split; [apply (touch_more [img_out i dir]); [exact T|intros x [<-|[]]; now left]|].
    intros j ->. destruct (O j eq_refl) as (-> & A & d & G & -> & _). split; [reflexivity|]. split; [left; exact T|]. exists (d_data d). split; [exists d; auto|].
    split; [|discriminate]. unfold has_image. apply dget_dset_same. exact str_eqb_eq.
  - split; [|split].
    + destruct (opt_eqb sub (Some (L "streamOptimized"))) eqn:E.
      * apply opt_eqb_eq in E. subst sub. destruct (scratch_dec P i) as [SC|SC]; [now apply to_vmdk_scratch in H as (_ & N & _)|now apply to_vmdk_direct in H as [(_ & N & _) _]].
      * assert (NS : sub <> Some (L "streamOptimized")) by (intros F; apply opt_eqb_eq in F; congruence).
        unfold to_vmdk in H. now apply vmdk_other in H as [(_ & N & _) _].
    + intros c F _. apply INJ in F. subst c. exists (splitext_root (basename (i_path i))). split; [exact ST|]. split; [exact ND|]. cbv zeta.
      assert (X : direct i (vmdk_out i dir) sub f r f' ->
        only_touches [vmdk_out i dir; img_out i dir] f f' /\
        (forall j, r = Ok j -> j = mkImg VMDK (vmdk_out i dir) /\ (only_touches [vmdk_out i dir] f f' \/ (i_path i <> img_out i dir /\ absent f' (img_out i dir))) /\
          exists d, contains_data f (i_path i) d /\ has_image f' (vmdk_out i dir) (L "vmdk") sub d /\ (VMDK = VMDK -> sub <> None))).
      { intros (T & _ & O). split; [apply (touch_more [vmdk_out i dir]); [exact T|intros x [<-|[]]; now left]|].
        intros j ->. destruct (O j eq_refl) as (-> & D & d & G & s & -> & ->). split; [reflexivity|]. split; [left; exact T|]. exists (d_data d).
        split; [exists d; auto|]. split; [|discriminate]. unfold has_image. apply dget_dset_same. exact str_eqb_eq. }
      destruct (opt_eqb sub (Some (L "streamOptimized"))) eqn:E.
      * apply opt_eqb_eq in E. subst sub. destruct (scratch_dec P i) as [SC|SC].
        -- apply to_vmdk_scratch in H as (T & _ & O & _); [|exact PN|exact SC]. split; [exact T|]. intros j ->.
           destruct (O j eq_refl) as (-> & D & A & _ & d & C1 & C2). split; [reflexivity|]. split; [right; split; [exact D|exact A]|]. exists d. split; [exact C1|]. split; [exact C2|discriminate].
        -- apply to_vmdk_direct in H as [H _]; [|exact SC]. exact (X H).
      * assert (NS : sub <> Some (L "streamOptimized")) by (intros F; apply opt_eqb_eq in F; congruence).
        unfold to_vmdk in H. apply vmdk_other in H as [H _]; [|exact NS]. exact (X H).
    + intros F. specialize (F VMDK eq_refl). discriminate F.
Qed.

(** ** New images *)

Lemma create_blank_spec : forall P fmt path files cap sub f r f', create_blank P fmt path files cap sub f = (r, f') ->
  only_touches [path] f f' /\ r <> Err EOutOfFuel /\
  (r = Ok tt -> (files = None \/ files = Some []) /\ there P (L "qemu-img") /\ exists c, cap = Some c /\ f' = dset str_eqb path (mkDisk fmt sub (Blank c)) f).
Proof.
  intros P fmt path files cap sub f r f' H. unfold create_blank in H.
  assert (X : (r, f') = (r, f') -> (files = None \/ files = Some []) -> match cap with
      | None => (Err ETypeError, f)
      | Some cap => call_tool P (L "qemu-img") ([L "create"; L "-f"; fmt] ++ (match sub with Some s => [L "-o"; L "subformat=" ++ s] | None => [] end) ++ [path; cap]) f
      end = (r, f') -> only_touches [path] f f' /\ r <> Err EOutOfFuel /\
    (r = Ok tt -> (files = None \/ files = Some []) /\ there P (L "qemu-img") /\ exists c, cap = Some c /\ f' = dset str_eqb path (mkDisk fmt sub (Blank c)) f)).
  { clear H. intros _ K H. destruct cap as [cap|]; [|injection H as <- <-; split; [apply touch_refl|]; split; discriminate].
    assert (E : forall z d, effect P (L "qemu-img") ([L "create"; L "-f"; fmt] ++ (match sub with Some s => [L "-o"; L "subformat=" ++ s] | None => [] end) ++ [path; cap]) f = Some (z, d) ->
      z = path /\ d = mkDisk fmt sub (Blank cap)).
    { intros z d E. destruct sub as [s|].
      - change ((if mem_str fmt qemu_formats then Some (path, mkDisk fmt (Some s) (Blank cap)) else None) = Some (z, d)) in E.
        destruct (mem_str fmt qemu_formats); [|discriminate]. now injection E as <- <-.
      - change ((if mem_str fmt qemu_formats then Some (path, mkDisk fmt None (Blank cap)) else None) = Some (z, d)) in E.
        destruct (mem_str fmt qemu_formats); [|discriminate]. now injection E as <- <-. }
    apply call_spec with (dst := path) in H as (T & R & O); [|destruct sub; reflexivity|intros d x F; now apply E in F].
    split; [exact T|]. split; [destruct R as [->|[->| ->]]; discriminate|]. intros ->. split; [exact K|]. destruct (O eq_refl) as (I & d & F & ->).
    split; [now apply installed_there|]. exists cap. apply E in F as [_ ->]. auto. }
  destruct files as [[|p l]|]; [apply X; auto| |apply X; auto]. injection H as <- <-. split; [apply touch_refl|]. split; discriminate.
Qed.
Lemma create_blank_works : forall P fmt path files cap sub f, reliable P -> there P (L "qemu-img") -> In fmt qemu_formats -> files = None \/ files = Some [] ->
  create_blank P fmt path files (Some cap) sub f = (Ok tt, dset str_eqb path (mkDisk fmt sub (Blank cap)) f).
Proof.
  intros P fmt path files cap sub f R I M K. apply mem_str_In in M.
  assert (E : call_tool P (L "qemu-img") ([L "create"; L "-f"; fmt] ++ (match sub with Some s => [L "-o"; L "subformat=" ++ s] | None => [] end) ++ [path; cap]) f
    = (Ok tt, dset str_eqb path (mkDisk fmt sub (Blank cap)) f)).
  { apply call_works; [exact R|exact I|]. destruct sub as [s|].
    - change ((if mem_str fmt qemu_formats then Some (path, mkDisk fmt (Some s) (Blank cap)) else None) = Some (path, mkDisk fmt (Some s) (Blank cap))). now rewrite M.
    - change ((if mem_str fmt qemu_formats then Some (path, mkDisk fmt None (Blank cap)) else None) = Some (path, mkDisk fmt None (Blank cap))). now rewrite M. }
  unfold create_blank. destruct K as [->| ->]; exact E.
Qed.

Lemma own_basename : forall p, own_name p (basename p).
Proof. intros p. destruct (split_slash_last p) as (dir & E & D & N). exists dir. auto. Qed.
Lemma own_unique : forall p n, own_name p n -> n = basename p.
Proof. intros p n (dir & -> & D & N). symmetry. now apply basename_dir. Qed.

Definition adds (path : str) (files : list (str * Z)) : list call :=
  map (fun f => (L "fatdisk", [path; L "fileadd"; fst f; basename (fst f)])) files.
Definition taken (f : drives) (p : str) (e : str * data) : Prop := own_name p (fst e) /\ contains_data f p (snd e).
Lemma taken_frame : forall path d f xs l, Forall2 (taken (dset str_eqb path d f)) xs l -> ~ In path xs -> Forall2 (taken f) xs l.
Proof.
  intros path d f xs l F. induction F as [|x e xs es [A (k & B & D)] F IH]; intros NP; constructor; [|apply IH; intros X; apply NP; now right].
  split; [exact A|]. exists k. split; [|exact D]. rewrite <- B. symmetry. apply dget_dset_other; [exact str_eqb_eq|]. intros ->. apply NP. now left.
Qed.

Lemma fileadd_effect : forall P path src name f z d, effect P (L "fatdisk") [path; L "fileadd"; src; name] f = Some (z, d) ->
  z = path /\ exists s l k, dget str_eqb path f = Some (mkDisk (L "raw") s (Files l)) /\ dget str_eqb src f = Some k /\ ~ In name (map fst l) /\
    d = mkDisk (L "raw") None (Files (l ++ [(name, d_data k)])).
Proof.
  intros P path src name f z d E. change (effect P (L "fatdisk") [path; L "fileadd"; src; name] f) with (fatdisk [path; L "fileadd"; src; name] f) in E.
  unfold fatdisk in E. change (str_eqb (L "fileadd") (L "fileadd")) with true in E. cbv iota in E.
  destruct (dget str_eqb path f) as [[fmt s [b|b|l]]|]; try discriminate; destruct (dget str_eqb src f) as [k|]; try discriminate.
  destruct (str_eqb fmt (L "raw") && negb (mem_str name (map fst l))) eqn:B; [|discriminate]. apply andb_true_iff in B as [B1 B2]. apply str_eqb_eq in B1. subst fmt.
  injection E as <- <-. split; [reflexivity|]. exists s, l, k. split; [reflexivity|]. split; [reflexivity|]. split; [|reflexivity].
  apply mem_str_false. now destruct (mem_str name (map fst l)).
Qed.
Lemma calls_adds : forall P path files f r f', calls P (adds path files) f = (r, f') ->
  only_touches [path] f f' /\ r <> Err EOutOfFuel /\
  (r = Ok tt -> ~ In path (map fst files) -> forall s l, dget str_eqb path f = Some (mkDisk (L "raw") s (Files l)) ->
    exists s' l', dget str_eqb path f' = Some (mkDisk (L "raw") s' (Files (l ++ l'))) /\ (s = None -> s' = None) /\ Forall2 (taken f) (map fst files) l').
Proof.
  intros P path files. induction files as [|[p sz] files IH]; intros f r f' H.
  - injection H as <- <-. split; [apply touch_refl|]. split; [discriminate|]. intros _ _ s l G. exists s, []. rewrite app_nil_r. split; [exact G|]. split; [auto|constructor].
  - cbn [adds map calls fst] in H. destruct (call_tool P (L "fatdisk") [path; L "fileadd"; p; basename p] f) as [r1 f1] eqn:C.
    apply call_spec with (dst := path) in C as (T & R & O); [|reflexivity|intros d x E; now apply fileadd_effect in E].
    destruct r1 as [[]|e]; cbn [ibind] in H.
    + apply IH in H as (T2 & N2 & O2). split; [now apply touch_trans with f1|]. split; [exact N2|]. intros -> NP s l G. cbn [map fst] in NP.
      destruct (O eq_refl) as (_ & d & E & ->). apply fileadd_effect in E as (_ & s0 & l0 & k & G0 & K & _ & ->). rewrite G in G0. injection G0 as <- <-.
      destruct (O2 eq_refl (fun F => NP (or_intror F)) None (l ++ [(basename p, d_data k)])) as (s' & l' & G' & Hs & F).
      { apply dget_dset_same. exact str_eqb_eq. }
      exists s', ((basename p, d_data k) :: l'). rewrite <- app_assoc in G'. split; [exact G'|]. split; [intros _; now apply Hs|]. constructor.
      * split; [apply own_basename|]. exists k. auto.
      * apply (taken_frame path _ f _ _ F). intros X. apply NP. now right.
    + injection H as <- <-. split; [exact T|]. split; [destruct R as [R|[R|R]]; [discriminate|injection R as ->; discriminate|injection R as ->; discriminate]|discriminate].
Qed.

Lemma format_effect : forall P path cap f, effect P (L "fatdisk") [path; L "format"; L "size"; cap; L "fat32"] f = Some (path, mkDisk (L "raw") None (Files [])).
Proof. reflexivity. Qed.
Lemma create_raw_calls : forall P path files cap f r f', calls P (create_raw path files cap) f = (r, f') ->
  only_touches [path] f f' /\ r <> Err EOutOfFuel /\
  (r = Ok tt -> ~ In path (map fst files) -> there P (L "fatdisk") /\
    exists l, dget str_eqb path f' = Some (mkDisk (L "raw") None (Files l)) /\ Forall2 (taken f) (map fst files) l).
Proof.
  intros P path files cap f r f' H. unfold create_raw in H. cbn [calls] in H. fold (adds path files) in H.
  set (cp := match cap with Some (c :: s) => c :: s | _ => _ end) in H.
  destruct (call_tool P (L "fatdisk") [path; L "format"; L "size"; cp; L "fat32"] f) as [r1 f1] eqn:C.
  apply call_spec with (dst := path) in C as (T & R & O); [|reflexivity|intros d x E; rewrite format_effect in E; now injection E as <- <-].
  destruct r1 as [[]|e]; cbn [ibind] in H.
  - apply calls_adds in H as (T2 & N2 & O2). split; [now apply touch_trans with f1|]. split; [exact N2|]. intros -> NP.
    destruct (O eq_refl) as (I & d & E & ->). rewrite format_effect in E. injection E as <-. split; [now apply installed_there|].
    destruct (O2 eq_refl NP None []) as (s' & l & G & Hs & F); [apply dget_dset_same; exact str_eqb_eq|]. cbn [app] in G. rewrite (Hs eq_refl) in G. exists l. split; [exact G|].
    exact (taken_frame path _ f _ _ F NP).
  - injection H as <- <-. split; [exact T|]. split; [destruct R as [R|[R|R]]; [discriminate|injection R as ->; discriminate|injection R as ->; discriminate]|discriminate].
Qed.

Lemma sizes_names : forall size f paths r, sizes size f paths = Ok r -> map fst r = paths.
Proof.
  intros size f. induction paths as [|p l IH]; intros r H; cbn [sizes] in H; [now injection H as <-|].
  destruct (dget str_eqb p f) as [d|]; [|discriminate]. destruct (sizes size f l) as [x|] eqn:E; [|discriminate]. cbn [rbind] in H. injection H as <-.
  cbn [map fst]. now rewrite (IH x eq_refl).
Qed.
Lemma sizes_err : forall size f paths e, sizes size f paths = Err e -> e = EEnvironment.
Proof.
  intros size f. induction paths as [|p l IH]; intros e H; cbn [sizes] in H; [discriminate|].
  destruct (dget str_eqb p f) as [d|]; [|now injection H as <-]. destruct (sizes size f l) as [x|] eqn:E; cbn [rbind] in H; [discriminate|]. injection H as <-. now apply IH.
Qed.

(** ISO *)
Lemma gather_spec : forall f paths l, gather f paths = Some l -> Forall2 (taken f) paths l.
Proof.
  intros f. induction paths as [|p ps IH]; intros l H; cbn [gather] in H; [injection H as <-; constructor|].
  destruct (dget str_eqb p f) as [d|] eqn:G; [|discriminate]. destruct (gather f ps) as [r|]; [|discriminate].
  destruct (mem_str (basename p) (map fst r)); [discriminate|]. injection H as <-. constructor; [|now apply IH].
  split; [apply own_basename|]. exists d. auto.
Qed.
Lemma gather_works : forall f paths, (forall p, In p paths -> dget str_eqb p f <> None) -> NoDup (map basename paths) ->
  exists l, gather f paths = Some l /\ map fst l = map basename paths.
Proof.
  intros f. induction paths as [|p ps IH]; intros H N; [exists []; auto|]. cbn [map] in N. inversion N as [|x xs N1 N2]; subst.
  destruct IH as (l & E & M); [intros q Q; apply H; now right|exact N2|]. cbn [gather]. rewrite E.
  destruct (dget str_eqb p f) as [d|] eqn:G; [|exfalso; apply (H p); [now left|exact G]].
  assert (mem_str (basename p) (map fst l) = false) as -> by (apply mem_str_false; now rewrite M). eexists. split; [reflexivity|]. cbn [map fst]. now rewrite M.
Qed.
Definition iso_args (path sub : str) (files : list str) : list str :=
  [L "-output"; path; L "-full-iso9660-filenames"; L "-iso-level"; L "2"; L "-allow-lowercase"] ++ (if str_eqb sub (L "rockridge") then [L "-r"] else []) ++ files.
Definition iso_sub (sub : str) : str := if str_eqb sub (L "rockridge") then sub else [].
Lemma iso_effect : forall path sub files f, files <> [] -> no_options files ->
  mkisofs (iso_args path sub files) f = match gather f files with Some l => Some (path, mkDisk (L "iso") (Some (iso_sub sub)) (Files l)) | None => None end.
Proof.
  intros path sub files f NE NO. unfold iso_args, mkisofs, iso_sub. cbn [app]. destruct (str_eqb sub (L "rockridge")) eqn:E; cbn [app].
  - apply str_eqb_eq in E. subst sub. reflexivity.
  - destruct files as [|p l]; [congruence|].
    assert (str_eqb p (L "-r") = false) as Ep by (apply str_eqb_neq; apply (NO p); now left). cbv zeta. rewrite Ep. reflexivity.
Qed.
Lemma select_iso : forall P, select P [(L "mkisofs", None); (L "genisoimage", None); (L "xorriso", None)] =
  if installed P (L "mkisofs") then Ok (L "mkisofs") else if installed P (L "genisoimage") then Ok (L "genisoimage")
  else if installed P (L "xorriso") then Ok (L "xorriso") else Err EHelperNotFound.
Proof.
  intros P. unfold select, helper_select. cbn [select_installed select_installable fst snd]. unfold version_ok, installed. cbn [fst snd].
  destruct (p_version P (L "mkisofs")); [reflexivity|]. destruct (p_version P (L "genisoimage")); [reflexivity|]. destruct (p_version P (L "xorriso")); reflexivity.
Qed.
Lemma create_iso_as : forall P path files sub f, files <> [] -> create_iso P path (Some files) sub f =
  if installed P (L "mkisofs") then call_tool P (L "mkisofs") (iso_args path sub files) f
  else if installed P (L "genisoimage") then call_tool P (L "genisoimage") (iso_args path sub files) f
  else if installed P (L "xorriso") then call_tool P (L "xorriso") ([L "-as"; L "mkisofs"] ++ iso_args path sub files) f
  else (Err EHelperNotFound, f).
Proof.
  intros P path [|p l] sub f N; [congruence|]. unfold create_iso. rewrite select_iso. fold (iso_args path sub (p :: l)).
  destruct (installed P (L "mkisofs")); [reflexivity|]. destruct (installed P (L "genisoimage")); [reflexivity|]. destruct (installed P (L "xorriso")); reflexivity.
Qed.
Lemma create_iso_spec : forall P path files sub f r f', match files with Some l => no_options l | None => True end -> create_iso P path files sub f = (r, f') ->
  only_touches [path] f f' /\ r <> Err EOutOfFuel /\
  (r = Ok tt -> exists p l ds, files = Some (p :: l) /\ f' = dset str_eqb path (mkDisk (L "iso") (Some (iso_sub sub)) (Files ds)) f /\ Forall2 (taken f) (p :: l) ds /\
     (there P (L "mkisofs") \/ there P (L "genisoimage") \/ there P (L "xorriso"))).
Proof.
  intros P path files sub f r f' NO H.
  assert (Z : files = None \/ files = Some [] -> only_touches [path] f f' /\ r <> Err EOutOfFuel /\ (r = Ok tt -> False)).
  { intros [->| ->]; injection H as <- <-; (split; [apply touch_refl|]); split; discriminate. }
  destruct files as [[|p l]|]; [destruct Z as (A & B & C); [auto|]; split; [exact A|]; split; [exact B|]; intros F; destruct (C F)| |
    destruct Z as (A & B & C); [auto|]; split; [exact A|]; split; [exact B|]; intros F; destruct (C F)]. clear Z.
  rewrite create_iso_as in H by discriminate.
  assert (X : forall name args, call_tool P name args f = (r, f') -> written name args = Some path ->
    effect P name args f = mkisofs (iso_args path sub (p :: l)) f ->
    (installed P name = true -> there P (L "mkisofs") \/ there P (L "genisoimage") \/ there P (L "xorriso")) ->
    only_touches [path] f f' /\ r <> Err EOutOfFuel /\
    (r = Ok tt -> exists p' l' ds, Some (p :: l) = Some (p' :: l') /\ f' = dset str_eqb path (mkDisk (L "iso") (Some (iso_sub sub)) (Files ds)) f /\ Forall2 (taken f) (p' :: l') ds /\
       (there P (L "mkisofs") \/ there P (L "genisoimage") \/ there P (L "xorriso")))).
  { clear H. intros name args H W E TH. rewrite iso_effect in E by (try discriminate; exact NO).
    apply call_spec with (dst := path) in H as (T & R & O); [|exact W|intros d x F; rewrite E in F; destruct (gather f (p :: l)); [now injection F as <- _|discriminate]].
    split; [exact T|]. split; [destruct R as [->|[->| ->]]; discriminate|]. intros ->. destruct (O eq_refl) as (I & d & F & ->). rewrite E in F.
    destruct (gather f (p :: l)) as [ds|] eqn:G; [|discriminate]. injection F as <-. exists p, l, ds. split; [reflexivity|]. split; [reflexivity|].
    split; [now apply gather_spec|now apply TH]. }
  destruct (installed P (L "mkisofs")) eqn:I1; [apply (X _ _ H); [reflexivity|reflexivity|left; now apply installed_there]|].
  destruct (installed P (L "genisoimage")) eqn:I2; [apply (X _ _ H); [reflexivity|reflexivity|right; left; now apply installed_there]|].
  destruct (installed P (L "xorriso")) eqn:I3; [apply (X _ _ H); [reflexivity|reflexivity|right; right; now apply installed_there]|].
  injection H as <- <-. split; [apply touch_refl|]. split; discriminate.
Qed.

Lemma apart_NoDup : forall files, names_apart files -> NoDup (map basename files).
Proof.
  intros files [N A]. induction N as [|p l NP N IH]; [constructor|]. cbn [map]. constructor.
  - intros F. apply in_map_iff in F as (q & E & Q). apply NP. rewrite (A p q (basename p)); [exact Q|now left|now right|apply own_basename|]. rewrite <- E. apply own_basename.
  - apply IH. intros a b n Ia Ib. apply A; now right.
Qed.
Lemma holds_taken : forall f files l, Forall2 (taken f) files l -> holds_files f files (Files l).
Proof. intros f files l H. exists l. auto. Qed.

Theorem new_image_spec : forall size P path fmt files capacity sub f r f',
  no_options (listed files) -> ~ In path (listed files) ->
  new_image size P path fmt files capacity sub f = (r, f') ->
  r <> Err EOutOfFuel /\ only_touches [path] f f' /\
  (forall j, r = Ok j -> exists c d, fmt = disk_format c /\ path <> [] /\ absent f path /\ (capacity <> None \/ files <> None) /\ j = mkImg c path /\
    can_create P c (listed files) capacity /\ new_content f (listed files) capacity d /\ has_image f' path fmt (new_subformat c sub (listed files)) d).
Proof.
  intros size P path fmt files capacity sub f r f' NO NP H. unfold new_image in H.
  destruct (class_for_format fmt) as [c|] eqn:C; [|injection H as <- <-; split; [discriminate|]; split; [apply touch_refl|discriminate]].
  apply class_for_format_spec in C. subst fmt. destruct path as [|a path]; [injection H as <- <-; split; [discriminate|]; split; [apply touch_refl|discriminate]|].
  set (path' := a :: path) in *. assert (PF : path' <> []) by discriminate. clearbody path'. clear a path. rename path' into path.
  destruct (dmem str_eqb path f) eqn:M; [injection H as <- <-; split; [discriminate|]; split; [apply touch_refl|discriminate]|].
  assert (A : absent f path). { unfold absent, dmem in *. destruct (dget str_eqb path f); [discriminate|reflexivity]. }
  assert (G : (capacity = None /\ files = None) \/ (capacity <> None \/ files <> None)).
  { destruct capacity; [right; left; discriminate|]. destruct files; [right; right; discriminate|auto]. }
  destruct G as [[-> ->]|G]; [injection H as <- <-; split; [discriminate|]; split; [apply touch_refl|discriminate]|].
  match type of H with context [ibind ?m _] => set (body := m) in H end.
  assert (H' : ibind body (fun _ f => lift (open_image c path f) f) = (r, f')).
  { destruct capacity; [exact H|]. destruct files; [exact H|]. now destruct G. }
  clear H.
  assert (B : forall r1 f1, body = (r1, f1) -> only_touches [path] f f1 /\ r1 <> Err EOutOfFuel /\
    (r1 = Ok tt -> exists d, can_create P c (listed files) capacity /\ new_content f (listed files) capacity d /\ has_image f1 path (disk_format c) (new_subformat c sub (listed files)) d)).
  { intros r1 f1 E. subst body. clear H'. destruct c; cbn [disk_format] in *.
    - apply create_iso_spec in E as (T & N & O); [|destruct files; [exact NO|exact I]]. split; [exact T|]. split; [exact N|]. intros ->.
      destruct (O eq_refl) as (p & l & ds & -> & -> & F & TH). exists (Files ds). split; [exact TH|]. split; [now apply holds_taken|].
      unfold has_image. cbn [listed new_subformat]. rewrite dget_dset_same by exact str_eqb_eq. unfold iso_sub. destruct sub; reflexivity.
    - apply create_blank_spec in E as (T & N & O). split; [exact T|]. split; [exact N|]. intros ->. destruct (O eq_refl) as (K & TH & cap & -> & ->).
      exists (Blank cap). assert (listed files = []) as -> by (destruct K as [->| ->]; reflexivity). split; [split; [exact TH|discriminate]|]. split; [exists cap; auto|].
      apply dget_dset_same. exact str_eqb_eq.
    - unfold create_raw_image in E. destruct files as [[|p l]|].
      + apply create_blank_spec in E as (T & N & O). split; [exact T|]. split; [exact N|]. intros ->. destruct (O eq_refl) as (_ & TH & cap & -> & ->).
        exists (Blank cap). split; [split; [exact TH|discriminate]|]. split; [exists cap; auto|]. apply dget_dset_same. exact str_eqb_eq.
      + assert (K : forall sz cap', calls P (create_raw path sz cap') f = (r1, f1) -> map fst sz = p :: l ->
          only_touches [path] f f1 /\ r1 <> Err EOutOfFuel /\ (r1 = Ok tt -> exists d, can_create P RAW (p :: l) capacity /\ new_content f (p :: l) capacity d /\
            has_image f1 path (L "raw") (new_subformat RAW sub (p :: l)) d)).
        { intros sz cap' EC EM. apply create_raw_calls in EC as (T & N & O). split; [exact T|]. split; [exact N|]. intros ->. destruct (O eq_refl) as (TH & ds & GD & F); [rewrite EM; exact NP|].
          exists (Files ds). split; [exact TH|]. split; [apply holds_taken; rewrite <- EM; exact F|exact GD]. }
        destruct capacity as [[|ch cs]|].
        * destruct (sizes size f (p :: l)) as [sz|e] eqn:S; [apply (K _ _ E), (sizes_names _ _ _ _ S)|]. injection E as <- <-. split; [apply touch_refl|]. split; [|discriminate].
          apply sizes_err in S. rewrite S. discriminate.
        * apply (K _ _ E). rewrite map_map. cbn [fst]. now rewrite map_id.
        * destruct (sizes size f (p :: l)) as [sz|e] eqn:S; [apply (K _ _ E), (sizes_names _ _ _ _ S)|]. injection E as <- <-. split; [apply touch_refl|]. split; [|discriminate].
          apply sizes_err in S. rewrite S. discriminate.
      + apply create_blank_spec in E as (T & N & O). split; [exact T|]. split; [exact N|]. intros ->. destruct (O eq_refl) as (_ & TH & cap & -> & ->).
        exists (Blank cap). split; [split; [exact TH|discriminate]|]. split; [exists cap; auto|]. apply dget_dset_same. exact str_eqb_eq.
    - unfold create_vmdk in E. destruct (str_eqb _ (L "streamOptimized") && negb (installed P (L "qemu-img"))).
      { injection E as <- <-. split; [apply touch_refl|]. split; discriminate. }
      apply create_blank_spec in E as (T & N & O). split; [exact T|]. split; [exact N|]. intros ->. destruct (O eq_refl) as (K & TH & cap & -> & ->).
      exists (Blank cap). assert (listed files = []) as -> by (destruct K as [->| ->]; reflexivity). split; [split; [exact TH|discriminate]|]. split; [exists cap; auto|].
      apply dget_dset_same. exact str_eqb_eq. }
  destruct body as [r1 f1]. destruct (B r1 f1 eq_refl) as (T & N & O). destruct r1 as [[]|e]; cbn [ibind] in H'.
  - unfold lift in H'. injection H' as <- <-. destruct (O eq_refl) as (d & CC & NC & HI).
    assert (open_image c path f1 = Ok (mkImg c path)) as ->.
    { unfold open_image, dmem. unfold has_image in HI. rewrite HI. destruct path; [congruence|reflexivity]. }
    split; [discriminate|]. split; [exact T|]. intros j E. injection E as <-. exists c, d. auto 10.
  - injection H' as <- <-. split; [congruence|]. split; [exact T|discriminate].
Qed.

Lemma calls_adds_works : forall P path files f s l, reliable P -> there P (L "fatdisk") -> ~ In path (map fst files) ->
  (forall p, In p (map fst files) -> dget str_eqb p f <> None) -> NoDup (map fst l ++ map basename (map fst files)) ->
  dget str_eqb path f = Some (mkDisk (L "raw") s (Files l)) -> exists f', calls P (adds path files) f = (Ok tt, f') /\ dget str_eqb path f' <> None.
Proof.
  intros P path files. induction files as [|[p sz] files IH]; intros f s l R I NP EX ND G.
  - exists f. split; [reflexivity|]. rewrite G. discriminate.
  - cbn [adds map calls fst] in *. destruct (dget str_eqb p f) as [k|] eqn:K; [|exfalso; apply (EX p); [now left|exact K]].
    assert (MN : mem_str (basename p) (map fst l) = false).
    { apply mem_str_false. intros F. apply NoDup_remove_2 in ND. apply ND. apply in_or_app. now left. }
    rewrite (call_works P (L "fatdisk") [path; L "fileadd"; p; basename p] f path (mkDisk (L "raw") None (Files (l ++ [(basename p, d_data k)])))); [|exact R|exact I|].
    + cbn [ibind]. apply (IH _ None (l ++ [(basename p, d_data k)])); [exact R|exact I|intros F; apply NP; now right| | |apply dget_dset_same; exact str_eqb_eq].
      * intros q Q. rewrite dget_dset_other; [apply EX; now right|exact str_eqb_eq|]. intros ->. apply NP. now right.
      * rewrite map_app. cbn [map fst]. rewrite <- app_assoc. exact ND.
    + change (fatdisk [path; L "fileadd"; p; basename p] f = Some (path, mkDisk (L "raw") None (Files (l ++ [(basename p, d_data k)])))).
      unfold fatdisk. change (str_eqb (L "fileadd") (L "fileadd")) with true. cbv iota. rewrite G, K. cbn [str_eqb]. rewrite MN. reflexivity.
Qed.
Lemma create_raw_works : forall P path files cap f, reliable P -> there P (L "fatdisk") -> ~ In path (map fst files) ->
  (forall p, In p (map fst files) -> dget str_eqb p f <> None) -> NoDup (map basename (map fst files)) ->
  exists f', calls P (create_raw path files cap) f = (Ok tt, f') /\ dget str_eqb path f' <> None.
Proof.
  intros P path files cap f R I NP EX ND. unfold create_raw. cbn [calls]. fold (adds path files). erewrite call_works; [|exact R|exact I|apply format_effect].
  cbn [ibind]. apply (calls_adds_works P path files _ None []); [exact R|exact I|exact NP| |exact ND|apply dget_dset_same; exact str_eqb_eq].
  intros q Q. rewrite dget_dset_other; [now apply EX|exact str_eqb_eq|]. intros ->. contradiction.
Qed.
Lemma sizes_works : forall size f paths, (forall p, In p paths -> dget str_eqb p f <> None) -> exists r, sizes size f paths = Ok r.
Proof.
  intros size f. induction paths as [|p l IH]; intros H; [eexists; reflexivity|]. cbn [sizes].
  destruct (dget str_eqb p f) as [d|] eqn:G; [|exfalso; apply (H p); [now left|exact G]]. destruct IH as [r E]; [intros q Q; apply H; now right|]. rewrite E. eexists. reflexivity.
Qed.

Theorem new_image_possible : forall size P path c files capacity sub f, reliable P -> path <> [] -> absent f path ->
  (capacity <> None \/ files <> None) -> can_create P c (listed files) capacity ->
  no_options (listed files) -> ~ In path (listed files) -> names_apart (listed files) -> (forall p, In p (listed files) -> ~ absent f p) ->
  exists f', new_image size P path (disk_format c) files capacity sub f = (Ok (mkImg c path), f').
Proof.
  intros size P path c files capacity sub f R PF A G CC NO NP NA EX. unfold new_image.
  rewrite (proj2 (class_for_format_spec (disk_format c) c) eq_refl).
  assert (OP : forall f1, dget str_eqb path f1 <> None -> open_image c path f1 = Ok (mkImg c path)).
  { intros f1 N. unfold open_image, dmem. destruct path; [congruence|]. destruct (dget str_eqb (a :: path) f1); [reflexivity|congruence]. }
  destruct path as [|a path]; [congruence|]. set (path' := a :: path) in *. clearbody path'. clear a path. rename path' into path.
  unfold dmem. unfold absent in A. rewrite A.
  match goal with |- context [ibind ?m _] => set (body := m) end.
  assert (B : exists f1, body = (Ok tt, f1) /\ dget str_eqb path f1 <> None).
  { subst body. assert (DS : forall d, dget str_eqb path (dset str_eqb path d f) <> None) by (intros d; rewrite dget_dset_same by exact str_eqb_eq; discriminate).
    destruct c; cbn [disk_format can_create] in *.
    - destruct files as [[|p l]|]; cbn [listed] in *; [destruct CC| |destruct CC].
      destruct (gather_works f (p :: l)) as (ds & GA & _); [exact EX|now apply apart_NoDup|].
      set (sub' := match sub with Some s => s | None => L "rockridge" end).
      rewrite create_iso_as by discriminate. exists (dset str_eqb path (mkDisk (L "iso") (Some (iso_sub sub')) (Files ds)) f).
      split; [|apply DS].
      assert (EF : mkisofs (iso_args path sub' (p :: l)) f = Some (path, mkDisk (L "iso") (Some (iso_sub sub')) (Files ds))).
      { rewrite iso_effect; [now rewrite GA|discriminate|exact NO]. }
      destruct (installed P (L "mkisofs")) eqn:I1; [apply call_works; [exact R|now apply installed_there|exact EF]|].
      destruct (installed P (L "genisoimage")) eqn:I2; [apply call_works; [exact R|now apply installed_there|exact EF]|].
      assert (I3 : installed P (L "xorriso") = true).
      { destruct CC as [F|[F|F]]; apply installed_there in F; congruence. }
      rewrite I3. apply call_works; [exact R|now apply installed_there|exact EF].
    - destruct files as [[|p l]|]; cbn [listed] in *; [|destruct CC|]; destruct CC as [TH NC]; (destruct capacity as [cap|]; [|congruence]);
        (eexists; split; [apply create_blank_works; [exact R|exact TH|right; now left|auto]|apply DS]).
    - unfold create_raw_image. destruct files as [[|p l]|]; cbn [listed] in *.
      + destruct CC as [TH NC]. destruct capacity as [cap|]; [|congruence]. eexists; split; [apply create_blank_works; [exact R|exact TH|now left|auto]|apply DS].
      + destruct (sizes_works size f (p :: l)) as [sz S]; [exact EX|]. pose proof (sizes_names _ _ _ _ S) as SN.
        assert (W : forall z cap', map fst z = p :: l -> exists f1, calls P (create_raw path z cap') f = (Ok tt, f1) /\ dget str_eqb path f1 <> None).
        { intros z cap' E. apply create_raw_works; [exact R|exact CC|rewrite E; exact NP|rewrite E; exact EX|rewrite E; now apply apart_NoDup]. }
        destruct capacity as [[|ch cs]|]; [rewrite S; now apply W|apply W; rewrite map_map; cbn [fst]; now rewrite map_id|rewrite S; now apply W].
      + destruct CC as [TH NC]. destruct capacity as [cap|]; [|congruence]. eexists; split; [apply create_blank_works; [exact R|exact TH|now left|auto]|apply DS].
    - assert (TH : there P (L "qemu-img")) by (destruct (listed files); [apply CC|destruct CC]).
      unfold create_vmdk. rewrite (proj2 (installed_there _ _) TH). cbn [negb]. rewrite andb_false_r.
      destruct files as [[|p l]|]; cbn [listed] in *; [|destruct CC|]; destruct CC as [_ NC]; (destruct capacity as [cap|]; [|congruence]);
        (eexists; split; [apply create_blank_works; [exact R|exact TH|right; right; now left|auto]|apply DS]). }
  destruct B as (f1 & E & N). exists f1. rewrite E. cbn [ibind]. unfold lift. rewrite (OP f1 N).
  destruct capacity; [reflexivity|]. destruct files; [reflexivity|]. now destruct G.
Qed.

Theorem new_image_refused : forall size P path c files capacity sub f, path <> [] ->
  ~ absent f path \/ (capacity = None /\ files = None) -> new_image size P path (disk_format c) files capacity sub f = (Err ERuntimeError, f).
Proof.
  intros size P path c files capacity sub f PF H. unfold new_image. rewrite (proj2 (class_for_format_spec (disk_format c) c) eq_refl).
  destruct path as [|a path]; [congruence|]. unfold dmem. unfold absent in H. destruct H as [H|[-> ->]].
  - destruct (dget str_eqb (a :: path) f); [reflexivity|congruence].
  - destruct (dget str_eqb (a :: path) f); reflexivity.
Qed.
