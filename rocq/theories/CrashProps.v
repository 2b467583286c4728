(** C69: interrupted writing. *)
From Coq Require Import List Ascii Bool Lia ZArith.
Import ListNotations.
From Verif Require Import PyBase PyBaseProofs PyDict ManifestModel ManifestSpec RawModel SelectModel ItemModel PathModel PathSpec TarModel TarSpec TarProps ArchiveProofs ReopenProofs
  XmlModel XmlSpec NamesModel NetworkModel OvfWriteModel OvfWriteSpec OvfWriteProps OpenModel OpenSpec CrashModel CrashSpec CrashProofs CrashProofs2 CrashProofs3 CrashProofs4.
Local Open Scope nat_scope.

(** The changes, one after the other, are those of writing (C65, C47): they end as it does, and
    with the same files. *)
Theorem C69_ovf_steps : forall digest w output algo xml hrefs refs,
  snd (ovf_steps digest w output algo xml hrefs refs) = snd (write_ovf digest w output algo xml hrefs refs) /\
  (snd (ovf_steps digest w output algo xml hrefs refs) = Ok tt ->
    perform w (fst (ovf_steps digest w output algo xml hrefs refs)) = fst (write_ovf digest w output algo xml hrefs refs)).
Proof. exact ovf_steps_spec. Qed.
Print Assumptions C69_ovf_steps.
Theorem C69_ova_steps : forall digest w wd input same output algo xml hrefs refs,
  (same = false -> forall h n, ~ In (h, InTar (normpath output) n) refs) ->
  match write_ova digest w wd input same output algo xml hrefs refs with
  | Ok a => snd (ova_steps digest w wd input same output algo xml hrefs refs) = Ok tt /\
      w_tars (perform w (fst (ova_steps digest w wd input same output algo xml hrefs refs))) (normpath output) = Some a
  | Err e => snd (ova_steps digest w wd input same output algo xml hrefs refs) = Err e
  end.
Proof. exact ova_complete. Qed.
Print Assumptions C69_ova_steps.

(** Wherever the program stops, only the descriptor, the manifest and the copies of the files
    have been touched, *)
Theorem C69_confined_ovf : forall digest w output algo xml hrefs refs w',
  stopped w (fst (ovf_steps digest w output algo xml hrefs refs)) w' ->
  unchanged_but w w' (ovf_targets output refs) (fun _ => False).
Proof. exact ovf_confined. Qed.
Print Assumptions C69_confined_ovf.
(** or the new archive and the working directory. *)
Theorem C69_confined_ova : forall digest w wd input same output algo xml hrefs refs w',
  stopped w (fst (ova_steps digest w wd input same output algo xml hrefs refs)) w' ->
  unchanged_but w w' (ova_targets wd output same refs) (fun t => t = normpath output \/ same = true /\ t = input).
Proof. exact ova_confined. Qed.
Print Assumptions C69_confined_ova.

(** An archive that is not the output can be opened afterwards as before. *)
Theorem C69_original_archive : forall E digest parse d u input output2 k w w' sum output algo xml hrefs refs,
  (forall x, In x (d ++ [u]) -> proper x) -> kind_of input k -> k = L ".ova" \/ k = L ".box" ->
  (forall m p, extracted d u (w_tars w (normpath input)) m p -> t_link m = None) ->
  stopped w (fst (ovf_steps sum w output algo xml hrefs refs)) w' \/
  (exists wd old, normpath output <> normpath input /\ stopped w (fst (ova_steps sum w wd old false output algo xml hrefs refs)) w') ->
  factory E digest parse w' (path_of (d ++ [u])) input output2 = factory E digest parse w (path_of (d ++ [u])) input output2.
Proof.
  intros E digest parse d u input output2 k w w' sum output algo xml hrefs refs PU K KA NLk S.
  apply (archive_opens_same E digest parse w w' d u input output2 k PU K KA NLk).
  destruct S as [S|(wd & old & N & S)].
  - apply (stopped_tar _ _ _ _ S). intros e He. destruct (ovf_effects _ _ _ _ _ _ _ _ He) as (p & x & -> & _). exact (fun z => z).
  - apply (stopped_tar _ _ _ _ S). intros e He. destruct (ova_effects _ _ _ _ _ _ _ _ _ _ _ He) as [(p & x & -> & _)|[->|(m & ->)]]; [exact (fun z => z)| |]; intros [Q|[]]; now apply N.
Qed.
Print Assumptions C69_original_archive.
(** A descriptor with files in directory [W] can be opened afterwards as before, if writing has
    no target in that directory. *)
Theorem C69_original_directory : forall E digest parse w w' W B output2 wd2 sum output algo xml hrefs refs,
  W <> [] -> (forall c, In c W -> proper c) -> stem B ->
  (forall t root v references h, read w (path_of (W ++ [B ++ L ".ovf"])) = Some t -> parse t = Some root -> only root (REFERENCES v) [] references -> listed v references h ->
     inside W (follow W (normpath h))) ->
  (stopped w (fst (ovf_steps sum w output algo xml hrefs refs)) w' /\ forall q, ovf_targets output refs q -> ~ inside W q) \/
  (exists wd old same, stopped w (fst (ova_steps sum w wd old same output algo xml hrefs refs)) w' /\ forall q, ova_targets wd output same refs q -> ~ inside W q) ->
  factory E digest parse w' wd2 (path_of (W ++ [B ++ L ".ovf"])) output2 = factory E digest parse w wd2 (path_of (W ++ [B ++ L ".ovf"])) output2.
Proof.
  intros E digest parse w w' W B output2 wd2 sum output algo xml hrefs refs WN WP SB Down S.
  apply (directory_opens_same E digest parse w w' W B output2 wd2 WN WP SB); [|exact Down]. intros q Hq.
  destruct S as [[S T]|(wd & old & same & S & T)]; apply (stopped_file _ _ _ _ S); intros e He.
  - destruct (ovf_effects _ _ _ _ _ _ _ _ He) as (p & x & -> & O). cbn. intros ->. exact (T _ O Hq).
  - destruct (ova_effects _ _ _ _ _ _ _ _ _ _ _ He) as [(p & x & -> & O)|[->|(m & ->)]]; cbn; [|tauto|tauto]. intros ->. exact (T _ O Hq).
Qed.
Print Assumptions C69_original_directory.

(** If the archive that was read is overwritten, then until that begins it is as it was, and from
    then on the descriptor and all files are on the disk: those of the old archive in the working
    directory [W], the others where they were. *)
Theorem C69_in_place : forall digest w W output B algo xml hrefs refs data input w',
  W <> [] -> (forall c, In c W -> proper c) -> stem_of output B -> ~ In NL B ->
  packable w W (B ++ L ".ovf") (B ++ L ".mf") hrefs refs data ->
  algorithm_name algo -> (forall d, hex_digest (digest d)) ->
  stopped w (fst (ova_steps digest w (path_of W) input true output algo xml hrefs refs)) w' ->
  (forall t, w_tars w' t = w_tars w t) \/
  (w_files w' (W ++ [B ++ L ".ovf"]) = Some xml /\
   forall h r, In (h, r) refs -> exists d, (d = path_of W \/ r = OnDisk d h) /\ read w' (path_join d h) = Some (data h)).
Proof. intros digest w W output B algo xml hrefs refs data input w' WN WP SO NB P HA HD. exact (in_place digest w W output B algo xml hrefs refs data WN WP SO P input w' NB HA HD). Qed.
Print Assumptions C69_in_place.

(** A new archive that is not complete cannot be opened, or each file that is not in it is
    reported when it is opened, and the other files have their content. *)
Theorem C69_noticed_archive : forall digest w W input same output B algo xml hrefs refs data w',
  W <> [] -> (forall c, In c W -> proper c) -> stem_of output B -> ~ In NL B ->
  packable w W (B ++ L ".ovf") (B ++ L ".mf") hrefs refs data ->
  algorithm_name algo -> (forall d, hex_digest (digest d)) ->
  (same = false -> forall h n, ~ In (h, InTar (normpath output) n) refs) ->
  stopped w (fst (ova_steps digest w (path_of W) input same output algo xml hrefs refs)) w' ->
  w_tars w' (normpath output) = w_tars w (normpath output) \/ w_tars w' (normpath output) = None \/ w_tars w' (normpath output) = Some [] \/
  exists k, forall path elems, basename path = B ++ L ".ovf" -> map fst elems = hrefs ->
    (forall h s, In (h, Some s) elems -> py_int s = Some (Z.of_nat (length (data h)))) ->
    exists refs', load_files digest w' (Tar (normpath output)) path elems = Ok (refs', map NoSuchFile (skipn k hrefs)) /\
      map fst refs' = firstn k hrefs /\ forall h r, In (h, r) refs' -> content w' r = Some (data h).
Proof. exact archive_noticed. Qed.
Print Assumptions C69_noticed_archive.
(** A descriptor written to a directory in which its files are not yet, with their sizes: each
    file that is missing or not complete is reported. *)
Theorem C69_noticed_directory : forall digest w W B algo xml hrefs refs data w' elems,
  W <> [] -> (forall c, In c W -> proper c) -> stem B ->
  copyable w W (B ++ L ".ovf") (B ++ L ".mf") hrefs refs data ->
  (forall h l, In h hrefs -> plain_name h l -> w_files w (W ++ l) = None \/ w_files w (W ++ l) = Some (data h)) ->
  stopped w (fst (ovf_steps digest w (path_of (W ++ [B ++ L ".ovf"])) algo xml hrefs refs)) w' ->
  read w' (path_of (W ++ [B ++ L ".ovf"])) = Some xml ->
  map fst elems = hrefs -> (forall h s, In (h, s) elems -> exists t, s = Some t /\ py_int t = Some (Z.of_nat (length (data h)))) ->
  exists refs' cs, load_files digest w' (Dir (path_of W)) (path_of (W ++ [B ++ L ".ovf"])) elems = Ok (refs', cs) /\
    forall h, In h hrefs -> In (NoSuchFile h) cs \/ In (BadSize h) cs \/ exists r, In (h, r) refs' /\ content w' r = Some (data h).
Proof. exact directory_noticed. Qed.
Print Assumptions C69_noticed_directory.

(** The package of C47_example, which overwrites the archive it was read from, step by step *)
Definition ex_manifest : str := L "SHA1(a.ovf)= 0" ++ [NL] ++ L "SHA1(sub/d.vmdk)= 0" ++ [NL] ++ L "SHA1(c.txt)= 0" ++ [NL].
Definition ex_paths : list str := [L "/home/a.ova"; L "/home/a.ova"].
Definition ex_steps : list effect :=
  [Write (L "/tmp/cot/a.ovf") (L "xml"); Write (L "/tmp/cot/a.mf") ex_manifest; Write (L "/tmp/cot/./sub/d.vmdk") (L "disk"); Begin ex_paths;
   Append ex_paths (mkMember (L "a.ovf") None (L "xml")); Append ex_paths (mkMember (L "a.mf") None ex_manifest);
   Append ex_paths (mkMember (L "sub/d.vmdk") None (L "disk")); Append ex_paths (mkMember (L "c.txt") None (L "new"))].
Example C69_example : ova_steps ex_digest ex_world (L "/tmp/cot") (L "/home/a.ova") true (L "/home/a.ova") (L "SHA1") (L "xml") ex_names ex_refs = (ex_steps, Ok tt) /\
  (exists w', stopped ex_world ex_steps w' /\ w_tars w' (L "/home/a.ova") = None) /\
  (exists w', stopped ex_world ex_steps w' /\
     load_files ex_digest w' (Tar (L "/home/a.ova")) (L "/tmp/x/a.ovf") (map (fun h => (h, None)) ex_names) =
       Ok ([(L "sub/d.vmdk", InTar (L "/home/a.ova") (L "sub/d.vmdk"))], [NoSuchFile (L "c.txt")])).
Proof.
  split; [vm_compute; reflexivity|]. split.
  - eexists. split; [exists (firstn 6 ex_steps), (skipn 6 ex_steps); split; [reflexivity|]; right; eexists _, _; split; [reflexivity|apply amid_append]|reflexivity].
  - eexists. split; [exists (firstn 7 ex_steps), (skipn 7 ex_steps); split; [reflexivity|]; now left|vm_compute; reflexivity].
Qed.
Print Assumptions C69_example.

(** The package of C65_example, stopped in the middle of the copy of its first file *)
Example C69_example_directory : let es := fst (ovf_steps ex_digest ex_world (L "/out/b.ovf") (L "SHA1") (L "xml") ex_names ex_refs) in
  (forall h l, In h ex_names -> plain_name h l -> w_files ex_world ([L "out"] ++ l) = None \/ w_files ex_world ([L "out"] ++ l) = Some (ex_data h)) /\
  exists w', stopped ex_world es w' /\ read w' (L "/out/b.ovf") = Some (L "xml") /\
    load_files ex_digest w' (Dir (L "/out")) (L "/out/b.ovf") [(L "sub/d.vmdk", Some (L "4")); (L "c.txt", Some (L "3"))] =
      Ok ([(L "sub/d.vmdk", OnDisk (L "/out") (L "sub/d.vmdk"))], [BadSize (L "sub/d.vmdk"); NoSuchFile (L "c.txt")]).
Proof.
  split.
  - intros h l _ _. left. cbn [ex_world w_files app]. destruct l as [|x [|y l]]; reflexivity.
  - eexists. split; [eexists (firstn 1 _), (skipn 1 _); split; [symmetry; apply firstn_skipn|]; right; eexists _, _; split; [reflexivity|apply (amid_write _ _ _ 2)]|split; vm_compute; reflexivity].
Qed.
Print Assumptions C69_example_directory.

(** The working directory is removed when writing fails, for instance because the disk is full
    (C36): the old archive is then lost, and with it a file that was nowhere else. *)
Theorem C69_in_place_lost_refuted : exists w refs hrefs w1 w2,
  content w (InTar (L "/home/a.ova") (L "./sub/d.vmdk")) = Some (L "disk") /\
  stopped w (fst (ova_steps ex_digest w (L "/tmp/cot") (L "/home/a.ova") true (L "/home/a.ova") (L "SHA1") (L "xml") hrefs refs)) w1 /\
  removed [L "tmp"; L "cot"] w1 w2 /\
  (forall q, w_files w2 q <> Some (L "disk")) /\
  (forall t a m, w_tars w2 t = Some a -> In m a -> t_data m <> L "disk").
Proof.
  assert (EX := proj1 C69_example). set (w1 := perform ex_world (firstn 6 ex_steps)).
  exists ex_world, ex_refs, ex_names, w1.
  exists (mkWorld (fun q => match q with x :: y :: _ => if str_eqb x (L "tmp") && str_eqb y (L "cot") then None else w_files w1 q | _ => w_files w1 q end) (w_tars w1)).
  split; [reflexivity|]. split; [rewrite EX; exists (firstn 6 ex_steps), (skipn 6 ex_steps); split; [reflexivity|now left]|].
  assert (F : forall q, w_files w1 q = Some (L "disk") -> inside [L "tmp"; L "cot"] q).
  { intros q Hq. destruct (stopped_value (firstn 6 ex_steps) ex_world w1 q) as [E|(p & x & n & Hw & -> & _)].
    - exists (firstn 6 ex_steps), []. split; [now rewrite app_nil_r|now left].
    - rewrite E in Hq. cbn [ex_world w_files] in Hq. destruct q as [|x [|y [|z q]]]; try discriminate. destruct (str_eqb x (L "home") && str_eqb y (L "c.txt")); discriminate.
    - destruct Hw as [E|[E|[E|[E|[E|[E|[]]]]]]]; try discriminate; injection E as <- _; eexists; vm_compute; reflexivity. }
  split; [split; [reflexivity|split]|split].
  - intros q (r & ->). reflexivity.
  - intros q N. cbn [w_files]. destruct q as [|x [|y q]]; [reflexivity|reflexivity|]. destruct (str_eqb x (L "tmp") && str_eqb y (L "cot")) eqn:E; [|reflexivity].
    apply andb_true_iff in E as [E1 E2]. apply str_eqb_eq in E1, E2. subst x y. elim N. now exists q.
  - intros q. cbn [w_files]. intros Hq. assert (I := fun H => F q H). destruct q as [|x [|y q]].
    + destruct (I Hq) as (r & Q). discriminate Q.
    + destruct (I Hq) as (r & Q). discriminate Q.
    + destruct (str_eqb x (L "tmp") && str_eqb y (L "cot")) eqn:E; [discriminate|]. destruct (I Hq) as (r & Q). injection Q as -> -> _. discriminate E.
  - intros t a m Ht Hm. cbn [w_tars] in Ht.
    assert (X : w_tars w1 t = None \/ w_tars w1 t = Some [mkMember (L "a.ovf") None (L "xml"); mkMember (L "a.mf") None ex_manifest]).
    { destruct (str_eqb t (L "/home/a.ova")) eqn:E.
      - apply str_eqb_eq in E. subst t. right. vm_compute. reflexivity.
      - left. assert (Q : w_tars w1 t = w_tars ex_world t).
        { apply perform_tar. intros e He P. assert (In t ex_paths) as [<-|[<-|[]]]; [|discriminate E|discriminate E].
          destruct He as [<-|[<-|[<-|[<-|[<-|[<-|[]]]]]]]; cbn in P; try contradiction; exact P. }
        rewrite Q. cbn [ex_world w_tars]. now rewrite E. }
    destruct X as [X|X]; rewrite X in Ht; [discriminate|]. injection Ht as <-. destruct Hm as [<-|[<-|[]]]; cbn [t_data]; intros Q; vm_compute in Q; discriminate Q.
Qed.
Print Assumptions C69_in_place_lost_refuted.

(** A descriptor that is overwritten in place is replaced before its manifest: if the program stops
    in between then the package is taken for damaged. *)
Definition ex_sum (d : str) : str := if str_eqb d (L "new") then L "1" else L "0".
Theorem C69_in_place_ovf_refuted : exists w w', 
  load_files ex_sum w (Dir (L "/in")) (L "/in/a.ovf") [] = Ok ([], []) /\
  stopped w (fst (ovf_steps ex_sum w (L "/in/a.ovf") (L "SHA1") (L "new") [] [])) w' /\
  read w' (L "/in/a.ovf") = Some (L "new") /\
  load_files ex_sum w' (Dir (L "/in")) (L "/in/a.ovf") [] = Ok ([], [BadChecksum (L "a.ovf")]).
Proof.
  set (w := disk_world [([L "in"; L "a.ovf"], L "old"); ([L "in"; L "a.mf"], L "SHA1(a.ovf)= 0" ++ [NL])]).
  exists w, (put w (L "/in/a.ovf") (L "new")). split; [vm_compute; reflexivity|].
  split; [|split; vm_compute; reflexivity].
  exists [Write (L "/in/a.ovf") (L "new")], [Write (L "/in/a.mf") (L "SHA1(a.ovf)= 1" ++ [NL])]. split; [vm_compute; reflexivity|now left].
Qed.
Print Assumptions C69_in_place_ovf_refuted.
