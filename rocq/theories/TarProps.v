(** C32: opening an OVA extracts the first .ovf member and refuses names that lead elsewhere.
    C47: an OVA that was written is complete and opens again without complaints.  *)
From Verif Require Import PyBase PyBaseProofs PyDict ManifestModel ManifestSpec ManifestProofs RawModel SelectModel PathModel PathSpec
  TarModel TarSpec TarProofs ArchiveProofs ReopenProofs.

(** The working directory is the directory [w] in the directory [d].  What is extracted is
    the first member named *.ovf, to its name in the working directory, and only if no member
    of the archive has a bad name; otherwise there is a VMInitError, and the archive is empty,
    has a bad name or no descriptor. *)
Theorem C32_untar : forall d w a, (forall c, In c (d ++ [w]) -> proper c) ->
  match untar (path_of (d ++ [w])) (Some a) with
  | Ok (m, p) => (exists A B, a = A ++ m :: B /\ ovf_name (t_name m) /\ forall x, In x A -> ~ ovf_name (t_name x)) /\
      p = path_join (path_of (d ++ [w])) (t_name m) /\
      forall x, In x a -> ~ two_slashes (t_name x) /\ beside d w (follow (d ++ [w]) (t_name x))
  | Err e => e = EVMInitError /\
      (a = [] \/ (exists x, In x a /\ (two_slashes (t_name x) \/ ~ beside d w (follow (d ++ [w]) (t_name x)))) \/
       forall x, In x a -> ~ ovf_name (t_name x))
  end.
Proof. exact untar_spec. Qed.
Print Assumptions C32_untar.

(** A file that is no archive is refused. *)
Theorem C32_no_archive : forall wd, untar wd None = Err EVMInitError.
Proof. reflexivity. Qed.
Print Assumptions C32_no_archive.

(** Exactly which names are accepted: the place they lead to is in the parent directory of
    the working directory, in something whose name begins like the working directory. *)
Theorem C32_names : forall d w n, (forall c, In c (d ++ [w]) -> proper c) ->
  (name_ok (path_of (d ++ [w])) n = true <-> ~ two_slashes n /\ beside d w (follow (d ++ [w]) n)).
Proof. exact name_ok_spec. Qed.
Print Assumptions C32_names.

(** The place of the extracted file is the one the name leads to from the working directory. *)
Theorem C32_place : forall d w a m p, (forall c, In c (d ++ [w]) -> proper c) ->
  untar (path_of (d ++ [w])) (Some a) = Ok (m, p) -> place p = follow (d ++ [w]) (t_name m) /\ beside d w (place p).
Proof.
  intros d w a m p H E. pose proof (untar_spec d w a H) as U. rewrite E in U. destruct U as ((A & B & -> & _) & -> & N).
  assert (EP : place (path_join (path_of (d ++ [w])) (t_name m)) = follow (d ++ [w]) (t_name m)) by (apply PathProofs.join_place; [now destruct d|exact H]).
  rewrite EP. split; [reflexivity|]. apply (N m). apply in_app_iff. right. now left.
Qed.
Print Assumptions C32_place.

(** Names that do not lead up are accepted, and stay in the working directory. *)
Theorem C32_downward : forall d w n, (forall c, In c (d ++ [w]) -> proper c) -> downward n ->
  name_ok (path_of (d ++ [w])) n = true /\ inside (d ++ [w]) (follow (d ++ [w]) n).
Proof. intros d w n H D. split; [now apply downward_ok|now apply downward_follow]. Qed.
Print Assumptions C32_downward.

(** A name that leads out of the parent directory, or to the root, is refused. *)
Theorem C32_outside : forall d w n, (forall c, In c (d ++ [w]) -> proper c) -> ~ inside d (follow (d ++ [w]) n) ->
  name_ok (path_of (d ++ [w])) n = false.
Proof.
  intros d w n H N. destruct (name_ok _ n) eqn:E; [|reflexivity]. exfalso. apply name_ok_spec in E; [|exact H]. destruct E as [_ (x & rest & E)].
  apply N. rewrite E. now exists ((w ++ x) :: rest).
Qed.
Print Assumptions C32_outside.

(** The check compares texts: a name can lead into a sibling of the working directory. *)
Theorem C32_sibling_refuted : exists d w a m p, (forall c, In c (d ++ [w]) -> proper c) /\
  untar (path_of (d ++ [w])) (Some a) = Ok (m, p) /\ ~ inside (d ++ [w]) (place p).
Proof.
  exists [L "tmp"], (L "cotAB"), [mkMember (L "../cotABx/evil.ovf") None []]. eexists. eexists.
  split; [intros c [<-|[<-|[]]]; repeat split; vm_compute; intuition discriminate|]. split; [vm_compute; reflexivity|].
  intros [rest E]. vm_compute in E. discriminate E.
Qed.
Print Assumptions C32_sibling_refuted.

(** What is extracted may be a symbolic link to any file. *)
Theorem C32_link_refuted : exists a m p, untar (L "/tmp/cot") (Some a) = Ok (m, p) /\ t_link m = Some (L "/etc/passwd").
Proof. exists [mkMember (L "a.ovf") (Some (L "/etc/passwd")) []]. eexists. eexists. split; [vm_compute; reflexivity|reflexivity]. Qed.
Print Assumptions C32_link_refuted.

(** A descriptor in a subdirectory of the archive is extracted, but the package is then
    refused, because the descriptor is looked for at the top. *)
Theorem C32_subdirectory_refuted : exists w p, untar (L "/tmp/cot") (w_tars w (L "/a.ova")) = Ok (mkMember (L "sub/a.ovf") None [], p) /\
  load_files (fun _ => []) w (Tar (L "/a.ova")) p [] = Err EEnvironment.
Proof.
  exists (mkWorld (fun _ => None) (fun _ => Some [mkMember (L "sub/a.ovf") None []])). eexists. split; [vm_compute; reflexivity|vm_compute; reflexivity].
Qed.
Print Assumptions C32_subdirectory_refuted.

(** ** C47 *)

(** Whatever the digest function, the working directory [W] and the package: the archive
    written consists of the descriptor, the manifest and the files in the order of the
    package, all with the contents they had before, also if the archive they come from is
    the one being overwritten ([same]), and the manifest lists all with their checksums. *)
Theorem C47_written : forall digest w W input same output B algo xml hrefs refs data,
  W <> [] -> (forall c, In c W -> proper c) -> stem_of output B -> ~ In NL B ->
  packable w W (B ++ L ".ovf") (B ++ L ".mf") hrefs refs data ->
  algorithm_name algo -> (forall d, hex_digest (digest d)) ->
  exists text a, write_ova digest w (path_of W) input same output algo xml hrefs refs = Ok a /\
    packed (B ++ L ".ovf") (B ++ L ".mf") xml text hrefs data a /\
    parse_manifest text = (B ++ L ".ovf", (algo, digest xml)) :: map (fun h => (h, (algo, digest (data h)))) hrefs.
Proof. exact write_ova_spec. Qed.
Print Assumptions C47_written.

(** Such an archive can be opened again, in any world and working directory: the descriptor is
    the one written, no problem is reported, and each file has its content. *)
Theorem C47_reopened : forall digest w W input same output B algo xml hrefs refs data a,
  W <> [] -> (forall c, In c W -> proper c) -> stem_of output B -> ~ In NL B ->
  packable w W (B ++ L ".ovf") (B ++ L ".mf") hrefs refs data ->
  algorithm_name algo -> (forall d, hex_digest (digest d)) ->
  write_ova digest w (path_of W) input same output algo xml hrefs refs = Ok a ->
  forall w' out d wn, (forall c, In c (d ++ [wn]) -> proper c) -> w_tars w' out = Some a ->
  exists p, untar (path_of (d ++ [wn])) (w_tars w' out) = Ok (mkMember (B ++ L ".ovf") None xml, p) /\
    place p = d ++ [wn] ++ [B ++ L ".ovf"] /\
    forall elems, map fst elems = hrefs -> (forall h s, In (h, Some s) elems -> py_int s = Some (Z.of_nat (length (data h)))) ->
      exists refs', load_files digest w' (Tar out) p elems = Ok (refs', []) /\
        map fst refs' = hrefs /\ forall h r, In (h, r) refs' -> content w' r = Some (data h).
Proof.
  intros digest w W input same output B algo xml hrefs refs data a WN WP SO NB P HA HD E w' out d wn HW ET.
  destruct (write_ova_spec digest w W input same output B algo xml hrefs refs data WN WP SO NB P HA HD) as (text & a' & E' & PA & EP).
  rewrite E in E'. injection E' as <-.
  destruct (reopen_spec digest w' out a d wn B xml text hrefs data algo HW (stem_of_stem _ _ SO) PA (p_files _ _ _ _ _ _ _ P)) as [H1 H2]; [|exact EP|exact ET|].
  { intros h Hh. destruct (p_names _ _ _ _ _ _ _ P h Hh) as (Hl & _ & N1 & N2). now split. }
  eexists. split; [exact H1|]. split; [|exact H2]. apply PathProofs.place_path_of. intros c Hc. rewrite app_assoc in Hc. apply in_app_iff in Hc as [Hc|[<-|[]]]; [now apply HW|].
  exact (stem_proper B _ (stem_of_stem _ _ SO) no_slash_ovf).
Qed.
Print Assumptions C47_reopened.

(** A package with a file in the archive that is overwritten and a new one on the disk. *)
Definition ex_digest (d : str) : str := L "0".
Definition ex_world : world :=
  mkWorld (fun p => match p with [x; y] => if str_eqb x (L "home") && str_eqb y (L "c.txt") then Some (L "new") else None | _ => None end)
          (fun t => if str_eqb t (L "/home/a.ova") then Some [mkMember (L "a.ovf") None (L "old"); mkMember (L "./sub/d.vmdk") None (L "disk")] else None).
Definition ex_refs : list (str * ref) := [(L "sub/d.vmdk", InTar (L "/home/a.ova") (L "./sub/d.vmdk")); (L "c.txt", OnDisk (L "/home") (L "c.txt"))].
Definition ex_data (h : str) : str := if str_eqb h (L "c.txt") then L "new" else L "disk".
Definition ex_names : list str := [L "sub/d.vmdk"; L "c.txt"].
Ltac in_cases H := repeat (destruct H as [H|H]; [|]); try contradiction.
Example C47_example : packable ex_world [L "tmp"; L "cot"] (L "a.ovf") (L "a.mf") ex_names ex_refs ex_data /\
  stem_of (L "/home/a.ova") (L "a") /\
  write_ova ex_digest ex_world (L "/tmp/cot") (L "/home/a.ova") true (L "/home/a.ova") (L "SHA1") (L "xml") ex_names ex_refs =
    Ok [mkMember (L "a.ovf") None (L "xml");
        mkMember (L "a.mf") None (L "SHA1(a.ovf)= 0" ++ [NL] ++ L "SHA1(sub/d.vmdk)= 0" ++ [NL] ++ L "SHA1(c.txt)= 0" ++ [NL]);
        mkMember (L "sub/d.vmdk") None (L "disk"); mkMember (L "c.txt") None (L "new")].
Proof.
  split; [|split; [|vm_compute; reflexivity]].
  - assert (P1 : plain_name (L "sub/d.vmdk") [L "sub"; L "d.vmdk"]) by (split; [discriminate|]; split; [intros c [<-|[<-|[]]]; repeat split; vm_compute; intuition discriminate|reflexivity]).
    assert (P2 : plain_name (L "c.txt") [L "c.txt"]) by (split; [discriminate|]; split; [intros c [<-|[]]; repeat split; vm_compute; intuition discriminate|reflexivity]).
    constructor.
    + repeat constructor; vm_compute; intuition discriminate.
    + repeat constructor; vm_compute; intuition discriminate.
    + intros h. reflexivity.
    + intros h [<-|[<-|[]]].
      * split; [now exists [L "sub"; L "d.vmdk"]|]. repeat split; vm_compute; intuition discriminate.
      * split; [now exists [L "c.txt"]|]. repeat split; vm_compute; intuition discriminate.
    + intros h r [E|[E|[]]]; injection E as <- <-; reflexivity.
    + intros h d n [E|[E|[]]]; [discriminate|]. injection E as <- <- <-. split; [reflexivity|]. split; [vm_compute; discriminate|]. split; [vm_compute; discriminate|].
      intros h' t n' l [E|[E|[]]]; [|discriminate]. injection E as <- <- <-. intros PL. rewrite (plain_unique _ _ _ PL P1). vm_compute. discriminate.
    + intros h t n [E|[E|[]]]; [|discriminate]. injection E as <- <- <-. reflexivity.
  - exists (L "/home/"), (L "ova"). split; [reflexivity|]. split; [right; now exists (L "/home")|]. split; [vm_compute; intuition discriminate|].
    split; [exists "a"%char; split; [now left|discriminate]|]. split; vm_compute; intuition discriminate.
Qed.
Print Assumptions C47_example.

(** A file with the name of the new descriptor replaces it if the archive is overwritten. *)
Theorem C47_descriptor_replaced_refuted : exists w hrefs refs a, 
  write_ova ex_digest w (L "/tmp/cot") (L "/home/b.ova") true (L "/home/b.ova") (L "SHA1") (L "the new descriptor") hrefs refs = Ok a /\
  map t_data a <> [] /\ ~ In (L "the new descriptor") (map t_data a).
Proof.
  exists (mkWorld (fun _ => None) (fun _ => Some [mkMember (L "a.ovf") None (L "old"); mkMember (L "b.ovf") None (L "extra")])), [L "b.ovf"], [(L "b.ovf", InTar (L "/home/b.ova") (L "b.ovf"))].
  eexists. split; [vm_compute; reflexivity|]. split; [discriminate|]. vm_compute. intuition discriminate.
Qed.
Print Assumptions C47_descriptor_replaced_refuted.

(** The algorithm named in the manifest is ignored: a package of OVF version 1, for which COT
    computes [sha1], whose manifest has the right SHA256 sums is reported as tampered. *)
Theorem C47_other_algorithm_refuted : forall sha1 sha256 xml, hex_digest (sha256 xml) -> sha1 xml <> sha256 xml ->
  exists text w, generate_manifest (L "SHA256") (L "a.ovf") (sha256 xml) [] [] = Ok text /\
    w_tars w (L "/a.ova") = Some [mkMember (L "a.ovf") None xml; mkMember (L "a.mf") None text] /\
    load_files sha1 w (Tar (L "/a.ova")) (L "/tmp/cot/a.ovf") [] = Ok ([], [BadChecksum (L "a.ovf")]) /\
    load_files sha256 w (Tar (L "/a.ova")) (L "/tmp/cot/a.ovf") [] = Ok ([], []).
Proof.
  intros sha1 sha256 xml HH N.
  destruct (manifest_round_trip (L "SHA256") (L "a.ovf") (sha256 xml) [] []) as (text & EG & EP); [now right|split; vm_compute; intuition discriminate|exact HH|intros h []|repeat constructor; intros []|].
  exists text, (mkWorld (fun _ => None) (fun _ => Some [mkMember (L "a.ovf") None xml; mkMember (L "a.mf") None text])). split; [exact EG|]. split; [reflexivity|].
  assert (G : forall digest, load_files digest (mkWorld (fun _ => None) (fun _ => Some [mkMember (L "a.ovf") None xml; mkMember (L "a.mf") None text])) (Tar (L "/a.ova")) (L "/tmp/cot/a.ovf") [] =
     Ok ([], if str_eqb (digest xml) (sha256 xml) then [] else [BadChecksum (L "a.ovf")])).
  { intros digest. unfold load_files.
    set (w0 := mkWorld _ _). change (splitext_root (basename (L "/tmp/cot/a.ovf")) ++ L ".mf") with (L "a.mf").
    assert (create digest w0 (Tar (L "/a.ova")) (L "a.mf") None None = Ok (InTar (L "/a.ova") (L "a.mf"), [])) as -> by (vm_compute; reflexivity).
    assert (content w0 (InTar (L "/a.ova") (L "a.mf")) = Some text) as -> by (vm_compute; reflexivity). rewrite EP. cbn [rbind map].
    change (basename (L "/tmp/cot/a.ovf")) with (L "a.ovf").
    assert (dget str_eqb (L "a.ovf") [(L "a.ovf", (L "SHA256", sha256 xml))] = Some (L "SHA256", sha256 xml)) as -> by reflexivity. cbn [option_map snd fold_left].
    assert (create digest w0 (Tar (L "/a.ova")) (L "a.ovf") (Some (sha256 xml)) None = Ok (InTar (L "/a.ova") (L "a.ovf"), if str_eqb (digest xml) (sha256 xml) then [] else [BadChecksum (L "a.ovf")])) as ->.
    { unfold create. change (normpath (L "a.ovf")) with (L "a.ovf"). cbn [w_tars w0]. change (resolve [mkMember (L "a.ovf") None xml; mkMember (L "a.mf") None text] (L "a.ovf")) with (Some (L "a.ovf")). cbn [rbind].
      change (content w0 (InTar (L "/a.ova") (L "a.ovf"))) with (Some xml). cbv iota beta. rewrite app_nil_r. reflexivity. }
    cbn [rbind load_each fst snd]. rewrite app_nil_r. reflexivity. }
  rewrite !G. destruct (str_eqb (sha1 xml) (sha256 xml)) eqn:E; [apply str_eqb_eq in E; contradiction|]. now rewrite (proj2 (str_eqb_eq (sha256 xml) (sha256 xml)) eq_refl).
Qed.
Print Assumptions C47_other_algorithm_refuted.

(** An archive with names of many kinds: what is accepted. *)
Example C32_example :
  map (name_ok (L "/tmp/cot")) [L "a.ovf"; L "./sub/../a.ovf"; L "../cot/a.ovf"; L "../a.ovf"; L "/etc/passwd"; L "sub/../../x"; L "/tmp/cot/x"; L "//tmp/cot/x"; L "../cotx/y"] =
  [true; true; true; false; false; false; true; false; true] /\
  (exists m p, untar (L "/tmp/cot") (Some [mkMember (L "d.vmdk") None []; mkMember (L "b.ovf") None (L "x"); mkMember (L "c.ovf") None []]) = Ok (m, p) /\ p = L "/tmp/cot/b.ovf").
Proof. split; [vm_compute; reflexivity|]. eexists. eexists. split; vm_compute; reflexivity. Qed.
