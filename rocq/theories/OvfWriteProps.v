(** C65: a package written as an .ovf file is complete and opens again without complaints. *)
From Coq Require Import List Ascii Bool ZArith.
Import ListNotations.
From Verif Require Import PyBase PyBaseProofs PyDict PyDictProofs ManifestModel ManifestSpec ManifestProofs RawModel SelectModel ItemModel PathModel PathSpec PathProofs
  TarModel TarSpec TarProofs ArchiveProofs ReopenProofs OvfWriteModel OvfWriteSpec OvfWriteProofs TarProps.

(** Whatever the digest function, the directory [W] and the package: after writing [B].ovf the
    descriptor, the manifest and each file are in the directory with the contents they had
    before; no other file and no archive has changed; the manifest lists all with their sums. *)
Theorem C65_written : forall digest w W B algo xml hrefs refs data,
  W <> [] -> (forall c, In c W -> proper c) -> stem B -> ~ In NL B ->
  copyable w W (B ++ L ".ovf") (B ++ L ".mf") hrefs refs data ->
  algorithm_name algo -> (forall d, hex_digest (digest d)) ->
  exists w' text, write_ovf digest w (path_of (W ++ [B ++ L ".ovf"])) algo xml hrefs refs = (w', Ok tt)
    /\ complete w' W (B ++ L ".ovf") (B ++ L ".mf") xml text hrefs data
    /\ only_package w w' W (B ++ L ".ovf") (B ++ L ".mf") hrefs
    /\ parse_manifest text = (B ++ L ".ovf", (algo, digest xml)) :: map (fun h => (h, (algo, digest (data h)))) hrefs.
Proof. exact write_ovf_spec. Qed.
Print Assumptions C65_written.

(** The package can then be opened: no problem is reported, each file has its content. *)
Theorem C65_reopened : forall digest w W B algo xml hrefs refs data w' e,
  W <> [] -> (forall c, In c W -> proper c) -> stem B -> ~ In NL B ->
  copyable w W (B ++ L ".ovf") (B ++ L ".mf") hrefs refs data ->
  algorithm_name algo -> (forall d, hex_digest (digest d)) ->
  write_ovf digest w (path_of (W ++ [B ++ L ".ovf"])) algo xml hrefs refs = (w', e) ->
  read w' (path_of (W ++ [B ++ L ".ovf"])) = Some xml /\
  forall elems, map fst elems = hrefs -> (forall h s, In (h, Some s) elems -> py_int s = Some (Z.of_nat (length (data h)))) ->
    exists refs', load_files digest w' (Dir (path_of W)) (path_of (W ++ [B ++ L ".ovf"])) elems = Ok (refs', []) /\
      map fst refs' = hrefs /\ forall h r, In (h, r) refs' -> content w' r = Some (data h).
Proof.
  intros digest w W B algo xml hrefs refs data w' e WN WP SB NB P HA HD E.
  destruct (write_ovf_spec digest w W B algo xml hrefs refs data WN WP SB NB P HA HD) as (w1 & text & E1 & C & _ & EP).
  rewrite E1 in E. injection E as <- <-. split.
  - unfold read. pose proof (place_snoc W _ WP (stem_proper B _ SB no_slash_ovf)) as PS. match goal with |- w_files _ ?p = _ => replace p with (W ++ [B ++ L ".ovf"]) by (symmetry; exact PS) end. exact (proj1 C).
  - intros elems EE ES. apply (reopen_dir digest w1 W B xml text hrefs data algo WN WP SB C (c_files _ _ _ _ _ _ _ P)); [ | exact EP | exact EE | exact ES].
    intros h I. destruct (c_names _ _ _ _ _ _ _ P h I) as (A & _ & N1 & N2). now split.
Qed.
Print Assumptions C65_reopened.

(** The package of C47, with a file in an archive and one on the disk, written to /out/b.ovf. *)
Example C65_example : copyable ex_world [L "out"] (L "b.ovf") (L "b.mf") ex_names ex_refs ex_data /\ stem (L "b") /\
  (let '(w', e) := write_ovf ex_digest ex_world (L "/out/b.ovf") (L "SHA1") (L "xml") ex_names ex_refs in
   e = Ok tt /\ map (read w') [L "/out/b.ovf"; L "/out/sub/d.vmdk"; L "/out/c.txt"; L "/home/c.txt"; L "/out/b.mf"] =
     [Some (L "xml"); Some (L "disk"); Some (L "new"); Some (L "new");
      Some (L "SHA1(b.ovf)= 0" ++ [NL] ++ L "SHA1(sub/d.vmdk)= 0" ++ [NL] ++ L "SHA1(c.txt)= 0" ++ [NL])]).
Proof.
  split; [ | split; [ | split; vm_compute; reflexivity]].
  - assert (P1 : plain_name (L "sub/d.vmdk") [L "sub"; L "d.vmdk"]) by (split; [discriminate|]; split; [intros c [<-|[<-|[]]]; repeat split; vm_compute; intuition discriminate|reflexivity]).
    assert (P2 : plain_name (L "c.txt") [L "c.txt"]) by (split; [discriminate|]; split; [intros c [<-|[]]; repeat split; vm_compute; intuition discriminate|reflexivity]).
    constructor.
    + repeat constructor; vm_compute; intuition discriminate.
    + repeat constructor; vm_compute; intuition discriminate.
    + intros h. reflexivity.
    + intros h [<-|[<-|[]]].
      * split; [now exists [L "sub"; L "d.vmdk"]|]. repeat split; vm_compute; intuition discriminate.
      * split; [now exists [L "c.txt"]|]. repeat split; vm_compute; intuition discriminate.
    + intros h r [E|[E|[]]]; injection E as <- <-; reflexivity.
    + intros h d n [E|[E|[]]]; [discriminate|]. injection E as <- <- <-. split; [reflexivity|].
      split; [right; split; vm_compute; intuition discriminate | ]. split; [vm_compute; discriminate|]. split; [vm_compute; discriminate|].
      intros h' r' l [E|[E|[]]]; injection E as <- <-; [intros _ PL; rewrite (plain_unique _ _ _ PL P1); vm_compute; discriminate | intros N; now elim N].
    + intros h t n [E|[E|[]]]; [|discriminate]. injection E as <- <- <-. reflexivity.
  - split; [vm_compute; intuition discriminate | ]. exists "b"%char. split; [now left | discriminate].
Qed.
Print Assumptions C65_example.

(** Whether it succeeds or fails, and whatever the package: writing changes no file but the
    output, the manifest beside it, and the files of the package below the directory of the
    output; and no archive. *)
Theorem C65_confined : forall digest w output algo xml hrefs refs w' e, write_ovf digest w output algo xml hrefs refs = (w', e) ->
  (forall t, w_tars w' t = w_tars w t) /\
  forall q, w_files w' q <> w_files w q -> q = place output \/ q = place (splitext_root output ++ L ".mf")
    \/ exists h r, In (h, r) refs /\ q = place (path_join (dirname (normpath output)) (name_there r)).
Proof. exact write_confined. Qed.
Print Assumptions C65_confined.

(** The manifest gives the sum of the descriptor that is there in the end, whatever has been
    copied over it. *)
Theorem C65_descriptor_sum : forall digest w output algo xml hrefs refs w',
  write_ovf digest w output algo xml hrefs refs = (w', Ok tt) -> place (splitext_root output ++ L ".mf") <> place output ->
  exists now rest, read w' output = Some now /\
    read w' (splitext_root output ++ L ".mf") = Some (algo ++ L "(" ++ basename output ++ L ")= " ++ digest now ++ [NL] ++ rest).
Proof. exact descriptor_sum. Qed.
Print Assumptions C65_descriptor_sum.

(** The directory of any path, and with it the place of the copies: what is before the last
    slashes; and only the slashes where there is nothing before them. *)
Theorem C65_directory : forall p, exists s, p = dirname p ++ s ++ basename p /\ (forall c, In c s -> c = "/"%char)
  /\ ~ In "/"%char (basename p) /\ (dirname p = [] -> s = [])
  /\ ((forall t, dirname p <> t ++ ["/"%char]) \/ (s = [] /\ forall c, In c (dirname p) -> c = "/"%char)).
Proof. exact directory_spec. Qed.
Print Assumptions C65_directory.
Example C65_directories : map dirname [L "/a/b.ovf"; L "/b.ovf"; L "a//b.ovf"; L "b.ovf"; L "//b"] = [L "/a"; L "/"; L "a"; []; L "//"].
Proof. reflexivity. Qed.

(** A world with some files on the disk. *)
Definition disk_world (files : list (list str * str)) : world :=
  mkWorld (fun p => option_map snd (find (fun f => strs_eqb (fst f) p) files)) (fun _ => None).
Definition on_disk (names : list str) : list (str * ref) := map (fun n => (n, OnDisk (L "/in") n)) names.

(** A file in a subdirectory loses it: the package written has the file in the wrong place, and
    opening it reports a missing file. *)
Theorem C65_subdirectory_refuted : exists w names w',
  write_ovf ex_digest w (L "/out/b.ovf") (L "SHA1") (L "xml") names (on_disk names) = (w', Ok tt) /\
  load_files ex_digest w (Dir (L "/in")) (L "/in/a.ovf") (map (fun n => (n, None)) names) = Ok (on_disk names, []) /\
  load_files ex_digest w' (Dir (L "/out")) (L "/out/b.ovf") (map (fun n => (n, None)) names) = Ok ([], [NoSuchFile (L "sub/d.vmdk")]) /\
  read w' (L "/out/d.vmdk") = read w (L "/in/sub/d.vmdk").
Proof.
  exists (disk_world [([L "in"; L "a.ovf"], L "old"); ([L "in"; L "sub"; L "d.vmdk"], L "disk")]), [L "sub/d.vmdk"]. eexists.
  split; [unfold write_ovf; cbn; reflexivity | ]. split; [vm_compute; reflexivity | ]. split; vm_compute; reflexivity.
Qed.
Print Assumptions C65_subdirectory_refuted.

(** Of two files with the same name in different directories only the second survives, and
    nothing is reported. *)
Theorem C65_same_name_refuted : exists w names w',
  write_ovf ex_digest w (L "/out/b.ovf") (L "SHA1") (L "xml") names (on_disk names) = (w', Ok tt) /\
  map (read w) [L "/in/x/d.vmdk"; L "/in/y/d.vmdk"] = [Some (L "first"); Some (L "second")] /\
  map (read w') [L "/out/x/d.vmdk"; L "/out/y/d.vmdk"; L "/out/d.vmdk"] = [None; None; Some (L "second")].
Proof.
  exists (disk_world [([L "in"; L "x"; L "d.vmdk"], L "first"); ([L "in"; L "y"; L "d.vmdk"], L "second")]), [L "x/d.vmdk"; L "y/d.vmdk"]. eexists.
  split; [unfold write_ovf; cbn; reflexivity | ]. split; vm_compute; reflexivity.
Qed.
Print Assumptions C65_same_name_refuted.

(** A file of the package called like the new descriptor replaces it. *)
Theorem C65_descriptor_replaced_refuted : exists w names w',
  write_ovf ex_digest w (L "/out/b.ovf") (L "SHA1") (L "the new descriptor") names (on_disk names) = (w', Ok tt) /\
  read w' (L "/out/b.ovf") = Some (L "old").
Proof.
  exists (disk_world [([L "in"; L "b.ovf"], L "old")]), [L "b.ovf"]. eexists.
  split; [unfold write_ovf; cbn; reflexivity | ]. vm_compute; reflexivity.
Qed.
Print Assumptions C65_descriptor_replaced_refuted.

(** Files in the directory that have nothing to do with the package are overwritten. *)
Theorem C65_unrelated_refuted : exists w names w',
  write_ovf ex_digest w (L "/out/b.ovf") (L "SHA1") (L "xml") names (on_disk names) = (w', Ok tt) /\
  read w (L "/out/notes.txt") = Some (L "mine") /\ read w' (L "/out/notes.txt") = Some (L "theirs").
Proof.
  exists (disk_world [([L "in"; L "notes.txt"], L "theirs"); ([L "out"; L "notes.txt"], L "mine")]), [L "notes.txt"]. eexists.
  split; [unfold write_ovf; cbn; reflexivity | ]. split; vm_compute; reflexivity.
Qed.
Print Assumptions C65_unrelated_refuted.

(** If a file has disappeared, the command fails, but the old descriptor is gone, and the
    manifest is still the old one. *)
Theorem C65_failure_refuted : exists w names w' e,
  write_ovf ex_digest w (L "/out/b.ovf") (L "SHA1") (L "xml") names (on_disk names) = (w', Err e) /\
  map (read w) [L "/out/b.ovf"; L "/out/b.mf"] = [Some (L "old"); Some (L "old sums")] /\
  map (read w') [L "/out/b.ovf"; L "/out/b.mf"] = [Some (L "xml"); Some (L "old sums")].
Proof.
  exists (disk_world [([L "out"; L "b.ovf"], L "old"); ([L "out"; L "b.mf"], L "old sums")]), [L "notes.txt"]. eexists. eexists.
  split; [unfold write_ovf; cbn; reflexivity | ]. split; vm_compute; reflexivity.
Qed.
Print Assumptions C65_failure_refuted.
