(** Looking for the files of a package. *)
From Coq Require Import List Ascii Bool ZArith Lia.
Import ListNotations.
From Verif Require Import PyBase PyBaseProofs PyDict PyDictProofs XmlModel NamesModel NetworkModel DriveModel ManifestModel SelectModel RawModel PathModel TarModel OpenModel OpenSpec.

Lemma found_fun : forall w c n r d r' d', found w c n r d -> found w c n r' d' -> r = r' /\ d = d'.
Proof.
  intros w c n r d r' d' [C1 H1] [C2 H2]. assert (r = r').
  { destruct c as [dd|t]; [congruence|]. destruct H1 as (a & m & A & R & ->), H2 as (a' & m' & A' & R' & ->). congruence. }
  subst r'. split; [reflexivity|congruence].
Qed.
(** A File by name: in the directory or archive *)
Section Files.
  Variable digest : str -> str.
  Variable w : world.
  Variable c : container.

  Definition checksum_complaint (r : ref) (data : str) (sum : option str) : list complaint :=
    match sum with Some s => if str_eqb (digest data) s then [] else [BadChecksum (ref_name r)] | None => [] end.
  Lemma create_spec : forall n sum size,
    (missing w c n /\ create digest w c n sum size = Err EEnvironment) \/
    exists r data, found w c n r data /\
      create digest w c n sum size =
        match size with
        | Some s => match py_int s with
                    | Some z => Ok (r, checksum_complaint r data sum ++ (if Z.eqb (Z.of_nat (length data)) z then [] else [BadSize (ref_name r)]))
                    | None => Err EValueError
                    end
        | None => Ok (r, checksum_complaint r data sum ++ [])
        end.
  Proof.
    intros n sum size. unfold create.
    assert (X : forall r, (forall r' d, found w c n r' d -> r' = r) -> (forall d, content w r = Some d -> found w c n r d) ->
      (missing w c n /\ match content w r with
        | None => Err EEnvironment
        | Some data =>
            do c2 <- (match size with
                      | Some s => match py_int s with
                                  | Some z => Ok (if Z.eqb (Z.of_nat (length data)) z then [] else [BadSize (ref_name r)])
                                  | None => Err EValueError
                                  end
                      | None => Ok []
                      end);
            Ok (r, checksum_complaint r data sum ++ c2)
        end = Err EEnvironment) \/
      exists r0 data, found w c n r0 data /\ match content w r with
        | None => Err EEnvironment
        | Some data =>
            do c2 <- (match size with
                      | Some s => match py_int s with
                                  | Some z => Ok (if Z.eqb (Z.of_nat (length data)) z then [] else [BadSize (ref_name r)])
                                  | None => Err EValueError
                                  end
                      | None => Ok []
                      end);
            Ok (r, checksum_complaint r data sum ++ c2)
        end = match size with
        | Some s => match py_int s with
                    | Some z => Ok (r0, checksum_complaint r0 data sum ++ (if Z.eqb (Z.of_nat (length data)) z then [] else [BadSize (ref_name r0)]))
                    | None => Err EValueError
                    end
        | None => Ok (r0, checksum_complaint r0 data sum ++ [])
        end).
    { intros r U F. destruct (content w r) as [d|] eqn:C.
      - right. exists r, d. split; [now apply F|]. destruct size as [s|]; [|reflexivity]. destruct (py_int s) as [z|]; reflexivity.
      - left. split; [|reflexivity]. intros r' d' G. pose proof (U r' d' G) as ->. destruct G as [G _]. congruence. }
    destruct c as [d|t].
    - apply (X (OnDisk d (normpath n))).
      + intros r' d' [_ G]. exact G.
      + intros d' C. split; [exact C|reflexivity].
    - destruct (w_tars w t) as [a|] eqn:A.
      + destruct (resolve a (normpath n)) as [m|] eqn:R.
        * apply (X (InTar t m)).
          -- intros r' d' [_ (a' & m' & A' & R' & ->)]. congruence.
          -- intros d' C. split; [exact C|]. exists a, m. auto.
        * left. split; [|reflexivity]. intros r' d' [_ (a' & m' & A' & R' & ->)]. congruence.
      + left. split; [|reflexivity]. intros r' d' [_ (a' & m' & A' & R' & ->)]. congruence.
  Qed.

  (** what there is to complain about for one File *)
  Definition file_due (entries : list (str * (str * str))) (h : str) (size : option str) (x : complaint) : Prop :=
    (missing w c h /\ x = NoSuchFile h) \/
    exists r data, found w c h r data /\
      ((x = BadChecksum (ref_name r) /\ exists algo sum, dget str_eqb h entries = Some (algo, sum) /\ digest data <> sum) \/
       (x = BadSize (ref_name r) /\ exists s z, size = Some s /\ py_int s = Some z /\ Z.of_nat (length data) <> z)).
  Lemma checksum_due : forall (entries : list (str * (str * str))) h r data x, found w c h r data ->
    (In x (checksum_complaint r data (option_map snd (dget str_eqb h entries))) <->
     x = BadChecksum (ref_name r) /\ exists algo sum, dget str_eqb h entries = Some (algo, sum) /\ digest data <> sum).
  Proof.
    intros entries h r data x F. unfold checksum_complaint. destruct (dget str_eqb h entries) as [[algo sum]|]; cbn [option_map snd].
    - destruct (str_eqb (digest data) sum) eqn:Ed.
      + apply str_eqb_eq in Ed. split; [intros []|]. intros [_ (a & s & H & N)]. injection H as <- <-. contradiction.
      + assert (N : digest data <> sum) by (intros H; rewrite H, (proj2 (str_eqb_eq _ _) eq_refl) in Ed; discriminate). split.
        * intros [<-|[]]. split; [reflexivity|]. now exists algo, sum.
        * intros [-> _]. now left.
    - split; [intros []|]. intros [_ (a & s & H & _)]. discriminate.
  Qed.

  Lemma load_each_spec : forall entries files,
    match load_each digest w c entries files with
    | Ok (refs, cs) =>
        (forall h r, In (h, r) refs <-> exists size data, In (h, size) files /\ found w c h r data) /\
        (forall x, In x cs <-> exists h size, In (h, size) files /\ file_due entries h size x) /\
        (forall h s r data, In (h, Some s) files -> found w c h r data -> py_int s <> None)
    | Err e => e = EValueError /\ exists h s r data, In (h, Some s) files /\ found w c h r data /\ py_int s = None
    end.
  Proof.
    intros entries. induction files as [|[h size] files IH]; cbn [load_each].
    - split; [|split].
      + intros h r. split; [intros []|]. intros (size & data & [] & _).
      + intros x. split; [intros []|]. intros (h & size & [] & _).
      + intros h s r data [].
    - pose proof (create_spec h (option_map snd (dget str_eqb h entries)) size) as C. destruct C as [[M ->]|(r & data & F & ->)].
      + cbn [is_environment_error]. destruct (load_each digest w c entries files) as [[refs cs]|e]; cbn [rbind fst snd].
        * destruct IH as (I1 & I2 & I3). split; [|split].
          -- intros h' r'. rewrite I1. split; intros (s & d & H & G); exists s, d; (split; [|exact G]); [now right|].
             destruct H as [H|H]; [|exact H]. injection H as <- <-. exfalso. exact (M r' d G).
          -- intros x. cbn [In]. rewrite I2. split.
             ++ intros [<-|(h' & s & H & G)]; [exists h, size; split; [now left|left; now split]|exists h', s; split; [now right|exact G]].
             ++ intros (h' & s & [H|H] & G).
                ** injection H as <- <-. left. destruct G as [[_ G]|(r & d & G & _)]; [now symmetry|]. exfalso. exact (M r d G).
                ** right. now exists h', s.
          -- intros h' s r d [H|H] G; [|exact (I3 h' s r d H G)]. injection H as <- ->. exfalso. exact (M r d G).
        * destruct IH as (-> & h' & s & r & d & H & G). split; [reflexivity|]. exists h', s, r, d. split; [now right|exact G].
      + assert (Y : forall c2 c1,
          (forall x, In x c1 <-> x = BadChecksum (ref_name r) /\ exists algo sum, dget str_eqb h entries = Some (algo, sum) /\ digest data <> sum) ->
          (forall x, In x c2 <-> x = BadSize (ref_name r) /\ exists s z, size = Some s /\ py_int s = Some z /\ Z.of_nat (length data) <> z) ->
          (forall s, size = Some s -> py_int s <> None) ->
          match (do x <- load_each digest w c entries files; Ok ((h, r) :: fst x, (c1 ++ c2) ++ snd x)) with
          | Ok (refs, cs) =>
              (forall h0 r, In (h0, r) refs <-> exists size0 data, In (h0, size0) ((h, size) :: files) /\ found w c h0 r data) /\
              (forall x, In x cs <-> exists h0 size0, In (h0, size0) ((h, size) :: files) /\ file_due entries h0 size0 x) /\
              (forall h0 s r data, In (h0, Some s) ((h, size) :: files) -> found w c h0 r data -> py_int s <> None)
          | Err e => e = EValueError /\ exists h0 s r data, In (h0, Some s) ((h, size) :: files) /\ found w c h0 r data /\ py_int s = None
          end).
        { intros c2 c1 E1 E2 E3. destruct (load_each digest w c entries files) as [[refs cs]|e]; cbn [rbind fst snd].
          - destruct IH as (I1 & I2 & I3). split; [|split].
            + intros h' r'. cbn [In]. rewrite I1. split.
              * intros [H|(s & d & H & G)]; [injection H as <- <-; exists size, data; split; [now left|exact F]|exists s, d; split; [now right|exact G]].
              * intros (s & d & [H|H] & G); [|right; now exists s, d]. injection H as <- <-. left. f_equal. exact (proj1 (found_fun _ _ _ _ _ _ _ F G)).
            + intros x. rewrite !in_app_iff, E1, E2, I2. split.
              * intros [[H|H]|(h' & s & H & G)].
                -- exists h, size. split; [now left|]. right. exists r, data. split; [exact F|now left].
                -- exists h, size. split; [now left|]. right. exists r, data. split; [exact F|now right].
                -- exists h', s. split; [now right|exact G].
              * intros (h' & s & [H|H] & G); [|right; now exists h', s]. injection H as <- <-. left.
                destruct G as [[M _]|(r' & d' & F' & G)]; [exfalso; exact (M r data F)|].
                destruct (found_fun _ _ _ _ _ _ _ F F') as [<- <-]. exact G.
            + intros h' s r' d [H|H] G; [|exact (I3 h' s r' d H G)]. injection H as <- Hs. exact (E3 s Hs).
          - destruct IH as (-> & h' & s & r' & d & H & G). split; [reflexivity|]. exists h', s, r', d. split; [now right|exact G]. }
        pose proof (checksum_due entries h r data) as CD.
        destruct size as [s|].
        * destruct (py_int s) as [z|] eqn:Ps.
          -- apply (Y (if Z.eqb (Z.of_nat (length data)) z then [] else [BadSize (ref_name r)])).
             ++ intros x. exact (CD x F).
             ++ intros x. destruct (Z.eqb (Z.of_nat (length data)) z) eqn:Ez.
                ** apply Z.eqb_eq in Ez. split; [intros []|]. intros [_ (s' & z' & H & P & N)]. injection H as <-. assert (z' = z) by congruence. subst. contradiction.
                ** apply Z.eqb_neq in Ez. split; [intros [<-|[]]; split; [reflexivity|now exists s, z]|intros [-> _]; now left].
             ++ intros s' H. injection H as <-. congruence.
          -- cbn [is_environment_error]. split; [reflexivity|]. exists h, s, r, data. split; [now left|]. now split.
        * apply (Y []).
          -- intros x. exact (CD x F).
          -- intros x. split; [intros []|]. intros [_ (s' & z' & H & _)]. discriminate.
          -- discriminate.
  Qed.
End Files.

(** the File elements as a dictionary *)
Definition as_dict (elems : list (str * option str)) : list (str * option str) :=
  fold_left (fun d e => dset str_eqb (fst e) (snd e) d) elems [].
Lemma as_dict_snoc : forall es h s, as_dict (es ++ [(h, s)]) = dset str_eqb h s (as_dict es).
Proof. intros. unfold as_dict. now rewrite fold_left_app. Qed.
Lemma as_dict_nodup : forall es, NoDup (map fst (as_dict es)).
Proof.
  induction es as [|[h s] es IH] using rev_ind; [constructor|]. rewrite as_dict_snoc. now apply (dset_NoDup str_eqb str_eqb_eq).
Qed.
Lemma as_dict_last : forall es h s, dget str_eqb h (as_dict es) = Some s <-> exists pre post, es = pre ++ (h, s) :: post /\ ~ In h (map fst post).
Proof.
  induction es as [|[h0 s0] es IH] using rev_ind; intros h s.
  - cbn. split; [discriminate|]. intros (pre & post & H & _). destruct pre; discriminate.
  - rewrite as_dict_snoc. destruct (str_eqb h h0) eqn:Eh.
    + apply str_eqb_eq in Eh. subst h0. rewrite (dget_dset_same str_eqb str_eqb_eq). split.
      * intros H. injection H as ->. exists es, []. split; [reflexivity|intros []].
      * intros (pre & post & H & N). destruct post as [|p post _] using rev_ind.
        -- apply app_inj_tail in H as [_ H]. now injection H as ->.
        -- exfalso. rewrite app_comm_cons, app_assoc in H. apply app_inj_tail in H as [_ <-]. apply N. rewrite map_app. apply in_or_app. right. now left.
    + assert (Nh : h <> h0) by (intros ->; rewrite (proj2 (str_eqb_eq _ _) eq_refl) in Eh; discriminate).
      rewrite (dget_dset_other str_eqb str_eqb_eq) by exact Nh. rewrite IH. split.
      * intros (pre & post & -> & N). exists pre, (post ++ [(h0, s0)]). split; [now rewrite <- app_assoc|].
        rewrite map_app, in_app_iff. intros [F|[F|[]]]; [contradiction|]. cbn in F. congruence.
      * intros (pre & post & H & N). destruct post as [|p post _] using rev_ind.
        -- apply app_inj_tail in H as [_ H]. injection H as <- _. contradiction.
        -- rewrite app_comm_cons, app_assoc in H. apply app_inj_tail in H as [-> _]. exists pre, post. split; [reflexivity|].
           intros F. apply N. rewrite map_app. apply in_or_app. now left.
Qed.
Lemma as_dict_In : forall es h s, In (h, s) (as_dict es) <-> dget str_eqb h (as_dict es) = Some s.
Proof.
  intros es h s. split; [apply (dget_Some_In str_eqb str_eqb_eq), as_dict_nodup|apply (dget_In str_eqb str_eqb_eq)].
Qed.

(** hrefs and sizes of the File elements *)
Lemma file_elems_spec : forall v l,
  match file_elems v l with
  | Ok es => Forall2 (fun e x => get_attr e (FILE_HREF v) = Some (fst x) /\ get_attr e (FILE_SIZE v) = snd x) l es
  | Err e => e = ETypeError /\ exists x, In x l /\ get_attr x (FILE_HREF v) = None
  end.
Proof.
  intros v. induction l as [|e l IH]; cbn [file_elems]; [constructor|].
  destruct (get_attr e (FILE_HREF v)) as [h|] eqn:H; [|split; [reflexivity|exists e; split; [now left|exact H]]].
  destruct (file_elems v l) as [es|x]; cbn [rbind].
  - constructor; [now split|exact IH].
  - destruct IH as (-> & y & I & N). split; [reflexivity|]. exists y. split; [now right|exact N].
Qed.

Section Refs.
  Variable v : version.
  Variable refs : elem.
  Variable es : list (str * option str).
  Hypothesis Hes : Forall2 (fun e x => get_attr e (FILE_HREF v) = Some (fst x) /\ get_attr e (FILE_SIZE v) = snd x) (findall (FILE v) refs) es.

  Lemma file_in : forall e, In e (findall (FILE v) refs) <-> In e (echildren refs) /\ etag e = FILE v.
  Proof. intros e. unfold findall. rewrite filter_In, str_eqb_eq. tauto. Qed.
  Lemma listed_In : forall h, listed v refs h <-> In h (map fst es).
  Proof.
    intros h. unfold listed. split.
    - intros (e & I & T & H). assert (X : In e (findall (FILE v) refs)) by now apply file_in.
      clear I T. revert X. generalize Hes. generalize (findall (FILE v) refs) as l, es as xs. clear Hes. intros l xs F. induction F as [|y x l xs [Y1 Y2] F IH]; intros X; [destruct X|].
      destruct X as [->|X]; [left; congruence|right; now apply IH].
    - intros I.
      assert (X : exists e, In e (findall (FILE v) refs) /\ get_attr e (FILE_HREF v) = Some h).
      { revert I. generalize Hes. generalize (findall (FILE v) refs) as l, es as xs. clear Hes. intros l xs F. induction F as [|y x l xs [Y1 Y2] F IH]; intros I; [destruct I|].
        destruct I as [<-|I]; [exists y; split; [now left|exact Y1]|]. destruct (IH I) as (e & J & K). exists e. split; [now right|exact K]. }
      destruct X as (e & I' & H). apply file_in in I' as [I1 I2]. exists e. auto.
  Qed.
  Lemma listed_dict : forall h, listed v refs h <-> In h (map fst (as_dict es)).
  Proof.
    intros h. rewrite listed_In. split.
    - intros I. destruct (dget str_eqb h (as_dict es)) as [s|] eqn:D.
      + apply (dget_In str_eqb str_eqb_eq) in D. apply in_map_iff. exists (h, s). auto.
      + exfalso. assert (X : forall l : list (str * option str), In h (map fst l) -> dget str_eqb h (as_dict l) <> None).
        { induction l as [|[h0 s0] l IH] using rev_ind; [intros []|]. rewrite map_app, as_dict_snoc. intros J. destruct (str_eqb h h0) eqn:Eh.
          - apply str_eqb_eq in Eh. subst h0. rewrite (dget_dset_same str_eqb str_eqb_eq). discriminate.
          - assert (Nh : h <> h0) by (intros ->; rewrite (proj2 (str_eqb_eq _ _) eq_refl) in Eh; discriminate).
            rewrite (dget_dset_other str_eqb str_eqb_eq) by exact Nh. apply IH. apply in_app_iff in J as [J|[J|[]]]; [exact J|]. cbn in J. congruence. }
        exact (X es I D).
    - intros I. apply in_map_iff in I as ([h' s] & <- & I). apply as_dict_In, as_dict_last in I as (pre & post & -> & _). cbn [fst]. rewrite map_app. apply in_or_app. right. now left.
  Qed.
  Lemma size_dict : forall h s, listed_size v refs h s <-> dget str_eqb h (as_dict es) = Some s.
  Proof.
    intros h s. rewrite as_dict_last. unfold listed_size. split.
    - intros (pre & e & post & Ec & T & H & S & N).
      assert (X : findall (FILE v) refs = findall (FILE v) (set_children pre refs) ++ e :: findall (FILE v) (set_children post refs)).
      { unfold findall. rewrite Ec. destruct refs. cbn [set_children echildren] in *. rewrite filter_app. cbn [filter]. now rewrite (proj2 (str_eqb_eq _ _) T). }
      rewrite X in Hes. apply Forall2_app_inv_l in Hes as (a & b & F1 & F2 & ->). inversion F2 as [|? x ? b' [Y1 Y2] F3]; subst.
      exists a, b'. split; [f_equal; f_equal; destruct x as [xh xs]; cbn [fst snd] in *; congruence|].
      intros I. assert (Z : exists e', In e' (findall (FILE v) (set_children post refs)) /\ get_attr e' (FILE_HREF v) = Some h).
      { clear - F3 I. induction F3 as [|y z l xs [Y1 Y2] F IH]; [destruct I|]. destruct I as [<-|I]; [exists y; split; [now left|exact Y1]|]. destruct (IH I) as (e & J & K). exists e. split; [now right|exact K]. }
      destruct Z as (e' & I' & H'). unfold findall in I'. apply filter_In in I' as [I1 I2]. apply str_eqb_eq in I2. destruct refs. cbn [set_children echildren] in I1. exact (N e' I1 I2 H').
    - intros (pre & post & -> & N). apply Forall2_app_inv_r in Hes as (a & b & F1 & F2 & X). inversion F2 as [|e ? b' ? [Y1 Y2] F3]; subst. cbn [fst snd] in *.
      unfold findall in X. clear F1.
      assert (S : forall l a e b', filter (fun c => str_eqb (etag c) (FILE v)) l = a ++ e :: b' ->
                  exists p q, l = p ++ e :: q /\ filter (fun c => str_eqb (etag c) (FILE v)) q = b' /\ etag e = FILE v).
      { induction l as [|y l IH]; intros a0 e0 b0 H; [destruct a0; discriminate|]. cbn [filter] in H. destruct (str_eqb (etag y) (FILE v)) eqn:T.
        - destruct a0 as [|z a0]; injection H as <- H.
          + exists [], l. split; [reflexivity|]. split; [exact H|]. now apply str_eqb_eq.
          + destruct (IH a0 e0 b0 H) as (p & q & -> & Q). exists (y :: p), q. split; [reflexivity|exact Q].
        - destruct (IH a0 e0 b0 H) as (p & q & -> & Q). exists (y :: p), q. split; [reflexivity|exact Q]. }
      destruct (S _ _ _ _ X) as (p & q & Ec & Eq & T). exists p, e, q. split; [exact Ec|]. split; [exact T|]. split; [exact Y1|]. split; [exact Y2|].
      intros e' I T' H'. apply N. assert (J : In e' b') by (rewrite <- Eq; apply filter_In; split; [exact I|now apply str_eqb_eq]).
      clear - F3 J H'. induction F3 as [|y z l xs [Y1 Y2] F IH]; [destruct J|]. destruct J as [->|J]; [left; congruence|right; now apply IH].
  Qed.
End Refs.

Theorem load_files_spec : forall digest w c path v refs es,
  Forall2 (fun e x => get_attr e (FILE_HREF v) = Some (fst x) /\ get_attr e (FILE_SIZE v) = snd x) (findall (FILE v) refs) es ->
  match load_files digest w c path es with
  | Ok (files, cs) =>
      (forall h s r data, listed_size v refs h (Some s) -> found w c h r data -> py_int s <> None) /\
      (exists r data, found w c (basename path) r data) /\
      (forall h r, In (h, r) files <-> listed v refs h /\ exists data, found w c h r data) /\
      exists entries, manifest_of w c path entries /\ forall x, In x cs <-> due digest w c path v refs entries x
  | Err e => (e = EEnvironment /\ missing w c (basename path)) \/
      (e = EValueError /\ exists h s r data, listed_size v refs h (Some s) /\ found w c h r data /\ py_int s = None)
  end.
Proof.
  intros digest w c path v refs es Hes. unfold load_files. fold (as_dict es).
  assert (M : exists entries, manifest_of w c path entries /\
    match create digest w c (splitext_root (basename path) ++ L ".mf") None None with
    | Ok (r, _) => match content w r with Some text => Ok (parse_manifest text) | None => Err EEnvironment end
    | Err e => if is_environment_error e then Ok [] else Err e
    end = Ok entries).
  { destruct (create_spec digest w c (splitext_root (basename path) ++ L ".mf") None None) as [[Mi ->]|(r & data & F & ->)].
    - exists []. split; [right; now split|reflexivity].
    - exists (parse_manifest data). split; [left; now exists r, data|]. destruct F as [F _]. now rewrite F. }
  destruct M as (entries & ME & ->). cbn [rbind].
  destruct (create_spec digest w c (basename path) (option_map snd (dget str_eqb (basename path) entries)) None) as [[Mi ->]|(rd & dd & Fd & ->)];
    [left; now split|]. cbn [rbind].
  pose proof (load_each_spec digest w c entries (as_dict es)) as L. destruct (load_each digest w c entries (as_dict es)) as [[files cs]|e]; cbn [rbind fst snd].
  2:{ destruct L as (-> & h & s & r & data & I & F & P). right. split; [reflexivity|]. exists h, s, r, data. split; [|now split].
      apply (size_dict v refs es Hes). now apply as_dict_In. }
  destruct L as (L1 & L2 & L3). split; [|split; [|split]].
  - intros h s r data LS F. apply (size_dict v refs es Hes), as_dict_In in LS. exact (L3 h s r data LS F).
  - now exists rd, dd.
  - intros h r. rewrite L1, (listed_dict v refs es Hes). split.
    + intros (s & d & I & F). split; [apply in_map_iff; now exists (h, s)|now exists d].
    + intros (I & d & F). apply in_map_iff in I as ([h' s] & <- & I). exists s, d. now split.
  - exists entries. split; [exact ME|]. intros x. rewrite app_nil_r, !in_app_iff, L2, (checksum_due digest w c entries (basename path) rd dd x Fd).
    assert (C : In x (compare_file_lists path (map fst (as_dict es)) (map fst entries)) <->
      (exists n, x = NotInReferences n /\ In n (map fst entries) /\ n <> basename path /\ ~ listed v refs n) \/
      (exists n, x = NotInManifest n /\ entries <> [] /\ listed v refs n /\ ~ In n (map fst entries)) \/
      (x = NoDescriptorEntry /\ entries <> [] /\ ~ In (basename path) (map fst entries))).
    { clear - Hes. unfold compare_file_lists.
      destruct (map fst entries) as [|m0 ms] eqn:Em; [apply map_eq_nil in Em; cbn; split; [intros []|intros [(n & _ & [] & _)|[(n & _ & F & _)|(_ & F & _)]]; contradiction]|].
      rewrite <- Em. assert (Nn : entries <> []) by (intros Z; rewrite Z in Em; discriminate). clear Em m0 ms. rewrite !in_app_iff, !in_flat_map. split.
      - intros [(n & I & H)|[(n & I & H)|H]].
        + left. destruct (str_eqb n (basename path)) eqn:Eb; [destruct H|]. destruct (mem_str n (map fst (as_dict es))) eqn:Mm; [destruct H|].
          destruct H as [<-|[]]. exists n. split; [reflexivity|]. split; [exact I|]. split; [intros ->; rewrite (proj2 (str_eqb_eq _ _) eq_refl) in Eb; discriminate|].
          apply mem_str_false in Mm. now rewrite (listed_dict v refs es Hes).
        + right. left. destruct (mem_str n (map fst entries)) eqn:Mm; [destruct H|]. destruct H as [<-|[]]. exists n. apply mem_str_false in Mm.
          split; [reflexivity|]. split; [exact Nn|]. split; [now apply (listed_dict v refs es Hes)|exact Mm].
        + right. right. destruct (mem_str (basename path) (map fst entries)) eqn:Mm; [destruct H|]. destruct H as [<-|[]]. apply mem_str_false in Mm. auto.
      - intros [(n & -> & I & N & U)|[(n & -> & _ & I & U)|(-> & _ & U)]].
        + left. exists n. split; [exact I|]. destruct (str_eqb n (basename path)) eqn:Eb; [apply str_eqb_eq in Eb; contradiction|].
          rewrite (listed_dict v refs es Hes) in U. apply mem_str_false in U. rewrite U. now left.
        + right. left. exists n. split; [now apply (listed_dict v refs es Hes)|]. apply mem_str_false in U. rewrite U. now left.
        + right. right. apply mem_str_false in U. rewrite U. now left. }
    rewrite C. split.
    + intros [[(n & -> & I & N & U)|[(n & -> & N & I & U)|(-> & N & U)]]|[[-> (algo & sum & D & N)]|(h & s & I & H)]].
      * now constructor.
      * now constructor.
      * now constructor.
      * apply (due_checksum _ _ _ _ _ _ _ (basename path) rd dd algo sum); auto.
      * assert (Li : listed v refs h) by (apply (listed_dict v refs es Hes), in_map_iff; now exists (h, s)).
        destruct H as [[Mi ->]|(r & d & F & [[-> (algo & sum & D & N)]|[-> (s' & z & Es & P & N)]])].
        -- now constructor.
        -- apply (due_checksum _ _ _ _ _ _ _ h r d algo sum); auto.
        -- subst s. apply (due_size _ _ _ _ _ _ _ h r d s' z); auto. apply (size_dict v refs es Hes). now apply as_dict_In.
    + intros H. destruct H as [n I N U|n N I U|N U|n r d algo sum Li F D N|n r d s z LS F P N|n Li Mi].
      * left. left. now exists n.
      * left. right. left. now exists n.
      * left. right. right. auto.
      * right. destruct Li as [Li|Li].
        -- right. apply (listed_dict v refs es Hes), in_map_iff in Li as ([h s] & <- & I). exists h, s. split; [exact I|]. right. exists r, d. split; [exact F|]. left. split; [reflexivity|]. now exists algo, sum.
        -- left. subst n. destruct (found_fun _ _ _ _ _ _ _ F Fd) as [-> ->]. split; [reflexivity|]. now exists algo, sum.
      * right. right. exists n, (Some s). split; [apply as_dict_In; now apply (size_dict v refs es Hes)|]. right. exists r, d. split; [exact F|]. right. split; [reflexivity|]. now exists s, z.
      * right. right. apply (listed_dict v refs es Hes), in_map_iff in Li as ([h s] & <- & I). exists h, s. split; [exact I|]. left. now split.
Qed.
