(** Proofs about checksums and file references. *)
From Coq Require Import Lia.
From Verif Require Import PyBase PyBaseProofs FileRefModel FileRefSpec.

(** ** file_checksum *)

Lemma hash_loop_spec : forall H, streaming H -> forall blocksize, blocksize <> O -> forall reads fuel k content h,
  (length content < fuel)%nat ->
  hash_loop H fuel blocksize reads k content h = Ok (hdigest H (hupdate H h content)).
Proof.
  intros H [S0 S1] bs Hb reads. induction fuel as [|fuel IH]; intros k content h Hl; [lia|]. cbn [hash_loop].
  set (n := Nat.min bs (Nat.max 1 (reads k))). assert (1 <= n)%nat by (unfold n; lia). clearbody n.
  destruct n as [|n]; [lia|]. destruct content as [|c content]; [cbn; now rewrite S0|].
  change (firstn (S n) (c :: content)) with (c :: firstn n content). cbv iota.
  change (skipn (S n) (c :: content)) with (skipn n content). rewrite IH.
  - rewrite <- S1. cbn [app]. now rewrite firstn_skipn.
  - rewrite skipn_length. cbn [length] in Hl. lia.
Qed.

Theorem file_checksum_spec : forall algorithm type reads content H,
  algorithm type = Some H -> streaming H ->
  file_checksum algorithm type reads content = Ok (digest_of H content).
Proof.
  intros algorithm type reads content H E S. unfold file_checksum. rewrite E.
  apply hash_loop_spec; [exact S|lia|lia].
Qed.

Theorem file_checksum_unsupported : forall md5 sha1 sha256 type reads content,
  ~ In type [L "md5"; L "sha1"; L "sha256"] ->
  file_checksum (algorithms md5 sha1 sha256) type reads content = Err ENotImplemented.
Proof.
  intros md5 sha1 sha256 type reads content H. unfold file_checksum, algorithms.
  cbn [In] in H.
  destruct (str_eqb type (L "md5")) eqn:E1; [apply str_eqb_eq in E1; symmetry in E1; tauto|].
  destruct (str_eqb type (L "sha1")) eqn:E2; [apply str_eqb_eq in E2; symmetry in E2; tauto|].
  destruct (str_eqb type (L "sha256")) eqn:E3; [apply str_eqb_eq in E3; symmetry in E3; tauto|]. reflexivity.
Qed.

(** ** Histories *)

Lemma first_seen_snoc : forall looks h e c, first_seen looks (h ++ [e]) c <->
  first_seen looks h c \/ (never_seen looks h /\ exists o, e = (Some c, o) /\ looks o).
Proof.
  intros looks h e c. split.
  - intros (a & o & b & E & Hl & Ha). destruct (@exists_last _ ((Some c, o) :: b)) as (b' & x & Eb); [discriminate|].
    rewrite Eb, app_assoc in E. apply app_inj_tail in E as [E <-].
    destruct b' as [|y b'].
    + destruct b as [|? b]; [|destruct b; discriminate]. injection Eb as <-. rewrite app_nil_r in E. subst h. right. split; [exact Ha|eauto].
    + injection Eb as <- Eb. left. exists a, o, b'. auto.
  - intros [(a & o & b & -> & Hl & Ha)|(N & o & -> & Hl)].
    + exists a, o, (b ++ [e]). split; [now rewrite <- app_assoc|]. auto.
    + exists h, o, []. auto.
Qed.
Lemma never_seen_snoc : forall looks h e, never_seen looks (h ++ [e]) <->
  never_seen looks h /\ forall c o, e = (Some c, o) -> ~ looks o.
Proof.
  intros looks h e. unfold never_seen. split.
  - intros H. split; [intros c o Hi; apply (H c o), in_or_app; now left|]. intros c o ->. apply (H c o), in_or_app. right. now left.
  - intros [H1 H2] c o Hi. apply in_app_iff in Hi as [Hi|[E|[]]]; [now apply (H1 c o)|now apply (H2 c o)].
Qed.
Lemma seen_not_never : forall looks h c, first_seen looks h c -> never_seen looks h -> False.
Proof.
  intros looks h c (a & o & b & -> & Hl & _) N. apply (N c o); [|exact Hl]. apply in_elt.
Qed.
Lemma first_seen_unique : forall looks h c c', first_seen looks h c -> first_seen looks h c' -> c = c'.
Proof.
  intros looks h. induction h as [|e h IH] using rev_ind; intros c c' H H'.
  - destruct H as (a & o & b & E & _). destruct a; discriminate.
  - apply first_seen_snoc in H as [H|(N & o & -> & _)]; apply first_seen_snoc in H' as [H'|(N' & o' & E & _)]; eauto using seen_not_never.
    + exfalso. eauto using seen_not_never.
    + exfalso. eauto using seen_not_never.
    + now injection E.
Qed.
Lemma refreshed_snoc : forall alg h e, refreshed alg (h ++ [e]) <->
  refreshed alg h \/ (snd e = ORefresh /\ (fst e <> None \/
    (exists c, first_seen looks_at_size h c) /\ (alg = true -> exists c, first_seen looks_at_checksum h c))).
Proof.
  intros alg h e. split.
  - intros (a & now & b & E & H). destruct (@exists_last _ ((now, ORefresh) :: b)) as (b' & x & Eb); [discriminate|].
    rewrite Eb, app_assoc in E. apply app_inj_tail in E as [E <-].
    destruct b' as [|y b'].
    + destruct b as [|? b]; [|destruct b; discriminate]. injection Eb as <-. rewrite app_nil_r in E. subst h. right. split; [reflexivity|exact H].
    + injection Eb as <- Eb. left. exists a, now, b'. auto.
  - intros [(a & now & b & -> & H)|(E & H)].
    + exists a, now, (b ++ [e]). split; [now rewrite <- app_assoc|exact H].
    + destruct e as [now o]. cbn [fst snd] in *. subst o. exists h, now, []. auto.
Qed.

Section References.
Variable digest : str -> str.

Notation do_op := (do_op digest).
Notation after := (after digest).
Definition start (alg : bool) : fref := mkfref alg None None false.

Definition known (looks : fop -> Prop) {A : Type} (value : str -> A) (h : history) (cached : option A) : Prop :=
  match cached with
  | Some x => exists c, first_seen looks h c /\ x = value c
  | None => never_seen looks h
  end.

Definition len (c : str) : Z := Z.of_nat (length c).

Definition Inv (alg : bool) (h : history) (f : fref) : Prop :=
  f_algorithm f = alg /\
  ((refreshed alg h /\ f_force f = true) \/
   (~ refreshed alg h /\ f_force f = false /\ known looks_at_size len h (f_size f) /\
    (alg = true -> known looks_at_checksum digest h (f_checksum f)))).

Lemma known_more : forall A looks (value : str -> A) h e x, known looks value h (Some x) -> known looks value (h ++ [e]) (Some x).
Proof. intros A looks value h e x (c & H & E). exists c. split; [|exact E]. apply first_seen_snoc. now left. Qed.
Lemma known_other : forall A looks (value : str -> A) h e o, known looks value h o ->
  (forall c op, e = (Some c, op) -> ~ looks op) -> known looks value (h ++ [e]) o.
Proof.
  intros A looks value h e [x|] H N; [now apply known_more|]. apply never_seen_snoc. split; [exact H|exact N].
Qed.
Lemma known_now : forall A looks (value : str -> A) h c op, known looks value h None -> looks op ->
  known looks value (h ++ [(Some c, op)]) (Some (value c)).
Proof. intros A looks value h c op H Hl. exists c. split; [|reflexivity]. apply first_seen_snoc. right. split; [exact H|eauto]. Qed.

Lemma size_not_sum : ~ looks_at_checksum OSize.
Proof. intros [F|F]; discriminate. Qed.
Lemma sum_not_size : ~ looks_at_size OChecksum.
Proof. intros [F|F]; discriminate. Qed.

Lemma step_inv : forall alg h f now o, Inv alg h f -> Inv alg (h ++ [(now, o)]) (snd (do_op now o f)).
Proof.
  intros alg h f now o (Ha & H).
  destruct H as [(R & Hf)|(R & Hf & Hs & Hd)].
  - assert (refreshed alg (h ++ [(now, o)])) as R' by (apply refreshed_snoc; now left).
    assert (forall g, f_algorithm g = alg -> f_force g = true -> Inv alg (h ++ [(now, o)]) g) as Done by (intros g E1 E2; split; [exact E1|now left]).
    destruct f as [a d s b]. cbn [f_algorithm f_force f_size f_checksum] in *. subst b a.
    destruct o, now as [c|], s, d, alg; apply Done; reflexivity.
  - assert (o <> ORefresh -> ~ refreshed alg (h ++ [(now, o)])) as Stay.
    { intros No F. apply refreshed_snoc in F as [F|[F _]]; [now apply R|]. cbn in F. contradiction. }
    destruct f as [a d s b]. cbn [f_algorithm f_force f_size f_checksum] in *. subst b a. destruct o.
    + unfold FileRefModel.do_op, get_size; cbn [f_size f_force f_algorithm f_checksum].
      assert (alg = true -> known looks_at_checksum digest (h ++ [(now, OSize)]) d) as Hd'.
      { intros Ha. apply known_other; [now apply Hd|]. intros c op E. injection E as -> <-. exact size_not_sum. }
      destruct s as [z|].
      * cbn [snd]. split; [reflexivity|right]. split; [now apply Stay|]. split; [reflexivity|]. split; [now apply known_more|exact Hd'].
      * destruct now as [c|]; cbn [snd]; (split; [reflexivity|right]); (split; [now apply Stay|]); (split; [reflexivity|]); (split; [|exact Hd']).
        -- apply known_now; [exact Hs|now left].
        -- apply known_other; [exact Hs|]. discriminate.
    + unfold FileRefModel.do_op, get_checksum; cbn [f_size f_force f_algorithm f_checksum].
      assert (known looks_at_size len (h ++ [(now, OChecksum)]) s) as Hs'.
      { apply known_other; [exact Hs|]. intros c op E. injection E as -> <-. exact sum_not_size. }
      destruct alg; cbn [negb].
      * destruct d as [z|].
        -- cbn [snd]. split; [reflexivity|right]. split; [now apply Stay|]. split; [reflexivity|]. split; [exact Hs'|]. intros Ha. apply known_more. now apply Hd.
        -- destruct now as [c|]; cbn [snd]; (split; [reflexivity|right]); (split; [now apply Stay|]); (split; [reflexivity|]); (split; [exact Hs'|]); intros Ha.
           ++ apply known_now; [now apply Hd|now left].
           ++ apply known_other; [now apply Hd|]. discriminate.
      * cbn [snd]. split; [reflexivity|right]. split; [now apply Stay|]. split; [reflexivity|]. split; [exact Hs'|discriminate].
    + (* refresh *)
      assert (forall g, f_algorithm g = alg -> f_force g = true ->
        (now <> None \/ (exists c, first_seen looks_at_size h c) /\ (alg = true -> exists c, first_seen looks_at_checksum h c)) ->
        Inv alg (h ++ [(now, ORefresh)]) g) as Done.
      { intros g E1 E2 C. split; [exact E1|left]. split; [|exact E2]. apply refreshed_snoc. right. split; [reflexivity|exact C]. }
      destruct now as [c|].
      { assert (Some c <> None \/ (exists c, first_seen looks_at_size h c) /\ (alg = true -> exists c, first_seen looks_at_checksum h c)) as C by (left; discriminate).
        destruct s, d, alg; apply Done; auto. }
      unfold FileRefModel.do_op, refresh, get_size, get_checksum; cbn [f_size f_force f_algorithm f_checksum].
      assert (forall looks A (value : str -> A) x, known looks value h (Some x) -> exists c, first_seen looks h c) as Seen.
      { intros looks A value x (c & F & _). eauto. }
      assert (forall A looks (value : str -> A) x, known looks value h x -> known looks value (h ++ [(None, ORefresh)]) x) as Keep.
      { intros A looks value x K. apply known_other; [exact K|]. discriminate. }
      assert (forall looks, never_seen looks h -> ~ exists c, first_seen looks h c) as NN.
      { intros looks N (c & F). eauto using seen_not_never. }
      destruct s as [z|]; [destruct alg; cbn [negb]; [destruct d as [z'|]|]|]; cbn [fst snd f_algorithm f_checksum f_size f_force].
      * apply Done; auto. right. split; [eapply Seen; exact Hs|]. intros _. eapply Seen. exact (Hd eq_refl).
      * split; [reflexivity|right]. cbn [f_algorithm f_checksum f_size f_force]. split; [|split; [reflexivity|split; [now apply Keep|intros Ha; apply Keep; now apply Hd]]].
        intros F. apply refreshed_snoc in F as [F|[_ [F|[_ F]]]]; [now apply R|now apply F|].
        cbn in F. apply (NN looks_at_checksum (Hd eq_refl)). now apply F.
      * apply Done; auto. right. split; [eapply Seen; exact Hs|]. discriminate.
      * split; [reflexivity|right]. cbn [f_algorithm f_checksum f_size f_force]. split; [|split; [reflexivity|split; [now apply Keep|intros Ha; apply Keep; now apply Hd]]].
        intros F. apply refreshed_snoc in F as [F|[_ [F|[F _]]]]; [now apply R|now apply F|].
        exact (NN looks_at_size Hs F).
Qed.

Lemma after_inv : forall alg h, Inv alg h (after (start alg) h).
Proof.
  intros alg h. induction h as [|e h IH] using rev_ind.
  - split; [reflexivity|right]. split; [intros (a & now & b & E & _); destruct a; discriminate|].
    split; [reflexivity|]. split; [intros c o []|intros _ c o []].
  - unfold FileRefModel.after. rewrite fold_left_app. cbn [fold_left]. destruct e as [now o]. cbn [fst snd]. now apply step_inv.
Qed.

Lemma known_seen : forall looks A (value : str -> A) h o c, known looks value h o -> first_seen looks h c -> o = Some (value c).
Proof.
  intros looks A value h [x|] c K F.
  - destruct K as (c' & F' & ->). now rewrite (first_seen_unique _ _ _ _ F F').
  - exfalso. eauto using seen_not_never.
Qed.
Lemma known_never : forall looks A (value : str -> A) h o, known looks value h o -> never_seen looks h -> o = None.
Proof.
  intros looks A value h [x|] K N; [|reflexivity]. destruct K as (c & F & _). exfalso. eauto using seen_not_never.
Qed.

Theorem size_answer : forall alg h now,
  let answer := fst (do_op now OSize (after (start alg) h)) in
  (refreshed alg h -> answer = size_now now) /\
  (~ refreshed alg h -> never_seen looks_at_size h -> answer = size_now now) /\
  (forall c, ~ refreshed alg h -> first_seen looks_at_size h c -> answer = ASize (len c)).
Proof.
  intros alg h now answer. destruct (after_inv alg h) as (Ha & I). unfold answer, FileRefModel.do_op, get_size.
  destruct (after (start alg) h) as [a d s b]. cbn [f_size f_force f_algorithm f_checksum] in *. subst a.
  destruct I as [(R & ->)|(R & -> & Hs & _)]; (split; [|split]); try (intros; contradiction).
  - intros _. destruct s, now; reflexivity.
  - intros _ N. rewrite (known_never _ _ _ _ _ Hs N). destruct now; reflexivity.
  - intros c _ F. now rewrite (known_seen _ _ _ _ _ c Hs F).
Qed.

Theorem checksum_answer : forall alg, alg = true -> forall h now,
  let answer := fst (do_op now OChecksum (after (start alg) h)) in
  (refreshed alg h -> answer = checksum_now digest now) /\
  (~ refreshed alg h -> never_seen looks_at_checksum h -> answer = checksum_now digest now) /\
  (forall c, ~ refreshed alg h -> first_seen looks_at_checksum h c -> answer = AChecksum (Some (digest c))).
Proof.
  intros alg -> h now answer. destruct (after_inv true h) as (Ha & I). unfold answer, FileRefModel.do_op, get_checksum.
  destruct (after (start true) h) as [a d s b]. cbn [f_size f_force f_algorithm f_checksum] in *. subst a. cbn [negb].
  destruct I as [(R & ->)|(R & -> & _ & Hd)]; (split; [|split]); try (intros; contradiction).
  - intros _. destruct d, now; reflexivity.
  - intros _ N. rewrite (known_never _ _ _ _ _ (Hd eq_refl) N). destruct now; reflexivity.
  - intros c _ F. now rewrite (known_seen _ _ _ _ _ c (Hd eq_refl) F).
Qed.

Theorem refresh_first : forall alg h c cs cd, ~ refreshed alg h ->
  baseline looks_at_size h c cs -> baseline looks_at_checksum h c cd ->
  exists b, fst (do_op (Some c) ORefresh (after (start alg) h)) = ARefresh b /\
    (b = true <-> length c = length cs /\ (alg = true -> digest c = digest cd)).
Proof.
  intros alg h c cs cd R Bs Bd. destruct (after_inv alg h) as (Ha & [(R' & _)|(_ & Hf & Hs & Hd)]); [contradiction|].
  unfold FileRefModel.do_op, refresh, get_size, get_checksum.
  destruct (after (start alg) h) as [a d s b]. cbn [f_size f_force f_algorithm f_checksum] in *. subst a b.
  assert (s = Some (len cs) \/ s = None /\ cs = c) as Es.
  { destruct Bs as [F|[N ->]]; [left; now apply (known_seen _ _ _ _ _ cs Hs F)|right; split; [now apply (known_never _ _ _ _ _ Hs N)|reflexivity]]. }
  assert (alg = true -> d = Some (digest cd) \/ d = None /\ cd = c) as Ed.
  { intros Ha. specialize (Hd Ha). destruct Bd as [F|[N ->]]; [left; now apply (known_seen _ _ _ _ _ cd Hd F)|right; split; [now apply (known_never _ _ _ _ _ Hd N)|reflexivity]]. }
  clear Bs Bd Hs Hd R h.
  assert (forall x y : str, (len x =? len y)%Z = true <-> length x = length y) as Leq by (intros x y; unfold len; rewrite Z.eqb_eq; lia).
  assert (forall x y, negb (negb (str_eqb x y)) = true <-> x = y) as Seq by (intros x y; rewrite negb_involutive; apply str_eqb_eq).
  destruct alg; cbn [negb].
  - specialize (Ed eq_refl). destruct Es as [-> |[-> ->]], Ed as [-> |[-> ->]]; cbn [f_size f_force f_algorithm f_checksum negb fst]; eexists; (split; [reflexivity|]);
      rewrite andb_true_iff; fold (len c); rewrite Leq, Seq; intuition.
  - destruct Es as [-> |[-> ->]]; cbn [f_size f_force f_algorithm f_checksum negb fst]; eexists; (split; [reflexivity|]);
      rewrite andb_true_iff; fold (len c); rewrite Leq; intuition discriminate.
Qed.

Theorem refresh_missing : forall alg h, ~ refreshed alg h ->
  let answer := fst (do_op None ORefresh (after (start alg) h)) in
  ((exists c, first_seen looks_at_size h c) -> (alg = true -> exists c, first_seen looks_at_checksum h c) -> answer = ARefresh false) /\
  (never_seen looks_at_size h \/ (alg = true /\ never_seen looks_at_checksum h) -> answer = AError EEnvironment).
Proof.
  intros alg h R answer. destruct (after_inv alg h) as (Ha & [(R' & _)|(_ & Hf & Hs & Hd)]); [contradiction|].
  unfold answer, FileRefModel.do_op, refresh, get_size, get_checksum.
  destruct (after (start alg) h) as [a d s b]. cbn [f_size f_force f_algorithm f_checksum] in *. subst a b. split.
  - intros (c & F) G. rewrite (known_seen _ _ _ _ _ c Hs F). destruct alg; cbn [negb].
    + destruct (G eq_refl) as (c' & F'). rewrite (known_seen _ _ _ _ _ c' (Hd eq_refl) F'). reflexivity.
    + reflexivity.
  - intros [N|[Ha N]].
    + now rewrite (known_never _ _ _ _ _ Hs N).
    + specialize (Hd Ha). rewrite (known_never _ _ _ _ _ Hd N). rewrite Ha. destruct s; reflexivity.
Qed.

Theorem refresh_again : forall alg h now, refreshed alg h ->
  fst (do_op now ORefresh (after (start alg) h)) =
  match now with Some _ => ARefresh true | None => AError EEnvironment end.
Proof.
  intros alg h now R. destruct (after_inv alg h) as (Ha & [(_ & Hf)|(R' & _)]); [|contradiction].
  unfold FileRefModel.do_op, refresh, get_size, get_checksum.
  destruct (after (start alg) h) as [a d s b]. cbn [f_size f_force f_algorithm f_checksum] in *. subst a b.
  destruct now as [c|]; [|destruct s; reflexivity].
  destruct alg, s, d; cbn [f_size f_force f_algorithm f_checksum negb fst]; rewrite Z.eqb_refl; rewrite ?str_eqb_refl; reflexivity.
Qed.
End References.
