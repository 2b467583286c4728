(** Proofs about archives that are written and opened again. *)
From Coq Require Import Lia.
From Verif Require Import PyBase PyBaseProofs PyDict PyDictProofs ManifestModel ManifestSpec ManifestProofs RawModel SelectModel PathModel PathSpec PathProofs
  ItemModel PsetProofs DriveModel LinkProofs SearchProofs TarModel TarSpec TarProofs.
Local Open Scope nat_scope.

(** ** Plain names *)
Lemma norm_all : forall l acc, (forall c, In c l -> proper c) -> fold_left (norm_step false) l acc = rev l ++ acc.
Proof.
  induction l as [|c l IH]; intros acc H; [reflexivity|]. cbn [fold_left].
  assert (norm_step false acc c = c :: acc) as ->.
  { destruct (H c (or_introl eq_refl)) as (N1 & N2 & N3 & _). unfold norm_step.
    destruct (str_eqb c []) eqn:E1; [apply str_eqb_eq in E1; contradiction|]. destruct (str_eqb c (L ".")) eqn:E2; [apply str_eqb_eq in E2; contradiction|].
    destruct (str_eqb c (L "..")) eqn:E3; [apply str_eqb_eq in E3; contradiction|]. reflexivity. }
  rewrite IH by (intros x Hx; apply H; now right). cbn [rev]. now rewrite <- app_assoc.
Qed.
Lemma plain_split : forall h l, plain_name h l -> split_on "/"%char h = l.
Proof.
  intros h l (N & P & ->). change (L "/") with ["/"%char]. apply split_on_join; [exact N|]. intros c Hc.
  apply no_slash_forallb, proper_slash, P, Hc.
Qed.
Lemma plain_first : forall h l, plain_name h l -> exists c t, h = c :: t /\ c <> "/"%char.
Proof.
  intros h l (N & P & ->). destruct l as [|c l]; [contradiction|]. destruct (P c (or_introl eq_refl)) as (Nc & _ & _ & S).
  destruct c as [|x c]; [contradiction|]. rewrite join_cons. exists x. eexists. split; [reflexivity|]. intros ->. apply S. now left.
Qed.
Lemma plain_relative : forall h l, plain_name h l -> starts_with (L "/") h = false.
Proof.
  intros h l P. destruct (plain_first h l P) as (c & t & -> & N). destruct (starts_with (L "/") (c :: t)) eqn:E; [|reflexivity].
  apply starts_slash in E as [u E]. injection E as -> _. contradiction.
Qed.
Lemma no_first_slashes : forall n, first_slashes n = [] <-> starts_with (L "/") n = false.
Proof.
  intros n. unfold first_slashes. destruct (starts_with (L "///") n) eqn:E3.
  - split; [discriminate|]. apply starts_spec in E3 as [t ->]. discriminate.
  - destruct (starts_with (L "//") n) eqn:E2; [split; [discriminate|]; apply starts_spec in E2 as [t ->]; discriminate|].
    destruct (starts_with (L "/") n); split; (reflexivity || discriminate).
Qed.
Lemma plain_unique : forall h l l', plain_name h l -> plain_name h l' -> l = l'.
Proof. intros h l l' H H'. now rewrite <- (plain_split h l H), <- (plain_split h l' H'). Qed.
Lemma plain_same : forall h h' l, plain_name h l -> plain_name h' l -> h = h'.
Proof. now intros h h' l (_ & _ & ->) (_ & _ & ->). Qed.
Lemma plain_normpath : forall h l, plain_name h l -> normpath h = h.
Proof.
  intros h l P. pose proof (plain_relative h l P) as R. unfold normpath. rewrite R. rewrite (proj2 (no_first_slashes h) R). cbn [app].
  unfold norm_parts. rewrite (plain_split h l P). destruct P as (N & P & E). rewrite norm_all by exact P. rewrite app_nil_r, rev_involutive, <- E.
  destruct (plain_first h l (conj N (conj P E))) as (c & t & -> & _). reflexivity.
Qed.
Lemma normal_follow : forall n h l W, plain_name h l -> normpath n = h -> starts_with (L "/") n = false /\ follow W n = W ++ l.
Proof.
  intros n h l W P E. pose proof (plain_relative h l P) as R. unfold normpath in E.
  assert (Rn : starts_with (L "/") n = false).
  { destruct (starts_with (L "/") n) eqn:En; [|reflexivity]. exfalso. destruct (first_slashes n) as [|c s] eqn:Ef; [apply no_first_slashes in Ef; congruence|].
    assert (c = "/"%char). { unfold first_slashes in Ef. rewrite En in Ef. destruct (starts_with (L "///") n); [now injection Ef as <- _|]. destruct (starts_with (L "//") n); now injection Ef as <- _. }
    subst c. cbn [app] in E. rewrite <- E in R. discriminate R. }
  split; [exact Rn|]. rewrite Rn in E. rewrite (proj2 (no_first_slashes n) Rn) in E. cbn [app] in E.
  assert (EL : norm_parts false n = l).
  { destruct (norm_parts false n) as [|x np] eqn:EN.
    - cbn [join] in E. exfalso. pose proof (plain_split h l P) as S. rewrite <- E in S. cbn in S. destruct P as (_ & P & _). rewrite <- S in P.
      destruct (P (L ".") (or_introl eq_refl)) as (_ & N & _). now apply N.
    - assert (EJ : join (L "/") (x :: np) = h).
      { destruct (join (L "/") (x :: np)) eqn:EJ; [|exact E]. exfalso.
        (* the names are not empty *)
        assert (x = []) by (rewrite join_cons in EJ; apply app_eq_nil in EJ as [-> _]; reflexivity). subst x.
        assert (NE : ~ In [] (norm_parts false n)).
        { unfold norm_parts. rewrite <- in_rev. assert (G : forall cs acc, ~ In [] acc -> ~ In [] (fold_left (norm_step false) cs acc)).
          { induction cs as [|c cs IH]; intros acc H; [exact H|]. cbn [fold_left]. apply IH. unfold norm_step. destruct (str_eqb c []) eqn:E1; cbn [orb]; [exact H|].
            destruct (str_eqb c (L ".")); cbn [orb]; [exact H|]. destruct (_ || _).
            - intros [F|F]; [subst c; discriminate|contradiction].
            - destruct acc; [exact H|]. intros F. apply H. now right. }
          apply G. intros []. }
        apply NE. rewrite EN. now left. }
      pose proof (plain_split h l P) as S. rewrite <- EJ in S. change (L "/") with ["/"%char] in S. rewrite split_on_join in S; [exact S|discriminate|].
      rewrite <- EN. intros c Hc. apply no_slash_forallb. unfold norm_parts in Hc. apply in_rev in Hc.
      assert (G : forall cs acc, (forall c, In c cs -> no_slashes c) -> (forall c, In c acc -> no_slashes c) -> forall c, In c (fold_left (norm_step false) cs acc) -> no_slashes c).
      { clear. induction cs as [|y cs IH]; intros acc H1 H2; [exact H2|]. cbn [fold_left]. apply IH; [intros c Hc; apply H1; now right|].
        intros c Hc. unfold norm_step in Hc. destruct (_ || _) in Hc; [now apply H2|]. destruct (_ || _) in Hc.
        - destruct Hc as [<-|Hc]; [apply H1; now left|now apply H2].
        - apply H2. destruct acc; [exact Hc|now right]. }
      exact (G _ [] (fun c Hc => split_no_slash n c Hc) (fun c (F : In c []) => match F with end) c Hc). }
  assert (NU : ~ In (L "..") l) by (intros F; destruct P as (_ & P & _); destruct (P _ F) as (_ & _ & N & _); now apply N).
  unfold follow. rewrite Rn.
  pose proof (relative_fold (split_on "/"%char n) [] W (fun F => F)) as RF. cbn [rev] in RF. rewrite app_nil_r in RF. rewrite RF.
  - unfold norm_parts in EL. now rewrite EL.
  - unfold norm_parts in EL. rewrite <- EL in NU. intros F. apply NU. now apply -> in_rev.
Qed.

(** ** Names of the descriptor and the manifest *)
Lemma path_of_snoc : forall (W : list str) (c : str), path_of (W ++ [c]) = path_of W ++ L "/" ++ c.
Proof. intros W c. unfold path_of. rewrite flat_map_app. f_equal. exact (app_nil_r _). Qed.
Lemma join_snoc : forall W c, W <> [] -> (forall x, In x W -> proper x) -> proper c -> path_join (path_of W) c = path_of (W ++ [c]).
Proof.
  intros W c N H P. unfold path_join. assert (starts_with (L "/") c = false) as ->.
  { destruct (starts_with (L "/") c) eqn:E; [|reflexivity]. apply starts_slash in E as [t ->]. destruct P as (_ & _ & _ & S). exfalso. apply S. now left. }
  rewrite (path_of_last W N H), path_of_snoc. destruct (path_of W) eqn:E; [destruct W; [contradiction|discriminate E]|reflexivity].
Qed.
Lemma basename_plain : forall c, ~ In "/"%char c -> basename c = c.
Proof. intros c H. unfold basename. now rewrite split_plain. Qed.
Lemma basename_dir : forall dir base, dir = [] \/ (exists d, dir = d ++ ["/"%char]) -> ~ In "/"%char base -> basename (dir ++ base) = base.
Proof.
  intros dir base [->|[d ->]] H; [now apply basename_plain|]. rewrite <- app_assoc. cbn [app]. now apply basename_ref.
Qed.
Lemma basename_path : forall (W : list str) (c : str), ~ In "/"%char c -> basename (path_of (W ++ [c])) = c.
Proof. intros W c H. rewrite path_of_snoc. apply (basename_ref (path_of W) c H). Qed.
Lemma firstn_root : forall (A : Type) (a b : list A), firstn (length (a ++ b) - length b) (a ++ b) = a.
Proof. intros A a b. rewrite app_length. replace (length a + length b - length b) with (length a) by lia. rewrite firstn_app, firstn_all. replace (length a - length a) with 0 by lia. cbn [firstn]. apply app_nil_r. Qed.
Lemma root_of : forall dir base e, dir = [] \/ (exists d, dir = d ++ ["/"%char]) -> ~ In "/"%char base -> ~ In "/"%char e -> ~ In "."%char e ->
  (exists c, In c base /\ c <> "."%char) -> splitext_root (dir ++ base ++ "."%char :: e) = dir ++ base.
Proof.
  intros dir base e H1 H2 H3 H4 H5. unfold splitext_root. rewrite (ext_of dir base e H1 H2 H3 H4 H5).
  rewrite (app_assoc dir base). apply firstn_root.
Qed.
Lemma stem_root : forall path B, stem_of path B -> basename (splitext_root path) = B.
Proof. intros path B (dir & e & -> & H1 & H2 & H3 & H4 & H5). rewrite root_of by assumption. now apply basename_dir. Qed.
Definition stem (B : str) : Prop := ~ In "/"%char B /\ exists c, In c B /\ c <> "."%char.
Lemma stem_proper : forall B e, stem B -> ~ In "/"%char e -> proper (B ++ e).
Proof.
  intros B e [H (c & Hc & N)] He. repeat split.
  - intros E. apply app_eq_nil in E as [-> _]. destruct Hc.
  - intros E. assert (In c (L ".")) by (rewrite <- E; apply in_app_iff; now left). destruct H0 as [F|[]]. now apply N.
  - intros E. assert (In c (L "..")) by (rewrite <- E; apply in_app_iff; now left). destruct H0 as [F|[F|[]]]; now apply N.
  - rewrite in_app_iff. tauto.
Qed.
Lemma no_slash_ovf : ~ In "/"%char (L ".ovf"). Proof. vm_compute. intuition discriminate. Qed.
Lemma no_slash_mf : ~ In "/"%char (L ".mf"). Proof. vm_compute. intuition discriminate. Qed.
Lemma root_path : forall W B, stem B -> splitext_root (path_of (W ++ [B ++ L ".ovf"])) = path_of (W ++ [B]).
Proof.
  intros W B [H1 H2]. rewrite !path_of_snoc. change (L ".ovf") with ("."%char :: L "ovf").
  assert (E : forall s : str, path_of W ++ L "/" ++ s = (path_of W ++ L "/") ++ s) by (intros s; now rewrite <- app_assoc). rewrite !E.
  apply root_of; try assumption; [right; now exists (path_of W)| |]; vm_compute; intuition discriminate.
Qed.
Lemma root_plain : forall B, stem B -> splitext_root (B ++ L ".ovf") = B.
Proof. intros B [H1 H2]. apply (root_of [] B (L "ovf")); try assumption; [now left| |]; vm_compute; intuition discriminate. Qed.

(** ** Writing *)
Lemma put_same : forall w p d, w_files (put w p d) (place p) = Some d.
Proof. intros w p d. cbn [put w_files]. now rewrite (proj2 (strs_eqb_eq _ _) eq_refl). Qed.
Lemma put_other : forall w p d q, q <> place p -> w_files (put w p d) q = w_files w q.
Proof. intros w p d q H. cbn [put w_files]. destruct (strs_eqb q (place p)) eqn:E; [apply strs_eqb_eq in E; contradiction|reflexivity]. Qed.

Section Ok.
  Variable digest : str -> str.
  Variables (W : list str) (data : str -> str).
  Hypothesis (WN : W <> []) (WP : forall c, In c W -> proper c).

  Record fine (w : world) (refs : list (str * ref)) : Prop := {
    f_nodup : NoDup (map fst refs);
    f_plain : forall h r, In (h, r) refs -> exists l, plain_name h l;
    f_data : forall h r, In (h, r) refs -> content w r = Some (data h);
    f_disk : forall h d n, In (h, OnDisk d n) refs -> n = h /\ forall h' t n' l, In (h', InTar t n') refs -> plain_name h' l -> place (path_join d n) <> W ++ l;
    f_tar : forall h t n, In (h, InTar t n) refs -> normpath n = h }.

  Lemma carry_over_spec : forall refs w, fine w refs ->
    exists w' refs', carry_over digest w (path_of W) refs = Ok (w', refs') /\ map fst refs' = map fst refs /\
      (forall p, (forall h t n l, In (h, InTar t n) refs -> plain_name h l -> p <> W ++ l) -> w_files w' p = w_files w p) /\
      forall h r, In (h, r) refs' -> exists d, r = OnDisk d h /\ content w' r = Some (data h).
  Proof.
    induction refs as [|[h r] refs IH]; intros w F.
    - exists w, []. split; [reflexivity|]. split; [reflexivity|]. split; [reflexivity|]. intros h r [].
    - assert (ND := f_nodup _ _ F). cbn [map fst] in ND. apply NoDup_cons_iff in ND as [Nh ND]. destruct r as [d n|t n].
      + destruct (IH w) as (w' & refs' & E & K & HP & HC).
        { constructor; [exact ND| | | |].
          - intros x r Hx. exact (f_plain _ _ F x r (or_intror Hx)).
          - intros x r Hx. exact (f_data _ _ F x r (or_intror Hx)).
          - intros x d' n' Hx. destruct (f_disk _ _ F x d' n' (or_intror Hx)) as [E H]. split; [exact E|]. intros h' t' m' l Hh. exact (H h' t' m' l (or_intror Hh)).
          - intros x t' n' Hx. exact (f_tar _ _ F x t' n' (or_intror Hx)). }
        cbn [carry_over]. rewrite E. cbn [rbind fst snd]. exists w', ((h, OnDisk d n) :: refs'). split; [reflexivity|]. split; [cbn [map fst]; now rewrite K|].
        destruct (f_disk _ _ F h d n (or_introl eq_refl)) as [En HD]. split.
        * intros p Hp. apply HP. intros h' t' n' l Hh. exact (Hp h' t' n' l (or_intror Hh)).
        * intros h' r [Ex|Hx]; [|exact (HC h' r Hx)]. injection Ex as <- <-. exists d. split; [now rewrite En|]. cbn [content]. unfold read. rewrite HP.
          -- exact (f_data _ _ F h _ (or_introl eq_refl)).
          -- intros h' t' n' l Hh. exact (HD h' t' n' l (or_intror Hh)).
      + destruct (f_plain _ _ F h _ (or_introl eq_refl)) as [l PL]. pose proof (f_data _ _ F h _ (or_introl eq_refl)) as Dh.
        pose proof (f_tar _ _ F h t n (or_introl eq_refl)) as Tn.
        assert (PP : place (path_join (path_of W) n) = W ++ l) by (rewrite join_place by assumption; exact (proj2 (normal_follow n h l W PL Tn))).
        assert (PH : place (path_join (path_of W) h) = W ++ l) by (rewrite join_place by assumption; exact (proj2 (normal_follow h h l W PL (plain_normpath h l PL)))).
        set (w1 := put w (path_join (path_of W) n) (data h)).
        assert (R1 : content w1 (OnDisk (path_of W) h) = Some (data h)).
        { cbn [content]. unfold read. rewrite PH, <- PP. apply put_same. }
        destruct (IH w1) as (w' & refs' & E & K & HP & HC).
        { constructor; [exact ND| | | |].
          - intros x r Hx. exact (f_plain _ _ F x r (or_intror Hx)).
          - intros x r Hx. rewrite <- (f_data _ _ F x r (or_intror Hx)). destruct r as [d' n'|t' n']; [|reflexivity].
            cbn [content]. unfold read, w1. apply put_other. rewrite PP. destruct (f_disk _ _ F x d' n' (or_intror Hx)) as [_ H]. exact (H h t n l (or_introl eq_refl) PL).
          - intros x d' n' Hx. destruct (f_disk _ _ F x d' n' (or_intror Hx)) as [E H]. split; [exact E|]. intros h' t' m' l' Hh. exact (H h' t' m' l' (or_intror Hh)).
          - intros x t' n' Hx. exact (f_tar _ _ F x t' n' (or_intror Hx)). }
        exists w', ((h, OnDisk (path_of W) h) :: refs').
        assert (EC : create digest w1 (Dir (path_of W)) h None None = Ok (OnDisk (path_of W) h, [])).
        { unfold create. rewrite (plain_normpath h l PL). cbn [rbind]. rewrite R1. reflexivity. }
        split.
        { cbn [carry_over]. rewrite Dh. fold w1. rewrite EC. cbn [rbind fst snd]. rewrite E. reflexivity. }
        split; [cbn [map fst]; now rewrite K|]. split.
        * intros p Hp. rewrite HP; [|intros h' t' n' l' Hh; exact (Hp h' t' n' l' (or_intror Hh))].
          unfold w1. apply put_other. rewrite PP. exact (Hp h t n l (or_introl eq_refl) PL).
        * intros h' r [Ex|Hx]; [|exact (HC h' r Hx)]. injection Ex as <- <-. exists (path_of W). split; [reflexivity|].
          cbn [content]. unfold read. rewrite HP; [exact R1|]. intros h' t' n' l' Hh PL' EW. rewrite PH in EW. apply app_inv_head in EW. subst l'.
          apply Nh. rewrite (plain_same h h' l PL PL'). apply in_map_iff. now exists (h', InTar t' n').
  Qed.

  Definition member_for (h : str) (m : member) : Prop := normpath (t_name m) = h /\ t_data m = data h.
  Lemma add_all_spec : forall w refs hrefs,
    (forall h, In h hrefs -> exists r m, dget str_eqb h refs = Some r /\ add_to_archive w r = Ok m /\ member_for h m) ->
    exists l, add_all w refs hrefs = Ok l /\ Forall2 member_for hrefs l.
  Proof.
    intros w refs. induction hrefs as [|h hrefs IH]; intros H; [exists []; now split|].
    destruct (H h (or_introl eq_refl)) as (r & m & E1 & E2 & M). destruct IH as (l & E & F); [intros x Hx; apply H; now right|].
    exists (m :: l). cbn [add_all]. rewrite E1, E2. cbn [rbind]. rewrite E. split; [reflexivity|now constructor].
  Qed.
  Lemma lstrip_plain : forall h l, plain_name h l -> lstrip_slashes h = h.
  Proof. intros h l P. destruct (plain_first h l P) as (c & t & -> & N). cbn [lstrip_slashes]. apply Ascii.eqb_neq in N. now rewrite N. Qed.
  Lemma getmember_name : forall a n m, getmember a n = Some m -> In m a /\ t_name m = n.
  Proof.
    intros a n m E. unfold getmember in E. apply find_some in E as [H E]. apply str_eqb_eq in E. split; [now apply in_rev|exact E].
  Qed.

  Lemma tar_spec : forall w input same B xml text hrefs refs, stem B -> fine w refs ->
    (forall h, In h hrefs <-> In h (map fst refs)) ->
    w_files w (W ++ [B ++ L ".ovf"]) = Some xml -> w_files w (W ++ [B ++ L ".mf"]) = Some text ->
    (forall h, In h hrefs -> h <> B ++ L ".ovf" /\ h <> B ++ L ".mf") ->
    exists a, tar digest w (path_of W) input same (path_of (W ++ [B ++ L ".ovf"])) hrefs refs = Ok a /\ packed (B ++ L ".ovf") (B ++ L ".mf") xml text hrefs data a.
  Proof.
    intros w input same B xml text hrefs refs SB F HA HX HT HN. pose proof (stem_proper B _ SB no_slash_ovf) as PD. pose proof (stem_proper B _ SB no_slash_mf) as PM.
    set (D := B ++ L ".ovf") in *. set (M := B ++ L ".mf") in *.
    assert (PLD : forall c, proper c -> plain_name c [c]) by (intros c Pc; split; [discriminate|]; split; [intros x [<-|[]]; exact Pc|reflexivity]).
    assert (G : exists w1 refs1, (do x <- (if same then carry_over digest w (path_of W) refs else Ok (w, refs));
        let w1 := if same then mkWorld (w_files (fst x)) (fun t => if str_eqb t input then None else w_tars (fst x) t) else fst x in Ok (w1, snd x)) = Ok (w1, refs1) /\
        w_files w1 (W ++ [D]) = Some xml /\ w_files w1 (W ++ [M]) = Some text /\
        (forall h, In h hrefs -> exists r m, dget str_eqb h refs1 = Some r /\ add_to_archive w1 r = Ok m /\ member_for h m)).
    { destruct same.
      - destruct (carry_over_spec refs w F) as (w' & refs' & E & K & HP & HC). rewrite E. cbn [rbind fst snd]. eexists. exists refs'. split; [reflexivity|]. cbn [w_files].
        assert (HPn : forall c, proper c -> (forall h, In h hrefs -> h <> c) -> w_files w' (W ++ [c]) = w_files w (W ++ [c])).
        { intros c Pc Hc. apply HP. intros h t n l Hh PL EW. apply app_inv_head in EW. subst l.
          apply (Hc h); [apply HA; apply in_map_iff; now exists (h, InTar t n)|exact (plain_same h c [c] PL (PLD c Pc))]. }
        split; [rewrite HPn; [exact HX|exact PD|intros h Hh; exact (proj1 (HN h Hh))]|].
        split; [rewrite HPn; [exact HT|exact PM|intros h Hh; exact (proj2 (HN h Hh))]|].
        intros h Hh. apply HA in Hh. assert (Hh' := Hh). rewrite <- K in Hh. destruct (dget str_eqb h refs') as [r|] eqn:Er.
        + pose proof (dget_In str_eqb str_eqb_eq _ _ _ Er) as Hr. destruct (HC h r Hr) as (d & -> & Cr). exists (OnDisk d h), (mkMember (lstrip_slashes h) None (data h)).
          split; [reflexivity|]. split; [cbn [add_to_archive content] in *; unfold read in *; cbn [w_files]; now rewrite Cr|].
          apply in_map_iff in Hh' as ([x rx] & Ex & Hx). cbn [fst] in Ex. subst x. destruct (f_plain _ _ F h rx Hx) as [l PL].
          split; cbn [t_name t_data]; [|reflexivity]. now rewrite (lstrip_plain h l PL), (plain_normpath h l PL).
        + apply (dget_None str_eqb str_eqb_eq) in Er. contradiction.
      - cbn [rbind fst snd]. exists w, refs. split; [reflexivity|]. split; [exact HX|]. split; [exact HT|].
        intros h Hh. apply HA in Hh. destruct (dget str_eqb h refs) as [r|] eqn:Er; [|apply (dget_None str_eqb str_eqb_eq) in Er; contradiction].
        pose proof (dget_In str_eqb str_eqb_eq _ _ _ Er) as Hr. destruct (f_plain _ _ F h r Hr) as [l PL]. pose proof (f_data _ _ F h r Hr) as Dh.
        destruct r as [d n|t n].
        + destruct (f_disk _ _ F h d n Hr) as [-> _]. exists (OnDisk d h), (mkMember (lstrip_slashes h) None (data h)). split; [reflexivity|].
          split; [unfold add_to_archive; now rewrite Dh|]. split; cbn [t_name t_data]; [|reflexivity]. now rewrite (lstrip_plain h l PL), (plain_normpath h l PL).
        + cbn [content] in Dh. exists (InTar t n). cbn [add_to_archive]. destruct (w_tars w t) as [a|]; [|discriminate]. destruct (getmember a n) as [m|] eqn:Em; [|discriminate].
          exists m. split; [reflexivity|]. split; [reflexivity|]. destruct (getmember_name a n m Em) as [_ En]. split; [rewrite En; exact (f_tar _ _ F h t n Hr)|now injection Dh]. }
    destruct G as (w1 & refs1 & E & H1 & H2 & H3). unfold tar.
    assert (E' : exists x, (if same then carry_over digest w (path_of W) refs else Ok (w, refs)) = Ok x /\
       (if same then mkWorld (w_files (fst x)) (fun t => if str_eqb t input then None else w_tars (fst x) t) else fst x) = w1 /\ snd x = refs1).
    { destruct (if same then carry_over digest w (path_of W) refs else Ok (w, refs)) as [x|e]; [|discriminate]. exists x. split; [reflexivity|]. cbn [rbind] in E. injection E as <- <-. now split. }
    destruct E' as (x & -> & EW & ER). cbn [rbind]. rewrite EW, ER. unfold read.
    assert (WDp : forall c, proper c -> place (path_of (W ++ [c])) = W ++ [c]).
    { intros c Pc. apply place_path_of. intros y Hy. apply in_app_iff in Hy as [Hy|[<-|[]]]; [now apply WP|exact Pc]. }
    pose proof (root_path W B SB : splitext_root (path_of (W ++ [D])) = _) as RP. change (list ascii) with str in *.
    rewrite (WDp D PD), H1, RP.
    assert (path_of (W ++ [B]) ++ L ".mf" = path_of (W ++ [M])) as -> by (rewrite !path_of_snoc; unfold M; now rewrite <- !app_assoc).
    rewrite (WDp M PM), H2. destruct (add_all_spec w1 refs1 hrefs H3) as (l & -> & FL). cbn [rbind].
    rewrite !basename_path by (apply PD || apply PM). eexists. split; [reflexivity|]. exists l. now split.
  Qed.
End Ok.
