(** The kind of a package by its name. *)
From Coq Require Import List Ascii Bool Lia.
Import ListNotations.
From Verif Require Import PyBase PyBaseProofs SelectModel RawModel PathModel TarModel TarProofs ArchiveProofs DeployProofs OpenSpec.
Local Open Scope nat_scope.

Lemma ext_spec : forall path e, ~ In "/"%char e -> ~ In "."%char e ->
  (splitext_ext (basename path) = "."%char :: e <-> has_extension e path).
Proof.
  intros path e He Hd. split.
  - intros H. destruct (split_slash_last path) as (dir & Ep & Dir & Nb). set (b := basename path) in *.
    unfold splitext_ext in H. change (list ascii) with str in *. rewrite (split_last_none _ _ Nb) in H.
    pose proof (split_last_spec "."%char b) as S. destruct (split_last "."%char b) as [[stem x]|]; [|discriminate].
    destruct (forallb _ stem) eqn:F; [discriminate|]. injection H as ->. destruct S as [Eb _].
    exists dir, stem. split; [rewrite Ep; f_equal; exact Eb|]. split; [exact Dir|].
    split; [intros Hi; apply Nb; rewrite Eb; apply in_or_app; now left|].
    destruct (existsb (fun c => negb (Ascii.eqb c "."%char)) stem) eqn:X.
    + apply existsb_exists in X as (c & Hc & Nc). exists c. split; [exact Hc|]. intros ->. discriminate.
    + exfalso. assert (T : forallb (fun c => Ascii.eqb c "."%char) stem = true); [|congruence]. apply forallb_forall. intros c Hc.
      destruct (Ascii.eqb c "."%char) eqn:Ec; [reflexivity|]. assert (existsb (fun c => negb (Ascii.eqb c "."%char)) stem = true); [|congruence].
      apply existsb_exists. exists c. split; [exact Hc|now rewrite Ec].
  - intros (dir & base & -> & Dir & Nb & Hc).
    rewrite (basename_dir dir (base ++ "."%char :: e) Dir).
    + exact (ext_of [] base e (or_introl eq_refl) Nb He Hd Hc).
    + rewrite in_app_iff. intros [F|[F|F]]; [contradiction|discriminate|contradiction].
Qed.

(** the mentions in a string *)
Definition ment (e s pre : str) : Prop := exists c post, s = pre ++ "."%char :: e ++ c :: post /\ ~ alphanumeric c.
Definition kinds2 : list str := [L "ovf"; L "ova"].
Lemma alnum_spec : forall x, negb (in_range 97 122 x || in_range 65 90 x || is_digit x) = true <-> ~ alphanumeric x.
Proof.
  intros x. rewrite negb_true_iff. unfold alphanumeric. destruct (in_range 97 122 x), (in_range 65 90 x), (is_digit x); cbn; split; intros; try discriminate; try tauto; try reflexivity; intuition discriminate.
Qed.
Lemma here_spec : forall e s, length e = 3 ->
  (starts_with ("."%char :: e) s && match skipn 4 s with x :: _ => negb (in_range 97 122 x || in_range 65 90 x || is_digit x) | [] => false end = true
   <-> ment e s []).
Proof.
  intros e s He. rewrite andb_true_iff, starts_with_spec. destruct e as [|x [|y [|z [|]]]]; try discriminate. split.
  - intros [(t & ->) H]. cbn [app skipn] in H. destruct t as [|c post]; [discriminate|]. exists c, post. split; [reflexivity|]. now apply alnum_spec.
  - intros (c & post & -> & N). split; [exists (c :: post); reflexivity|]. cbn [app skipn]. now apply alnum_spec.
Qed.
Lemma ment_cons : forall e a s pre, ment e (a :: s) (a :: pre) <-> ment e s pre.
Proof.
  intros. split; intros (c & post & H & N); exists c, post; (split; [|exact N]).
  - cbn [app] in H. now injection H.
  - cbn [app]. now rewrite H.
Qed.
Lemma ment_inv : forall e a s pre, ment e (a :: s) pre -> pre = [] \/ exists pre', pre = a :: pre' /\ ment e s pre'.
Proof.
  intros e a s [|b pre] H; [now left|]. right. destruct H as (c & post & H & N). cbn [app] in H. injection H as -> ->. exists pre. split; [reflexivity|]. now exists c, post.
Qed.
Lemma mid_spec : forall s,
  match mid_extension s with
  | Some x => exists e pre, x = "."%char :: e /\ In e kinds2 /\ ment e s pre /\ forall e' pre', In e' kinds2 -> ment e' s pre' -> length pre <= length pre'
  | None => forall e pre, In e kinds2 -> ~ ment e s pre
  end.
Proof.
  induction s as [|a s IH].
  - cbn [mid_extension]. intros e pre _ (c & post & H & _). destruct pre; discriminate.
  - cbn [mid_extension].
    assert (K2 : forall e, In e kinds2 -> length e = 3) by (intros e [<-|[<-|[]]]; reflexivity).
    change (L ".ovf") with ("."%char :: L "ovf"). change (L ".ova") with ("."%char :: L "ova").
    destruct (starts_with ("."%char :: L "ovf") (a :: s) && _) eqn:H1.
    + apply here_spec in H1; [|reflexivity]. exists (L "ovf"), []. split; [reflexivity|]. split; [now left|]. split; [exact H1|]. cbn [length]. intros. lia.
    + destruct (starts_with ("."%char :: L "ova") (a :: s) && _) eqn:H2.
      * apply here_spec in H2; [|reflexivity]. exists (L "ova"), []. split; [reflexivity|]. split; [right; now left|]. split; [exact H2|]. cbn [length]. intros. lia.
      * assert (N : forall e, In e kinds2 -> ~ ment e (a :: s) []).
        { intros e [<-|[<-|[]]] F; apply here_spec in F; try reflexivity; congruence. }
        destruct (mid_extension s) as [x|].
        -- destruct IH as (e & pre & -> & He & M & Min). exists e, (a :: pre). split; [reflexivity|]. split; [exact He|]. split; [now apply ment_cons|].
           intros e' pre' He' M'. pose proof M' as M2. apply ment_inv in M' as [->|(p & -> & M')]; [|apply Min in M'; [cbn [length]; lia|exact He']].
           exfalso. exact (N e' He' M2).
        -- intros e pre He M'. pose proof M' as M2. apply ment_inv in M2 as [->|(p & -> & M2)]; [exact (N e He M')|exact (IH e p He M2)].
Qed.

Lemma kinds_plain : forall e, In e [L "ovf"; L "ova"; L "box"] -> ~ In "/"%char e /\ ~ In "."%char e.
Proof. intros e [<-|[<-|[<-|[]]]]; split; vm_compute; intuition discriminate. Qed.
Theorem detect_spec : forall path,
  match detect_type path with
  | Ok k => kind_of path k
  | Err e => e = EValueUnsupported /\ forall k, ~ kind_of path k
  end.
Proof.
  intros path. unfold detect_type. destruct (mem_str (splitext_ext (basename path)) _) eqn:M.
  - apply mem_str_In in M.
    assert (X : exists e, In e [L "ovf"; L "ova"; L "box"] /\ splitext_ext (basename path) = "."%char :: e).
    { destruct M as [M|[M|[M|[]]]]; rewrite <- M; [exists (L "ovf")|exists (L "ova")|exists (L "box")]; (split; [cbn [In]; tauto|reflexivity]). }
    destruct X as (e & He & Ex). rewrite Ex. destruct (kinds_plain e He) as [N1 N2].
    constructor; [exact He|exact (proj1 (ext_spec path e N1 N2) Ex)].
  - apply mem_str_false in M.
    assert (N : forall x, In x [L "ovf"; L "ova"; L "box"] -> ~ has_extension x path).
    { intros x Hx F. destruct (kinds_plain x Hx) as [N1 N2]. apply ext_spec in F; [|assumption|assumption]. apply M. rewrite F.
      destruct Hx as [<-|[<-|[<-|[]]]]; cbn [In]; [left|right; left|right; right; left]; reflexivity. }
    pose proof (mid_spec (basename path)) as S. destruct (mid_extension (basename path)) as [x|].
    + destruct S as (e & pre & -> & He & Me & Min). exact (by_mention path e pre N He Me Min).
    + split; [reflexivity|]. intros k [e He F|e pre _ He F _]; [exact (N e He F)|exact (S e pre He F)].
Qed.
(** there is only one kind *)
Lemma kind_unique : forall path k, kind_of path k -> detect_type path = Ok k.
Proof.
  intros path k H. unfold detect_type. destruct H as [e He F|e pre N He F Min].
  - destruct (kinds_plain e He) as [N1 N2]. rewrite (proj2 (ext_spec path e N1 N2) F).
    destruct He as [<-|[<-|[<-|[]]]]; reflexivity.
  - destruct (mem_str (splitext_ext (basename path)) _) eqn:M.
    + exfalso. apply mem_str_In in M.
      assert (X : exists x, In x [L "ovf"; L "ova"; L "box"] /\ splitext_ext (basename path) = "."%char :: x).
      { destruct M as [M|[M|[M|[]]]]; rewrite <- M; [exists (L "ovf")|exists (L "ova")|exists (L "box")]; (split; [cbn [In]; tauto|reflexivity]). }
      destruct X as (x & Hx & X). destruct (kinds_plain x Hx) as [N1 N2]. apply (N x Hx). now apply ext_spec.
    + pose proof (mid_spec (basename path)) as S. destruct (mid_extension (basename path)) as [x|]; [|exfalso; exact (S e pre He F)].
      destruct S as (e' & pre' & -> & He' & M' & Min'). f_equal. f_equal.
      assert (Le : length pre = length pre').
      { specialize (Min e' pre' He' M'). specialize (Min' e pre He F). lia. }
      destruct F as (c & post & F & _). destruct M' as (c' & post' & M' & _). change (list ascii) with str in *.
      assert (X : pre ++ "."%char :: e ++ c :: post = pre' ++ "."%char :: e' ++ c' :: post') by (rewrite <- F; exact M').
      assert (P : forall (p q : str) a b, length p = length q -> p ++ a = q ++ b -> a = b).
      { induction p as [|y p IH]; intros [|z q] a b L1 L2; try discriminate; [exact L2|]. injection L2 as _ L2. apply (IH q); [now injection L1|exact L2]. }
      apply P in X; [|exact Le]. injection X as X.
      destruct He as [<-|[<-|[]]], He' as [<-|[<-|[]]]; try reflexivity; discriminate.
Qed.
