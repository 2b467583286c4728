(** Proofs about opening archives. *)
From Coq Require Import Lia.
From Verif Require Import PyBase PyBaseProofs PyDict PyDictProofs ManifestModel ManifestSpec RawModel SelectModel PathModel PathSpec PathProofs
  ItemModel TarModel TarSpec.
Local Open Scope nat_scope.

Lemma proper_last : forall d w, (forall c, In c (d ++ [w]) -> proper c) -> (forall c, In c d -> proper c) /\ proper w.
Proof. intros d w H. split; [intros c Hc; apply H; apply in_app_iff; now left|apply H; apply in_app_iff; right; now left]. Qed.

Lemma slashes_two : forall n, first_slashes n = L "//" <-> two_slashes n.
Proof.
  intros n. unfold first_slashes, two_slashes. destruct (starts_with (L "///") n) eqn:E3.
  - split; [discriminate|]. intros (t & -> & H). exfalso. apply starts_spec in E3 as [u E]. injection E as E. exact (H u E).
  - destruct (starts_with (L "//") n) eqn:E2.
    + split; [intros _|reflexivity]. apply starts_spec in E2 as [t ->]. exists t. split; [reflexivity|]. intros u ->. discriminate E3.
    + split; [destruct (starts_with (L "/") n); discriminate|]. intros (t & -> & _). discriminate E2.
Qed.
Lemma first_slashes_dir : forall W n, W <> [] -> (forall c, In c W -> proper c) -> starts_with (L "/") n = false ->
  first_slashes (path_join (path_of W) n) = L "/" /\ starts_with (L "/") (path_join (path_of W) n) = true.
Proof.
  intros W n Hn H En. destruct W as [|c W]; [contradiction|]. destruct (H c (or_introl eq_refl)) as (N & _ & _ & S).
  destruct c as [|x c]; [contradiction|]. assert (Hx : Ascii.eqb x "/" = false) by (apply Ascii.eqb_neq; intros ->; apply S; now left).
  match goal with |- context [path_join ?p n] => assert (exists t, path_join p n = "/"%char :: x :: t) as [t ->] end.
  { unfold path_join. rewrite En. cbn [path_of flat_map app]. destruct (ends_with _ _); eexists; reflexivity. }
  split; [|reflexivity]. unfold first_slashes. cbn [starts_with L list_ascii_of_string].
  assert (Ascii.eqb "/" x = false) as -> by (rewrite Ascii.eqb_sym; exact Hx). now rewrite !andb_false_r.
Qed.

Lemma two_slashes_dec : forall n, two_slashes n \/ ~ two_slashes n.
Proof.
  intros n. destruct (str_eqb (first_slashes n) (L "//")) eqn:E.
  - left. apply slashes_two. now apply str_eqb_eq.
  - right. intros T. apply slashes_two in T. rewrite T in E. discriminate E.
Qed.

(** ** The check of the names *)
Theorem name_ok_spec : forall d w n, (forall c, In c (d ++ [w]) -> proper c) ->
  (name_ok (path_of (d ++ [w])) n = true <-> ~ two_slashes n /\ beside d w (follow (d ++ [w]) n)).
Proof.
  intros d w n H. set (W := d ++ [w]) in *. assert (Hn : W <> []) by (unfold W; destruct d; discriminate).
  assert (FP : (exists s, first_slashes (path_join (path_of W) n) = s /\ (s = L "/" \/ s = L "//" /\ two_slashes n) /\ (two_slashes n -> s = L "//")) /\
    starts_with (L "/") (path_join (path_of W) n) = true).
  { destruct (starts_with (L "/") n) eqn:En.
    - assert (EJ : path_join (path_of W) n = n) by (unfold path_join; now rewrite En). rewrite EJ. split; [|exact En].
      exists (first_slashes n). split; [reflexivity|]. destruct (slashes_two n) as [A B]. split; [|exact B].
      unfold first_slashes. rewrite En. destruct (starts_with (L "///") n) eqn:E3; [now left|]. destruct (starts_with (L "//") n) eqn:E2; [|now left].
      right. split; [reflexivity|]. apply A. unfold first_slashes. now rewrite E3, E2.
    - destruct (first_slashes_dir W n Hn H En) as [A B]. split; [|exact B]. exists (L "/"). split; [exact A|]. split; [now left|].
      intros (t & -> & _). discriminate En. }
  destruct FP as [(s & Es & Hs & Ht) FP]. unfold name_ok. rewrite (normpath_abs _ FP), Es, (join_place W n Hn H).
  rewrite starts_spec, (path_of_join W Hn).
  destruct (proper_last d w H) as [Pd Pw].
  assert (PP : forall c, In c (follow W n) -> no_slashes c) by (intros c Hc; apply proper_slash; rewrite <- (join_place W n Hn H) in Hc; exact (place_proper _ _ Hc)).
  pose proof (prefix_join d w (follow W n) (fun c Hc => proper_slash c (Pd c Hc)) (proper_slash w Pw) (proj1 Pw) PP) as PJ. fold W in PJ.
  unfold beside. rewrite <- PJ. destruct Hs as [->|[-> T]].
  - split.
    + intros [t E]. rewrite <- app_assoc in E. apply app_inv_head in E. split; [intros T; specialize (Ht T); discriminate|now exists t].
    + intros [_ [t E]]. exists t. now rewrite <- app_assoc, <- E.
  - split; [|intros [N _]; contradiction]. intros [t E]. exfalso. rewrite <- app_assoc in E. injection E as E.
    unfold W in E. destruct d as [|c d0].
    + destruct Pw as (N & _ & _ & S). destruct w as [|x w]; [contradiction|]. injection E as E _. apply S. now left.
    + destruct (Pd c (or_introl eq_refl)) as (N & _ & _ & S). destruct c as [|x c]; [contradiction|]. cbn [app] in E. rewrite join_cons in E. injection E as E _. apply S. now left.
Qed.
Lemma downward_follow : forall n W, downward n -> inside W (follow W n).
Proof.
  intros n W [H1 H2]. unfold follow. destruct (starts_with (L "/") n) eqn:E; [apply starts_slash in E as [t E]; now destruct (H1 t)|].
  revert W H2. generalize (split_on "/"%char n). clear. induction l as [|c l IH]; intros W H; cbn [fold_left]; [exists []; now rewrite app_nil_r|].
  assert (Hw : exists r, walk W c = W ++ r).
  { unfold walk. destruct (str_eqb c [] || str_eqb c (L ".")); [exists []; now rewrite app_nil_r|]. destruct (str_eqb c (L "..")) eqn:Ec; [|now exists [c]].
    apply str_eqb_eq in Ec. exfalso. apply H. now left. }
  destruct Hw as [r ->]. destruct (IH (W ++ r)) as [rest ->]; [intros F; apply H; now right|]. exists (r ++ rest). now rewrite app_assoc.
Qed.
Lemma inside_beside : forall d w p, inside (d ++ [w]) p -> beside d w p.
Proof. intros d w p [rest ->]. exists [], rest. now rewrite app_nil_r, <- app_assoc. Qed.
Theorem downward_ok : forall d w n, (forall c, In c (d ++ [w]) -> proper c) -> downward n -> name_ok (path_of (d ++ [w])) n = true.
Proof.
  intros d w n H D. apply name_ok_spec; [exact H|]. split; [|now apply inside_beside, downward_follow].
  intros (t & -> & _). destruct D as [D _]. exact (D ("/"%char :: t) eq_refl).
Qed.

(** ** The descriptor *)
Lemma split_last_spec : forall x s, match split_last x s with
  | Some (a, b) => s = a ++ x :: b /\ ~ In x b
  | None => ~ In x s
  end.
Proof.
  intros x. induction s as [|c s IH]; cbn [split_last]; [intros []|]. destruct (split_last x s) as [[a b]|].
  - destruct IH as [-> H]. now split.
  - destruct (Ascii.eqb_spec c x) as [->|N]; [now split|]. intros [E|F]; [now apply N|contradiction].
Qed.
Lemma split_last_unique : forall x a b, ~ In x b -> split_last x (a ++ x :: b) = Some (a, b).
Proof.
  intros x a b H. pose proof (split_last_spec x (a ++ x :: b)) as S. destruct (split_last x (a ++ x :: b)) as [[a' b']|].
  - destruct S as [E N]. revert a' b' E N. clear -H. induction a as [|c a IH]; intros a' b' E N; destruct a' as [|c' a']; cbn [app] in E; injection E; intros; subst.
    + reflexivity.
    + exfalso. apply H. apply in_app_iff. right. now left.
    + exfalso. apply N. apply in_app_iff. right. now left.
    + assert (E' : Some (a', b') = Some (a, b)) by now apply IH. now injection E' as <- <-.
  - exfalso. apply S. apply in_app_iff. right. now left.
Qed.
Lemma split_last_none : forall x s, ~ In x s -> split_last x s = None.
Proof.
  intros x s H. pose proof (split_last_spec x s) as S. destruct (split_last x s) as [[a b]|]; [|reflexivity]. destruct S as [-> _]. exfalso. apply H. apply in_app_iff. right. now left.
Qed.
Lemma ext_of : forall dir base e, dir = [] \/ (exists d, dir = d ++ ["/"%char]) -> ~ In "/"%char base -> ~ In "/"%char e -> ~ In "."%char e ->
  (exists c, In c base /\ c <> "."%char) -> splitext_ext (dir ++ base ++ "."%char :: e) = "."%char :: e.
Proof.
  intros dir base e Hd Hb He Hne (c & Hc & Nc). unfold splitext_ext.
  assert (NS : ~ In "/"%char (base ++ "."%char :: e)) by (rewrite in_app_iff; intros [F|[F|F]]; [contradiction|discriminate|contradiction]).
  assert ((match split_last "/" (dir ++ base ++ "."%char :: e) with Some (_, n) => n | None => dir ++ base ++ "."%char :: e end) = base ++ "."%char :: e) as ->.
  { destruct Hd as [->|[d ->]]; [cbn [app]; now rewrite (split_last_none _ _ NS)|]. rewrite <- app_assoc. cbn [app]. now rewrite (split_last_unique _ d _ NS). }
  rewrite (split_last_unique _ _ _ Hne). destruct (forallb _ base) eqn:F; [|reflexivity].
  rewrite forallb_forall in F. specialize (F _ Hc). apply Ascii.eqb_eq in F. contradiction.
Qed.
Lemma is_ovf_spec : forall m, is_ovf m = true <-> ovf_name (t_name m).
Proof.
  intros m. unfold is_ovf. rewrite str_eqb_eq. split.
  - unfold splitext_ext. set (n := t_name m). pose proof (split_last_spec "/" n) as S1. intros H.
    set (base := match split_last "/" n with Some (_, x) => x | None => n end) in *.
    assert (B : exists dir, n = dir ++ base /\ (dir = [] \/ exists d, dir = d ++ ["/"%char]) /\ ~ In "/"%char base).
    { unfold base. destruct (split_last "/" n) as [[a b]|]; [destruct S1 as [-> N]; exists (a ++ ["/"%char]); rewrite <- app_assoc; split; [reflexivity|]; split; [right; now exists a|exact N]|].
      exists []. split; [reflexivity|]. split; [now left|exact S1]. }
    destruct B as (dir & En & Hd & Nb). pose proof (split_last_spec "." base) as S2. destruct (split_last "." base) as [[stem e]|]; [|discriminate].
    destruct (forallb _ stem) eqn:F; [discriminate|]. injection H as ->. destruct S2 as [Eb _]. exists dir, stem.
    split; [rewrite En; f_equal; exact Eb|]. split; [exact Hd|]. split; [intros Hi; apply Nb; rewrite Eb; apply in_app_iff; now left|].
    destruct (existsb (fun c => negb (Ascii.eqb c ".")) stem) eqn:X.
    + apply existsb_exists in X as (c & Hc & Nc). exists c. split; [exact Hc|]. intros ->. discriminate.
    + exfalso. assert (T : forallb (fun c => Ascii.eqb c ".") stem = true); [|congruence]. apply forallb_forall. intros c Hc.
      destruct (Ascii.eqb c ".") eqn:Ec; [reflexivity|]. assert (existsb (fun c => negb (Ascii.eqb c ".")) stem = true); [|congruence].
      apply existsb_exists. exists c. split; [exact Hc|now rewrite Ec].
  - intros (dir & base & -> & Hd & Nb & Hc). apply ext_of; try assumption; vm_compute; intuition discriminate.
Qed.

Theorem untar_spec : forall d w a, (forall c, In c (d ++ [w]) -> proper c) ->
  match untar (path_of (d ++ [w])) (Some a) with
  | Ok (m, p) => (exists A B, a = A ++ m :: B /\ ovf_name (t_name m) /\ forall x, In x A -> ~ ovf_name (t_name x)) /\
      p = path_join (path_of (d ++ [w])) (t_name m) /\
      forall x, In x a -> ~ two_slashes (t_name x) /\ beside d w (follow (d ++ [w]) (t_name x))
  | Err e => e = EVMInitError /\
      (a = [] \/ (exists x, In x a /\ (two_slashes (t_name x) \/ ~ beside d w (follow (d ++ [w]) (t_name x)))) \/
       forall x, In x a -> ~ ovf_name (t_name x))
  end.
Proof.
  intros d w a H. set (W := d ++ [w]) in *. unfold untar. destruct a as [|m0 rest]; [split; [reflexivity|now left]|].
  destruct (forallb (fun m => name_ok (path_of W) (t_name m)) (m0 :: rest)) eqn:F; cbn [negb].
  - assert (HN : forall x, In x (m0 :: rest) -> ~ two_slashes (t_name x) /\ beside d w (follow W (t_name x))).
    { intros x Hx. rewrite forallb_forall in F. specialize (F x Hx). now apply name_ok_spec in F. }
    destruct (is_ovf m0) eqn:E0; cbn [rbind].
    + split; [exists [], rest; split; [reflexivity|]; split; [now apply is_ovf_spec|intros x []]|]. split; [reflexivity|exact HN].
    + destruct (filter is_ovf (m0 :: rest)) as [|c l] eqn:Ef; cbn [rbind].
      * split; [reflexivity|]. right. right. intros x Hx Ho. apply is_ovf_spec in Ho. assert (In x []); [|contradiction]. rewrite <- Ef. apply filter_In. now split.
      * split; [|split; [reflexivity|exact HN]]. revert Ef. generalize (m0 :: rest). clear. induction l0 as [|y l0 IH]; intros Ef; [discriminate|].
        cbn [filter] in Ef. destruct (is_ovf y) eqn:Ey.
        -- injection Ef as -> _. exists [], l0. split; [reflexivity|]. split; [now apply is_ovf_spec|intros x []].
        -- destruct (IH Ef) as (A & B & -> & HO & HA). exists (y :: A), B. split; [reflexivity|]. split; [exact HO|].
           intros x [<-|Hx]; [intros Ho; apply is_ovf_spec in Ho; congruence|now apply HA].
  - split; [reflexivity|]. right. left. destruct (existsb (fun m => negb (name_ok (path_of W) (t_name m))) (m0 :: rest)) eqn:X.
    + apply existsb_exists in X as (x & Hx & Nx). exists x. split; [exact Hx|]. apply negb_true_iff in Nx.
      destruct (two_slashes_dec (t_name x)) as [T|T]; [now left|right]. intros B. assert (name_ok (path_of W) (t_name x) = true); [|congruence]. apply name_ok_spec; [exact H|now split].
    + exfalso. assert (T : forallb (fun m => name_ok (path_of W) (t_name m)) (m0 :: rest) = true); [|congruence]. apply forallb_forall. intros x Hx.
      destruct (name_ok (path_of W) (t_name x)) eqn:Ex; [reflexivity|].
      assert (existsb (fun m => negb (name_ok (path_of W) (t_name m))) (m0 :: rest) = true); [|congruence]. apply existsb_exists. exists x. split; [exact Hx|now rewrite Ex].
Qed.
