(** Proofs about paths. *)
From Coq Require Import Lia.
From Verif Require Import PyBase PyBaseProofs RawModel SelectModel PathModel PathSpec.
Local Open Scope nat_scope.

Notation slash := "/"%char.
Definition no_slashes (s : str) : Prop := ~ In slash s.

Lemma no_slash_forallb : forall s, no_slashes s <-> forallb (fun x => negb (Ascii.eqb x slash)) s = true.
Proof.
  intros s. rewrite forallb_forall. unfold no_slashes. split.
  - intros H x Hx. destruct (Ascii.eqb_spec x slash) as [->|]; [contradiction|reflexivity].
  - intros H Hin. specialize (H _ Hin). rewrite Ascii.eqb_refl in H. discriminate.
Qed.
Lemma split_no_slash : forall p c, In c (split_on slash p) -> no_slashes c.
Proof. intros p c H. apply no_slash_forallb. now apply (proj1 (split_on_aux_spec slash p [] eq_refl)). Qed.
Lemma split_aux_app : forall sep a b cur, split_on_aux sep cur (a ++ sep :: b) = split_on_aux sep cur a ++ split_on sep b.
Proof.
  intros sep a. induction a as [|c a IH]; intros b cur; cbn [app split_on_aux].
  - rewrite Ascii.eqb_refl. reflexivity.
  - destruct (Ascii.eqb c sep); [cbn [app]; f_equal; apply IH|apply IH].
Qed.
Lemma split_app : forall sep a b, split_on sep (a ++ sep :: b) = split_on sep a ++ split_on sep b.
Proof. intros. apply split_aux_app. Qed.
Lemma split_plain : forall s, no_slashes s -> split_on slash s = [s].
Proof. intros s H. unfold split_on. rewrite split_on_aux_last; [reflexivity|now apply no_slash_forallb]. Qed.
Lemma split_path_of : forall W, (forall c, In c W -> no_slashes c) -> split_on slash (path_of W) = [] :: W.
Proof.
  assert (A : forall W a, (forall c, In c W -> no_slashes c) -> no_slashes a -> split_on slash (a ++ path_of W) = a :: W).
  { induction W as [|c W IH]; intros a H Ha.
    - cbn [path_of flat_map]. rewrite app_nil_r. now apply split_plain.
    - change (path_of (c :: W)) with (slash :: c ++ path_of W). rewrite split_app, split_plain by exact Ha. cbn [app]. f_equal.
      apply IH; [intros x Hx; apply H; now right|apply H; now left]. }
  intros W H. apply (A W []); [exact H|intros []].
Qed.

Lemma starts_spec : forall p s, starts_with p s = true <-> exists t, s = p ++ t.
Proof.
  induction p as [|c p IH]; intros s; cbn [starts_with].
  - split; [intros _; now exists s|reflexivity].
  - destruct s as [|x s]; [split; [discriminate|intros [t F]; discriminate F]|]. rewrite andb_true_iff, IH, Ascii.eqb_eq. split.
    + intros [-> [t ->]]. now exists t.
    + intros [t E]. injection E as -> ->. split; [reflexivity|now exists t].
Qed.
Lemma starts_slash : forall s, starts_with (L "/") s = true <-> exists t, s = slash :: t.
Proof. intros s. rewrite starts_spec. reflexivity. Qed.

(** ** Following paths *)

Lemma walk_proper : forall at_ c, proper c -> walk at_ c = at_ ++ [c].
Proof.
  intros at_ c (H1 & H2 & H3 & _). unfold walk.
  destruct (str_eqb c []) eqn:E1; [apply str_eqb_eq in E1; contradiction|].
  destruct (str_eqb c (L ".")) eqn:E2; [apply str_eqb_eq in E2; contradiction|].
  destruct (str_eqb c (L "..")) eqn:E3; [apply str_eqb_eq in E3; contradiction|]. reflexivity.
Qed.
Lemma walk_all : forall W at_, (forall c, In c W -> proper c) -> fold_left walk W at_ = at_ ++ W.
Proof.
  induction W as [|c W IH]; intros at_ H; cbn [fold_left]; [now rewrite app_nil_r|].
  rewrite walk_proper by (apply H; now left). rewrite IH by (intros x Hx; apply H; now right). now rewrite <- app_assoc.
Qed.
Lemma walk_keeps : forall at_ c, (forall x, In x at_ -> proper x) -> no_slashes c -> forall x, In x (walk at_ c) -> proper x.
Proof.
  intros at_ c H Hc x. unfold walk. destruct (str_eqb c []) eqn:E1; [cbn [orb]; apply H|].
  destruct (str_eqb c (L ".")) eqn:E2; [cbn [orb]; apply H|]. cbn [orb]. destruct (str_eqb c (L "..")) eqn:E3.
  - intros Hx. apply H. revert Hx. clear. induction at_ as [|y l IH]; cbn [removelast]; [auto|]. destruct l; [intros []|].
    intros [->|Hx]; [now left|right; now apply IH].
  - rewrite in_app_iff. intros [Hx|[<-|[]]]; [now apply H|]. repeat split; try exact Hc; intros ->; discriminate.
Qed.
Lemma fold_proper : forall cs at_, (forall x, In x at_ -> proper x) -> (forall c, In c cs -> no_slashes c) ->
  forall x, In x (fold_left walk cs at_) -> proper x.
Proof.
  induction cs as [|c cs IH]; intros at_ H Hc; cbn [fold_left]; [exact H|].
  apply IH; [apply walk_keeps; [exact H|apply Hc; now left]|intros y Hy; apply Hc; now right].
Qed.
Lemma place_proper : forall p x, In x (place p) -> proper x.
Proof.
  intros p. unfold place, follow. assert ((if starts_with (L "/") p then [] else []) = @nil str) as -> by (now destruct (starts_with (L "/") p)).
  apply fold_proper; [intros x []|]. intros c. apply split_no_slash.
Qed.
Lemma proper_slash : forall c, proper c -> no_slashes c.
Proof. intros c (_ & _ & _ & H). exact H. Qed.
Lemma place_path_of : forall W, (forall c, In c W -> proper c) -> place (path_of W) = W.
Proof.
  intros W H. unfold place, follow.
  change "/"%char with slash. rewrite split_path_of by (intros c Hc; apply proper_slash; now apply H).
  destruct (starts_with (L "/") (path_of W)); cbn [fold_left]; change (walk [] []) with (@nil str); rewrite walk_all by exact H; reflexivity.
Qed.
Lemma path_of_slash : forall W, W <> [] -> starts_with (L "/") (path_of W) = true.
Proof. intros [|c W] H; [contradiction|]. reflexivity. Qed.
Lemma path_of_last : forall W, W <> [] -> (forall c, In c W -> proper c) -> ends_with (L "/") (path_of W) = false.
Proof.
  intros W Hn H. destruct (ends_with (L "/") (path_of W)) eqn:E; [|reflexivity]. exfalso. unfold ends_with in E.
  change (rev (L "/")) with (L "/") in E. apply starts_slash in E as [t E]. assert (E' : path_of W = rev t ++ [slash]) by (now rewrite <- (rev_involutive (path_of W)), E).
  destruct (exists_last Hn) as (W' & w & ->). assert (Hw : proper w) by (apply H; apply in_app_iff; right; now left).
  unfold path_of in E'. rewrite flat_map_app in E'. cbn [flat_map] in E'. rewrite app_nil_r in E'.
  destruct Hw as (N & _ & _ & S). destruct (exists_last N) as (w' & x & ->).
  change ("/"%char :: w' ++ [x]) with (("/"%char :: w') ++ [x]) in E'. rewrite app_assoc in E'.
  apply app_inj_tail in E' as [_ ->]. apply S. apply in_app_iff. right. now left.
Qed.
(** A path below a directory. *)
Lemma join_place : forall W n, W <> [] -> (forall c, In c W -> proper c) ->
  place (path_join (path_of W) n) = follow W n.
Proof.
  intros W n Hn H. unfold path_join. destruct (starts_with (L "/") n) eqn:E.
  - unfold place, follow. now rewrite E.
  - destruct (path_of W) eqn:Ew; [destruct W; [contradiction|discriminate]|]. rewrite <- Ew. rewrite path_of_last by assumption.
    change (path_of W ++ L "/" ++ n) with (path_of W ++ slash :: n). unfold place, follow. rewrite E. change "/"%char with slash. rewrite split_app.
    assert (S : starts_with (L "/") (path_of W ++ slash :: n) = true).
    { rewrite Ew. apply starts_slash. assert (P : starts_with (L "/") (path_of W) = true) by now apply path_of_slash.
      rewrite Ew in P. apply starts_slash in P as [t P]. injection P as -> ->. now exists (t ++ slash :: n). }
    rewrite S, fold_left_app. f_equal. rewrite split_path_of by (intros c Hc; apply proper_slash; now apply H).
    cbn [fold_left]. change (walk [] []) with (@nil str). rewrite walk_all by exact H; reflexivity.
Qed.

(** ** normpath *)

Lemma rooted_step : forall acc c, ~ In (L "..") acc -> rev (norm_step true acc c) = walk (rev acc) c /\ ~ In (L "..") (norm_step true acc c).
Proof.
  intros acc c H. unfold norm_step, walk. destruct (str_eqb c [] || str_eqb c (L ".")); [now split|].
  destruct (str_eqb c (L "..")) eqn:E; cbn [negb orb andb].
  - destruct acc as [|x acc]; [now split|]. destruct (str_eqb x (L "..")) eqn:Ex.
    + apply str_eqb_eq in Ex. exfalso. apply H. now left.
    + cbn [tl rev]. rewrite removelast_last. split; [reflexivity|intros F; apply H; now right].
  - split; [reflexivity|]. intros [F|F]; [rewrite F in E; discriminate|contradiction].
Qed.
Lemma rooted_parts : forall p, norm_parts true p = fold_left walk (split_on slash p) [].
Proof.
  intros p. unfold norm_parts. change "/"%char with slash.
  assert (G : forall cs acc, ~ In (L "..") acc -> rev (fold_left (norm_step true) cs acc) = fold_left walk cs (rev acc)).
  { induction cs as [|c cs IH]; intros acc H; cbn [fold_left]; [reflexivity|]. destruct (rooted_step acc c H) as [E N].
    rewrite IH by exact N. now rewrite E. }
  rewrite G; [reflexivity|intros []].
Qed.
Lemma normpath_abs : forall p, starts_with (L "/") p = true -> normpath p = first_slashes p ++ join (L "/") (place p).
Proof.
  intros p H. unfold normpath. rewrite H, rooted_parts. unfold place, follow. rewrite H. change "/"%char with slash.
  destruct (first_slashes p ++ _) eqn:E; [|reflexivity]. exfalso. apply app_eq_nil in E as [E _]. unfold first_slashes in E. rewrite H in E.
  destruct (starts_with (L "///") p); [discriminate|]. destruct (starts_with (L "//") p); discriminate.
Qed.
Lemma path_of_join : forall W, W <> [] -> path_of W = L "/" ++ join (L "/") W.
Proof.
  induction W as [|c W IH]; intros H; [contradiction|]. destruct W as [|y W]; [cbn; now rewrite app_nil_r|].
  change (path_of (c :: y :: W)) with (slash :: c ++ path_of (y :: W)). rewrite IH by discriminate. cbn [join]. reflexivity.
Qed.

Lemma first_slash : forall a b x y, no_slashes a -> no_slashes b -> a ++ slash :: x = b ++ slash :: y -> a = b /\ x = y.
Proof.
  induction a as [|c a IH]; intros b x y Ha Hb E; destruct b as [|e b]; cbn [app] in E; injection E; intros.
  - now split.
  - subst e. exfalso. apply Hb. now left.
  - subst c. exfalso. apply Ha. now left.
  - subst e. destruct (IH b x y) as [-> ->]; [intros F; apply Ha; now right|intros F; apply Hb; now right|assumption|now split].
Qed.
Lemma prefix_first : forall w c t r, no_slashes w -> w ++ t = c ++ r -> (r = [] \/ exists r', r = slash :: r') -> exists x, c = w ++ x.
Proof.
  induction w as [|a w IH]; intros c t r Hw E Hr; [now exists c|]. destruct c as [|b c].
  - exfalso. destruct Hr as [->|[r' ->]]; [discriminate|]. injection E as -> _. apply Hw. now left.
  - injection E as -> E. destruct (IH c t r) as [x ->]; [intros F; apply Hw; now right|exact E|exact Hr|]. now exists x.
Qed.
Lemma join_cons : forall c P, join (L "/") (c :: P) = c ++ match P with [] => [] | _ => slash :: join (L "/") P end.
Proof. intros c [|y P]; cbn [join]; [now rewrite app_nil_r|reflexivity]. Qed.

(** A path begins with the text of another one exactly if the last name goes on. *)
Lemma prefix_join : forall d w P, (forall c, In c d -> no_slashes c) -> no_slashes w -> w <> [] -> (forall c, In c P -> no_slashes c) ->
  ((exists t, join (L "/") P = join (L "/") (d ++ [w]) ++ t) <-> exists x rest, P = d ++ (w ++ x) :: rest).
Proof.
  induction d as [|e d IH]; intros w P Hd Hw Nw HP.
  - cbn [app]. cbn [join]. split.
    + intros [t E]. destruct P as [|c P]; [cbn [join] in E; symmetry in E; apply app_eq_nil in E as [E _]; contradiction|].
      rewrite join_cons in E. destruct (prefix_first w c t (match P with [] => [] | _ => slash :: join (L "/") P end) Hw) as [x ->].
      * now symmetry.
      * destruct P; [now left|right; eexists; reflexivity].
      * now exists x, P.
    + intros (x & rest & ->). rewrite join_cons. rewrite <- app_assoc. eexists. reflexivity.
  - cbn [app]. rewrite join_cons. destruct (d ++ [w]) as [|z zs] eqn:Ed; [destruct d; discriminate|]. rewrite <- Ed in *. split.
    + intros [t E]. destruct P as [|c P]; [cbn [join] in E; symmetry in E; rewrite <- app_assoc in E; apply app_eq_nil in E as [_ E]; discriminate|].
      rewrite join_cons, <- app_assoc in E. destruct P as [|y P].
      * exfalso. rewrite app_nil_r in E. apply (HP c); [now left|]. rewrite E. apply in_app_iff. right. now left.
      * cbn [app] in E. apply first_slash in E as [-> E]; [|apply HP; now left|apply Hd; now left].
        destruct (proj1 (IH w (y :: P) (fun c Hc => Hd c (or_intror Hc)) Hw Nw (fun c Hc => HP c (or_intror Hc)))) as (x & rest & ->); [now exists t|].
        now exists x, rest.
    + intros (x & rest & ->). rewrite join_cons. destruct (proj2 (IH w (d ++ (w ++ x) :: rest) (fun c Hc => Hd c (or_intror Hc)) Hw Nw (fun c Hc => HP c (or_intror Hc)))) as [t E].
      { now exists x, rest. }
      exists t. destruct (d ++ (w ++ x) :: rest) as [|q qs] eqn:Eq; [destruct d; discriminate|]. rewrite E, <- app_assoc. reflexivity.
Qed.

(** ** Relative paths *)

Lemma last_stays : forall cs (acc : list str) (x : str), last acc [] = x -> x = L ".." -> exists acc', fold_left (norm_step false) cs acc = acc' /\ last acc' [] = L "..".
Proof.
  induction cs as [|c cs IH]; intros acc x H Hx; cbn [fold_left]; [exists acc; split; [reflexivity|now rewrite H]|].
  apply (IH _ (L "..")); [|reflexivity]. subst x. unfold norm_step. destruct (str_eqb c [] || str_eqb c (L ".")); [exact Hx|].
  destruct acc as [|y acc]; [discriminate|]. destruct acc as [|z acc].
  - cbn in Hx. subst y. destruct (str_eqb c (L "..")); reflexivity.
  - destruct (negb (str_eqb c (L "..")) || _ || _); [exact Hx|]. cbn [tl]. exact Hx.
Qed.
Lemma relative_fold : forall cs acc at_, ~ In (L "..") acc -> ~ In (L "..") (fold_left (norm_step false) cs acc) ->
  fold_left walk cs (at_ ++ rev acc) = at_ ++ rev (fold_left (norm_step false) cs acc).
Proof.
  induction cs as [|c cs IH]; intros acc at_ H HF; cbn [fold_left] in *; [reflexivity|].
  destruct (str_eqb c []) eqn:E1; [|].
  { assert (N : norm_step false acc c = acc) by (unfold norm_step; now rewrite E1). assert (K : walk (at_ ++ rev acc) c = at_ ++ rev acc) by (unfold walk; now rewrite E1).
    rewrite N in *. rewrite K. now apply IH. }
  destruct (str_eqb c (L ".")) eqn:E2; [|].
  { assert (N : norm_step false acc c = acc) by (unfold norm_step; now rewrite E1, E2). assert (K : walk (at_ ++ rev acc) c = at_ ++ rev acc) by (unfold walk; now rewrite E1, E2).
    rewrite N in *. rewrite K. now apply IH. }
  destruct (str_eqb c (L "..")) eqn:E3.
  - destruct acc as [|x acc].
    + exfalso. assert (N : norm_step false [] c = [c]) by (unfold norm_step; now rewrite E1, E2, E3). rewrite N in HF. apply str_eqb_eq in E3 as ->.
      destruct (last_stays cs [L ".."] (L "..") eq_refl eq_refl) as (acc' & Ea & El). rewrite Ea in HF. apply HF.
      destruct acc' as [|y l]; [discriminate El|]. rewrite <- El. clear. revert y. induction l as [|z l IH]; intros y; [now left|right; apply IH].
    + assert (Nx : str_eqb x (L "..") = false) by (destruct (str_eqb x (L "..")) eqn:Ex; [exfalso; apply H; left; now apply str_eqb_eq in Ex|reflexivity]).
      assert (N : norm_step false (x :: acc) c = acc) by (unfold norm_step; now rewrite E1, E2, E3, Nx).
      rewrite N in *. unfold walk at 2. rewrite E1, E2, E3. cbn [orb rev]. rewrite app_assoc, removelast_last.
      apply IH; [intros F; apply H; now right|exact HF].
  - assert (N : norm_step false acc c = c :: acc) by (unfold norm_step; now rewrite E1, E2, E3). rewrite N in *.
    unfold walk at 2. rewrite E1, E2, E3. cbn [orb]. rewrite <- app_assoc. change (rev acc ++ [c]) with (rev (c :: acc)).
    apply IH; [|exact HF]. intros [F|F]; [rewrite F in E3; discriminate|contradiction].
Qed.
Lemma norm_parts_proper : forall p, ~ In (L "..") (norm_parts false p) -> forall c, In c (norm_parts false p) -> proper c.
Proof.
  intros p H c Hc.
  assert (G : forall cs acc, (forall x, In x acc -> x <> [] /\ x <> L "." /\ no_slashes x) -> (forall x, In x cs -> no_slashes x) ->
    forall x, In x (fold_left (norm_step false) cs acc) -> x <> [] /\ x <> L "." /\ no_slashes x).
  { induction cs as [|e cs IH]; intros acc Ha Hs; cbn [fold_left]; [exact Ha|]. apply IH; [|intros x Hx; apply Hs; now right].
    intros x. unfold norm_step. destruct (str_eqb e []) eqn:E1; [cbn [orb]; apply Ha|]. destruct (str_eqb e (L ".")) eqn:E2; [cbn [orb]; apply Ha|]. cbn [orb].
    destruct (negb _ || _ || _).
    - intros [<-|Hx]; [|now apply Ha]. split; [intros F; rewrite F in E1; discriminate|]. split; [intros F; rewrite F in E2; discriminate|apply Hs; now left].
    - intros Hx. apply Ha. destruct acc; [exact Hx|now right]. }
  unfold norm_parts in *. pose proof Hc as Hc'. rewrite <- in_rev in Hc'. apply G in Hc' as (A & B & C); [|intros x []|intros x; apply split_no_slash].
  repeat split; try assumption. intros ->. contradiction.
Qed.
