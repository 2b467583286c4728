(** Proofs about item.py:280-353: texts with wildcards. *)
From Coq Require Import Lia.
From Verif Require Import PyBase PyBaseProofs ItemModel.

Definition U : ascii := "_"%char.
Definition noU (s : str) : Prop := ~ In U s.
Definition mk (w : str) : str := U :: w ++ [U].

(** ** Replacing all occurrences *)

Lemma replace_skip : forall s k pat r, k <= length s ->
  replace_from k pat r s = replace_all pat r (skipn k s).
Proof.
  induction s as [|c s IH]; intros k pat r H.
  - destruct k; [reflexivity|cbn in H; lia].
  - destruct k as [|k]; [reflexivity|]. cbn [replace_from skipn]. apply IH. cbn in H. lia.
Qed.

Lemma replace_hit : forall pat r s, pat <> [] ->
  replace_all pat r (pat ++ s) = r ++ replace_all pat r s.
Proof.
  intros pat r s H. destruct pat as [|c pat]; [contradiction|].
  unfold replace_all at 1. cbn [app replace_from].
  change (c :: pat ++ s) with ((c :: pat) ++ s). rewrite starts_with_app. f_equal.
  cbn [length]. rewrite Nat.sub_succ, Nat.sub_0_r. rewrite replace_skip by (rewrite app_length; lia).
  rewrite skipn_app, skipn_all, Nat.sub_diag. reflexivity.
Qed.

Lemma replace_miss : forall pat r c s, starts_with pat (c :: s) = false ->
  replace_all pat r (c :: s) = c :: replace_all pat r s.
Proof. intros pat r c s H. unfold replace_all. cbn [replace_from]. now rewrite H. Qed.

Lemma replace_pass : forall u s pat r,
  (forall a c b, u = a ++ c :: b -> starts_with pat (c :: b ++ s) = false) ->
  replace_all pat r (u ++ s) = u ++ replace_all pat r s.
Proof.
  induction u as [|c u IH]; intros s pat r H; [reflexivity|]. cbn [app].
  rewrite replace_miss by (apply (H [] c u); reflexivity). f_equal. apply IH.
  intros a d b ->. apply (H (c :: a) d b). reflexivity.
Qed.

(** ** Texts with marks *)

Inductive tok : Type := Lit (c : ascii) | Mark (w : str).
Definition flat (ts : list tok) : str :=
  flat_map (fun t => match t with Lit c => [c] | Mark w => mk w end) ts.
Definition expand (rho : str -> str) (ts : list tok) : str :=
  flat_map (fun t => match t with Lit c => [c] | Mark w => rho w end) ts.
Definition subst_mark (w : str) (tr : list tok) (ts : list tok) : list tok :=
  flat_map (fun t => match t with
                     | Lit c => [Lit c]
                     | Mark m => if str_eqb m w then tr else [Mark m] end) ts.

Lemma flat_lits : forall u, flat (map Lit u) = u.
Proof. induction u as [|c u IH]; [reflexivity|]. cbn. now f_equal. Qed.
Lemma expand_lits : forall rho u, expand rho (map Lit u) = u.
Proof. induction u as [|c u IH]; [reflexivity|]. cbn. now f_equal. Qed.
Lemma flat_app : forall a b, flat (a ++ b) = flat a ++ flat b.
Proof. intros. apply flat_map_app. Qed.
Lemma expand_app : forall rho a b, expand rho (a ++ b) = expand rho a ++ expand rho b.
Proof. intros. apply flat_map_app. Qed.

Lemma expand_subst : forall rho w tr ts, expand rho tr = rho w ->
  expand rho (subst_mark w tr ts) = expand rho ts.
Proof.
  intros rho w tr ts H. induction ts as [|[c|m] ts IH]; [reflexivity| |].
  - cbn. now f_equal.
  - cbn [subst_mark flat_map]. rewrite expand_app. destruct (str_eqb m w) eqn:E.
    + apply str_eqb_eq in E. subst m. rewrite H. cbn. f_equal. exact IH.
    + cbn. rewrite app_nil_r. f_equal. exact IH.
Qed.

Lemma marks_subst : forall w tr ts m, In (Mark m) (subst_mark w tr ts) ->
  (In (Mark m) ts /\ m <> w) \/ In (Mark m) tr.
Proof.
  intros w tr ts m. unfold subst_mark. rewrite in_flat_map. intros (t & Ht & H).
  destruct t as [c|k]; [now destruct H as [H|[]]|]. destruct (str_eqb k w) eqn:E.
  - now right.
  - destruct H as [H|[]]. injection H as ->. left. split; [exact Ht|].
    intros ->. rewrite (proj2 (str_eqb_eq w w)) in E; congruence.
Qed.

(** Literals of a text that is free of underscores. *)
Lemma lits_noU : forall rho ts c, noU (expand rho ts) -> In (Lit c) ts -> c <> U.
Proof.
  intros rho ts c H Hin ->. apply H. unfold expand. apply in_flat_map.
  exists (Lit U). split; [exact Hin|now left].
Qed.

Lemma flat_prefix_lits : forall w ts s, noU w -> (forall c, In (Lit c) ts -> c <> U) ->
  flat ts = w ++ U :: s -> exists m ts', ts = map Lit w ++ Mark m :: ts'.
Proof.
  induction w as [|d w IH]; intros ts s Hw Hl H.
  - destruct ts as [|[c|m] ts]; [discriminate| |].
    + cbn in H. injection H as -> _. exfalso. now apply (Hl U (or_introl eq_refl)).
    + now exists m, ts.
  - destruct ts as [|[c|m] ts]; [discriminate| |].
    + cbn in H. injection H as -> H. destruct (IH ts s) as (m & ts' & ->).
      * intros Hin. apply Hw. now right.
      * intros c Hc. apply Hl. now right.
      * exact H.
      * now exists m, ts'.
    + cbn in H. injection H as <- _. exfalso. apply Hw. now left.
Qed.

Lemma starts_mk : forall w s, starts_with (mk w) (U :: s) = true <-> exists t, s = w ++ U :: t.
Proof.
  intros w s. rewrite starts_with_spec. unfold mk. split.
  - intros (t & H). cbn in H. injection H as H. exists t. rewrite H, <- app_assoc. reflexivity.
  - intros (t & ->). exists t. cbn. now rewrite <- app_assoc.
Qed.

Lemma cut_unique : forall a b s t, noU a -> noU b -> a ++ U :: s = b ++ U :: t -> a = b.
Proof.
  induction a as [|c a IH]; intros [|d b] s t Ha Hb H; cbn in H.
  - reflexivity.
  - injection H as <- _. exfalso. apply Hb. now left.
  - injection H as -> _. exfalso. apply Ha. now left.
  - injection H as -> H. f_equal. apply (IH b s t); [| |exact H].
    + intros Hin. apply Ha. now right.
    + intros Hin. apply Hb. now right.
Qed.

Lemma starts_mk_char : forall w c s, c <> U -> starts_with (mk w) (c :: s) = false.
Proof.
  intros w c s H. destruct (starts_with (mk w) (c :: s)) eqn:E; [|reflexivity].
  apply starts_with_spec in E as (t & E). cbn in E. injection E as -> _. contradiction.
Qed.

(** Writing the value of a mark. *)
Lemma render_step : forall w tr ts, noU w ->
  (forall c, In (Lit c) ts -> c <> U) -> (forall m, In (Mark m) ts -> noU m) ->
  (forall a m1 m2 b, ts <> a ++ Mark m1 :: map Lit w ++ Mark m2 :: b) ->
  replace_all (mk w) (flat tr) (flat ts) = flat (subst_mark w tr ts).
Proof.
  intros w tr ts Hw. induction ts as [|[c|m] ts IH]; intros Hl Hm Hadj; [reflexivity| |].
  - cbn [flat subst_mark flat_map app]. rewrite replace_miss.
    + f_equal. apply IH.
      * intros d Hd. apply Hl. now right.
      * intros d Hd. apply Hm. now right.
      * intros a m1 m2 b ->. now apply (Hadj (Lit c :: a) m1 m2 b).
    + apply starts_mk_char. apply Hl. now left.
  - assert (IH' : replace_all (mk w) (flat tr) (flat ts) = flat (subst_mark w tr ts)).
    { apply IH.
      - intros d Hd. apply Hl. now right.
      - intros d Hd. apply Hm. now right.
      - intros a m1 m2 b ->. now apply (Hadj (Mark m :: a) m1 m2 b). }
    clear IH. assert (Hnm : noU m) by (apply Hm; now left).
    cbn [flat subst_mark flat_map]. destruct (str_eqb m w) eqn:E.
    + apply str_eqb_eq in E. subst m. rewrite replace_hit by discriminate.
      fold (flat ts). rewrite IH'. rewrite flat_app. reflexivity.
    + rewrite flat_app. change (flat [Mark m]) with (mk m ++ []). rewrite app_nil_r.
      fold (flat ts). rewrite replace_pass; [now rewrite IH'|].
      intros a c b Hsplit. destruct a as [|a0 a].
      * cbn in Hsplit. injection Hsplit as <- <-.
        destruct (starts_with (mk w) (U :: (m ++ [U]) ++ flat ts)) eqn:Es; [|reflexivity].
        apply starts_mk in Es as (t & Es). rewrite <- app_assoc in Es. cbn in Es.
        apply cut_unique in Es; [|exact Hnm|exact Hw]. subst m.
        rewrite (proj2 (str_eqb_eq w w)) in E; congruence.
      * cbn in Hsplit. injection Hsplit as <- Hsplit.
        destruct (ascii_dec c U) as [->|Hc]; [|now apply starts_mk_char].
        assert (b = []) as ->.
        { destruct b as [|x b]; [reflexivity|exfalso].
          assert (Hx : m = a ++ U :: removelast (x :: b)).
          { apply (f_equal (@removelast _)) in Hsplit. rewrite removelast_last in Hsplit.
            rewrite Hsplit. rewrite removelast_app by discriminate. reflexivity. }
          apply Hnm. rewrite Hx. apply in_or_app. right. now left. }
        destruct (starts_with (mk w) (U :: [] ++ flat ts)) eqn:Es; [|reflexivity].
        apply starts_mk in Es as (t & Es). cbn in Es.
        apply flat_prefix_lits in Es as (m2 & b & Eb).
        -- exfalso. subst ts. now apply (Hadj [] m m2 b).
        -- exact Hw.
        -- intros d Hd. apply Hl. now right.
Qed.

(** Putting a mark in place of a value. *)
Lemma flat_starts_lits : forall v ts s, noU v -> (forall m, In (Mark m) ts -> noU m) ->
  flat ts = v ++ s -> exists ts', ts = map Lit v ++ ts'.
Proof.
  induction v as [|d v IH]; intros ts s Hv Hm H; [now exists ts|].
  destruct ts as [|[c|m] ts]; [discriminate| |].
  - cbn in H. injection H as -> H. destruct (IH ts s) as (ts' & ->).
    + intros Hin. apply Hv. now right.
    + intros m Hin. apply Hm. now right.
    + exact H.
    + now exists ts'.
  - cbn in H. injection H as <- _. exfalso. apply Hv. now left.
Qed.

Lemma mark_step : forall rho v w, v <> [] -> noU v -> rho w = v ->
  forall n ts, length ts <= n ->
  (forall m, In (Mark m) ts -> noU m /\ contains v m = false) ->
  exists ts', replace_all v (mk w) (flat ts) = flat ts' /\
    expand rho ts' = expand rho ts /\
    (forall m, In (Mark m) ts' -> m = w \/ In (Mark m) ts).
Proof.
  intros rho v w Hv Hnv Hrho. induction n as [|n IH]; intros ts Hn Hm.
  - destruct ts; [|cbn in Hn; lia]. exists []. repeat split; auto.
  - destruct ts as [|[c|m] ts].
    + exists []. repeat split; auto.
    + cbn [flat flat_map app]. fold (flat ts).
      destruct (starts_with v (c :: flat ts)) eqn:Es.
      * apply starts_with_spec in Es as (s & Es).
        destruct (flat_starts_lits v (Lit c :: ts) s) as (b & Eb).
        -- exact Hnv.
        -- intros m Hin. now apply Hm.
        -- exact Es.
        -- destruct (IH b) as (b' & H1 & H2 & H3).
           ++ assert (L1 : length (Lit c :: ts) = length v + length b).
              { rewrite Eb, app_length, map_length. reflexivity. }
              destruct v; [contradiction|]. cbn in L1, Hn. lia.
           ++ intros m Hin. apply Hm. rewrite Eb. apply in_or_app. now right.
           ++ exists (Mark w :: b'). split; [|split].
              ** change (c :: flat ts) with (flat (Lit c :: ts)).
                 rewrite Eb, flat_app, flat_lits, replace_hit, H1 by exact Hv. reflexivity.
              ** rewrite Eb, expand_app, expand_lits, <- H2. cbn. now rewrite Hrho.
              ** intros m [Hin|Hin]; [injection Hin as ->; now left|].
                 destruct (H3 m Hin) as [->|H]; [now left|]. right. rewrite Eb.
                 apply in_or_app. now right.
      * rewrite replace_miss by exact Es. destruct (IH ts) as (b' & H1 & H2 & H3).
        -- cbn in Hn. lia.
        -- intros m Hin. apply Hm. now right.
        -- exists (Lit c :: b'). split; [|split].
           ++ rewrite H1. reflexivity.
           ++ cbn. now f_equal.
           ++ intros m [Hin|Hin]; [discriminate|]. destruct (H3 m Hin) as [->|H]; [now left|].
              right. now right.
    + destruct (IH ts) as (b' & H1 & H2 & H3).
      * cbn in Hn. lia.
      * intros k Hin. apply Hm. now right.
      * destruct (Hm m (or_introl eq_refl)) as [Hnm Hc]. exists (Mark m :: b'). split; [|split].
        -- cbn [flat flat_map]. fold (flat ts). fold (flat b'). rewrite replace_pass; [now rewrite H1|].
           intros a c b Hsplit.
           destruct (starts_with v (c :: b ++ flat ts)) eqn:Es; [|reflexivity]. exfalso.
           apply starts_with_spec in Es as (s & Es).
           assert (HcU : c <> U).
           { intros ->. destruct v as [|d v]; [contradiction|]. cbn in Es. injection Es as <- _.
             apply Hnv. now left. }
           destruct a as [|a0 a]; [cbn in Hsplit; now injection Hsplit as <- _|].
           cbn in Hsplit. injection Hsplit as <- Hsplit.
           (* the value lies inside the word of the mark *)
           destruct (@exists_last _ (c :: b)) as (l & x & El); [discriminate|].
           rewrite El in Hsplit. rewrite app_assoc in Hsplit. apply app_inj_tail in Hsplit as [Em <-].
           change (c :: b ++ flat ts) with ((c :: b) ++ flat ts) in Es.
           rewrite El, <- app_assoc in Es. cbn in Es.
           assert (Hin : exists z, l = v ++ z).
           { clear - Es Hnv Em Hnm. assert (Hl : noU l).
             { intros H. apply Hnm. rewrite Em. apply in_or_app. now right. }
             clear Em Hnm. revert v Hnv Es. induction l as [|y l IH]; intros v Hnv Es.
             - destruct v as [|d v]; [now exists []|]. cbn in Es. injection Es as <- _.
               exfalso. apply Hnv. now left.
             - destruct v as [|d v]; [now exists (y :: l)|]. cbn in Es. injection Es as -> Es.
               destruct (IH (fun H => Hl (or_intror H)) v) as (z & ->).
               + intros H. apply Hnv. now right.
               + exact Es.
               + now exists z. }
           destruct Hin as (z & ->).
           assert (contains v m = true); [|congruence]. apply contains_spec. exists a, z. exact Em.
        -- cbn. now f_equal.
        -- intros k [Hin|Hin]; [right; now left|]. destruct (H3 k Hin) as [->|H]; [now left|].
           right. now right.
Qed.

(** ** Reading a recorded text *)

(** The text after the marks in [S] have been written out. *)
Definition view (rho : str -> str) (S : list str) (ts : list tok) : str :=
  flat_map (fun t => match t with
                     | Lit c => [c]
                     | Mark w => if mem_str w S then rho w else mk w end) ts.

Lemma view_starts : forall rho S w ts s, noU w ->
  (forall m, In (Mark m) ts -> In m S /\ noU (rho m) /\ rho m <> [] /\ contains (rho m) w = false) ->
  view rho S ts = w ++ U :: s ->
  (exists ts', ts = map Lit (w ++ [U]) ++ ts').
Proof.
  intros rho S w ts s Hw Hm H.
  (* a mark met on the way would lie inside [w] *)
  revert ts Hm H. assert (G : forall w2 w1 ts, w = w1 ++ w2 ->
    (forall m, In (Mark m) ts -> In m S /\ noU (rho m) /\ rho m <> [] /\ contains (rho m) w = false) ->
    view rho S ts = w2 ++ U :: s -> exists ts', ts = map Lit (w2 ++ [U]) ++ ts').
  { induction w2 as [|d w2 IH]; intros w1 ts Ew Hm H.
    - destruct ts as [|[c|m] ts]; [discriminate| |].
      + cbn in H. injection H as -> _. now exists ts.
      + exfalso. destruct (Hm m (or_introl eq_refl)) as (H1 & H2 & H3 & _). cbn in H.
        rewrite (proj2 (mem_str_In m S) H1) in H.
        destruct (rho m) as [|x r]; [contradiction|]. cbn in H. injection H as -> _.
        apply H2. now left.
    - destruct ts as [|[c|m] ts]; [discriminate| |].
      + cbn in H. injection H as -> H. destruct (IH (w1 ++ [d]) ts) as (ts' & ->).
        * now rewrite <- app_assoc.
        * intros m Hin. apply Hm. now right.
        * exact H.
        * now exists ts'.
      + exfalso. destruct (Hm m (or_introl eq_refl)) as (H1 & H2 & H3 & H4).
        cbn [view flat_map] in H. rewrite (proj2 (mem_str_In m S) H1) in H.
        assert (Hin : exists z, d :: w2 = rho m ++ z).
        { clear - H H2. revert H H2. generalize (flat_map (fun t => match t with
            | Lit c => [c] | Mark w => if mem_str w S then rho w else mk w end) ts).
          generalize (rho m) as r. generalize (d :: w2) as l. clear.
          induction l as [|y l IH]; intros r q H H2.
          - destruct r as [|x r]; [now exists []|]. cbn in H. injection H as -> _.
            exfalso. apply H2. now left.
          - destruct r as [|x r]; [now exists (y :: l)|]. cbn in H. injection H as -> H.
            destruct (IH r q H) as (z & ->).
            + intros Hin. apply H2. now right.
            + now exists z. }
        destruct Hin as (z & Ez). assert (contains (rho m) w = true); [|congruence].
        apply contains_spec. exists w1, z. now rewrite Ew, Ez. }
  intros ts Hm H. now apply (G w [] ts).
Qed.

Lemma tokenise_step : forall rho S w, noU w -> w <> [] ->
  forall n ts, length ts <= n ->
  (forall m, In (Mark m) ts -> In m S /\ noU (rho m) /\ rho m <> [] /\ contains (rho m) w = false) ->
  exists ts', replace_all (mk w) (rho w) (view rho S ts) = view rho (w :: S) ts' /\
    flat ts' = flat ts /\
    (forall m, In (Mark m) ts' -> m = w \/ In (Mark m) ts).
Proof.
  intros rho S w Hw Hwn. induction n as [|n IH]; intros ts Hn Hm.
  - destruct ts; [|cbn in Hn; lia]. exists []. repeat split; auto.
  - destruct ts as [|[c|m] ts].
    + exists []. repeat split; auto.
    + cbn [view flat_map app]. fold (view rho S ts).
      destruct (starts_with (mk w) (c :: view rho S ts)) eqn:Es.
      * assert (c = U) as ->.
        { destruct (ascii_dec c U) as [->|Hc]; [reflexivity|]. rewrite starts_mk_char in Es; congruence. }
        apply starts_mk in Es as (s & Es).
        destruct (view_starts rho S w ts s) as (b & Eb); [exact Hw| |exact Es|].
        { intros m Hin. apply Hm. now right. }
        destruct (IH b) as (b' & H1 & H2 & H3).
        -- rewrite Eb in Hn. cbn in Hn. rewrite app_length in Hn. lia.
        -- intros m Hin. apply Hm. right. rewrite Eb. apply in_or_app. now right.
        -- exists (Mark w :: b'). split; [|split].
           ++ assert (Ev : view rho S ts = (w ++ [U]) ++ view rho S b).
              { rewrite Eb. unfold view. rewrite flat_map_app. f_equal.
                clear. induction (w ++ [U]) as [|x l IHl]; [reflexivity|]. cbn. now f_equal. }
              rewrite Ev. change (U :: (w ++ [U]) ++ view rho S b) with (mk w ++ view rho S b).
              rewrite replace_hit, H1 by discriminate. cbn [view flat_map mem_str existsb].
              rewrite (proj2 (str_eqb_eq w w)) by reflexivity. reflexivity.
           ++ cbn [flat flat_map]. fold (flat ts). fold (flat b'). rewrite H2, Eb, flat_app, flat_lits.
              reflexivity.
           ++ intros m [Hin|Hin]; [injection Hin as ->; now left|].
              destruct (H3 m Hin) as [->|H]; [now left|]. right. right. rewrite Eb.
              apply in_or_app. now right.
      * rewrite replace_miss by exact Es. destruct (IH ts) as (b' & H1 & H2 & H3).
        -- cbn in Hn. lia.
        -- intros m Hin. apply Hm. now right.
        -- exists (Lit c :: b'). split; [|split].
           ++ rewrite H1. reflexivity.
           ++ cbn. now f_equal.
           ++ intros m [Hin|Hin]; [discriminate|]. destruct (H3 m Hin) as [->|H]; [now left|].
              right. now right.
    + destruct (IH ts) as (b' & H1 & H2 & H3).
      * cbn in Hn. lia.
      * intros k Hin. apply Hm. now right.
      * destruct (Hm m (or_introl eq_refl)) as (HS & Hnr & _ & _). exists (Mark m :: b').
        split; [|split].
        -- cbn [view flat_map]. fold (view rho S ts). fold (view rho (w :: S) b').
           rewrite (proj2 (mem_str_In m S) HS).
           assert (mem_str m (w :: S) = true) as -> by (apply mem_str_In; now right).
           rewrite replace_pass; [now rewrite H1|].
           intros a c b Hsplit. apply starts_mk_char. intros ->. apply Hnr. rewrite Hsplit.
           apply in_or_app. right. now left.
        -- cbn [flat flat_map]. now f_equal.
        -- intros k [Hin|Hin]; [right; now left|]. destruct (H3 k Hin) as [->|H]; [now left|].
           right. now right.
Qed.

Lemma view_all : forall rho S ts, (forall m, In (Mark m) ts -> In m S) -> view rho S ts = expand rho ts.
Proof.
  intros rho S ts H. induction ts as [|[c|m] ts IH]; [reflexivity| |].
  - cbn. f_equal. apply IH. intros m Hm. apply H. now right.
  - cbn [view expand flat_map]. rewrite (proj2 (mem_str_In m S)) by (apply H; now left).
    f_equal. apply IH. intros k Hk. apply H. now right.
Qed.
