(** Proofs about running and installing helper programs. *)
From Verif Require Import PyBase PyBaseProofs PyRegex SelectModel PathModel RawModel ProgModel InstallModel InstallSpec.
From Coq Require Import Lia.
Local Open Scope Z_scope.

Ltac zcase H := match type of H with context [?a =? ?b] => destruct (Z.eqb_spec a b) end.

Lemma str_eqb_dec : forall a b : str, {str_eqb a b = true /\ a = b} + {str_eqb a b = false /\ a <> b}.
Proof.
  intros a b. destruct (str_eqb a b) eqn:E.
  - left. split; [reflexivity | now apply str_eqb_eq].
  - right. split; [reflexivity | ]. now apply str_eqb_neq.
Qed.

Section Proofs.
Context {W : Type}.
Variable m : machine W.

(** ** One command *)

Lemma is_sudo_false : forall args, is_sudo args = false -> forall rest, args <> L "sudo" :: rest.
Proof. intros args H rest E. subst args. discriminate H. Qed.
Lemma is_sudo_true : forall args, is_sudo args = true -> exists rest, args = L "sudo" :: rest.
Proof.
  intros [ | a l] H; [discriminate | ]. cbn in H. apply str_eqb_eq in H. subst a. eauto.
Qed.

Lemma once_spec : forall dir args require s r s',
  check_call_once m dir args require s = (r, s') ->
  exists o, m_spawn m (s_world s) dir args = (o, s_world s')
            /\ s_helpers s' = s_helpers s /\ s_apt s' = s_apt s /\ s_port s' = s_port s
            /\ since s s' [Ran dir args] /\ ends require args o r.
Proof.
  intros dir args require s r s' H.
  unfold check_call_once, andthen, spawn, step in H.
  destruct (m_spawn m (s_world s) dir args) as [o w] eqn:E.
  exists o. destruct o as [e | c out].
  - destruct (e =? ENOEXEC) eqn:E1; cbn [andb] in H.
    + apply Z.eqb_eq in E1. subst e.
      destruct (is_sudo args) eqn:E2; cbn in H; injection H as <- <-; cbn.
      * repeat (split; [reflexivity | ]).
        apply is_sudo_true in E2. destruct E2 as (rest & ->). econstructor. reflexivity.
      * repeat (split; [reflexivity | ]). apply ends_refused; [discriminate | ].
        intros _. now apply is_sudo_false.
    + destruct (e =? ENOENT) eqn:E2; cbn in H; injection H as <- <-; cbn;
        repeat (split; [reflexivity | ]).
      * apply Z.eqb_eq in E2. subst e. constructor.
      * apply Z.eqb_neq in E1, E2. constructor; [exact E2 | intros X; contradiction].
  - destruct (c =? 0) eqn:E1.
    + apply Z.eqb_eq in E1. subst c. injection H as <- <-. cbn.
      repeat (split; [reflexivity | ]). constructor.
    + apply Z.eqb_neq in E1.
      destruct require; injection H as <- <-; cbn; repeat (split; [reflexivity | ]); now constructor.
Qed.

Lemma since_app : forall (s s1 s2 : state W) l1 l2, since s s1 l1 -> since s1 s2 l2 -> since s s2 (l1 ++ l2).
Proof. unfold since. intros s s1 s2 l1 l2 H1 H2. rewrite H2, H1. now rewrite app_assoc. Qed.
Lemma since_nil : forall s : state W, since s s [].
Proof. unfold since. intros s. now rewrite app_nil_r. Qed.

Lemma call_spec : forall dir args require retry s r s',
  check_call m dir args require retry s = (r, s') ->
  s_helpers s' = s_helpers s /\ s_apt s' = s_apt s /\ s_port s' = s_port s
  /\ exists o w1, m_spawn m (s_world s) dir args = (o, w1)
     /\ ((~ (retry = true /\ denied require o)
          /\ since s s' [Ran dir args] /\ s_world s' = w1 /\ ends require args o r)
         \/ (retry = true /\ denied require o
             /\ exists o2 w2, m_spawn m w1 dir (L "sudo" :: args) = (o2, w2)
                /\ since s s' [Ran dir args; Ran dir (L "sudo" :: args)] /\ s_world s' = w2
                /\ ends require (L "sudo" :: args) o2 r)).
Proof.
  intros dir args require retry s r s' H.
  unfold check_call in H. unfold andthen at 1, spawn at 1, step at 1 in H.
  destruct (m_spawn m (s_world s) dir args) as [o w] eqn:E.
  set (s1 := mkstate w (s_helpers s) (s_apt s) (s_port s) (s_done s ++ [Ran dir args])) in *.
  assert (AG : forall r s', check_call_once m dir (L "sudo" :: args) require s1 = (r, s') ->
     s_helpers s' = s_helpers s /\ s_apt s' = s_apt s /\ s_port s' = s_port s
     /\ exists o2 w2, m_spawn m w dir (L "sudo" :: args) = (o2, w2)
                /\ since s s' [Ran dir args; Ran dir (L "sudo" :: args)] /\ s_world s' = w2
                /\ ends require (L "sudo" :: args) o2 r).
  { intros r0 s0 H0. apply once_spec in H0. destruct H0 as (o2 & A & B & C & D & F & G).
    cbn in A, B, C, D. repeat (split; [assumption | ]).
    exists o2, (s_world s0). split; [exact A | ]. split; [ | split; [reflexivity | exact G]].
    apply (since_app s s1 s0 [_] [_]); [reflexivity | exact F]. }
  destruct o as [e | c out].
  - destruct (retry && ((e =? EPERM) || (e =? EACCES))) eqn:R.
    + apply andb_prop in R. destruct R as [-> R].
      apply AG in H. destruct H as (A & B & C & D).
      repeat (split; [assumption | ]). exists (Refused e), w. split; [reflexivity | ]. right.
      split; [reflexivity | ]. split; [ | exact D].
      unfold denied. apply orb_prop in R. destruct R as [R | R]; apply Z.eqb_eq in R; subst e; auto.
    + assert (ND : ~ (retry = true /\ denied require (Refused e))).
      { intros [-> [D | [D | (_ & c & out & D & _)]]]; [ | | discriminate D];
          injection D as ->; discriminate R. }
      destruct (e =? ENOEXEC) eqn:E1; cbn [andb] in H.
      * apply Z.eqb_eq in E1. subst e.
        destruct (is_sudo args) eqn:E2; cbn in H; injection H as <- <-; cbn;
          repeat (split; [reflexivity | ]); exists (Refused ENOEXEC), w; (split; [reflexivity | ]); left;
          (split; [exact ND | ]); repeat (split; [reflexivity | ]).
        -- apply is_sudo_true in E2. destruct E2 as (rest & ->). econstructor. reflexivity.
        -- apply ends_refused; [discriminate | ]. intros _. now apply is_sudo_false.
      * destruct (e =? ENOENT) eqn:E2; cbn in H; injection H as <- <-; cbn;
          repeat (split; [reflexivity | ]); exists (Refused e), w; (split; [reflexivity | ]); left;
          (split; [exact ND | ]); repeat (split; [reflexivity | ]).
        -- apply Z.eqb_eq in E2. subst e. constructor.
        -- apply Z.eqb_neq in E1, E2. constructor; [exact E2 | intros X; contradiction].
  - destruct (c =? 0) eqn:E1.
    + apply Z.eqb_eq in E1. subst c. injection H as <- <-. cbn.
      repeat (split; [reflexivity | ]). exists (Exited 0 out), w. split; [reflexivity | ]. left.
      split; [ | repeat (split; [reflexivity | ]); constructor].
      intros [_ [D | [D | (_ & c & out' & D & F)]]]; try discriminate D. injection D as <- <-. now apply F.
    + apply Z.eqb_neq in E1. destruct require.
      * destruct retry.
        -- apply AG in H. destruct H as (A & B & C & D).
           repeat (split; [assumption | ]). exists (Exited c out), w. split; [reflexivity | ]. right.
           split; [reflexivity | ]. split; [ | exact D]. right. right. eauto.
        -- injection H as <- <-. cbn. repeat (split; [reflexivity | ]).
           exists (Exited c out), w. split; [reflexivity | ]. left.
           split; [now intros [X _] | ]. repeat (split; [reflexivity | ]). now constructor.
      * injection H as <- <-. cbn. repeat (split; [reflexivity | ]).
        exists (Exited c out), w. split; [reflexivity | ]. left.
        split; [ | repeat (split; [reflexivity | ]); now constructor].
        intros [_ [D | [D | (D & _)]]]; discriminate D.
Qed.

Lemma output_once_spec : forall dir args require s r s',
  check_output_once m dir args require s = (r, s') ->
  exists o, m_spawn m (s_world s) dir args = (o, s_world s')
            /\ s_helpers s' = s_helpers s /\ s_apt s' = s_apt s /\ s_port s' = s_port s
            /\ since s s' [Ran dir args] /\ prints (m_utf8 m) require o r.
Proof.
  intros dir args require s r s' H.
  unfold check_output_once, andthen, spawn, step in H.
  destruct (m_spawn m (s_world s) dir args) as [o w] eqn:E.
  exists o. destruct o as [e | c out].
  - destruct (e =? ENOENT) eqn:E2; cbn in H; injection H as <- <-; cbn;
      repeat (split; [reflexivity | ]).
    + apply Z.eqb_eq in E2. subst e. constructor.
    + apply Z.eqb_neq in E2. now constructor.
  - destruct (c =? 0) eqn:E1.
    + apply Z.eqb_eq in E1. subst c. injection H as <- <-. cbn.
      repeat (split; [reflexivity | ]). constructor. reflexivity.
    + apply Z.eqb_neq in E1. destruct (m_utf8 m out) as [t | ] eqn:U.
      * destruct require; injection H as <- <-; cbn; repeat (split; [reflexivity | ]);
          [now apply prints_badly with t | now constructor].
      * injection H as <- <-; cbn; repeat (split; [reflexivity | ]). now constructor.
Qed.

Lemma output_spec : forall dir args require retry s r s',
  check_output m dir args require retry s = (r, s') ->
  s_helpers s' = s_helpers s /\ s_apt s' = s_apt s /\ s_port s' = s_port s
  /\ exists o w1, m_spawn m (s_world s) dir args = (o, w1)
     /\ let again := retry = true /\ require = true
                     /\ exists c out text, o = Exited c out /\ c <> 0 /\ m_utf8 m out = Some text in
        ((~ again /\ since s s' [Ran dir args] /\ s_world s' = w1 /\ prints (m_utf8 m) require o r)
         \/ (again
             /\ exists o2 w2, m_spawn m w1 dir (L "sudo" :: args) = (o2, w2)
                /\ since s s' [Ran dir args; Ran dir (L "sudo" :: args)] /\ s_world s' = w2
                /\ prints (m_utf8 m) require o2 r)).
Proof.
  intros dir args require retry s r s' H.
  unfold check_output in H. unfold andthen at 1, spawn at 1, step at 1 in H.
  destruct (m_spawn m (s_world s) dir args) as [o w] eqn:E.
  set (s1 := mkstate w (s_helpers s) (s_apt s) (s_port s) (s_done s ++ [Ran dir args])) in *.
  destruct o as [e | c out].
  - destruct (e =? ENOENT) eqn:E2; cbn in H; injection H as <- <-; cbn;
      repeat (split; [reflexivity | ]); exists (Refused e), w; (split; [reflexivity | ]); left;
      (split; [intros (_ & _ & c & out & t & D & _); discriminate D | ]); repeat (split; [reflexivity | ]).
    + apply Z.eqb_eq in E2. subst e. constructor.
    + apply Z.eqb_neq in E2. now constructor.
  - destruct (c =? 0) eqn:E1.
    + apply Z.eqb_eq in E1. subst c. injection H as <- <-. cbn.
      repeat (split; [reflexivity | ]). exists (Exited 0 out), w. split; [reflexivity | ]. left.
      split; [ | repeat (split; [reflexivity | ]); now constructor].
      intros (_ & _ & c & o' & t & D & F & _). injection D as <- <-. now apply F.
    + apply Z.eqb_neq in E1. destruct (m_utf8 m out) as [t | ] eqn:U.
      * destruct require; [destruct retry | ].
        -- apply output_once_spec in H. destruct H as (o2 & A & B & C & D & F & G).
           cbn in A, B, C, D. repeat (split; [assumption | ]).
           exists (Exited c out), w. split; [reflexivity | ]. right.
           split; [eauto 10 | ]. exists o2, (s_world s'). split; [exact A | ].
           split; [ | split; [reflexivity | exact G]].
           apply (since_app s s1 s' [_] [_]); [reflexivity | exact F].
        -- injection H as <- <-. cbn. repeat (split; [reflexivity | ]).
           exists (Exited c out), w. split; [reflexivity | ]. left.
           split; [now intros [X _] | ]. repeat (split; [reflexivity | ]). now apply prints_badly with t.
        -- injection H as <- <-. cbn. repeat (split; [reflexivity | ]).
           exists (Exited c out), w. split; [reflexivity | ]. left.
           split; [now intros (_ & X & _) | ]. repeat (split; [reflexivity | ]). now constructor.
      * injection H as <- <-. cbn. repeat (split; [reflexivity | ]).
        exists (Exited c out), w. split; [reflexivity | ]. left.
        split; [ | repeat (split; [reflexivity | ]); now constructor].
        intros (_ & _ & c' & o' & t & D & _ & F). injection D as <- <-. rewrite U in F. discriminate F.
Qed.

Lemma original_spec : forall args s r s',
  or_original EEnvironment (check_call m None (L "sudo" :: args) true false) s = (r, s') ->
  exists o, m_spawn m (s_world s) None (L "sudo" :: args) = (o, s_world s')
            /\ s_helpers s' = s_helpers s /\ s_apt s' = s_apt s /\ s_port s' = s_port s
            /\ since s s' [Ran None (L "sudo" :: args)] /\ rescued o r.
Proof.
  intros args s r s' H. unfold or_original, catching in H.
  destruct (check_call m None (L "sudo" :: args) true false s) as [r1 s1] eqn:E.
  apply call_spec in E. destruct E as (A & B & C & o & w1 & D & [(_ & F & G & K) | (X & _)]);
    [ | discriminate X].
  exists o.
  assert (S : s' = s1 /\ rescued o r).
  { inversion K; subst; try discriminate; injection H as <- <-; (split; [reflexivity | ]);
      solve [now constructor | apply resc_refused; discriminate]. }
  destruct S as [-> S]. rewrite G. auto 10.
Qed.

Lemma mkdir_spec : forall d s r s', mkdir m d s = (r, s') ->
  s_helpers s' = s_helpers s /\ s_apt s' = s_apt s /\ s_port s' = s_port s
  /\ ((m_isdir m (s_world s) d = true /\ r = Ok tt /\ s' = s)
      \/ (m_isdir m (s_world s) d = false /\ m_exists m (s_world s) d = true
          /\ r = Err ERuntimeError /\ s' = s)
      \/ (m_isdir m (s_world s) d = false /\ m_exists m (s_world s) d = false
          /\ exists ok w1, m_makedirs m (s_world s) d = (ok, w1)
          /\ ((ok = true /\ r = Ok tt /\ s_world s' = w1 /\ since s s' [MakeDirs d])
              \/ (ok = false
                  /\ since s s' [MakeDirs d; Ran None [L "sudo"; L "mkdir"; L "-p"; L "-m"; L "755"; d]]
                  /\ exists o, m_spawn m w1 None [L "sudo"; L "mkdir"; L "-p"; L "-m"; L "755"; d]
                                = (o, s_world s') /\ rescued o r)))).
Proof.
  intros d s r s' H. unfold mkdir in H. unfold andthen at 1, look at 1 in H.
  destruct (m_isdir m (s_world s) d) eqn:D.
  { injection H as <- <-. auto 10. }
  unfold andthen at 1, look at 1 in H.
  destruct (m_exists m (s_world s) d) eqn:X.
  { injection H as <- <-. auto 10. }
  unfold andthen at 1, step at 1 in H.
  destruct (m_makedirs m (s_world s) d) as [ok w1] eqn:K. destruct ok.
  { injection H as <- <-. cbn. repeat (split; [reflexivity | ]). right. right.
    repeat (split; [reflexivity | ]). exists true, w1. split; [reflexivity | ]. left. repeat split. }
  apply original_spec in H. destruct H as (o & A & B & C & E & F & G). cbn in A, B, C, E.
  repeat (split; [assumption | ]). right. right. repeat (split; [reflexivity | ]).
  exists false, w1. split; [reflexivity | ]. right. split; [reflexivity | ]. split; [ | eauto].
  refine (since_app s _ s' [_] [_] _ F). reflexivity.
Qed.

Lemma copy_spec : forall a b s r s', copy_file m a b s = (r, s') ->
  s_helpers s' = s_helpers s /\ s_apt s' = s_apt s /\ s_port s' = s_port s
  /\ exists ok w1, m_copy m (s_world s) a b = (ok, w1)
     /\ ((ok = true /\ r = Ok tt /\ s_world s' = w1 /\ since s s' [Copy a b])
         \/ (ok = false /\ since s s' [Copy a b; Ran None [L "sudo"; L "cp"; a; b]]
             /\ exists o, m_spawn m w1 None [L "sudo"; L "cp"; a; b] = (o, s_world s') /\ rescued o r)).
Proof.
  intros a b s r s' H. unfold copy_file in H. unfold andthen at 1, step at 1 in H.
  destruct (m_copy m (s_world s) a b) as [ok w1] eqn:K. destruct ok.
  { injection H as <- <-. cbn. repeat (split; [reflexivity | ]).
    exists true, w1. split; [reflexivity | ]. left. repeat split. }
  apply original_spec in H. destruct H as (o & A & B & C & E & F & G). cbn in A, B, C, E.
  repeat (split; [assumption | ]).
  exists false, w1. split; [reflexivity | ]. right. split; [reflexivity | ]. split; [ | eauto].
  refine (since_app s _ s' [_] [_] _ F). reflexivity.
Qed.

(** ** Looking for programs *)

(** Nothing but the memory of the helpers changes, and paths once known stay known *)
Definition quiet (s s' : state W) : Prop :=
  s_world s' = s_world s /\ s_apt s' = s_apt s /\ s_port s' = s_port s /\ s_done s' = s_done s
  /\ (consistent s -> consistent s')
  /\ (forall n p, found s n p -> found s' n p)
  /\ (forall n, h_path (s_helpers s n) = None ->
               h_path (s_helpers s' n) = None \/ h_path (s_helpers s' n) = m_find m (s_world s) n)
  /\ (forall n, h_version (s_helpers s' n) = h_version (s_helpers s n)).

Lemma quiet_refl : forall s, quiet s s.
Proof. intros s. unfold quiet. repeat split; auto; apply H. Qed.
Lemma quiet_trans : forall a b c, quiet a b -> quiet b c -> quiet a c.
Proof.
  intros a b c (A1 & A2 & A3 & A4 & A5 & A6 & A7 & A8) (B1 & B2 & B3 & B4 & B5 & B6 & B7 & B8).
  unfold quiet. repeat (split; [congruence || auto | ]).
  - intros n H1. destruct (A7 n H1) as [A | A]; [destruct (B7 n A) as [B | B]; [auto | right; congruence] | ].
    destruct (h_path (s_helpers b n)) as [p | ] eqn:E.
    + right. rewrite <- A. now apply B6.
    + destruct (B7 n E) as [B | B]; [auto | right; congruence].
  - intros n. now rewrite B8, A8.
Qed.

Lemma path_quiet : forall n s r s', path m n s = (r, s') ->
  r = Ok (h_path (s_helpers s' n)) /\ quiet s s'
  /\ (h_path (s_helpers s n) = None -> h_path (s_helpers s' n) = m_find m (s_world s) n)
  /\ (forall k, k <> n -> s_helpers s' k = s_helpers s k).
Proof.
  intros n s r s' H. unfold path, andthen, recall, look in H.
  destruct (h_path (s_helpers s n)) as [p | ] eqn:P.
  { injection H as <- <-. rewrite P. split; [reflexivity | ]. split; [apply quiet_refl | ].
    split; [discriminate | reflexivity]. }
  destruct (m_find m (s_world s) n) as [p | ] eqn:F.
  - unfold remember in H. injection H as <- <-. cbn. rewrite str_eqb_refl. cbn.
    split; [reflexivity | ]. split; [ | split; [reflexivity | ]].
    + unfold quiet. cbn. repeat (split; [reflexivity | ]). split; [ | split; [ | split]].
      * intros C k. unfold found. cbn. destruct (str_eqb_dec k n) as [[-> E] | [-> E]]; [ | apply C].
        cbn. split; eauto.
      * intros k q. unfold found. cbn. destruct (str_eqb_dec k n) as [[-> E] | [-> E]]; [ | auto].
        subst k. rewrite P. discriminate.
      * intros k. destruct (str_eqb_dec k n) as [[-> E] | [-> E]]; [ | auto].
        subst k. rewrite F. auto.
      * intros k. destruct (str_eqb_dec k n) as [[-> E] | [-> E]]; [ | auto]. now subst k.
    + intros k E. destruct (str_eqb_dec k n) as [[_ E'] | [-> _]]; [contradiction | reflexivity].
  - injection H as <- <-. rewrite P. split; [reflexivity | ]. split; [apply quiet_refl | ].
    split; reflexivity.
Qed.

Lemma installed_quiet : forall n s r s', consistent s -> installed m n s = (r, s') ->
  exists b, r = Ok b /\ quiet s s' /\ (b = true <-> exists p, found s' n p)
  /\ (h_installed (s_helpers s n) = Some b \/ h_installed (s_helpers s n) = None
                                              /\ (b = false -> m_find m (s_world s) n = None)).
Proof.
  intros n s r s' C H. unfold installed in H. unfold andthen at 1, recall at 1 in H.
  destruct (h_installed (s_helpers s n)) as [b | ] eqn:I.
  { injection H as <- <-. exists b. split; [reflexivity | ]. split; [apply quiet_refl | ]. split; [ | auto].
    rewrite <- (C n). rewrite I. split; [now intros -> | now injection 1]. }
  unfold andthen in H. destruct (path m n s) as [r1 s1] eqn:P.
  apply path_quiet in P. destruct P as (-> & Q & F & O).
  unfold recall, remember in H. injection H as <- <-.
  set (b := match h_path (s_helpers s1 n) with Some _ => true | None => false end).
  exists b. split; [reflexivity | ].
  assert (B : b = true <-> exists p, found s1 n p).
  { unfold b, found. destruct (h_path (s_helpers s1 n)); split; try discriminate; eauto.
    intros [p X]. discriminate X. }
  assert (C1 : consistent s1) by (apply Q; exact C).
  split; [ | split].
  - destruct Q as (A1 & A2 & A3 & A4 & A5 & A6 & A7 & A8).
    unfold quiet. cbn. repeat (split; [assumption | ]). split; [ | split; [ | split]].
    + intros _ k. unfold found. cbn. destruct (str_eqb_dec k n) as [[-> E] | [-> E]]; [ | apply C1].
      subst k. cbn. rewrite <- B. split; [now injection 1 | now intros ->].
    + intros k q X. unfold found. cbn. apply A6 in X.
      destruct (str_eqb_dec k n) as [[-> E] | [-> E]]; [ | exact X]. subst k. exact X.
    + intros k X. specialize (A7 k X).
      destruct (str_eqb_dec k n) as [[-> E] | [-> E]]; [ | exact A7]. subst k. exact A7.
    + intros k. rewrite <- A8. destruct (str_eqb_dec k n) as [[-> E] | [-> E]]; [ | reflexivity]. now subst k.
  - unfold found. cbn. rewrite str_eqb_refl. exact B.
  - right. split; [reflexivity | ]. intros BF.
    destruct (h_path (s_helpers s n)) as [p | ] eqn:P0.
    { exfalso. assert (X : h_installed (s_helpers s n) = Some true) by (apply C; exists p; exact P0).
      rewrite I in X. discriminate X. }
    rewrite <- (F eq_refl). unfold b in BF. destruct (h_path (s_helpers s1 n)); [discriminate | reflexivity].
Qed.

(** ** What every piece of code keeps *)

Section Keeps.
Variable P : bool -> list str -> Prop.

Definition keeps (s s' : state W) : Prop :=
  consistent s -> consistent s' /\ (forall n p, found s n p -> found s' n p)
                  /\ exists l, since s s' l /\ orderly P l.
Definition stays {A} (x : act W A) : Prop := forall s r s', x s = (r, s') -> keeps s s'.

Lemma orderly_app : forall a b, orderly P a -> orderly P b -> orderly P (a ++ b).
Proof.
  induction 1; intros O; cbn;
    [exact O | eapply or_run | apply or_again | apply or_mkdir | apply or_mkdir_again | apply or_copy
     | apply or_copy_again | apply or_fetch | apply or_release | apply or_ask]; eauto.
Qed.

Lemma keeps_refl : forall s, keeps s s.
Proof. intros s C. split; [exact C | ]. split; [auto | ]. exists []. split; [apply since_nil | constructor]. Qed.
Lemma keeps_trans : forall a b c, keeps a b -> keeps b c -> keeps a c.
Proof.
  intros a b c H1 H2 C. destruct (H1 C) as (C1 & F1 & l1 & S1 & O1).
  destruct (H2 C1) as (C2 & F2 & l2 & S2 & O2). split; [exact C2 | ]. split; [auto | ].
  exists (l1 ++ l2). split; [now apply since_app with b | now apply orderly_app].
Qed.
Lemma quiet_keeps : forall s s', quiet s s' -> keeps s s'.
Proof.
  intros s s' (A1 & A2 & A3 & A4 & A5 & A6 & A7 & A8) C. split; [auto | ]. split; [exact A6 | ].
  exists []. split; [ | constructor]. unfold since. now rewrite A4, app_nil_r.
Qed.
(** The memory of the helpers is untouched and the events are orderly *)
Lemma events_keep : forall s s' l, s_helpers s' = s_helpers s -> since s s' l -> orderly P l -> keeps s s'.
Proof.
  intros s s' l H S O C. split; [ | split].
  - intros n. unfold found. rewrite H. apply C.
  - intros n p. unfold found. now rewrite H.
  - eauto.
Qed.

Lemma stays_ret : forall A (a : A), stays (ret a).
Proof. intros A a s r s' H. injection H as <- <-. apply keeps_refl. Qed.
Lemma stays_raise : forall A e, stays (A := A) (raise e).
Proof. intros A a s r s' H. injection H as <- <-. apply keeps_refl. Qed.
Lemma stays_andthen : forall A B (x : act W A) (f : A -> act W B),
  stays x -> (forall a, stays (f a)) -> stays (andthen x f).
Proof.
  intros A B x f X F s r s' H. unfold andthen in H. destruct (x s) as [[a | e] s1] eqn:E.
  - apply keeps_trans with s1; [now apply (X _ _ _ E) | now apply (F _ _ _ _ H)].
  - injection H as <- <-. now apply (X _ _ _ E).
Qed.
Lemma stays_catching : forall A (x : act W A) f,
  stays x -> (forall e y, f e = Some y -> stays y) -> stays (catching x f).
Proof.
  intros A x f X F s r s' H. unfold catching in H. destruct (x s) as [[a | e] s1] eqn:E.
  - injection H as <- <-. now apply (X _ _ _ E).
  - destruct (f e) as [y | ] eqn:Y.
    + apply keeps_trans with s1; [now apply (X _ _ _ E) | now apply (F _ _ Y _ _ _ H)].
    + injection H as <- <-. now apply (X _ _ _ E).
Qed.
Lemma stays_if : forall A (b : bool) (x y : act W A), stays x -> stays y -> stays (if b then x else y).
Proof. intros A [ | ]; auto. Qed.
Lemma stays_look : forall A (f : W -> A), stays (look f).
Proof. intros A f s r s' H. injection H as <- <-. apply keeps_refl. Qed.
Lemma stays_recall : forall n, stays (recall n).
Proof. intros n s r s' H. injection H as <- <-. apply keeps_refl. Qed.
Lemma stays_step : forall A e (f : W -> A * W), orderly P [e] -> stays (step e f).
Proof.
  intros A e f O s r s' H. unfold step in H. destruct (f (s_world s)) as [a w].
  injection H as <- <-. now apply (events_keep s _ [e]).
Qed.
Lemma stays_path : forall n, stays (path m n).
Proof. intros n s r s' H. apply path_quiet in H. now apply quiet_keeps. Qed.
Lemma stays_installed : forall n, stays (installed m n).
Proof.
  intros n s r s' H C. apply installed_quiet in H; [ | exact C]. destruct H as (b & _ & Q & _).
  now apply quiet_keeps.
Qed.
Lemma stays_call : forall dir args require retry, P retry args -> stays (check_call m dir args require retry).
Proof.
  intros dir args require retry O s r s' H. apply call_spec in H.
  destruct H as (A & _ & _ & o & w1 & _ & [(_ & S & _) | (R & _ & o2 & w2 & _ & S & _)]).
  - apply (events_keep s s' _ A S). apply or_run with retry; [exact O | constructor].
  - apply (events_keep s s' _ A S). rewrite R in O. apply or_again; [exact O | constructor].
Qed.
Lemma stays_output : forall dir args require retry, P retry args -> stays (check_output m dir args require retry).
Proof.
  intros dir args require retry O s r s' H. apply output_spec in H.
  destruct H as (A & _ & _ & o & w1 & _ & [(_ & S & _) | ((R & _) & o2 & w2 & _ & S & _)]).
  - apply (events_keep s s' _ A S). apply or_run with retry; [exact O | constructor].
  - apply (events_keep s s' _ A S). rewrite R in O. apply or_again; [exact O | constructor].
Qed.
Lemma stays_mkdir : forall d, stays (mkdir m d).
Proof.
  intros d s r s' H. apply mkdir_spec in H.
  destruct H as (A & _ & _ & [(_ & _ & ->) | [(_ & _ & _ & ->) | (_ & _ & ok & w1 & _ & [(_ & _ & _ & S) | (_ & S & _)])]]).
  - apply keeps_refl.
  - apply keeps_refl.
  - apply (events_keep s s' _ A S). repeat constructor.
  - apply (events_keep s s' _ A S). apply or_mkdir_again. constructor.
Qed.
Lemma stays_copy : forall a b, stays (copy_file m a b).
Proof.
  intros a b s r s' H. apply copy_spec in H.
  destruct H as (A & _ & _ & ok & w1 & _ & [(_ & _ & _ & S) | (_ & S & _)]).
  - apply (events_keep s s' _ A S). repeat constructor.
  - apply (events_keep s s' _ A S). apply or_copy_again. constructor.
Qed.

Lemma stays_any : forall l, stays (any_installed m l).
Proof.
  induction l as [ | n l IH]; [apply stays_ret | ].
  apply stays_andthen; [apply stays_installed | ]. intros b. apply stays_if; [apply stays_ret | exact IH].
Qed.
Lemma stays_unsure : forall n, stays (unsure m n).
Proof.
  intros n. unfold unsure. repeat apply stays_if; try apply stays_ret.
  - repeat (apply stays_andthen; [apply stays_if; [apply stays_installed | apply stays_ret] | intros _]).
    apply stays_ret.
  - apply stays_andthen; [apply stays_any | intros b; apply stays_ret].
Qed.
Lemma stays_fail : forall A n, stays (fail_unsure (A := A) m n).
Proof. intros A n. apply stays_andthen; [apply stays_unsure | intros e; apply stays_raise]. Qed.
Lemma stays_ready : forall n x, stays x -> stays (ready m n x).
Proof.
  intros n x X. apply stays_andthen; [apply stays_path | ]. intros [p | ]; [apply stays_ret | ].
  destruct (m_confirm m) as [f | ]; [ | exact X].
  apply stays_andthen; [apply stays_step; repeat constructor | ].
  intros [ | ]; [exact X | apply stays_raise].
Qed.
Lemma stays_bare : forall n, stays (install_bare m n).
Proof.
  intros n. apply stays_andthen; [apply stays_installed | ]. intros b.
  apply stays_if; [apply stays_ret | apply stays_fail].
Qed.
Lemma stays_call_output : forall n args require, P false (n :: args) -> stays (call_output m n args require).
Proof.
  intros n args require O. apply stays_andthen; [apply stays_ready, stays_bare | ].
  intros _. now apply stays_output.
Qed.
Lemma stays_call_shown : forall n args retry, P retry (n :: args) -> stays (call_shown m n args retry).
Proof.
  intros n args retry O. apply stays_andthen; [apply stays_ready, stays_bare | ].
  intros _. now apply stays_call.
Qed.
Lemma stays_get : forall A (g : state W -> A), stays (fun s => (Ok (g s), s)).
Proof. intros A g s r s' H. injection H as <- <-. apply keeps_refl. Qed.
Lemma stays_set_apt : stays set_apt.
Proof. intros s r s' H. injection H as <- <-. apply (events_keep s _ []); [reflexivity | unfold since; cbn; now rewrite app_nil_r | constructor]. Qed.
Lemma stays_set_port : stays set_port.
Proof. intros s r s' H. injection H as <- <-. apply (events_keep s _ []); [reflexivity | unfold since; cbn; now rewrite app_nil_r | constructor]. Qed.
Lemma stays_archive : forall url body,
  In url [L "https://github.com/goblinhack/fatdisk/archive/v1.0.0-beta.tar.gz";
          L "http://people.freebsd.org/~brian/vmdktool/vmdktool-1.4.tar.gz"] ->
  (forall d, stays (body d)) -> stays (with_archive m url body).
Proof.
  intros url body U B. apply stays_andthen; [apply stays_step; apply or_fetch; [exact U | constructor] | ].
  intros [dir | e]; [ | apply stays_raise].
  intros s r s' H. destruct (body dir s) as [x s1] eqn:E.
  destruct (step (Release dir) (fun w => (tt, m_release m w dir)) s1) as [y s2] eqn:F.
  injection H as <- <-. apply keeps_trans with s1; [now apply (B _ _ _ _ E) | ].
  apply (stays_step _ (Release dir) (fun w => (tt, m_release m w dir)) ltac:(repeat constructor) _ _ _ F).
Qed.

Hypothesis I : forall b args, installs b args -> P b args.

Lemma stays_package : forall pm p, (exists q, pm = L q /\ is_package q p) -> stays (install_package m pm p).
Proof.
  intros pm p (q & -> & K). unfold install_package.
  destruct (str_eqb_dec (L q) (L "apt-get")) as [[-> E] | [-> E]].
  { assert (q = "apt-get"%string) by (rewrite <- (string_of_list_ascii_of_string q); unfold L in E; now rewrite E).
    subst q. apply stays_andthen; [apply stays_call_output, I; now constructor | ].
    intros text. apply stays_if; [apply stays_ret | ].
    apply stays_andthen; [apply stays_get | ]. intros u.
    apply stays_andthen.
    - apply stays_if; [apply stays_ret | ]. apply stays_andthen; [apply stays_call_shown, I; constructor | ].
      intros _. apply stays_set_apt.
    - intros _. apply stays_call_shown, I. now constructor. }
  destruct (str_eqb_dec (L q) (L "yum")) as [[-> E1] | [-> E1]].
  { assert (q = "yum"%string) by (rewrite <- (string_of_list_ascii_of_string q); unfold L in E1; now rewrite E1).
    subst q. apply stays_call_shown, I. now constructor. }
  destruct (str_eqb_dec (L q) (L "port")) as [[-> E2] | [-> E2]].
  { assert (q = "port"%string) by (rewrite <- (string_of_list_ascii_of_string q); unfold L in E2; now rewrite E2).
    subst q. apply stays_andthen; [apply stays_get | ]. intros u.
    apply stays_andthen.
    - apply stays_if; [apply stays_ret | ]. apply stays_andthen; [apply stays_call_shown, I; constructor | ].
      intros _. apply stays_set_port.
    - intros _. apply stays_call_shown, I. now constructor. }
  destruct (str_eqb_dec (L q) (L "brew")) as [[-> E3] | [-> E3]]; [ | apply stays_raise].
  assert (q = "brew"%string) by (rewrite <- (string_of_list_ascii_of_string q); unfold L in E3; now rewrite E3).
  subst q. apply stays_call_shown, I. now constructor.
Qed.

Lemma provider_packages : forall n pm p, In (pm, p) (provider n) -> exists q, pm = L q /\ is_package q p.
Proof.
  assert (G : forall q r, package q r -> exists q', L q = L q' /\ is_package q' (map L r)).
  { intros q r H. exists q. split; [reflexivity | ]. now exists r. }
  intros n pm p. unfold provider.
  repeat match goal with
         | |- context [if ?b then _ else _] => destruct b
         end; cbn [In]; intros H;
  repeat match type of H with
         | _ \/ _ => destruct H as [H | H];
             [assert (E1 := f_equal fst H); assert (E2 := f_equal snd H); cbn [fst snd] in E1, E2; subst pm p; clear H | ]
         end;
  try contradiction H;
  lazymatch goal with
  | |- exists q, L ?pm = L q /\ is_package q ?p =>
      let r := lazymatch p with
               | [L ?a] => constr:([a]) | [L ?a; L ?b] => constr:([a; b]) end in
      apply (G pm r); cbn; tauto
  end.
Qed.

Lemma stays_from : forall n l, (forall pm p, In (pm, p) l -> exists q, pm = L q /\ is_package q p) ->
  stays (install_from m n l).
Proof.
  intros n l. induction l as [ | [pm p] l IH]; intros H; [apply stays_fail | ].
  cbn. apply stays_andthen; [apply stays_installed | ]. intros b. apply stays_if.
  - apply stays_package. apply H. now left.
  - apply IH. intros pm' p' X. apply H. now right.
Qed.
Lemma stays_default : forall n, stays (install_default m n).
Proof. intros n. apply stays_from. apply provider_packages. Qed.
Lemma stays_with : forall n x y, stays x -> stays y -> stays (install_with m n x y).
Proof.
  intros n x y X Y. apply stays_andthen; [apply stays_installed | ]. intros b.
  apply stays_if; [apply stays_ret | ]. apply stays_andthen; [exact X | ]. intros c.
  apply stays_if; [apply stays_fail | ]. apply stays_andthen; [exact Y | ]. intros _.
  apply stays_andthen; [apply stays_path | ]. intros [p | ]; [apply stays_ret | apply stays_raise].
Qed.
Lemma stays_plain : forall n, stays (install_plain m n).
Proof. intros n. apply stays_with; [apply stays_any | apply stays_default]. Qed.
Lemma stays_select : forall l, stays (select_names m l).
Proof.
  intros l. apply stays_andthen; [apply stays_any | ]. intros b. apply stays_if; [apply stays_ret | ].
  apply stays_andthen.
  - induction l as [ | n l IH]; [apply stays_ret | ]. cbn.
    apply stays_andthen; [apply stays_any | ]. intros c. apply stays_if; [ | exact IH].
    apply stays_andthen; [apply stays_plain | intros _; apply stays_ret].
  - intros c. apply stays_if; [apply stays_ret | ]. apply stays_andthen; [ | intros _; apply stays_raise].
    induction l as [ | n l IH]; [apply stays_ret | ]. cbn.
    apply stays_andthen; [apply stays_unsure | intros _; exact IH].
Qed.
Lemma stays_or_build : forall n x, stays x -> stays (or_build m n x).
Proof.
  intros n x X. apply stays_catching; [apply stays_default | ].
  intros e y E. destruct e; try discriminate E.
  destruct (str_eqb (m_system m) (L "Linux")); [injection E as <-; exact X | discriminate E].
Qed.
Lemma stays_install : forall n, stays (install m n).
Proof.
  intros n. unfold install. apply stays_if; [ | apply stays_if; [ | apply stays_plain]].
  - apply stays_with.
    + apply stays_andthen; [apply stays_any | ]. intros a. apply stays_if; [apply stays_ret | ].
      apply stays_if; [apply stays_ret | ].
      apply stays_andthen; [apply stays_installed | ]. intros b.
      apply stays_andthen; [apply stays_if; [apply stays_ret | apply stays_any] | ]. intros c.
      apply stays_if; [apply stays_ret | ].
      apply stays_andthen; [apply stays_any | ]. intros d. apply stays_if; [apply stays_ret | apply stays_any].
    + apply stays_or_build. apply stays_andthen; [apply stays_plain | intros _].
      apply stays_andthen; [apply stays_select | intros _].
      apply stays_archive; [now left | ]. intros d.
      apply stays_andthen; [apply stays_call, I; constructor | intros _].
      apply stays_andthen; [apply stays_mkdir | intros _]. apply stays_copy.
  - apply stays_with; [apply stays_any | ].
    apply stays_or_build. apply stays_andthen; [apply stays_plain | intros _].
    apply stays_andthen; [apply stays_installed | intros a].
    apply stays_andthen.
    + apply stays_if.
      * apply stays_package. exists "apt-get"%string. split; [reflexivity | ].
        exists ["zlib1g-dev"%string]. split; [cbn; tauto | reflexivity].
      * apply stays_andthen; [apply stays_installed | intros y]. apply stays_if; [ | apply stays_raise].
        apply stays_package. exists "yum"%string. split; [reflexivity | ].
        exists ["zlib-devel"%string]. split; [cbn; tauto | reflexivity].
    + intros _. apply stays_archive; [now (right; left) | ]. intros d.
      apply stays_andthen; [apply stays_call, I; constructor | intros _].
      apply stays_andthen; [apply stays_mkdir | intros _].
      apply stays_andthen; [apply stays_mkdir | intros _].
      apply stays_call, I. cbn. constructor.
Qed.
End Keeps.
End Proofs.
