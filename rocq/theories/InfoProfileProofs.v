(** Proofs about the table of profiles. *)
From Coq Require Import List Ascii ZArith QArith Bool Lia.
Import ListNotations.
From Verif Require Import PyBase PyBaseProofs PyDict PyDictProofs ValidationModel NamesModel XmlModel ItemModel ItemSpec HardwareModel HardwareSpec HardwareIdProofs CountSpec CountProofs
  FindSpec FindProofs ValidateHwModel ValidateHwSpec ValidateHwProofs UnitsModel PrettyModel NetworkModel ProfileModel DriveModel EnvPropModel ProductModel WrapModel InfoModel InfoSpec.
From Verif Require ProfileDocProofs PrettyProofs PrettySpec RawProofs.
Local Open Scope nat_scope.

Lemma ok_inj : forall {A} (a b : A), Ok a = Ok b -> a = b.
Proof. congruence. Qed.

Lemma rbind_ok : forall {A B} (r : result A) (f : A -> result B) b, (do x <- r; f x) = Ok b -> exists a, r = Ok a /\ f a = Ok b.
Proof. intros A B [a | e] f b H; [eauto | discriminate]. Qed.
Ltac step H x Hx := apply rbind_ok in H; destruct H as (x & Hx & H).

Lemma each_spec : forall A (f : A -> result (list str)) l lines, each f l = Ok lines ->
  exists blocks, lines = concat blocks /\ Forall2 (fun x b => f x = Ok b) l blocks.
Proof.
  intros A f l. induction l as [ | x l IH]; intros lines H; cbn [each] in H.
  - injection H as <-. exists []. split; [reflexivity | constructor].
  - step H a Ha. step H r Hr. injection H as <-. destruct (IH _ Hr) as (blocks & -> & F).
    exists (a :: blocks). split; [reflexivity | ]. now constructor.
Qed.
Lemma each_ok : forall A (f : A -> result (list str)) l, (forall x, In x l -> exists b, f x = Ok b) -> exists lines, each f l = Ok lines.
Proof.
  intros A f l. induction l as [ | x l IH]; intros H; [now exists [] | ]. cbn [each].
  destruct (H x (or_introl eq_refl)) as [b ->]. destruct IH as [r ->]; [intros; apply H; now right | ]. eexists. reflexivity.
Qed.

Lemma value_int : forall s z, int_or_err s = Ok z <-> py_int s = Some z.
Proof. intros s z. unfold int_or_err. destruct (py_int s); split; congruence. Qed.
Lemma capacity_spec : forall E disk c, get_capacity_from_disk E disk = Ok c <-> capacity (e_ver E) disk c.
Proof.
  intros E disk c. unfold get_capacity_from_disk, capacity. split.
  - intros H. destruct (get_attr disk (DISK_CAPACITY (e_ver E))) as [s | ]; [ | discriminate]. step H z Hz.
    apply value_int in Hz. exists s, z. split; [reflexivity | ]. split; [assumption | exact H].
  - intros (s & n & -> & Hn & H). apply value_int in Hn. rewrite Hn. exact H.
Qed.
Lemma fold_capacity : forall E l a c, fold_result (fun a e => do c <- get_capacity_from_disk E e; Ok (a + c)%Z) l a = Ok c ->
  exists cs, Forall2 (capacity (e_ver E)) l cs /\ c = (a + sum cs)%Z.
Proof.
  intros E l. induction l as [ | x l IH]; intros a c H; cbn [fold_result] in H.
  - injection H as <-. exists []. split; [constructor | cbn; lia].
  - step H b Hb. step Hb d Hd. injection Hb as <-. destruct (IH _ _ H) as (cs & F & ->). apply capacity_spec in Hd.
    exists (d :: cs). split; [now constructor | ]. cbn [sum fold_right]. fold (sum cs). lia.
Qed.
Lemma fold_capacity_ok : forall E l a, (forall d, In d l -> exists c, capacity (e_ver E) d c) ->
  exists c, fold_result (fun a e => do c <- get_capacity_from_disk E e; Ok (a + c)%Z) l a = Ok c.
Proof.
  intros E l. induction l as [ | x l IH]; intros a H; [now exists a | ]. cbn [fold_result].
  destruct (H x (or_introl eq_refl)) as [c Hc]. apply capacity_spec in Hc. rewrite Hc. cbn [rbind]. apply IH. intros; apply H; now right.
Qed.
Lemma findall_below : forall tag e, findall tag e = below tag e.
Proof. reflexivity. Qed.
Lemma disks_size_spec : forall E m c, disks_size E m = Ok c -> total_capacity (e_ver E) (m_disks (iv_vmd m)) c.
Proof.
  intros E m c H. unfold disks_size in H. destruct (m_disks (iv_vmd m)) as [s | ]; cbn [total_capacity]; [ | congruence].
  destruct (fold_capacity _ _ _ _ H) as (cs & F & ->). exists cs. split; [exact F | reflexivity].
Qed.

Lemma longest_ge : forall l s, In s l -> length s <= longest l.
Proof.
  induction l as [ | x l IH]; intros s H; [destruct H | ]. cbn [longest fold_right]. fold (longest l).
  destruct H as [-> | H]; [lia | ]. specialize (IH s H). lia.
Qed.
Lemma longest_some : forall l, longest l = 0 \/ exists s, In s l /\ length s = longest l.
Proof.
  induction l as [ | x l IH]; [now left | ]. cbn [longest fold_right]. fold (longest l). right.
  destruct (Nat.max_spec (length x) (longest l)) as [[H ->] | [H ->]]; [ | exists x; split; [now left | reflexivity]].
  destruct IH as [H0 | (s & Hs & Hl)]; [lia | ]. exists s. split; [now right | assumption].
Qed.
Section Profile.
Variables (E : env) (m : info_vm).
Let h := m_hw (iv_vmd m).
Hypothesis R : hw_reachable (e_ver E) h.

Lemma keys_of : forall rt l P ks, find_all_items E h rt l P = Ok ks -> exists keys, natural_sort (map fst h) = Ok keys.
Proof. intros rt l P ks H. unfold find_all_items in H. step H keys Hk. eauto. Qed.

Lemma cpus_spec : forall p s, profile_cpus E m p = Ok s -> shown_cpus E h p s.
Proof.
  intros p s H. unfold profile_cpus in H. step H o Ho. fold h in Ho.
  assert (K : exists keys, natural_sort (map fst h) = Ok keys).
  { unfold find_item in Ho. step Ho ks Hks. now apply keys_of in Hks. }
  destruct K as [keys K]. pose proof (find_one E h "cpu" p keys (reachable_ids _ _ R) K rmap_cpu) as F. change (L "cpu"%string) with (L "cpu") in F.
  rewrite Ho in F. destruct o as [k | ].
  - destruct F as (i & Hi & D & U). step H q Hq. unfold value_in in Hq. fold h in Hq. rewrite Hi in Hq. cbn [rbind] in Hq.
    right. exists k, i. split; [assumption | ]. split; [ | assumption]. unfold quantity, reports. rewrite Hq.
    destruct q as [[x | x] | ]; try discriminate. now injection H as ->.
  - injection H as <-. left. auto.
Qed.
Lemma memory_spec : forall p b, profile_memory E m p = Ok b -> memory_bytes E h p b.
Proof.
  intros p b H. unfold profile_memory in H. step H o Ho. fold h in Ho.
  assert (K : exists keys, natural_sort (map fst h) = Ok keys).
  { unfold find_item in Ho. step Ho ks Hks. now apply keys_of in Hks. }
  destruct K as [keys K]. pose proof (find_one E h "memory" p keys (reachable_ids _ _ R) K rmap_memory) as F.
  rewrite Ho in F. destruct o as [k | ].
  - destruct F as (i & Hi & D & U). step H q Hq. step H u Hu. unfold value_in in Hq, Hu. fold h in Hq, Hu. rewrite Hi in Hq, Hu. cbn [rbind] in Hq, Hu.
    right. unfold ValidateHwModel.bytes_of in H. destruct q as [[s | s] | ]; try discriminate.
    destruct u as [[u | u] | ]; try discriminate.
    + exists k, i, s, u. split; [assumption | ]. split; [assumption | ]. split; [exact Hq | ]. split; [left; exact Hu | exact H].
    + exists k, i, s, []. split; [assumption | ]. split; [assumption | ]. split; [exact Hq | ]. split; [right; split; [exact Hu | reflexivity] | exact H].
  - injection H as <-. left. auto.
Qed.
Lemma count_spec : forall rt v p n, res_map (L rt) = Ok v -> get_item_count E h (Some (L rt)) p = Ok n ->
  exists c, number_of E h rt p c /\ n = Z.of_nat c.
Proof.
  intros rt v p n Hv H.
  assert (K : exists keys, natural_sort (map fst h) = Ok keys).
  { unfold get_item_count, item_counts in H. step H c Hc. step Hc ks Hks. now apply keys_of in Hks. }
  destruct K as [keys K].
  destruct (find_all_ok E h (Some (L rt)) [] [p] keys (reachable_ids _ _ R) (no_conds _) K) as [ks Hks].
  { intros t [= <-]. unfold res_map in Hv. destruct (dget str_eqb (L rt) RES_MAP); [eauto | discriminate]. }
  pose proof (find_all_wanted E h (Some (L rt)) [] [p] ks (reachable_ids _ _ R) (no_conds _) Hks) as (ND & _ & W).
  rewrite (count_devices E h (L rt) v p ks Hv Hks) in H. injection H as <-.
  exists (length ks). split; [ | reflexivity]. exists ks. split; [assumption | ]. split; [exact W | reflexivity].
Qed.
Lemma count_ok : forall rt v p keys, res_map (L rt) = Ok v -> natural_sort (map fst h) = Ok keys ->
  exists n, get_item_count E h (Some (L rt)) p = Ok n.
Proof.
  intros rt v p keys Hv K.
  destruct (find_all_ok E h (Some (L rt)) [] [p] keys (reachable_ids _ _ R) (no_conds _) K) as [ks Hks].
  { intros t [= <-]. unfold res_map in Hv. destruct (dget str_eqb (L rt) RES_MAP); [eauto | discriminate]. }
  rewrite (count_devices E h (L rt) v p ks Hv Hks). eauto.
Qed.

Lemma zdec_nat : forall n, zdec (Z.of_nat n) = dec (N.of_nat n).
Proof.
  intros n. unfold zdec. assert (H : (Z.of_nat n <? 0)%Z = false) by (apply Z.ltb_ge; lia). rewrite ?H.
  destruct (Z.of_nat n) eqn:En; try lia; f_equal; lia.
Qed.
Lemma profile_row_of : forall w a b c d e f, profile_row w a b c d e f =
  row_of [to_left w a; to_right 4 b; to_right 9 c; to_right 4 d; to_right 7 e; to_right 14 f].
Proof. reflexivity. Qed.

Variable wrap_hyphens : Z -> str -> str -> str -> result (list str).
Lemma profile_lines_spec : forall width verbose p block, profile_lines E wrap_hyphens m width verbose p = Ok block ->
  exists row rest, block = row :: rest
    /\ profile_shown E h (m_disks (iv_vmd m)) (profile_width E m) (opt_str_eqb p (default_profile E m)) p row
    /\ (verbose = false \/ p = None \/ iv_deploy m = None -> rest = [])
    /\ (forall id sec, verbose = true -> p = Some id -> iv_deploy m = Some sec ->
        exists c a b, find_child sec (CONFIG (e_ver E)) [(CONFIG_ID (e_ver E), id)] false = Ok (Some c)
          /\ wrap_hyphens width (repeat " "%char 4) (repeat " "%char 21)
               (to_left 15 (L "Label:") ++ L " """ ++ name_or_none (findtext_opt (CFG_LABEL (e_ver E)) c) ++ L """") = Ok a
          /\ wrap_hyphens width (repeat " "%char 4) (repeat " "%char 21)
               (to_left 15 (L "Description:") ++ L " """ ++ name_or_none (findtext_opt (CFG_DESC (e_ver E)) c) ++ L """") = Ok b
          /\ rest = a ++ b).
Proof.
  intros width verbose p block H. unfold profile_lines in H. fold h in H.
  step H cpus Hcpus. step H mem Hmem. step H nics Hnics. step H serials Hserials. step H disks Hdisks. step H size Hsize.
  step H memt Hmemt. step H sizet Hsizet. cbv zeta in H.
  apply cpus_spec in Hcpus. apply memory_spec in Hmem. apply disks_size_spec in Hsize.
  destruct (count_spec "ethernet" _ _ _ eq_refl Hnics) as (n1 & N1 & ->).
  destruct (count_spec "serial" _ _ _ eq_refl Hserials) as (n2 & N2 & ->).
  destruct (count_spec "harddisk" _ _ _ eq_refl Hdisks) as (n3 & N3 & ->).
  rewrite !zdec_nat, profile_row_of in H.
  match type of H with match p with Some _ => _ | None => Ok [?r] end = _ => set (row := r) in H end.
  assert (S : profile_shown E h (m_disks (iv_vmd m)) (profile_width E m) (opt_str_eqb p (default_profile E m)) p row).
  { unfold row. apply (Profile_shown E h _ _ _ p cpus mem memt n1 n2 n3 size sizet); assumption. }
  destruct p as [id | ]; [destruct (iv_deploy m) as [sec | ] eqn:Ed; [destruct verbose | ] | ].
  - step H c Hc. destruct c as [c | ]; [ | discriminate]. step H a Ha. step H b Hb. injection H as <-.
    exists row, (a ++ b). split; [reflexivity | ]. split; [assumption | ].
    split; [intros [X | [X | X]]; discriminate | ]. intros id' sec' _ X Y. injection X as <-. injection Y as <-.
    exists c, a, b. auto.
  - injection H as <-. exists row, []. split; [reflexivity | ]. split; [assumption | ]. split; [reflexivity | discriminate].
  - injection H as <-. exists row, []. split; [reflexivity | ]. split; [assumption | ]. split; [reflexivity | discriminate].
  - injection H as <-. exists row, []. split; [reflexivity | ]. split; [assumption | ]. split; [reflexivity | discriminate].
Qed.

Lemma in_table_eq : (match profile_ids E m with [] => [None] | l => l end) = in_table (profile_ids E m).
Proof. unfold in_table. destruct (profile_ids E m); reflexivity. Qed.
Lemma default_first : default_profile E m = first_of (in_table (profile_ids E m)).
Proof. unfold default_profile, first_of, in_table. destruct (profile_ids E m); reflexivity. Qed.

Lemma opt_str_eqb_eq : forall a b, opt_str_eqb a b = true <-> a = b.
Proof.
  intros [a | ] [b | ]; cbn; try (split; congruence). rewrite str_eqb_eq. split; congruence.
Qed.

Lemma cell_length : forall d p, length (profile_cell d p) = 2 + length (name_or_none p) + (if d then 10 else 0).
Proof. intros d p. unfold profile_cell. rewrite !app_length. change (length (L "  ")) with 2. destruct d; [change (length (L " (default)")) with 10 | change (length (@nil ascii)) with 0]; lia. Qed.

Lemma width_fits : forall p, In p (in_table (profile_ids E m)) ->
  length (profile_cell (opt_str_eqb p (default_profile E m)) p) <= profile_width E m.
Proof.
  intros p H. rewrite cell_length. unfold profile_width. rewrite in_table_eq.
  assert (A : length (shown p) <= longest (map shown (in_table (profile_ids E m)))) by (apply longest_ge; now apply in_map).
  change (name_or_none p) with (shown p).
  destruct (opt_str_eqb p (default_profile E m)) eqn:D.
  - apply opt_str_eqb_eq in D. rewrite <- D. rewrite app_length. change (length (L " (default)")) with 10. lia.
  - lia.
Qed.
Lemma width_tight : profile_width E m = 24 \/
  exists p, In p (in_table (profile_ids E m)) /\ length (profile_cell (opt_str_eqb p (default_profile E m)) p) = profile_width E m.
Proof.
  assert (F : In (default_profile E m) (in_table (profile_ids E m))).
  { rewrite default_first. unfold in_table. destruct (profile_ids E m); now left. }
  assert (G : length (profile_cell (opt_str_eqb (default_profile E m) (default_profile E m)) (default_profile E m))
    = 2 + length (shown (default_profile E m) ++ L " (default)")).
  { replace (opt_str_eqb (default_profile E m) (default_profile E m)) with true by (symmetry; now apply opt_str_eqb_eq).
    rewrite cell_length, app_length. change (length (L " (default)")) with 10. change (name_or_none (default_profile E m)) with (shown (default_profile E m)). lia. }
  pose proof (width_fits _ F) as Fd. rewrite G in Fd.
  destruct (Nat.eq_dec (2 + length (shown (default_profile E m) ++ L " (default)")) (profile_width E m)) as [e | n].
  - right. exists (default_profile E m). split; [assumption | ]. now rewrite G.
  - unfold profile_width in *. rewrite in_table_eq in *. change (length (L "Configuration Profiles: ")) with 24 in *.
    destruct (longest_some (map shown (in_table (profile_ids E m)))) as [Z | (s & Hs & Hl)]; [left; lia | ].
    destruct (Nat.le_gt_cases (2 + longest (map shown (in_table (profile_ids E m)))) 24) as [Y | Y]; [left; lia | ].
    right. apply in_map_iff in Hs as (p & <- & Hp). exists p. split; [assumption | ].
    pose proof (width_fits p Hp) as W. unfold profile_width in W. rewrite in_table_eq in W. change (length (L "Configuration Profiles: ")) with 24 in W.
    rewrite cell_length in *. change (name_or_none p) with (shown p) in *.
    destruct (opt_str_eqb p (default_profile E m)) eqn:D; [ | lia].
    apply opt_str_eqb_eq in D. rewrite <- D in *. rewrite app_length in *. change (length (L " (default)")) with 10 in *. lia.
Qed.

Lemma info_table : forall (f : profile -> result (list str)),
  each f (match profile_ids E m with [] => [None] | l => l end) = each f (in_table (profile_ids E m)).
Proof. intros f. unfold in_table. destruct (profile_ids E m); reflexivity. Qed.

(** the whole table *)
Theorem table_spec : forall width verbose header lines, profile_info_list E wrap_hyphens m width verbose = Ok (header, lines) ->
  exists w blocks, lines = concat blocks
  /\ (forall p, In p (in_table (profile_ids E m)) -> length (profile_cell (opt_str_eqb p (first_of (in_table (profile_ids E m)))) p) <= w)
  /\ (w = 24 \/ exists p, In p (in_table (profile_ids E m)) /\ length (profile_cell (opt_str_eqb p (first_of (in_table (profile_ids E m)))) p) = w)
  /\ header = row_of [to_left w (L "Configuration Profiles:"); L "CPUs"; L "   Memory"; L "NICs"; L "Serials"; L "Disks/Capacity"]
       ++ NL :: row_of [to_left w []; L "----"; L "---------"; L "----"; L "-------"; L "--------------"]
  /\ Forall2 (fun p block => exists row rest, block = row :: rest
      /\ profile_shown E h (m_disks (iv_vmd m)) w (opt_str_eqb p (first_of (in_table (profile_ids E m)))) p row
      /\ (verbose = false \/ p = None \/ iv_deploy m = None -> rest = [])
      /\ (forall id sec, verbose = true -> p = Some id -> iv_deploy m = Some sec ->
          exists c a b, find_child sec (CONFIG (e_ver E)) [(CONFIG_ID (e_ver E), id)] false = Ok (Some c)
          /\ wrap_hyphens width (repeat " "%char 4) (repeat " "%char 21)
               (to_left 15 (L "Label:") ++ L " """ ++ name_or_none (findtext_opt (CFG_LABEL (e_ver E)) c) ++ L """") = Ok a
          /\ wrap_hyphens width (repeat " "%char 4) (repeat " "%char 21)
               (to_left 15 (L "Description:") ++ L " """ ++ name_or_none (findtext_opt (CFG_DESC (e_ver E)) c) ++ L """") = Ok b
          /\ rest = a ++ b)) (in_table (profile_ids E m)) blocks.
Proof.
  intros width verbose header lines H. unfold profile_info_list in H. step H ls Hls. rewrite info_table in Hls.
  apply ok_inj in H. pose proof (f_equal fst H) as Hh. pose proof (f_equal snd H) as Hl. cbn [fst snd] in Hh, Hl. subst header ls.
  destruct (each_spec _ _ _ _ Hls) as (blocks & -> & F).
  exists (profile_width E m), blocks. rewrite <- default_first.
  split; [reflexivity | ]. split; [apply width_fits | ]. split; [apply width_tight | ]. split; [reflexivity | ].
  revert F. generalize (in_table (profile_ids E m)). intros l F. clear Hls H. induction F as [ | p b l bs Hp F IH]; [constructor | ]. constructor; [ | assumption].
  now apply profile_lines_spec.
Qed.

(** when it can be printed *)
Lemma pretty_int_ok : forall b, (0 <= b < 2 ^ 53)%Z -> exists t, pretty_int b = Ok t.
Proof.
  intros b Hb. unfold pretty_int. rewrite RawProofs.round53_small by lia.
  pose proof (PrettyProofs.pretty_spec (inject_Z b) 0) as S. destruct S as (q & s & _ & _ & _ & _ & S).
  - change 0%Q with (inject_Z 0). rewrite <- Zle_Qle. lia.
  - change (Z.of_nat 0) with 0%Z in S. destruct (PrettySpec.unit_name s) eqn:U.
    + destruct S as (t & r & S & _). eauto.
    + exfalso. pose proof (PrettyProofs.pretty_range (inject_Z b) 0) as P. destruct P as [P _].
      * change 0%Q with (inject_Z 0). rewrite <- Zle_Qle. lia.
      * specialize (P S). unfold PrettySpec.bytes_of in P.
        assert (Q : (inject_Z (1024 ^ 9) <= inject_Z b)%Q).
        { eapply Qle_trans; [exact P | ]. cbn. rewrite Qmult_1_r. apply Qle_refl. }
        rewrite <- Zle_Qle in Q. assert (2 ^ 53 < 1024 ^ 9)%Z by reflexivity. lia.
Qed.

Lemma rows_ok : forall keys total, natural_sort (map fst h) = Ok keys ->
  (forall d, m_disks (iv_vmd m) = Some d -> forall x, In x (below (DISK (e_ver E)) d) -> exists c, capacity (e_ver E) x c) ->
  total_capacity (e_ver E) (m_disks (iv_vmd m)) total -> (0 <= total < 2 ^ 53)%Z ->
  (forall p, In p (in_table (profile_ids E m)) -> readable E h p /\ forall b, memory_bytes E h p b -> (0 <= b)%Z) ->
  forall width, exists lines, profile_info_list E wrap_hyphens m width false = Ok (profile_header E m, lines).
Proof.
  intros keys total K C T Tb Rd width. unfold profile_info_list. rewrite info_table.
  destruct (each_ok _ (profile_lines E wrap_hyphens m width false) (in_table (profile_ids E m))) as [lines ->]; [ | eexists; reflexivity].
  intros p Hp. specialize (Rd p Hp) as ((U1 & U2 & Q1 & Q2) & Pos). unfold profile_lines. fold h.
  assert (X1 : exists s, profile_cpus E m p = Ok s).
  { unfold profile_cpus. fold h. pose proof (find_one E h "cpu" p keys (reachable_ids _ _ R) K rmap_cpu) as F.
    destruct (find_item E h (Some (L "cpu")) [] p) as [[k | ] | e].
    - destruct F as (i & Hi & D & U). destruct (Q1 _ _ D) as (s & n & Qs & Hn). exists s. cbn [rbind]. unfold value_in. fold h. rewrite Hi. cbn [rbind].
      unfold quantity, reports in Qs. rewrite Qs. reflexivity.
    - now exists (L "0").
    - now destruct F as [_ F]. }
  destruct X1 as [cpus ->]. cbn [rbind].
  assert (X2 : exists b, profile_memory E m p = Ok b /\ (0 <= b < 2 ^ 53)%Z).
  { unfold profile_memory. fold h. pose proof (find_one E h "memory" p keys (reachable_ids _ _ R) K rmap_memory) as F.
    destruct (find_item E h (Some (L "memory")) [] p) as [[k | ] | e].
    - destruct F as (i & Hi & D & U). destruct (Q2 _ _ D) as (s & u & b & Qs & Us & Hb & Bd). exists b. cbn [rbind]. unfold value_in. fold h. rewrite Hi. cbn [rbind].
      assert (P : (0 <= b)%Z). { apply Pos. right. exists k, i, s, u. auto. }
      split; [ | lia]. unfold quantity, reports in Qs. rewrite Qs. cbn [rbind]. unfold units, reports in Us.
      destruct Us as [-> | [-> ->]]; exact Hb.
    - exists 0%Z. split; [reflexivity | lia].
    - now destruct F as [_ F]. }
  destruct X2 as (mem & -> & Bm). cbn [rbind].
  destruct (count_ok "ethernet" _ p keys eq_refl K) as [n1 ->]. cbn [rbind].
  destruct (count_ok "serial" _ p keys eq_refl K) as [n2 ->]. cbn [rbind].
  destruct (count_ok "harddisk" _ p keys eq_refl K) as [n3 ->]. cbn [rbind].
  assert (X3 : disks_size E m = Ok total).
  { assert (X : exists c, disks_size E m = Ok c).
    { unfold disks_size. destruct (m_disks (iv_vmd m)) as [d | ]; [ | eauto]. apply fold_capacity_ok. intros x Hx. exact (C d eq_refl x Hx). }
    destruct X as [c X]. rewrite X. f_equal. apply disks_size_spec in X. revert X T. clear. destruct (m_disks (iv_vmd m)) as [d | ]; cbn [total_capacity]; [ | congruence].
    intros (cs & F & ->) (cs' & F' & ->). f_equal. revert cs' F'. induction F as [ | x c l cs H F IH]; intros cs' F'; inversion F' as [ | ? c' ? ? H' G]; subst; [reflexivity | ].
    f_equal; [ | now apply IH]. destruct H as (s & n & A & B & D), H' as (s' & n' & A' & B' & D'). congruence. }
  rewrite X3. cbn [rbind]. destruct (pretty_int_ok mem Bm) as [t1 ->]. cbn [rbind]. destruct (pretty_int_ok total Tb) as [t2 ->]. cbn [rbind].
  destruct p as [id | ]; [destruct (iv_deploy m) | ]; eexists; reflexivity.
Qed.
End Profile.
Lemma ids_listed : forall E m, in_table (profile_ids E m) = table_of (e_ver E) (iv_deploy m).
Proof. intros E m. unfold profile_ids, table_of. destruct (iv_deploy m) as [sec | ]; [ | reflexivity]. now rewrite ProfileDocProofs.config_ids_listed. Qed.
Lemma memory_unique : forall E h p b b', hw_reachable (e_ver E) h -> memory_bytes E h p b -> memory_bytes E h p b' -> b = b'.
Proof.
  intros E h p b b' R [[-> N] | (k & i & s & u & D & U & Q & Un & B)] [[-> N'] | (k' & i' & s' & u' & D' & U' & Q' & Un' & B')];
    [reflexivity | now destruct (N _ _ D') | now destruct (N' _ _ D) | ].
  destruct (device_unique E h "memory" p k i k' i' (proj1 (reachable_ids _ _ R)) U D D') as [<- <-].
  unfold quantity in *. assert (s = s') by congruence. subst s'.
  assert (u = u'); [ | congruence]. destruct Un as [A | [A ->]], Un' as [A' | [A' ->]]; congruence.
Qed.
