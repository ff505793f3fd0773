(** Lemmas for C41 and C42: from a valid database of some version, each upgrade leads to one of the next version; what an interruption leaves. *)
From Verif Require Import Base Upgrade UpgradeSpec UpgradeThms UpgradeThms2 UpgradeThms3 UpgradeThms4.
From Coq Require Import Permutation Lia Bool.
Local Open Scope string_scope. Local Open Scope list_scope. Local Open Scope Z_scope.

Lemma has_col_perm cs ds n : Permutation cs ds -> has_col cs n = has_col ds n.
Proof.
  intros P. destruct (has_col cs n) eqn:A, (has_col ds n) eqn:B; try reflexivity.
  - apply has_col_in in A. rewrite (Permutation_map c_name P) in A. apply has_col_in in A. congruence.
  - apply has_col_in in B. rewrite <- (Permutation_map c_name P) in B. apply has_col_in in B. congruence.
Qed.
Lemma nodup_perm cs ds : Permutation cs ds -> dedup_test (map c_name ds) = true -> NoDup (map c_name cs).
Proof. intros P D. apply (Permutation_NoDup (Permutation_map c_name (Permutation_sym P))). apply dedup_ok. exact D. Qed.

(** a copied table is valid *)
Definition same_flags (c d : column) : Prop := c_pk c = c_pk d /\ c_uniq c = c_uniq d /\ c_notnull c = c_notnull d.
Lemma vals_flags c d vs : same_flags c d -> vals_valid c vs -> vals_valid d vs.
Proof. unfold vals_valid. intros (-> & -> & ->). auto. Qed.
Lemma proj_ok t ds names : valid t -> length names = length ds ->
  (forall d m, In (d, m) (combine ds names) -> exists c, In c (t_cols t) /\ c_name c = m /\ same_flags c d) -> cols_ok (proj_rows t names) 0 ds = true.
Proof.
  intros [W V] L H. apply cols_ok_iff. intros j d E. cbn [Nat.add].
  assert (E' : exists m, nth_error names j = Some m).
  { destruct (nth_error names j) eqn:X; [eauto|]. exfalso. apply nth_error_None in X. assert (j < length ds)%nat by (apply nth_error_Some; congruence). lia. }
  destruct E' as (m & E').
  assert (I : In (d, m) (combine ds names)).
  { clear -E E'. revert names j E E'. induction ds as [|a ds IH]; intros names j E E'; destruct j; try discriminate E; destruct names as [|b names]; try discriminate E'; cbn in *.
    - left. congruence.
    - right. eapply IH; eassumption. }
  destruct (H d m I) as (c & Ic & <- & S). apply (vals_flags c d _ S). rewrite Forall_forall in V. specialize (V c Ic). unfold column_valid in V.
  replace (map (fun r => nth j r UNull) (proj_rows t names)) with (map (fun r => cell (t_cols t) r (c_name c)) (t_rows t)); [exact V|].
  unfold proj_rows. rewrite map_map. apply map_ext. intros r. symmetry. erewrite nth_error_nth; [reflexivity|]. rewrite nth_error_map, E'. reflexivity.
Qed.
Lemma proj_valid t ds names : valid t -> length names = length ds -> NoDup (map c_name ds) ->
  (forall d m, In (d, m) (combine ds names) -> exists c, In c (t_cols t) /\ c_name c = m /\ same_flags c d) -> valid (mk_tab ds (proj_rows t names)).
Proof.
  intros V L D H. apply cols_ok_valid; [exact D| |apply proj_ok; assumption]. rewrite <- L. apply proj_wide.
Qed.
Lemma add_col_valid t k : valid t -> has_col (t_cols t) (c_name k) = false -> c_pk k = false -> c_uniq k = false -> c_notnull k = false -> valid (add_col t k).
Proof.
  intros [W V] N P U NN. split.
  - unfold wide, add_col in *. cbn [t_cols t_rows]. apply Forall_forall. intros r I. apply in_map_iff in I. destruct I as (r0 & <- & I).
    rewrite Forall_forall in W. rewrite !app_length. cbn [length]. rewrite (W _ I). reflexivity.
  - rewrite Forall_forall in *. intros c I. cbn [add_col t_cols] in I. apply in_app_or in I. destruct I as [I|[<-|[]]].
    + specialize (V c I). unfold column_valid in *. cbn [add_col t_cols t_rows]. rewrite map_map.
      replace (map (fun r => cell (t_cols t ++ [k]) (r ++ [c_default k]) (c_name c)) (t_rows t)) with (map (fun r => cell (t_cols t) r (c_name c)) (t_rows t)); [exact V|].
      apply map_ext_in. intros r Ir. symmetry. unfold wide in W. rewrite Forall_forall in W. apply cell_app; [apply W; exact Ir|]. apply has_col_in. apply in_map. exact I.
    + unfold column_valid. rewrite P, U, NN. split; [discriminate|]. split; [discriminate|]. intros [|]; discriminate.
Qed.

(** ** Steps between valid databases *)
Definition same_rest (n : string) (f g : file) : Prop := (forall m, m <> n -> get_tab (f_tabs g) m = get_tab (f_tabs f) m) /\ (forall m, free f m -> free g m).
Lemma put_rest f n t : get_tab (f_tabs f) n <> None -> same_rest n f (put_tab f n t) /\ get_tab (f_tabs (put_tab f n t)) n = Some t.
Proof.
  intros H. split; [split|].
  - intros m N. cbn [put_tab with_tabs f_tabs]. rewrite get_set. destruct (String.eqb_spec n m); [congruence|reflexivity].
  - intros m X. exact X.
  - cbn [put_tab with_tabs f_tabs]. rewrite get_set, String.eqb_refl. destruct (get_tab (f_tabs f) n); [reflexivity|congruence].
Qed.
(** a database whose subscriber table only is replaced, and the version raised *)
Lemma next_sub i f g t v : database i f -> (i < 5)%nat -> (v < 6)%nat -> same_rest "subscriber" f g -> get_tab (f_tabs g) "subscriber" = Some t -> f_version g = Z.of_nat v ->
  Permutation (t_cols t) (sub_cols v) -> valid t -> database v g.
Proof.
  intros [V S A K D O F] Li Lv [R X] G Vg P Va.
  assert (I : (i <? 6)%nat = true) by (apply Nat.ltb_lt; lia). assert (I' : (v <? 6)%nat = true) by (apply Nat.ltb_lt; lia).
  assert (J : auc_3g_of v = auc_3g_of i).
  { unfold auc_3g_of. replace (v <? 7)%nat with true by (symmetry; apply Nat.ltb_lt; lia). replace (i <? 7)%nat with true by (symmetry; apply Nat.ltb_lt; lia). reflexivity. }
  constructor.
  - exact Vg.
  - exists t. auto.
  - rewrite R by discriminate. exact A.
  - rewrite R by discriminate. rewrite J. exact K.
  - rewrite I'. rewrite I in D. rewrite R by discriminate. exact D.
  - rewrite R by discriminate. exact O.
  - destruct F as (F1 & F2 & F3 & F4). split; [auto|]. split; [auto|]. split; auto.
Qed.
Lemma sub_has v f t n : database v f -> get_tab (f_tabs f) "subscriber" = Some t -> has_col (t_cols t) n = has_col (sub_cols v) n.
Proof. intros [_ (t0 & G & P & _)] H. assert (t0 = t) by congruence. subst t0. apply has_col_perm. exact P. Qed.
Lemma same_rest_trans n f g h : same_rest n f g -> same_rest n g h -> same_rest n f h.
Proof. intros [A B] [C D]. split; [intros m N; rewrite (C m N); auto|auto]. Qed.
Lemma same_rest_version n f v : same_rest n f (with_version f v).
Proof. split; auto. Qed.

(** one column added *)
Lemma add_step f t k : get_tab (f_tabs f) "subscriber" = Some t -> valid t -> has_col (t_cols t) (c_name k) = false ->
  c_pk k = false -> c_uniq k = false -> c_notnull k = false ->
  exec (SAddCol "subscriber" k) (conn_open f) = Some (conn_open (put_tab f "subscriber" (add_col t k)))
  /\ same_rest "subscriber" f (put_tab f "subscriber" (add_col t k)) /\ get_tab (f_tabs (put_tab f "subscriber" (add_col t k))) "subscriber" = Some (add_col t k)
  /\ valid (add_col t k).
Proof.
  intros G V N P U NN. split; [rewrite exec_addcol, G, N; reflexivity|].
  destruct (put_rest f "subscriber" (add_col t k)) as [R1 R2]; [congruence|]. split; [exact R1|]. split; [exact R2|]. apply add_col_valid; assumption.
Qed.
(** what an interrupted or complete step leads to *)
Definition step_ok (i : nat) (f : file) : Prop :=
  (exists f', exec_all (nth i upgrade_path []) (conn_open f) = Some (conn_open f') /\ database (S i) f')
  /\ (forall k c, exec_all (firstn k (nth i upgrade_path [])) (conn_open f) = Some c -> (k < length (nth i upgrade_path []))%nat -> durable c = f \/ stuck (durable c)).
Lemma one_column_step i f k v : (i < 4)%nat -> v = Z.of_nat (S i) -> database i f -> nth i upgrade_path [] = [SAddCol "subscriber" k; SVersion v] ->
  has_col (sub_cols i) (c_name k) = false -> c_pk k = false -> c_uniq k = false -> c_notnull k = false -> Permutation (sub_cols i ++ [k]) (sub_cols (S i)) ->
  (forall g t, f_version g = Z.of_nat i -> get_tab (f_tabs g) "subscriber" = Some t -> has_col (t_cols t) (c_name k) = true -> stuck g) -> step_ok i f.
Proof.
  intros L -> D Up N P U NN Pe St. unfold step_ok. rewrite Up.
  pose proof D as [V (t & G & Pt & Va) _ _ _ _ _].
  assert (N' : has_col (t_cols t) (c_name k) = false) by (rewrite (has_col_perm _ _ _ Pt); exact N).
  destruct (add_step f t k G Va N' P U NN) as (E & R & G' & V'). set (g := put_tab f "subscriber" (add_col t k)) in *. split.
  - exists (with_version g (Z.of_nat (S i))). split; [rewrite exec_all_cons, E; reflexivity|].
    apply (next_sub i f (with_version g (Z.of_nat (S i))) (add_col t k) (S i) D); try lia; auto. cbn [add_col t_cols]. eapply Permutation_trans; [apply Permutation_app_tail; exact Pt|exact Pe].
  - intros j c Ej Lj. destruct j as [|[|j]].
    + cbn in Ej. injection Ej as <-. left. reflexivity.
    + cbn [firstn] in Ej. rewrite exec_all_cons, E in Ej. cbn in Ej. injection Ej as <-. right. change (durable (conn_open g)) with g. apply (St g (add_col t k)).
      * exact V.
      * exact G'.
      * cbn [add_col t_cols]. rewrite has_col_app. assert (has_col [k] (c_name k) = true) as ->; [|apply orb_true_r]. unfold has_col. cbn. rewrite String.eqb_refl. reflexivity.
    + cbn in Lj. lia.
Qed.
Lemma step_v1 f : database 0 f -> step_ok 0 f.
Proof.
  intros D. eapply (one_column_step 0 f); try reflexivity; try lia; [exact D|].
  intros g t V G H. exists t. split; [exact G|]. left. split; [exact V|exact H].
Qed.
Lemma step_v2 f : database 1 f -> step_ok 1 f.
Proof.
  intros D. eapply (one_column_step 1 f); try reflexivity; try lia; [exact D|].
  intros g t V G H. exists t. split; [exact G|]. right. left. split; [exact V|exact H].
Qed.
Lemma step_v4 f : database 3 f -> step_ok 3 f.
Proof.
  intros D. eapply (one_column_step 3 f); try reflexivity; try lia; [exact D|].
  intros g t V G H. exists t. split; [exact G|]. right. right. right. left. split; [exact V|exact H].
Qed.
Lemma step_v5 f : database 4 f -> step_ok 4 f.
Proof.
  intros D. unfold step_ok. change (nth 4 upgrade_path []) with [SAddCol "subscriber" (col "vlr_via_proxy" "VARCHAR"); SAddCol "subscriber" (col "sgsn_via_proxy" "VARCHAR"); SVersion 5].
  pose proof D as [V (t & G & Pt & Va) _ _ _ _ _].
  set (k1 := col "vlr_via_proxy" "VARCHAR") in *. set (k2 := col "sgsn_via_proxy" "VARCHAR") in *.
  assert (N1 : has_col (t_cols t) (c_name k1) = false) by (rewrite (has_col_perm _ _ _ Pt); reflexivity).
  destruct (add_step f t k1 G Va N1 eq_refl eq_refl eq_refl) as (E1 & R1 & G1 & V1). set (g1 := put_tab f "subscriber" (add_col t k1)) in *.
  assert (P1 : Permutation (t_cols (add_col t k1)) (sub_cols 4 ++ [k1])) by (cbn [add_col t_cols]; apply Permutation_app_tail; exact Pt).
  assert (N2 : has_col (t_cols (add_col t k1)) (c_name k2) = false) by (rewrite (has_col_perm _ _ _ P1); reflexivity).
  destruct (add_step g1 _ k2 G1 V1 N2 eq_refl eq_refl eq_refl) as (E2 & R2 & G2 & V2). set (g2 := put_tab g1 "subscriber" (add_col (add_col t k1) k2)) in *.
  assert (P2 : Permutation (t_cols (add_col (add_col t k1) k2)) (sub_cols 5)).
  { change (sub_cols 5) with ((sub_cols 4 ++ [k1]) ++ [k2]). cbn [add_col t_cols] in *. apply Permutation_app_tail. exact P1. }
  split.
  - exists (with_version g2 5). split; [rewrite exec_all_cons, E1, exec_all_cons, E2; reflexivity|].
    apply (next_sub 4 f (with_version g2 5) (add_col (add_col t k1) k2) 5 D); try lia; auto. exact (same_rest_trans _ _ _ _ R1 R2).
  - intros j c Ej Lj. destruct j as [|[|[|j]]].
    + cbn in Ej. injection Ej as <-. left. reflexivity.
    + cbn [firstn] in Ej. rewrite exec_all_cons, E1 in Ej. cbn in Ej. injection Ej as <-. right. change (durable (conn_open g1)) with g1. exists (add_col t k1). split; [exact G1|].
      right. right. right. right. left. split; [exact V|]. rewrite (has_col_perm _ _ _ P1). reflexivity.
    + cbn [firstn] in Ej. rewrite exec_all_cons, E1, exec_all_cons, E2 in Ej. cbn in Ej. injection Ej as <-. right. change (durable (conn_open g2)) with g2.
      exists (add_col (add_col t k1) k2). split; [exact G2|].
      right. right. right. right. left. split; [exact V|]. rewrite (has_col_perm _ _ _ P2). reflexivity.
    + cbn in Lj. lia.
Qed.
(** a checkable form of the condition of proj_ok *)
Definition flags_eqb (c d : column) : bool := Bool.eqb (c_pk c) (c_pk d) && Bool.eqb (c_uniq c) (c_uniq d) && Bool.eqb (c_notnull c) (c_notnull d).
Lemma copies_ok (cs cs' ds : list column) names : Permutation cs cs' ->
  forallb (fun p => existsb (fun c => String.eqb (c_name c) (snd p) && flags_eqb c (fst p)) cs') (combine ds names) = true ->
  forall d m, In (d, m) (combine ds names) -> exists c, In c cs /\ c_name c = m /\ same_flags c d.
Proof.
  intros P H d m I. rewrite forallb_forall in H. specialize (H _ I). apply existsb_exists in H. destruct H as (c & Ic & H). cbn [fst snd] in H.
  apply andb_true_iff in H. destruct H as [H1 H2]. apply String.eqb_eq in H1. unfold flags_eqb in H2. apply andb_true_iff in H2. destruct H2 as [H2 H4]. apply andb_true_iff in H2. destruct H2 as [H2 H3].
  apply eqb_prop in H2, H3, H4. exists c. split; [apply (Permutation_in _ (Permutation_sym P)); exact Ic|]. split; [exact H1|]. repeat split; assumption.
Qed.
Lemma names_there cs cs' names : Permutation cs cs' -> forallb (has_col cs') names = true -> forallb (has_col cs) names = true.
Proof. intros P H. rewrite forallb_forall in *. intros n I. rewrite (has_col_perm _ _ _ P). apply H. exact I. Qed.
Lemma off_free n m l : ~ In m (map fst l) -> ~ In m (map fst (off_idx n l)).
Proof. intros H I. apply H. apply in_map_iff in I. destruct I as (p & <- & I). apply in_map. apply filter_In in I. apply I. Qed.
Lemma move_names n n' l : map fst (move_idx n n' l) = map fst l.
Proof. unfold move_idx. rewrite map_map. apply map_ext. intros p. destruct (String.eqb _ _); reflexivity. Qed.
Lemma not_in_idx m l : ~ In m (map fst l) -> get_idx l m = false.
Proof. intros H. exact (get_idx_free (mk_file 0 false [] l) m H). Qed.
Lemma v3_ready f : database 2 f -> exists t, get_tab (f_tabs f) "subscriber" = Some t /\
  forallb (has_col (t_cols t)) v2_names && cols_ok (proj_rows t v2_names) 0 v3_cols && negb (get_idx (off_idx "subscriber" (f_idx f)) "subscriber") = true
  /\ valid (mk_tab v3_cols (proj_rows t v2_names)).
Proof.
  intros [V (t & G & Pt & Va) _ _ _ _ (F1 & _)]. exists t. split; [exact G|].
  rewrite (names_there _ _ v2_names Pt) by reflexivity.
  assert (C : forall d m, In (d, m) (combine v3_cols v2_names) -> exists c, In c (t_cols t) /\ c_name c = m /\ same_flags c d) by (apply (copies_ok _ _ _ _ Pt); reflexivity).
  rewrite proj_ok; [|exact Va|reflexivity|exact C]. rewrite not_in_idx; [|apply off_free; exact F1]. split; [reflexivity|]. apply proj_valid; [exact Va|reflexivity|exact v3_nodup|exact C].
Qed.
Lemma step_v3 f : database 2 f -> step_ok 2 f.
Proof.
  intros D. unfold step_ok. change (nth 2 upgrade_path []) with upgrade_v3.
  destruct (v3_ready f D) as (t & G & C & Va). set (g := v3_file f (proj_rows t v2_names)) in *.
  assert (R : same_rest "subscriber" f g).
  { split.
    - intros m N. unfold g. cbn [v3_file with_idx with_tabs f_tabs]. rewrite get_cons, get_del. destruct (String.eqb_spec "subscriber" m); [congruence|reflexivity].
    - intros m X. apply off_free. exact X. }
  split.
  - exists (with_version g 3). split; [rewrite v3_eq, G, C; reflexivity|].
    apply (next_sub 2 f (with_version g 3) (mk_tab v3_cols (proj_rows t v2_names)) 3 D); try lia; auto.
  - intros k c E L. rewrite v3_split in E, L. destruct (firstn_app_cases k (SBegin :: v3_body) [SCommit; SVersion 3]) as [[Lk Ek]|[Lk Ek]]; rewrite Ek in E.
    + left. eapply (prefix_txn f v3_body k c); [reflexivity| |exact E]. cbn in *. lia.
    + right. rewrite exec_all_app, v3_body_eq, G, C in E. fold g in E. cbn in Lk, L. replace (k - length (SBegin :: v3_body))%nat with 1%nat in E by (cbn [length v3_body]; lia).
      cbn in E. injection E as <-. exists (mk_tab v3_cols (proj_rows t v2_names)). split; [reflexivity|]. right. right. left. split; [apply D|reflexivity].
Qed.
Lemma sub_cols_6 : sub_cols 6 = sub_cols 5. Proof. vm_compute. reflexivity. Qed.
Lemma sub_cols_7 : sub_cols 7 = sub_cols 6. Proof. vm_compute. reflexivity. Qed.
Lemma auc_3g_of_6 : auc_3g_of 6 = auc_3g_of 5. Proof. vm_compute. reflexivity. Qed.
Lemma step_v6 f : database 5 f -> step_ok 5 f.
Proof.
  intros D. unfold step_ok. change (nth 5 upgrade_path []) with [SCreate false "ind" ind_cols; SVersion 6]. pose proof D as [V (t & G & Pt & Va) A K DI O (F1 & F2 & F3 & F4)].
  cbn in DI. set (g := with_tabs f (("ind", mk_tab ind_cols []) :: f_tabs f)).
  assert (E : exec (SCreate false "ind" ind_cols) (conn_open f) = Some (conn_open g)) by (rewrite exec_create, DI, (get_idx_free _ _ F4); reflexivity).
  split.
  - exists (with_version g 6). split; [rewrite exec_all_cons, E; reflexivity|]. constructor.
    + reflexivity.
    + exists t. split; [exact G|]. rewrite sub_cols_6. split; [exact Pt|exact Va].
    + exact A.
    + rewrite auc_3g_of_6. exact K.
    + exists (mk_tab ind_cols []). split; [reflexivity|apply Permutation_refl].
    + exact O.
    + auto.
  - intros k c Ek L. destruct k as [|[|k]].
    + cbn in Ek. injection Ek as <-. left. reflexivity.
    + cbn [firstn] in Ek. rewrite exec_all_cons, E in Ek. cbn in Ek. injection Ek as <-. right. exists t. split; [exact G|]. right. right. right. right. right. split; [exact V|discriminate].
    + cbn in L. lia.
Qed.
Lemma step_v7 f : database 6 f -> step_ok 6 f /\ forall k c, exec_all (firstn k upgrade_v7) (conn_open f) = Some c -> (k < length upgrade_v7)%nat -> durable c = f.
Proof.
  intros D. unfold step_ok. change (nth 6 upgrade_path []) with upgrade_v7. pose proof D as [V (ts & Gs & Ps & Vs) A (t & G & Pt & Va) DI O (F1 & F2 & F3 & F4)].
  assert (C : forall d m, In (d, m) (combine auc_3g_cols auc_3g_names) -> exists c, In c (t_cols t) /\ c_name c = m /\ same_flags c d) by (apply (copies_ok _ _ _ _ Pt); reflexivity).
  assert (X : forall k c, exec_all (firstn k upgrade_v7) (conn_open f) = Some c -> (k < length upgrade_v7)%nat -> durable c = f).
  { intros k c E L. rewrite v7_split in E, L. destruct (firstn_app_cases k (SBegin :: v7_body) [SCommit]) as [[Lk Ek]|[Lk Ek]]; rewrite Ek in E.
    - eapply (prefix_txn f v7_body k c); [reflexivity| |exact E]. cbn in *. lia.
    - cbn in *. lia. }
  split; [|exact X]. split; [|intros k c E L; left; eapply X; eassumption].
  exists (v7_file f (proj_rows t auc_3g_names)). split.
  - rewrite v7_eq, G, O, (get_idx_free _ _ F3), not_in_idx by (rewrite move_names; exact F2). rewrite (names_there _ _ auc_3g_names Pt) by reflexivity.
    rewrite proj_ok; [reflexivity|exact Va|reflexivity|exact C].
  - assert (Fr : forall m, free f m -> free (v7_file f (proj_rows t auc_3g_names)) m).
    { intros m H. unfold free. cbn [v7_file f_idx]. apply off_free. rewrite move_names. exact H. }
    constructor; cbn [v7_file f_tabs f_version].
    + reflexivity.
    + exists ts. rewrite get_cons, !get_del. split; [exact Gs|]. rewrite sub_cols_7. split; [exact Ps|exact Vs].
    + rewrite get_cons, !get_del. exact A.
    + eexists. rewrite get_cons. split; [reflexivity|]. split; [apply Permutation_refl|]. apply proj_valid; [exact Va|reflexivity|exact auc_3g_nodup|exact C].
    + rewrite get_cons, !get_del. exact DI.
    + rewrite get_cons, !get_del. reflexivity.
    + auto.
Qed.
Lemma step_all i f : (i < 7)%nat -> database i f -> step_ok i f.
Proof.
  intros L D. destruct i as [|[|[|[|[|[|[|i]]]]]]]; [apply step_v1|apply step_v2|apply step_v3|apply step_v4|apply step_v5|apply step_v6|apply step_v7|lia]; exact D.
Qed.

(** ** The whole path *)
Lemma chain_all n : forall i f, (7 - i = n)%nat -> (i <= 7)%nat -> database i f -> exists f', exec_all (chain i) (conn_open f) = Some (conn_open f') /\ database 7 f'.
Proof.
  induction n as [|n IH]; intros i f N L D.
  - replace i with 7%nat in * by lia. exists f. split; [reflexivity|exact D].
  - destruct (step_all i f ltac:(lia) D) as [(f1 & E1 & D1) _]. destruct (IH (S i) f1 ltac:(lia) ltac:(lia) D1) as (f' & E' & D'). exists f'.
    rewrite chain_cons by lia. rewrite exec_all_app, E1. auto.
Qed.
Lemma chain_part n : forall i f k c, (7 - i = n)%nat -> (i <= 7)%nat -> database i f -> exec_all (firstn k (chain i)) (conn_open f) = Some c ->
  (exists j, (i <= j <= 7)%nat /\ database j (durable c)) \/ stuck (durable c).
Proof.
  induction n as [|n IH]; intros i f k c N L D E.
  - replace i with 7%nat in * by lia. change (chain 7) with (@nil stmt) in E. rewrite firstn_nil in E. cbn in E. injection E as <-. left. exists 7%nat. split; [lia|exact D].
  - destruct (step_all i f ltac:(lia) D) as [(f1 & E1 & D1) P]. rewrite chain_cons in E by lia.
    destruct (firstn_app_cases k (nth i upgrade_path []) (chain (S i))) as [[Lk Ek]|[Lk Ek]]; rewrite Ek in E.
    + destruct (Nat.eq_dec k (length (nth i upgrade_path []))) as [->|Nk].
      * rewrite firstn_all in E. rewrite E1 in E. injection E as <-. left. exists (S i). split; [lia|exact D1].
      * destruct (P k c E ltac:(lia)) as [->|St]; [left; exists i; split; [lia|exact D]|right; exact St].
    + rewrite exec_all_app, E1 in E. destruct (IH (S i) f1 _ c ltac:(lia) ltac:(lia) D1 E) as [(j & Lj & Dj)|St]; [left; exists j; split; [lia|exact Dj]|right; exact St].
Qed.

(** ** A half upgraded file stays so *)
Lemma stuck_same f g : same_contents f g -> stuck f -> stuck g.
Proof. intros (V & T & _) (t & H). exists t. rewrite <- V, <- T. exact H. Qed.
Lemma first_fails s ss k f c : exec s (conn_open f) = None -> exec_all (firstn k (s :: ss)) (conn_open f) = Some c -> k = 0%nat.
Proof. intros E H. destruct k as [|k]; [reflexivity|]. cbn [firstn] in H. rewrite exec_all_cons, E in H. discriminate. Qed.
Lemma v3_blocked f t k c : get_tab (f_tabs f) "subscriber" = Some t -> has_col (t_cols t) "hlr_number" = false -> exec_all (firstn k (chain 2)) (conn_open f) = Some c -> durable c = f.
Proof.
  intros G N E. destruct (Nat.le_gt_cases k 2) as [L|L].
  - apply (prefix_txn f [SCreate true "subscriber_backup" v3_cols] k c); [reflexivity|cbn; lia|]. destruct k as [|[|[|k]]]; try exact E. lia.
  - exfalso. destruct k as [|[|[|k]]]; [lia|lia|lia|].
    change (firstn (S (S (S k))) (chain 2)) with ([SBegin; SCreate true "subscriber_backup" v3_cols; SInsert "subscriber_backup" v2_names "subscriber"] ++ firstn k (skipn 3 (chain 2))) in E.
    rewrite exec_all_app in E.
    assert (X : exec_all [SBegin; SCreate true "subscriber_backup" v3_cols; SInsert "subscriber_backup" v2_names "subscriber"] (conn_open f) = None); [|rewrite X in E; discriminate E].
    rewrite exec_all_cons. change (exec SBegin (conn_open f)) with (Some (mk_conn f (Some f) [])). cbv iota.
    rewrite exec_all_cons. change (exec (SCreate true "subscriber_backup" v3_cols) (mk_conn f (Some f) [])) with (Some (mk_conn f (Some f) [("subscriber_backup", mk_tab v3_cols [])])). cbv iota.
    rewrite exec_all_cons.
    change (exec (SInsert "subscriber_backup" v2_names "subscriber") (mk_conn f (Some f) [("subscriber_backup", mk_tab v3_cols [])])) with
      (match get_tab (f_tabs f) "subscriber" with
       | Some t => if negb (forallb (has_col (t_cols t)) v2_names) then None
                   else if cols_ok (proj_rows t v2_names) 0 v3_cols
                        then Some (mk_conn f (Some f) [("subscriber_backup", mk_tab v3_cols (proj_rows t v2_names))]) else None
       | None => None end).
    rewrite G. destruct (forallb (has_col (t_cols t)) v2_names) eqn:H; [|reflexivity]. exfalso. rewrite forallb_forall in H. assert (I : In "hlr_number" v2_names) by (cbn; tauto). specialize (H _ I). congruence.
Qed.
Lemma stuck_start allow l f : stuck f -> same_contents f (op_file (db_open allow l f)) /\ is_open (db_open allow l f) = false.
Proof.
  intros St. destruct (db_open_reached allow l f) as (g & J & ss & k & c & A & L & E & F & H).
  pose proof (journal_same f g J) as SC. pose proof (stuck_same f g SC St) as Sg.
  assert (V : f_version g <> 7). { destruct Sg as (t & _ & Sg). destruct Sg as [[Sg _]|[[Sg _]|[[Sg _]|[[Sg _]|[[Sg _]|[Sg _]]]]]]; lia. }
  assert (D : durable c = g).
  { inversion A as [Nn|Z Nn|U R Nn]; subst ss.
    - rewrite firstn_nil in E. cbn in E. injection E as <-. reflexivity.
    - destruct Sg as (t & G & _). pose proof (boot_blocked _ _ _ _ G E). subst k. cbn in E. injection E as <-. reflexivity.
    - destruct Sg as (t & G & Sg). destruct Sg as [[Vg X]|[[Vg X]|[[Vg X]|[[Vg X]|[[Vg X]|[Vg X]]]]]]; rewrite Vg in E; cbn [Z.to_nat Pos.to_nat Pos.iter_op Nat.add] in E.
      1,2,4,5: cbn [chain skipn upgrade_path concat app upgrade_v1 upgrade_v2 upgrade_v4 upgrade_v5] in E; apply first_fails in E as E0; [subst k; cbn in E; injection E as <-; reflexivity|].
      1,2,3,4: rewrite exec_addcol, G; cbn [c_name col]; rewrite X; reflexivity.
      + eapply v3_blocked; [exact G|exact X|exact E].
      + cbn [chain skipn upgrade_path concat app upgrade_v6] in E. apply first_fails in E as E0; [subst k; cbn in E; injection E as <-; reflexivity|].
        rewrite exec_create. destruct (get_tab (f_tabs g) "ind"); [reflexivity|congruence]. }
  rewrite F, D. split; [exact SC|]. destruct (is_open _) eqn:O; [|reflexivity]. exfalso. pose proof (proj1 (c43_version _ _ _ O)) as W. rewrite F, D in W. congruence.
Qed.
Lemma stuck_forever l : forall f, stuck f -> stuck (starts l f) /\ forall allow s, is_open (db_open allow s (starts l f)) = false.
Proof.
  induction l as [|[allow s] l IH]; intros f St; cbn [starts].
  - split; [exact St|]. intros allow s. apply (stuck_start allow s f St).
  - apply IH. eapply stuck_same; [apply (stuck_start allow s f St)|exact St].
Qed.
