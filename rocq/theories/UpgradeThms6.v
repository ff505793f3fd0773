(** Lemmas for C41 and C42: opening a valid database, deaths during the upgrade and the creation, the schema that results. *)
From Verif Require Import Base Upgrade UpgradeSpec UpgradeThms UpgradeThms2 UpgradeThms3 UpgradeThms4 UpgradeThms5.
From Coq Require Import Permutation Lia Bool.
Local Open Scope string_scope. Local Open Scope list_scope. Local Open Scope Z_scope.

(** ** The statements can be prepared *)
Definition look_col (f : file) (t n : string) : bool := match get_tab (f_tabs f) t with Some t => has_col (t_cols t) n | None => false end.
Definition used_tables : list string := ["subscriber"; "auc_2g"; "auc_3g"; "ind"].
Lemma look_same f : database 7 f -> forall t, In t used_tables -> get_tab (f_tabs f) t <> None /\ forall n, look_col f t n = look_col fresh t n.
Proof.
  intros [V (ts & Gs & Ps & _) (ta & Ga & Pa) (tk & Gk & Pk & _) (ti & Gi & Pi) _ _] t I.
  cbn in I. destruct I as [<-|[<-|[<-|[<-|[]]]]]; unfold look_col; rewrite ?Gs, ?Ga, ?Gk, ?Gi; (split; [discriminate|]); intros n.
  - rewrite (has_col_perm _ _ _ Ps). reflexivity.
  - rewrite (has_col_perm _ _ _ Pa). reflexivity.
  - rewrite (has_col_perm _ _ _ Pk). reflexivity.
  - rewrite (has_col_perm _ _ _ Pi). reflexivity.
Qed.
Lemma count_same f : database 7 f -> forall ts n, incl ts used_tables -> count_col f ts n = count_col fresh ts n.
Proof.
  intros D ts n I. unfold count_col. f_equal. apply filter_ext_in. intros t It. apply (look_same f D t (I t It)).
Qed.
Lemma prepare_same f n : database 7 f -> incl (d_tabs n) used_tables -> incl (map fst (d_qual n)) used_tables -> prepare fresh n = true -> prepare f n = true.
Proof.
  intros D I1 I2 P. unfold prepare in *. apply andb_true_iff in P. destruct P as [P P3]. apply andb_true_iff in P. destruct P as [P1 P2].
  rewrite forallb_forall in P2, P3. rewrite !andb_true_iff, !forallb_forall. split; [split|].
  - intros t It. destruct (get_tab (f_tabs f) t) eqn:G; [reflexivity|]. exfalso. apply (look_same f D t (I1 t It)). exact G.
  - intros c Ic. rewrite (count_same f D _ _ I1). apply P2. exact Ic.
  - intros q Iq. rewrite (count_same f D); [apply P3; exact Iq|]. intros t [<-|[]]. apply I2. apply in_map. exact Iq.
Qed.
Definition incl_test (l m : list string) : bool := forallb (fun a => existsb (String.eqb a) m) l.
Lemma incl_test_ok l m : incl_test l m = true -> incl l m.
Proof. intros H a I. unfold incl_test in H. rewrite forallb_forall in H. specialize (H a I). apply existsb_exists in H. destruct H as (b & Ib & E). apply String.eqb_eq in E. congruence. Qed.
Lemma prepare_7 f : database 7 f -> forallb (prepare f) stmt_sql = true.
Proof.
  intros D. apply forallb_forall. intros n I.
  assert (X : forallb (fun n => incl_test (d_tabs n) used_tables && incl_test (map fst (d_qual n)) used_tables && prepare fresh n) stmt_sql = true) by (vm_compute; reflexivity).
  rewrite forallb_forall in X. specialize (X n I). apply andb_true_iff in X. destruct X as [X X3]. apply andb_true_iff in X. destruct X as [X1 X2].
  apply prepare_same; [exact D|apply incl_test_ok; exact X1|apply incl_test_ok; exact X2|exact X3].
Qed.

(** ** Opening without interruption *)
Lemma database_wal v f : database v f -> database v (with_wal f).
Proof. intros [V S A K D O F]. constructor; assumption. Qed.
Lemma db_open_calm allow f : 0 <= f_version f -> (f_version f = 0 -> get_tab (f_tabs f) "subscriber" <> None) ->
  forall l, db_open allow (repeat FOk (if f_version f =? 0 then 4 else 3) ++ l) f = db_open_version allow (f_version f) false l (conn_open (with_wal f)).
Proof.
  intros V B l. unfold db_open. destruct (f_version f =? 0) eqn:Z; cbn [repeat app hd List.tl with_wal f_version f_tabs]; replace (f_version f <? 0) with false by (symmetry; apply Z.ltb_ge; exact V).
  - rewrite Z. apply Z.eqb_eq in Z. specialize (B Z). destruct (get_tab (f_tabs f) "subscriber"); [reflexivity|congruence].
  - rewrite Z. reflexivity.
Qed.
Lemma db_open_nil allow f : 0 <= f_version f -> (f_version f = 0 -> get_tab (f_tabs f) "subscriber" <> None) ->
  db_open allow [] f = db_open_version allow (f_version f) false [] (conn_open (with_wal f)).
Proof.
  intros V B. unfold db_open. cbn [hd List.tl with_wal f_version f_tabs]. replace (f_version f <? 0) with false by (symmetry; apply Z.ltb_ge; exact V).
  destruct (f_version f =? 0) eqn:Z; [|reflexivity]. apply Z.eqb_eq in Z. specialize (B Z). destruct (get_tab (f_tabs f) "subscriber"); [reflexivity|congruence].
Qed.
Lemma database_ready v f : database v f -> 0 <= f_version f /\ (f_version f = 0 -> get_tab (f_tabs f) "subscriber" <> None).
Proof. intros [V (t & G & _) _ _ _ _ _]. split; [lia|]. intros _. congruence. Qed.
Lemma open_calm v f : (v <= 7)%nat -> database v f -> exists f', exec_all (chain v) (conn_open (with_wal f)) = Some (conn_open f') /\ database 7 f' /\ db_open true [] f = Opened f'.
Proof.
  intros L D. destruct (chain_all _ v (with_wal f) eq_refl L (database_wal v f D)) as (f' & E & D'). exists f'. split; [exact E|]. split; [exact D'|].
  destruct (database_ready v f D) as [V B]. rewrite (db_open_nil true f V B). pose proof (db_version _ _ D) as Vf. unfold db_open_version. cbv iota. change (Z.of_nat (length upgrade_path)) with 7.
  rewrite Vf. destruct (Z.of_nat v <? 7) eqn:U; cbn [andb].
  - rewrite run_path_concat. fold (chain (Z.to_nat (Z.of_nat v))). rewrite Nat2Z.id. rewrite (run_fine_nil _ _ _ E). apply prepare_all_fine. apply prepare_7. exact D'.
  - apply Z.ltb_ge in U. replace v with 7%nat in * by lia. change (chain 7) with (@nil stmt) in E. cbn in E. injection E as <-. change (negb (Z.of_nat 7 =? CURRENT)) with false. cbv iota.
    apply prepare_all_fine. apply prepare_7. exact D'.
Qed.
Lemma open_current allow f : database 7 f -> db_open allow [] f = Opened (with_wal f).
Proof.
  intros D. destruct (database_ready 7 f D) as [V B]. rewrite (db_open_nil allow f V B), (db_version _ _ D). unfold db_open_version. cbv iota. change (Z.of_nat 7 <? Z.of_nat (length upgrade_path)) with false.
  rewrite andb_false_r. change (negb (Z.of_nat 7 =? CURRENT)) with false. cbv iota. apply prepare_all_fine. apply prepare_7. apply database_wal. exact D.
Qed.

(** ** What interruptions leave *)
Lemma journal_database v f g : journal f g -> database v f -> database v g.
Proof. intros [->| ->] D; [exact D|apply database_wal; exact D]. Qed.
Lemma open_leaves allow l v f : (v <= 7)%nat -> database v f ->
  (exists j, (v <= j <= 7)%nat /\ database j (op_file (db_open allow l f))) \/ stuck (op_file (db_open allow l f)).
Proof.
  intros L D. destruct (db_open_reached allow l f) as (g & J & ss & k & c & A & Lk & E & F & _). rewrite F. pose proof (journal_database v f g J D) as Dg.
  inversion A as [N|Z N|U R N]; subst ss.
  - rewrite firstn_nil in E. cbn in E. injection E as <-. left. exists v. split; [lia|exact Dg].
  - destruct (db_sub _ _ Dg) as (t & G & _). pose proof (boot_blocked _ _ _ _ G E). subst k. cbn in E. injection E as <-. left. exists v. split; [lia|exact Dg].
  - rewrite (db_version _ _ Dg), Nat2Z.id in E. eapply chain_part; [reflexivity|exact L|exact Dg|exact E].
Qed.
Lemma starts_leave l : forall v f, (v <= 7)%nat -> database v f -> (exists j, (v <= j <= 7)%nat /\ database j (starts l f)) \/ stuck (starts l f).
Proof.
  induction l as [|[allow s] l IH]; intros v f L D; cbn [starts].
  - left. exists v. split; [lia|exact D].
  - destruct (open_leaves allow s v f L D) as [(j & Lj & Dj)|St].
    + destruct (IH j _ (proj2 Lj) Dj) as [(i & Li & Di)|St]; [left; exists i; split; [lia|exact Di]|right; exact St].
    + right. apply (stuck_forever l _ St).
Qed.
(** from version 6 on nothing can go wrong *)
Lemma open_leaves_6 allow l v f : (6 <= v <= 7)%nat -> database v f -> exists j, (v <= j <= 7)%nat /\ database j (op_file (db_open allow l f)).
Proof.
  intros L D. destruct (db_open_reached allow l f) as (g & J & ss & k & c & A & Lk & E & F & _). rewrite F. pose proof (journal_database v f g J D) as Dg.
  inversion A as [N|Z N|U R N]; subst ss.
  - rewrite firstn_nil in E. cbn in E. injection E as <-. exists v. split; [lia|exact Dg].
  - rewrite (db_version _ _ Dg) in Z. lia.
  - rewrite (db_version _ _ Dg) in R. replace v with 6%nat in * by lia. rewrite (db_version _ _ Dg), Nat2Z.id in E, Lk. change (chain 6) with upgrade_v7 in E, Lk.
    destruct (step_v7 g Dg) as [[(f1 & E1 & D1) _] X]. destruct (Nat.eq_dec k (length upgrade_v7)) as [->|Nk].
    + rewrite firstn_all in E. change (nth 6 upgrade_path []) with upgrade_v7 in E1. rewrite E1 in E. injection E as <-. exists 7%nat. split; [lia|exact D1].
    + rewrite (X k c E ltac:(lia)). exists 6%nat. split; [lia|exact Dg].
Qed.
Lemma starts_leave_6 l : forall v f, (6 <= v <= 7)%nat -> database v f -> exists j, (v <= j <= 7)%nat /\ database j (starts l f).
Proof.
  induction l as [|[allow s] l IH]; intros v f L D; cbn [starts].
  - exists v. split; [lia|exact D].
  - destruct (open_leaves_6 allow s v f L D) as (j & Lj & Dj). destruct (IH j _ ltac:(lia) Dj) as (i & Li & Di). exists i. split; [lia|exact Di].
Qed.

(** ** Death at the wrong moment *)
Lemma last_stmt i : (i < 6)%nat -> exists ss, nth i upgrade_path [] = ss ++ [SVersion (Z.of_nat (S i))].
Proof.
  intros L. exists (removelast (nth i upgrade_path [])). do 6 (destruct i as [|i]; [reflexivity|]). lia.
Qed.
Lemma half_way i f : (i < 6)%nat -> database i f -> exists k c, (k < length (nth i upgrade_path []))%nat /\ exec_all (firstn k (nth i upgrade_path [])) (conn_open f) = Some c /\ stuck (durable c).
Proof.
  intros L D. destruct (step_all i f ltac:(lia) D) as [(f' & E & D') _]. destruct (last_stmt i L) as (ss & Es). rewrite Es in E |- *. rewrite exec_all_app in E.
  destruct (exec_all ss (conn_open f)) as [c|] eqn:Ec; [|discriminate E]. cbn [exec_all exec] in E. unfold with_main, conn_open in E. injection E as M S _.
  exists (length ss), c. split; [rewrite app_length; cbn [length]; lia|].
  rewrite firstn_app, Nat.sub_diag, firstn_O, app_nil_r, firstn_all. split; [exact Ec|].
  assert (V : f_version (n_main c) = Z.of_nat i).
  { pose proof (exec_all_version _ _ _ Ec) as W. rewrite W. cbn [conn_open n_main]. rewrite (db_version _ _ D). clear -L Es.
    do 6 (destruct i as [|i]; [apply (f_equal (@removelast stmt)) in Es; rewrite removelast_last in Es; subst ss; reflexivity|]). lia. }
  unfold durable. rewrite S. destruct (db_sub _ _ D') as (t & G & P & _). rewrite <- M in G. cbn [with_version f_tabs] in G. exists t. split; [exact G|]. rewrite V.
  pose proof (fun n => has_col_perm (t_cols t) _ n P) as H.
  destruct i as [|[|[|[|[|[|i]]]]]]; [left|right; left|do 2 right; left|do 3 right; left|do 4 right; left|do 5 right|lia]; (split; [reflexivity|]); try (rewrite H; reflexivity).
  destruct (db_ind _ _ D') as (ti & Gi & _). rewrite <- M in Gi. cbn [with_version f_tabs] in Gi. congruence.
Qed.
Lemma die_at v f k c : (v < 7)%nat -> database v f -> (k < length (chain v))%nat -> exec_all (firstn k (chain v)) (conn_open (with_wal f)) = Some c ->
  exists l, db_open true l f = Died (durable c).
Proof.
  intros L D Lk E. destruct (database_ready v f D) as [V B].
  exists (repeat FOk (if f_version f =? 0 then 4 else 3) ++ (repeat FOk k ++ [FCrash])). rewrite (db_open_calm true f V B). rewrite (db_version _ _ D). unfold db_open_version. cbv iota.
  change (Z.of_nat (length upgrade_path)) with 7. replace (Z.of_nat v <? 7) with true by (symmetry; apply Z.ltb_lt; lia). cbn [andb].
  rewrite run_path_concat. fold (chain (Z.to_nat (Z.of_nat v))). rewrite Nat2Z.id. rewrite (run_dies _ _ _ _ Lk E). reflexivity.
Qed.
Lemma upgrade_dies v f : (v < 6)%nat -> database v f -> exists l f', db_open true l f = Died f' /\ stuck f'.
Proof.
  intros L D. destruct (half_way v (with_wal f) L (database_wal v f D)) as (k & c & Lk & E & St).
  destruct (die_at v f k c) as (l & H); [lia|exact D| | |exists l, (durable c); auto].
  - rewrite chain_cons by lia. rewrite app_length. lia.
  - rewrite chain_cons by lia. destruct (firstn_app_cases k (nth v upgrade_path []) (chain (S v))) as [[_ X]|[X _]]; [rewrite X; exact E|lia].
Qed.

(** ** Creation *)
Lemma boot_part g k c : blank g -> exec_all (firstn k bootstrap_sql) (conn_open g) = Some c ->
  (k = 0%nat /\ c = conn_open g) \/ ((0 < k < 8)%nat /\ stuck (durable c)) \/ ((8 <= k)%nat /\ c = conn_open (mk_file 7 (f_wal g) (f_tabs fresh) (f_idx fresh))).
Proof.
  destruct g as [v w ts ix]. intros (V & T & I) E. cbn [f_version f_tabs f_idx] in V, T, I. subst v ts ix.
  assert (St : forall ts ix t, get_tab ts "subscriber" = Some t -> has_col (t_cols t) "last_lu_seen" = true -> stuck (mk_file 0 w ts ix)).
  { intros ts ix t G H. exists t. split; [exact G|]. left. split; [reflexivity|exact H]. }
  destruct k as [|[|[|[|[|[|[|[|k]]]]]]]]; [left; cbn in E; injection E as <-; auto|..|].
  1,2,3,4,5,6,7: right; left; (split; [lia|]); cbn in E; injection E as <-; cbn [durable n_saved n_main with_main with_tabs with_idx conn_open]; eapply St; reflexivity.
  right. right. split; [lia|]. rewrite firstn_all2 in E by (cbn [length bootstrap_sql]; lia). vm_compute in E. injection E as <-. reflexivity.
Qed.
Lemma fresh_idx : f_idx fresh = [("idx_subscr_imsi", ("subscriber", "imsi"))].
Proof. vm_compute. reflexivity. Qed.
Lemma fresh_database w : database 7 (mk_file 7 w (f_tabs fresh) (f_idx fresh)).
Proof.
  constructor.
  - reflexivity.
  - exists (mk_tab subscriber_cols []). split; [reflexivity|]. split; [apply Permutation_refl|]. apply cols_ok_valid; [apply dedup_ok; reflexivity|constructor|reflexivity].
  - exists (mk_tab auc_2g_cols []). split; [reflexivity|apply Permutation_refl].
  - exists (mk_tab auc_3g_cols []). split; [reflexivity|]. split; [apply Permutation_refl|]. apply cols_ok_valid; [apply dedup_ok; reflexivity|constructor|reflexivity].
  - exists (mk_tab ind_cols []). split; [reflexivity|apply Permutation_refl].
  - reflexivity.
  - unfold free. cbn [f_idx]. rewrite fresh_idx. cbn. repeat split; intros [H|[]]; discriminate.
Qed.
Lemma blank_journal f g : journal f g -> blank f -> blank g.
Proof. intros [->| ->] H; exact H. Qed.
Lemma create_leaves allow l f : blank f -> let f' := op_file (db_open allow l f) in blank f' \/ database 7 f' \/ stuck f'.
Proof.
  intros Bl. cbv zeta. destruct (db_open_reached allow l f) as (g & J & ss & k & c & A & Lk & E & F & _). rewrite F. pose proof (blank_journal f g J Bl) as Bg.
  inversion A as [N|Z N|U R N]; subst ss.
  - rewrite firstn_nil in E. cbn in E. injection E as <-. left. exact Bg.
  - destruct (boot_part g k c Bg E) as [[_ ->]|[[_ St]|[_ ->]]]; [left; exact Bg|right; right; exact St|right; left; apply fresh_database].
  - destruct Bg as (V & T & I). rewrite V in E. change (chain (Z.to_nat 0)) with (SAddCol "subscriber" (col "last_lu_seen" "TIMESTAMP") :: List.tl (chain 0)) in E.
    apply first_fails in E as E0; [|rewrite exec_addcol, T; reflexivity]. subst k. cbn in E. injection E as <-. left. repeat split; assumption.
Qed.
Lemma create_calm allow f : blank f -> exists f', db_open allow [] f = Opened f' /\ database 7 f'.
Proof.
  destruct f as [v w ts ix]. intros (V & T & I). cbn [f_version f_tabs f_idx] in V, T, I. subst v ts ix. exists (mk_file 7 true (f_tabs fresh) (f_idx fresh)). split; [|apply fresh_database].
  destruct allow; vm_compute; reflexivity.
Qed.
Lemma create_dies : exists l f', db_open false l file_empty = Died f' /\ stuck f'.
Proof.
  exists [FOk; FOk; FOk; FOk; FOk; FCrash]. eexists. split; [reflexivity|]. exists (mk_tab subscriber_cols []). split; [reflexivity|]. left. split; reflexivity.
Qed.
