(** Lemmas for C41: nothing of the subscribers is lost, whatever happens and whatever is in the file. *)
From Verif Require Import Base Upgrade UpgradeSpec UpgradeThms UpgradeThms2 UpgradeThms3.
From Coq Require Import Permutation Lia Bool.
Local Open Scope string_scope. Local Open Scope list_scope. Local Open Scope Z_scope.

Lemma Forall2_refl_all {A} (R : A -> A -> Prop) l : (forall a, In a l -> R a a) -> Forall2 R l l.
Proof. induction l as [|a l IH]; intros H; constructor; [apply H; left; reflexivity|]. apply IH. intros b I. apply H. right. exact I. Qed.
Lemma Forall2_map_r {A B} (R : A -> B -> Prop) (g : A -> B) l : (forall a, In a l -> R a (g a)) -> Forall2 R l (map g l).
Proof. induction l as [|a l IH]; intros H; constructor; [apply H; left; reflexivity|]. apply IH. intros b I. apply H. right. exact I. Qed.
Lemma Forall2_trans_all {A B C} (P : A -> B -> Prop) (Q : B -> C -> Prop) (R : A -> C -> Prop) : (forall a b c, P a b -> Q b c -> R a c) ->
  forall l1 l2 l3, Forall2 P l1 l2 -> Forall2 Q l2 l3 -> Forall2 R l1 l3.
Proof.
  intros H l1 l2 l3 F. revert l3. induction F as [|a b l1 l2 X F IH]; intros l3 G; inversion G; subst; constructor; eauto.
Qed.

Lemma same_row_refl names cs r : same_row names cs cs r r.
Proof. split; intros; auto. Qed.
Lemma kept_refl f : kept f f.
Proof.
  split; [lia|]. split; [|split].
  - intros t G W. exists t. split; [exact G|]. split; [exact W|]. apply Forall2_refl_all. intros. apply same_row_refl.
  - auto.
  - intros t G W. exists t. split; [exact G|]. split; [exact W|]. apply Forall2_refl_all. auto.
Qed.
Lemma kept_trans f g h : kept f g -> kept g h -> kept f h.
Proof.
  intros (V1 & S1 & A1 & K1) (V2 & S2 & A2 & K2). split; [lia|]. split; [|split].
  - intros t G W. destruct (S1 t G W) as (t1 & G1 & W1 & R1). destruct (S2 t1 G1 W1) as (t2 & G2 & W2 & R2). exists t2. split; [exact G2|]. split; [exact W2|].
    eapply Forall2_trans_all; [|exact R1|exact R2]. cbv beta. intros a b c [P1 P2] [Q1 Q2]. split.
    + intros n L H. destruct (P1 n L H) as [H' E]. destruct (Q1 n) as [H'' E'']; [destruct L as [L|[L L']]; [left; exact L|right; split; [lia|exact L']]|exact H'|].
      split; [exact H''|congruence].
    + intros H. destruct (P2 H) as [H' E]. destruct (Q2 H') as [H'' E'']. split; [exact H''|congruence].
  - auto.
  - intros t G W. destruct (K1 t G W) as (t1 & G1 & W1 & R1). destruct (K2 t1 G1 W1) as (t2 & G2 & W2 & R2). exists t2. split; [exact G2|]. split; [exact W2|].
    eapply Forall2_trans_all; [|exact R1|exact R2]. cbv beta. intros a b c P Q n I H. destruct (P n I H) as [H' E]. destruct (Q n I H') as [H'' E'']. split; [exact H''|congruence].
Qed.
Lemma kept_journal f g : journal f g -> kept f g.
Proof. intros [->| ->]; [apply kept_refl|]. exact (kept_refl f). Qed.

(** ** Statements that only add *)
Lemma add_col_same names t k : wide t -> has_col (t_cols t) (c_name k) = false -> c_name k <> "hlr_number" ->
  wide (add_col t k) /\ same_rows names t (add_col t k).
Proof.
  intros W N H. split.
  - unfold wide, add_col in *. cbn [t_cols t_rows]. apply Forall_forall. intros r I. apply in_map_iff in I. destruct I as (r0 & <- & I).
    rewrite Forall_forall in W. rewrite !app_length. cbn [length]. rewrite (W _ I). reflexivity.
  - unfold same_rows, add_col. cbn [t_cols t_rows]. apply Forall2_map_r. intros r I. unfold wide in W. rewrite Forall_forall in W. specialize (W r I).
    assert (M : msc_column (t_cols t ++ [k]) = msc_column (t_cols t)).
    { unfold msc_column. rewrite has_col_app. assert (E : has_col [k] "hlr_number" = false).
      { unfold has_col. cbn. apply String.eqb_neq in H. rewrite H. reflexivity. }
      rewrite E, orb_false_r. reflexivity. }
    split.
    + intros n _ C. split; [rewrite has_col_app, C; reflexivity|]. apply cell_app; assumption.
    + rewrite M. intros C. split; [rewrite has_col_app, C; reflexivity|]. apply cell_app; assumption.
Qed.
Lemma put_sub_kept f t t' : get_tab (f_tabs f) "subscriber" = Some t -> (wide t -> wide t' /\ forall names, same_rows names t t') -> kept f (put_tab f "subscriber" t').
Proof.
  intros G H. split; [cbn; lia|]. unfold put_tab, with_tabs. cbn [f_tabs]. split; [|split].
  - intros t0 G0 W. assert (t0 = t) by congruence. subst t0. destruct (H W) as [W' R]. exists t'. rewrite get_set, G. cbn. auto.
  - intros t0 G0. rewrite get_set. exact G0.
  - intros t0 G0 W. exists t0. rewrite get_set. split; [exact G0|]. split; [exact W|]. apply Forall2_refl_all. auto.
Qed.
Lemma version_kept f v : f_version f <= v -> kept f (with_version f v).
Proof. intros L. destruct (kept_refl f) as (_ & S & A & K). split; [exact L|]. split; [exact S|]. split; assumption. Qed.
Lemma create_kept f n t : get_tab (f_tabs f) n = None -> kept f (with_tabs f ((n, t) :: f_tabs f)).
Proof.
  intros G.
  assert (X : forall m u, get_tab (f_tabs f) m = Some u -> get_tab ((n, t) :: f_tabs f) m = Some u).
  { intros m u E. rewrite get_cons. destruct (String.eqb_spec n m) as [->|]; [congruence|exact E]. }
  split; [cbn; lia|]. cbn [with_tabs f_tabs]. split; [|split].
  - intros u E W. exists u. split; [apply X; exact E|]. split; [exact W|]. apply Forall2_refl_all. intros. apply same_row_refl.
  - auto.
  - intros u E W. exists u. split; [apply X; exact E|]. split; [exact W|]. apply Forall2_refl_all. auto.
Qed.
(** bootstrap_sql and the upgrades without a transaction: columns are added to the subscriber table, tables and indexes created, the version raised *)
Fixpoint adding (ss : list stmt) (v : Z) : bool :=
  match ss with
  | [] => true
  | SVersion w :: ss => (v <=? w) && adding ss w
  | SAddCol n k :: ss => String.eqb n "subscriber" && negb (String.eqb (c_name k) "hlr_number") && adding ss v
  | SCreate false _ _ :: ss | SIndex _ _ _ :: ss => adding ss v
  | _ => false
  end.
Lemma adding_kept ss : forall f k c, adding ss (f_version f) = true -> exec_all (firstn k ss) (conn_open f) = Some c -> exists f', c = conn_open f' /\ kept f f'.
Proof.
  induction ss as [|s ss IH]; intros f k c A E.
  - rewrite firstn_nil in E. cbn in E. injection E as <-. exists f. split; [reflexivity|apply kept_refl].
  - destruct k as [|k]; [cbn in E; injection E as <-; exists f; split; [reflexivity|apply kept_refl]|].
    cbn [firstn] in E. rewrite exec_all_cons in E.
    assert (X : exists f1, exec s (conn_open f) = Some (conn_open f1) /\ kept f f1 /\ adding ss (f_version f1) = true).
    { destruct s as [ | |v|n col|tmp n cs|n names src|n|n n'|i n cl]; try discriminate A; cbn [adding] in A.
      - apply andb_true_iff in A. destruct A as [V A]. apply Z.leb_le in V. exists (with_version f v). split; [apply exec_setversion|]. split; [apply version_kept; exact V|exact A].
      - apply andb_true_iff in A. destruct A as [A1 A]. apply andb_true_iff in A1. destruct A1 as [A1 A2]. apply String.eqb_eq in A1. subst n.
        apply negb_true_iff, String.eqb_neq in A2. rewrite exec_addcol in *. destruct (get_tab (f_tabs f) "subscriber") as [t|] eqn:G; [|discriminate E].
        destruct (has_col (t_cols t) (c_name col)) eqn:N; [discriminate E|]. eexists. split; [reflexivity|]. split; [|exact A].
        apply put_sub_kept with (t := t); [exact G|]. intros W. split; [apply (add_col_same (fun _ => True) t col W N A2)|]. intros names. apply (add_col_same names t col W N A2).
      - destruct tmp; [discriminate A|]. rewrite exec_create in *. destruct (get_tab (f_tabs f) n) eqn:G; [discriminate E|].
        destruct (get_idx (f_idx f) n); [discriminate E|]. eexists. split; [reflexivity|]. split; [|exact A]. apply create_kept. exact G.
      - unfold exec in *. cbn [conn_open n_main n_saved n_temp] in *. destruct (get_tab (f_tabs f) n); [|discriminate E]. destruct (_ || _); [discriminate E|].
        destruct (negb _); [discriminate E|]. destruct (vals_distinct _); [|discriminate E]. eexists. split; [reflexivity|]. split; [|exact A]. exact (kept_refl f). }
    destruct X as (f1 & E1 & K1 & A1). rewrite E1 in E. destruct (IH _ _ _ A1 E) as (f' & F & K). exists f'. split; [exact F|]. eapply kept_trans; eassumption.
Qed.

(** ** Versions 3 and 7 *)
Lemma v3_pairs : forall n, lasting n -> In (n, n) (combine (map c_name v3_cols) v2_names).
Proof. intros n [I N]. cbn in I. repeat (destruct I as [<-|I]; [first [contradiction N; reflexivity|cbn; tauto]|]). destruct I. Qed.
Lemma v3_kept f t w : f_version f = 2 -> 2 <= w -> get_tab (f_tabs f) "subscriber" = Some t -> forallb (has_col (t_cols t)) v2_names = true ->
  kept f (with_version (v3_file f (proj_rows t v2_names)) w).
Proof.
  intros V LW G H. split; [cbn; lia|]. cbn [with_version v3_file with_idx with_tabs f_tabs].
  split; [|split].
  - intros t0 G0 W. assert (t0 = t) by congruence. subst t0. eexists. split; [rewrite get_cons; reflexivity|]. split; [exact (proj_wide t v2_names)|].
    unfold same_rows, proj_rows. cbn [t_cols t_rows]. apply Forall2_map_r. intros r I. split.
    + intros n [L|[L _]] C; [|lia]. split.
      * apply has_col_in. eapply in_combine_l. apply v3_pairs. exact L.
      * apply cell_proj; [reflexivity|exact v3_nodup|]. apply v3_pairs. exact L.
    + intros _. split; [reflexivity|].
      assert (M : msc_column (t_cols t) = "hlr_number").
      { unfold msc_column. rewrite forallb_forall in H. rewrite (H "hlr_number"); [reflexivity|]. cbn. tauto. }
      rewrite M. change (msc_column v3_cols) with "msc_number". apply cell_proj; [reflexivity|exact v3_nodup|]. cbn. tauto.
  - intros t0 G0. rewrite get_cons, get_del. exact G0.
  - intros t0 G0 W. exists t0. rewrite get_cons, get_del. split; [exact G0|]. split; [exact W|]. apply Forall2_refl_all. auto.
Qed.
Lemma v7_kept f t : f_version f = 6 -> get_tab (f_tabs f) "auc_3g" = Some t -> kept f (v7_file f (proj_rows t auc_3g_names)).
Proof.
  intros V G. split; [cbn; lia|]. cbn [v7_file f_tabs]. split; [|split].
  - intros t0 G0 W. exists t0. rewrite get_cons, !get_del. split; [exact G0|]. split; [exact W|]. apply Forall2_refl_all. intros. apply same_row_refl.
  - intros t0 G0. rewrite get_cons, !get_del. exact G0.
  - intros t0 G0 W. assert (t0 = t) by congruence. subst t0. eexists. split; [rewrite get_cons; reflexivity|]. split; [exact (proj_wide t auc_3g_names)|].
    unfold proj_rows. cbn [t_cols t_rows]. apply Forall2_map_r. intros r I n In_ C.
    assert (P : In (n, n) (combine (map c_name auc_3g_cols) auc_3g_names)).
    { cbn in In_. repeat (destruct In_ as [<-|In_]; [cbn; tauto|]). destruct In_. }
    split; [apply has_col_in; eapply in_combine_l; exact P|]. apply cell_proj; [reflexivity|exact auc_3g_nodup|exact P].
Qed.

(** ** One upgrade, interrupted or not *)
Lemma firstn_app_cases {A} k (a b : list A) : (k <= length a /\ firstn k (a ++ b) = firstn k a)%nat \/ (length a < k /\ firstn k (a ++ b) = a ++ firstn (k - length a) b)%nat.
Proof.
  rewrite firstn_app. destruct (Nat.le_gt_cases k (length a)) as [L|L].
  - left. split; [exact L|]. replace (k - length a)%nat with 0%nat by lia. apply app_nil_r.
  - right. split; [exact L|]. rewrite firstn_all2 by lia. reflexivity.
Qed.
Lemma one_upgrade i f k c : (i < 7)%nat -> f_version f = Z.of_nat i -> exec_all (firstn k (nth i upgrade_path [])) (conn_open f) = Some c ->
  kept f (durable c) /\ ((length (nth i upgrade_path []) <= k)%nat -> c = conn_open (durable c) /\ f_version (durable c) = Z.of_nat (S i)).
Proof.
  intros L V E.
  assert (X : kept f (durable c) /\ ((length (nth i upgrade_path []) <= k)%nat -> c = conn_open (durable c))).
  2:{ destruct X as [X1 X2]. split; [exact X1|]. intros Lk. split; [exact (X2 Lk)|]. rewrite firstn_all2 in E by exact Lk.
      pose proof (exec_all_version _ _ _ E) as W. assert (M : durable c = n_main c) by (rewrite (X2 Lk); reflexivity). rewrite M, W.
      do 7 (destruct i as [|i]; [reflexivity|]). lia. }
  assert (Add : forall ss, adding ss (f_version f) = true -> exec_all (firstn k ss) (conn_open f) = Some c -> kept f (durable c) /\ ((length ss <= k)%nat -> c = conn_open (durable c))).
  { intros ss A E'. destruct (adding_kept _ _ _ _ A E') as (f' & -> & K). split; [exact K|]. intros _. reflexivity. }
  destruct i as [|[|[|[|[|[|[|i]]]]]]]; [| | | | | | |lia]; try (apply Add; [rewrite V; reflexivity|exact E]).
  - (* version 3 *)
    cbn [nth upgrade_path] in *. rewrite v3_split in E |- *. destruct (firstn_app_cases k (SBegin :: v3_body) [SCommit; SVersion 3]) as [[Lk Ek]|[Lk Ek]]; rewrite Ek in E.
    + assert (D : durable c = f).
      { eapply (prefix_txn f v3_body k c); [reflexivity| |exact E]. cbn [length] in Lk. cbn [length]. lia. }
      rewrite D. split; [apply kept_refl|]. cbn. cbn in Lk. lia.
    + rewrite exec_all_app, v3_body_eq in E. destruct (get_tab (f_tabs f) "subscriber") as [t|] eqn:G; [|discriminate E].
      destruct (forallb (has_col (t_cols t)) v2_names) eqn:H; cbn [andb] in E; [|discriminate E].
      destruct (_ && _); [|discriminate E].
      set (g := v3_file f (proj_rows t v2_names)) in *. cbn in Lk. remember (k - length (SBegin :: v3_body))%nat as j eqn:J. cbn [length v3_body] in J. destruct j as [|[|j]]; [lia| |].
      * cbn in E. injection E as <-. split.
        -- pose proof (v3_kept f t 2 V ltac:(lia) G H) as K. change (durable _) with g. replace g with (with_version g 2); [exact K|]. unfold g, with_version, v3_file, with_idx, with_tabs. cbn [f_version f_wal f_tabs f_idx]. rewrite V. reflexivity.
        -- cbn. lia.
      * destruct j; cbn in E; injection E as <-; (split; [apply v3_kept; auto; lia|reflexivity]).
  - (* version 7 *)
    cbn [nth upgrade_path] in *. rewrite v7_split in E |- *. destruct (firstn_app_cases k (SBegin :: v7_body) [SCommit]) as [[Lk Ek]|[Lk Ek]]; rewrite Ek in E.
    + assert (D : durable c = f).
      { eapply (prefix_txn f v7_body k c); [reflexivity| |exact E]. cbn [length] in Lk. cbn [length]. lia. }
      rewrite D. split; [apply kept_refl|]. cbn. cbn in Lk. lia.
    + rewrite exec_all_app, v7_body_eq in E. destruct (get_tab (f_tabs f) "auc_3g") as [t|] eqn:G; [|discriminate E].
      destruct (get_tab (f_tabs f) "old_auc_3g"); [discriminate E|]. destruct (_ && _); [|discriminate E].
      cbn in Lk. remember (k - length (SBegin :: v7_body))%nat as j eqn:J. cbn [length v7_body] in J. destruct j as [|j]; [lia|].
      destruct j; cbn in E; injection E as <-; (split; [apply v7_kept; auto|reflexivity]).
Qed.
Lemma chain_cons i : (i < 7)%nat -> chain i = nth i upgrade_path [] ++ chain (S i).
Proof. intros L. do 7 (destruct i as [|i]; [reflexivity|]). lia. Qed.
Lemma chain_kept n : forall i f k c, (7 - i = n)%nat -> (i <= 7)%nat -> f_version f = Z.of_nat i -> exec_all (firstn k (chain i)) (conn_open f) = Some c -> kept f (durable c).
Proof.
  induction n as [|n IH]; intros i f k c N L V E.
  - replace i with 7%nat in E by lia. change (chain 7) with (@nil stmt) in E. rewrite firstn_nil in E. cbn in E. injection E as <-. apply kept_refl.
  - rewrite chain_cons in E by lia. destruct (firstn_app_cases k (nth i upgrade_path []) (chain (S i))) as [[Lk Ek]|[Lk Ek]]; rewrite Ek in E.
    + apply (one_upgrade i f k c); [lia|exact V|exact E].
    + rewrite exec_all_app in E. destruct (exec_all (nth i upgrade_path []) (conn_open f)) as [c1|] eqn:E1; [|discriminate E].
      destruct (one_upgrade i f (length (nth i upgrade_path [])) c1) as [K1 D1]; [lia|exact V|rewrite firstn_all; exact E1|].
      destruct (D1 (le_n _)) as [D V1]. rewrite D in E. eapply kept_trans; [exact K1|]. eapply (IH (S i)); [lia|lia|exact V1|exact E].
Qed.
Lemma db_open_kept allow l f : kept f (op_file (db_open allow l f)).
Proof.
  destruct (db_open_reached allow l f) as (g & J & ss & k & c & A & L & E & F & _). rewrite F. eapply kept_trans; [apply kept_journal; exact J|].
  inversion A as [N|Z N|U R N]; subst ss.
  - rewrite firstn_nil in E. cbn in E. injection E as <-. apply kept_refl.
  - destruct (adding_kept bootstrap_sql g k c) as (f' & -> & K); [rewrite Z; reflexivity|exact E|exact K].
  - eapply (chain_kept _ (Z.to_nat (f_version g))); [reflexivity|lia|lia|exact E].
Qed.
Lemma starts_kept l : forall f, kept f (starts l f).
Proof.
  induction l as [|[allow s] l IH]; intros f; [apply kept_refl|]. cbn [starts]. eapply kept_trans; [apply db_open_kept|apply IH].
Qed.
