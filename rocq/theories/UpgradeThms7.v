(** Lemmas for C42: the schema after an upgrade. *)
From Verif Require Import Base Upgrade UpgradeSpec UpgradeThms UpgradeThms2 UpgradeThms3 UpgradeThms4 UpgradeThms5 UpgradeThms6.
From Coq Require Import Permutation Lia Bool.
Local Open Scope string_scope. Local Open Scope list_scope. Local Open Scope Z_scope.

Lemma cols_put f n t m : get_tab (f_tabs f) n <> None -> cols_of (put_tab f n t) m = if String.eqb n m then Some (t_cols t) else cols_of f m.
Proof.
  intros H. unfold cols_of, put_tab, with_tabs. cbn [f_tabs]. rewrite get_set. destruct (String.eqb_spec n m) as [->|]; [|reflexivity].
  destruct (get_tab (f_tabs f) m); [reflexivity|congruence].
Qed.
Lemma canon_add i f t k v : (3 <= i < 5)%nat -> canon i f -> get_tab (f_tabs f) "subscriber" = Some t -> sub_cols (S i) = sub_cols i ++ [k] ->
  canon (S i) (with_version (put_tab f "subscriber" (add_col t k)) v).
Proof.
  intros L (C1 & C2 & C3 & C4 & C5 & C6) G S. assert (N : get_tab (f_tabs f) "subscriber" <> None) by congruence.
  assert (X : forall m, cols_of (with_version (put_tab f "subscriber" (add_col t k)) v) m = if String.eqb "subscriber" m then Some (t_cols t ++ [k]) else cols_of f m).
  { intros m. change (cols_of (with_version ?g v) m) with (cols_of g m). rewrite cols_put by exact N. reflexivity. }
  unfold canon. rewrite !X. cbn [String.eqb Ascii.eqb Bool.eqb].
  split; [|split; [lia|split; [lia|auto]]]. intros _. specialize (C1 ltac:(lia)). unfold cols_of in C1. rewrite G in C1. cbn in C1. injection C1 as ->. rewrite S. reflexivity.
Qed.
Lemma canon_step i f f' : (i < 7)%nat -> database i f -> canon i f -> exec_all (nth i upgrade_path []) (conn_open f) = Some (conn_open f') -> canon (S i) f'.
Proof.
  intros L D C E. pose proof C as (C1 & C2 & C3 & C4 & C5 & C6).
  destruct (db_sub _ _ D) as (t & G & P & V). assert (N : get_tab (f_tabs f) "subscriber" <> None) by congruence.
  destruct i as [|[|[|[|[|[|[|i]]]]]]]; [| | | | | | |lia]; cbn [nth upgrade_path] in E.
  1,2: unfold upgrade_v1, upgrade_v2 in E; rewrite exec_all_cons, exec_addcol, G in E; destruct (has_col _ _); [discriminate E|]; rewrite exec_all_cons, exec_setversion in E; cbn [exec_all] in E; injection E as <-;
    (split; [lia|]; split; [lia|]; split; [lia|]); change (cols_of (with_version ?g _) ?m) with (cols_of g m); rewrite !cols_put by exact N; cbn [String.eqb Ascii.eqb Bool.eqb]; auto.
  - rewrite v3_eq, G in E. destruct (_ && _); [|discriminate E]. assert (X : f' = with_version (v3_file f (proj_rows t v2_names)) 3) by (unfold conn_open in E; congruence). subst f'.
    unfold canon, cols_of. cbn [with_version v3_file with_idx with_tabs f_tabs]. rewrite !get_cons, !get_del. cbn [String.eqb Ascii.eqb Bool.eqb].
    split; [intros _; reflexivity|]. split; [lia|]. split; [lia|]. auto.
  - unfold upgrade_v4 in E. rewrite exec_all_cons, exec_addcol, G in E. destruct (has_col _ _); [discriminate E|]. rewrite exec_all_cons, exec_setversion in E. cbn [exec_all] in E.
    assert (X : f' = with_version (put_tab f "subscriber" (add_col t (col "last_lu_seen_ps" "TIMESTAMP"))) 4) by (unfold conn_open in E; congruence). subst f'.
    apply canon_add; [lia|exact C|exact G|reflexivity].
  - unfold upgrade_v5 in E. rewrite exec_all_cons, exec_addcol, G in E. destruct (has_col _ _); [discriminate E|].
    set (k1 := col "vlr_via_proxy" "VARCHAR") in *. set (g := put_tab f "subscriber" (add_col t k1)) in *.
    assert (G1 : get_tab (f_tabs g) "subscriber" = Some (add_col t k1)) by (apply put_rest; exact N).
    rewrite exec_all_cons, exec_addcol, G1 in E. destruct (has_col _ _); [discriminate E|]. rewrite exec_all_cons, exec_setversion in E. cbn [exec_all] in E.
    set (k2 := col "sgsn_via_proxy" "VARCHAR") in *.
    assert (X : f' = with_version (put_tab g "subscriber" (add_col (add_col t k1) k2)) 5) by (unfold conn_open in E; congruence). subst f'.
    assert (N1 : get_tab (f_tabs g) "subscriber" <> None) by congruence.
    unfold canon. change (cols_of (with_version ?g _) ?m) with (cols_of g m). rewrite !cols_put by exact N1. unfold g. rewrite !cols_put by exact N. cbn [String.eqb Ascii.eqb Bool.eqb].
    split; [|split; [lia|split; [lia|auto]]]. intros _. specialize (C1 ltac:(lia)). unfold cols_of in C1. rewrite G in C1. cbn in C1. injection C1 as C1.
    cbn [add_col t_cols]. rewrite C1. reflexivity.
  - unfold upgrade_v6 in E. rewrite exec_all_cons, exec_create in E. destruct (get_tab (f_tabs f) "ind"); [discriminate E|]. destruct (get_idx _ _); [discriminate E|].
    rewrite exec_all_cons, exec_setversion in E. cbn [exec_all] in E. assert (X : f' = with_version (with_tabs f (("ind", mk_tab ind_cols []) :: f_tabs f)) 6) by (unfold conn_open in E; congruence). subst f'.
    unfold canon, cols_of. cbn [with_version with_tabs f_tabs]. rewrite !get_cons. cbn [String.eqb Ascii.eqb Bool.eqb]. rewrite sub_cols_6.
    split; [intros _; apply C1; lia|]. split; [lia|]. split; [reflexivity|]. auto.
  - rewrite v7_eq in E. destruct (get_tab (f_tabs f) "auc_3g") as [ta|]; [|discriminate E]. destruct (get_tab (f_tabs f) "old_auc_3g"); [discriminate E|]. destruct (_ && _); [|discriminate E].
    assert (X : f' = v7_file f (proj_rows ta auc_3g_names)) by (unfold conn_open in E; congruence). subst f'.
    unfold canon, cols_of. cbn [v7_file f_tabs]. rewrite !get_cons, !get_del. cbn [String.eqb Ascii.eqb Bool.eqb]. rewrite sub_cols_7.
    split; [intros _; apply C1; lia|]. split; [reflexivity|]. split; [intros _; apply C3; lia|]. auto.
Qed.
Lemma canon_chain n : forall i f f', (7 - i = n)%nat -> (i <= 7)%nat -> database i f -> canon i f -> exec_all (chain i) (conn_open f) = Some (conn_open f') -> canon 7 f'.
Proof.
  induction n as [|n IH]; intros i f f' N L D C E.
  - replace i with 7%nat in * by lia. change (chain 7) with (@nil stmt) in E. cbn [exec_all] in E. unfold conn_open in E. injection E as <-. exact C.
  - destruct (step_all i f ltac:(lia) D) as [(f1 & E1 & D1) _]. rewrite chain_cons in E by lia. rewrite exec_all_app, E1 in E.
    eapply (IH (S i)); [lia|lia|exact D1| |exact E]. eapply canon_step; [|exact D|exact C|exact E1]. lia.
Qed.
Lemma canon_fresh f : canon 7 f -> tables_of f = tables_of fresh.
Proof.
  intros (C1 & C2 & C3 & C4 & C5 & C6). specialize (C1 ltac:(lia)). specialize (C2 ltac:(lia)). specialize (C3 ltac:(lia)).
  unfold tables_of. cbn [map hlr_tables]. unfold cols_of in *. rewrite C1, C2, C3, C4, C5, C6. vm_compute. reflexivity.
Qed.

(** ** Indexes *)
Lemma adding_idx ss : forall c c', exec_all ss c = Some c' -> forallb (fun s => match s with SIndex _ _ _ | SDrop _ | SRename _ _ => false | _ => true end) ss = true -> f_idx (n_main c') = f_idx (n_main c).
Proof.
  induction ss as [|s ss IH]; intros c c' E A; [cbn in E; congruence|]. rewrite exec_all_cons in E. destruct (exec s c) as [c1|] eqn:E1; [|discriminate E]. cbn in A. apply andb_true_iff in A. destruct A as [A1 A2].
  rewrite (IH _ _ E A2). unfold exec in E1. destruct s as [ | |v|n k|tmp n k|n names src|n|n n'|i n k]; try discriminate A1.
  - destruct (n_saved c); [discriminate|]. injection E1 as <-. reflexivity.
  - destruct (n_saved c); [|discriminate]. injection E1 as <-. reflexivity.
  - injection E1 as <-. reflexivity.
  - destruct (lookup c n) as [t|]; [|discriminate]. destruct (has_col _ _); [discriminate|]. injection E1 as <-.
    unfold store_tab. destruct (get_tab (n_temp c) n); reflexivity.
  - destruct tmp.
    + destruct (get_tab _ _); [discriminate|]. injection E1 as <-. reflexivity.
    + destruct (get_tab _ _); [discriminate|]. destruct (get_idx _ _); [discriminate|]. injection E1 as <-. reflexivity.
  - destruct (lookup c n) as [d|]; [|discriminate]. destruct (lookup c src) as [t|]; [|discriminate].
    destruct (negb _); [discriminate|]. destruct (negb _); [discriminate|]. destruct (cols_ok _ _ _); [|discriminate]. injection E1 as <-.
    unfold store_tab. destruct (get_tab (n_temp c) n); reflexivity.
Qed.
(** how each upgrade changes the indexes *)
Definition idx_step (i : nat) (l : list index) : list index :=
  match i with 2 => off_idx "subscriber" l | 6 => off_idx "old_auc_3g" (move_idx "auc_3g" "old_auc_3g" l) | _ => l end%nat.
Lemma idx_upgrade i f f' : (i < 7)%nat -> exec_all (nth i upgrade_path []) (conn_open f) = Some (conn_open f') -> f_idx f' = idx_step i (f_idx f).
Proof.
  intros L E. destruct i as [|[|[|[|[|[|[|i]]]]]]]; [| | | | | | |lia].
  1,2,4,5,6: apply (adding_idx _ _ _ E); reflexivity.
  - cbn [nth upgrade_path] in E. rewrite v3_eq in E. destruct (get_tab (f_tabs f) "subscriber"); [|discriminate E]. destruct (_ && _); [|discriminate E].
    unfold conn_open in E. assert (X : f' = with_version (v3_file f (proj_rows t v2_names)) 3) by congruence. subst f'. reflexivity.
  - cbn [nth upgrade_path] in E. rewrite v7_eq in E. destruct (get_tab (f_tabs f) "auc_3g"); [|discriminate E]. destruct (get_tab (f_tabs f) "old_auc_3g"); [discriminate E|]. destruct (_ && _); [|discriminate E].
    unfold conn_open in E. assert (X : f' = v7_file f (proj_rows t auc_3g_names)) by congruence. subst f'. reflexivity.
Qed.
Lemma idx_chain n : forall i f f', (7 - i = n)%nat -> (i <= 7)%nat -> database i f -> exec_all (chain i) (conn_open f) = Some (conn_open f') ->
  f_idx f' = fold_left (fun l j => idx_step j l) (seq i (7 - i)) (f_idx f).
Proof.
  induction n as [|n IH]; intros i f f' N L D E.
  - replace i with 7%nat in * by lia. change (chain 7) with (@nil stmt) in E. cbn [exec_all] in E. unfold conn_open in E. injection E as <-. reflexivity.
  - destruct (step_all i f ltac:(lia) D) as [(f1 & E1 & D1) _]. rewrite chain_cons in E by lia. rewrite exec_all_app, E1 in E.
    rewrite (IH (S i) f1 f' ltac:(lia) ltac:(lia) D1 E), (idx_upgrade i f f1 ltac:(lia) E1). replace (7 - i)%nat with (S (7 - S i)) by lia. reflexivity.
Qed.
Lemma off_none n l x : In x (off_idx n l) -> fst (snd x) <> n.
Proof. intros I. apply filter_In in I. destruct I as [_ I]. apply negb_true_iff, String.eqb_neq in I. exact I. Qed.
Lemma index_lost v f f' : (v < 3)%nat -> database v f -> exec_all (chain v) (conn_open f) = Some (conn_open f') -> forall x, In x (f_idx f') -> fst (snd x) <> "subscriber".
Proof.
  intros L D E x I. rewrite (idx_chain _ v f f' eq_refl ltac:(lia) D E) in I.
  assert (X : In x (off_idx "old_auc_3g" (move_idx "auc_3g" "old_auc_3g" (off_idx "subscriber" (f_idx f))))).
  { destruct v as [|[|[|v]]]; [exact I|exact I|exact I|lia]. }
  clear I. apply filter_In in X. destruct X as [X _]. unfold move_idx in X. apply in_map_iff in X. destruct X as (y & <- & Y). apply off_none in Y.
  destruct (String.eqb (fst (snd y)) "auc_3g"); [discriminate|exact Y].
Qed.
Lemma index_kept v f f' : (3 <= v <= 7)%nat -> database v f -> exec_all (chain v) (conn_open f) = Some (conn_open f') -> f_idx f = f_idx fresh -> f_idx f' = f_idx fresh.
Proof.
  intros L D E I. rewrite (idx_chain _ v f f' eq_refl ltac:(lia) D E), I, fresh_idx. clear -L. destruct v as [|[|[|[|[|[|[|[|v]]]]]]]]; try lia; reflexivity.
Qed.
