(** Lemmas: columns and rows, and each upgrade as one equation. *)
From Verif Require Import Base Upgrade UpgradeSpec UpgradeThms UpgradeThms2.
From Coq Require Import Permutation Lia Bool.
Local Open Scope string_scope. Local Open Scope list_scope. Local Open Scope Z_scope.

(** ** Columns *)
Lemma col_pos_lt cs n : forall i, col_pos cs n = Some i -> (i < length cs)%nat.
Proof.
  induction cs as [|c cs IH]; intros i H; [discriminate|]. cbn in *. destruct (String.eqb (c_name c) n); [injection H as <-; lia|].
  destruct (col_pos cs n) as [j|]; [|discriminate]. injection H as <-. specialize (IH j eq_refl). lia.
Qed.
Lemma col_pos_app a b n : col_pos (a ++ b) n = match col_pos a n with Some i => Some i | None => option_map (Nat.add (length a)) (col_pos b n) end.
Proof.
  induction a as [|c a IH]; cbn; [destruct (col_pos b n); reflexivity|]. destruct (String.eqb (c_name c) n); [reflexivity|]. rewrite IH.
  destruct (col_pos a n); [reflexivity|]. destruct (col_pos b n); reflexivity.
Qed.
Lemma has_col_in cs n : has_col cs n = true <-> In n (map c_name cs).
Proof.
  unfold has_col. induction cs as [|c cs IH]; cbn; [split; [discriminate|tauto]|].
  destruct (String.eqb_spec (c_name c) n) as [E|E]; [tauto|]. destruct (col_pos cs n); cbn in *; rewrite <- IH; split; try tauto.
Qed.
Lemma has_col_app a b n : has_col (a ++ b) n = has_col a n || has_col b n.
Proof. unfold has_col. rewrite col_pos_app. destruct (col_pos a n); [reflexivity|]. destruct (col_pos b n); reflexivity. Qed.
Lemma cell_app cs k r d n : length r = length cs -> has_col cs n = true -> cell (cs ++ [k]) (r ++ [d]) n = cell cs r n.
Proof.
  unfold cell, has_col. intros L H. rewrite col_pos_app. destruct (col_pos cs n) as [i|] eqn:P; [|discriminate].
  apply app_nth1. rewrite L. eapply col_pos_lt. exact P.
Qed.
(** a row read by the names of its columns, in order, is the row itself *)
Lemma cell_cons_ne c cs v r n : c_name c <> n -> cell (c :: cs) (v :: r) n = cell cs r n.
Proof. unfold cell. cbn. intros H. apply String.eqb_neq in H. rewrite H. destruct (col_pos cs n); reflexivity. Qed.
Lemma row_self cs : forall r, NoDup (map c_name cs) -> length r = length cs -> map (cell cs r) (map c_name cs) = r.
Proof.
  induction cs as [|c cs IH]; intros r D L; destruct r as [|v r]; try discriminate L; [reflexivity|]. cbn [map] in *. inversion D as [|? ? I D']; subst.
  f_equal.
  - unfold cell. cbn. rewrite String.eqb_refl. reflexivity.
  - rewrite <- (IH r D') at 2; [|cbn in L; lia]. apply map_ext_in. intros n Hn. apply cell_cons_ne. intros E. apply I. rewrite E. exact Hn.
Qed.
(** a projected row read by the name of one of the new columns *)
Lemma cell_proj cs r : forall (ds : list column) names n m, length names = length ds -> NoDup (map c_name ds) -> In (n, m) (combine (map c_name ds) names) ->
  cell ds (map (cell cs r) names) n = cell cs r m.
Proof.
  induction ds as [|d ds IH]; intros names n m L D I; [destruct I|]. destruct names as [|m0 names]; [discriminate|]. cbn [map combine] in *. inversion D as [|? ? Nin D']; subst.
  destruct I as [I|I].
  - injection I as E1 E2. subst. unfold cell. cbn. rewrite String.eqb_refl. reflexivity.
  - rewrite cell_cons_ne.
    + apply IH; [cbn in L; lia|exact D'|exact I].
    + intros E. apply Nin. rewrite E. eapply in_combine_l. exact I.
Qed.
Fixpoint dedup_test (l : list string) : bool := match l with [] => true | a :: l => negb (existsb (String.eqb a) l) && dedup_test l end.
Lemma dedup_ok l : dedup_test l = true -> NoDup l.
Proof.
  induction l as [|a l IH]; intros H; [constructor|]. cbn in H. apply andb_true_iff in H. destruct H as [H1 H2]. constructor; [|auto].
  intros I. apply negb_true_iff in H1. assert (existsb (String.eqb a) l = true); [|congruence]. apply existsb_exists. exists a. split; [exact I|apply String.eqb_refl].
Qed.

(** ** Constraints *)
Lemma val_eqb_eq a b : val_eqb a b = true <-> a = b.
Proof.
  destruct a, b; cbn; split; intros H; try discriminate; try congruence; try reflexivity.
  - apply Z.eqb_eq in H. congruence.
  - injection H as ->. apply Z.eqb_refl.
  - apply String.eqb_eq in H. congruence.
  - injection H as ->. apply String.eqb_refl.
Qed.
Lemma vals_distinct_iff l : vals_distinct l = true <-> NoDup l.
Proof.
  induction l as [|a l IH]; cbn; [split; [constructor|reflexivity]|]. rewrite andb_true_iff, negb_true_iff, IH. split.
  - intros [H D]. constructor; [|exact D]. intros I. assert (existsb (val_eqb a) l = true); [|congruence]. apply existsb_exists. exists a. split; [exact I|apply val_eqb_eq; reflexivity].
  - intros D. inversion D as [|? ? I D']; subst. split; [|exact D']. destruct (existsb (val_eqb a) l) eqn:E; [|reflexivity]. exfalso. apply I.
    apply existsb_exists in E. destruct E as (b & Ib & E). apply val_eqb_eq in E. congruence.
Qed.
(** what column_valid says of a list of values *)
Definition vals_valid (c : column) (vs : list val) : Prop :=
  (c_notnull c = true -> ~ In UNull vs)
  /\ (c_pk c = true -> forall v, In v vs -> exists z, v = UInt z)
  /\ (c_pk c = true \/ c_uniq c = true -> NoDup (filter nonnull vs)).
Lemma col_ok_iff rows i c : col_ok rows i c = true <-> vals_valid c (map (fun r => nth i r UNull) rows).
Proof.
  unfold col_ok, vals_valid. set (vs := map _ rows). rewrite !andb_true_iff, !orb_true_iff, !negb_true_iff.
  assert (F : filter (fun v => negb (val_null v)) vs = filter nonnull vs). { apply filter_ext. intros []; reflexivity. }
  rewrite F, vals_distinct_iff.
  assert (N : forallb (fun v => negb (val_null v)) vs = true <-> ~ In UNull vs).
  { rewrite forallb_forall. split.
    - intros H I. specialize (H _ I). discriminate.
    - intros H v I. destruct v; [contradiction|reflexivity|reflexivity]. }
  assert (P : forallb val_int vs = true <-> forall v, In v vs -> exists z, v = UInt z).
  { rewrite forallb_forall. split; intros H v I; specialize (H v I).
    - destruct v; try discriminate. eauto.
    - destruct H as [z ->]. reflexivity. }
  rewrite N, P. destruct (c_notnull c), (c_pk c), (c_uniq c); cbn; intuition congruence.
Qed.
Lemma cols_ok_iff rows cs : forall i, cols_ok rows i cs = true <-> forall j c, nth_error cs j = Some c -> vals_valid c (map (fun r => nth (i + j) r UNull) rows).
Proof.
  induction cs as [|c cs IH]; intros i; cbn.
  - split; [intros _ j c H; destruct j; discriminate|reflexivity].
  - rewrite andb_true_iff, IH, col_ok_iff. split.
    + intros [H1 H2] j d E. destruct j as [|j].
      * cbn in E. injection E as <-. rewrite Nat.add_0_r. exact H1.
      * cbn in E. specialize (H2 j d E). rewrite <- plus_n_Sm. exact H2.
    + intros H. split.
      * specialize (H 0%nat c eq_refl). rewrite Nat.add_0_r in H. exact H.
      * intros j d E. specialize (H (S j) d E). rewrite <- plus_n_Sm in H. exact H.
Qed.
Lemma col_pos_nth cs : forall j c, NoDup (map c_name cs) -> nth_error cs j = Some c -> col_pos cs (c_name c) = Some j.
Proof.
  induction cs as [|d cs IH]; intros j c D E; destruct j as [|j]; try discriminate E.
  - cbn in *. injection E as ->. rewrite String.eqb_refl. reflexivity.
  - cbn in *. inversion D as [|? ? I D']; subst. destruct (String.eqb_spec (c_name d) (c_name c)) as [F|F].
    + exfalso. apply I. rewrite F. apply in_map. eapply nth_error_In. exact E.
    + rewrite (IH j c D' E). reflexivity.
Qed.
Lemma cols_ok_valid cs rows : NoDup (map c_name cs) -> Forall (fun r => length r = length cs) rows -> cols_ok rows 0 cs = true <-> valid (mk_tab cs rows).
Proof.
  intros D W. rewrite cols_ok_iff. unfold valid, wide. cbn [t_cols t_rows]. rewrite (Forall_forall (column_valid _)). split.
  - intros H. split; [exact W|]. intros c I. destruct (In_nth_error _ _ I) as (j & E). specialize (H j c E). unfold column_valid. cbn [t_cols t_rows].
    unfold cell. rewrite (col_pos_nth cs j c D E). exact H.
  - intros [_ H] j c E. specialize (H c (nth_error_In _ _ E)). unfold column_valid in H. cbn [t_cols t_rows] in H. unfold cell in H.
    rewrite (col_pos_nth cs j c D E) in H. exact H.
Qed.

(** ** Each upgrade as an equation *)
Definition add_col (t : table) (k : column) : table := mk_tab (t_cols t ++ [k]) (map (fun r => r ++ [c_default k]) (t_rows t)).
Definition put_tab (f : file) (n : string) (t : table) : file := with_tabs f (set_tab (f_tabs f) n t).
Lemma exec_addcol n k f : exec (SAddCol n k) (conn_open f) =
  match get_tab (f_tabs f) n with
  | Some t => if has_col (t_cols t) (c_name k) then None else Some (conn_open (put_tab f n (add_col t k)))
  | None => None
  end.
Proof. reflexivity. Qed.
Lemma exec_setversion v f : exec (SVersion v) (conn_open f) = Some (conn_open (with_version f v)).
Proof. reflexivity. Qed.
Lemma exec_create n cs f : exec (SCreate false n cs) (conn_open f) =
  match get_tab (f_tabs f) n with
  | Some _ => None
  | None => if get_idx (f_idx f) n then None else Some (conn_open (with_tabs f ((n, mk_tab cs []) :: f_tabs f)))
  end.
Proof. reflexivity. Qed.
Lemma exec_all_cons s ss c : exec_all (s :: ss) c = match exec s c with Some c' => exec_all ss c' | None => None end.
Proof. reflexivity. Qed.

Lemma set_del l n t : set_tab (del_tab l n) n t = del_tab l n.
Proof.
  induction l as [|[a b] l IH]; [reflexivity|]. cbn [del_tab filter fst]. destruct (String.eqb a n) eqn:E; cbn [negb].
  - exact IH.
  - cbn [set_tab map fst]. rewrite E. f_equal. exact IH.
Qed.
Definition proj_rows (t : table) (names : list string) : list (list val) := map (fun r => map (cell (t_cols t) r) names) (t_rows t).
Definition off_idx (n : string) (l : list index) : list index := filter (fun x => negb (String.eqb (fst (snd x)) n)) l.
Definition v3_file (f : file) (rows : list (list val)) : file :=
  with_idx (with_tabs f (("subscriber", mk_tab v3_cols rows) :: del_tab (f_tabs f) "subscriber")) (off_idx "subscriber" (f_idx f)).
Definition v3_body : list stmt := [
  SCreate true "subscriber_backup" v3_cols; SInsert "subscriber_backup" v2_names "subscriber"; SDrop "subscriber"; SCreate false "subscriber" v3_cols;
  SInsert "subscriber" v3_names "subscriber_backup"; SDrop "subscriber_backup" ].
Lemma v3_split : upgrade_v3 = (SBegin :: v3_body) ++ [SCommit; SVersion 3].
Proof. reflexivity. Qed.
Lemma v3_names_cols : v3_names = map c_name v3_cols. Proof. reflexivity. Qed.
Lemma v3_nodup : NoDup (map c_name v3_cols). Proof. apply dedup_ok. reflexivity. Qed.
Lemma proj_self rows cs : NoDup (map c_name cs) -> Forall (fun r => length r = length cs) rows ->
  map (fun r => map (cell cs r) (map c_name cs)) rows = rows.
Proof.
  intros D W. rewrite <- (map_id rows) at 2. apply map_ext_in. intros r I. apply row_self; [exact D|]. rewrite Forall_forall in W. apply W. exact I.
Qed.
Lemma proj_wide t names : Forall (fun r => length r = length names) (proj_rows t names).
Proof. unfold proj_rows. apply Forall_forall. intros r I. apply in_map_iff in I. destruct I as (r0 & <- & _). apply map_length. Qed.
Lemma forallb_has cs : forallb (has_col cs) (map c_name cs) = true.
Proof. apply forallb_forall. intros n I. apply has_col_in. exact I. Qed.
Lemma v3_body_eq f : exec_all (SBegin :: v3_body) (conn_open f) =
  match get_tab (f_tabs f) "subscriber" with
  | Some t =>
    if forallb (has_col (t_cols t)) v2_names && cols_ok (proj_rows t v2_names) 0 v3_cols && negb (get_idx (off_idx "subscriber" (f_idx f)) "subscriber")
    then Some (mk_conn (v3_file f (proj_rows t v2_names)) (Some f) []) else None
  | None => None
  end.
Proof.
  unfold v3_body. rewrite exec_all_cons. change (exec SBegin (conn_open f)) with (Some (mk_conn f (Some f) [])). cbv iota.
  rewrite exec_all_cons. change (exec (SCreate true "subscriber_backup" v3_cols) (mk_conn f (Some f) [])) with (Some (mk_conn f (Some f) [("subscriber_backup", mk_tab v3_cols [])])). cbv iota.
  rewrite exec_all_cons.
  change (exec (SInsert "subscriber_backup" v2_names "subscriber") (mk_conn f (Some f) [("subscriber_backup", mk_tab v3_cols [])])) with
    (match get_tab (f_tabs f) "subscriber" with
     | Some t => if negb (forallb (has_col (t_cols t)) v2_names) then None
                 else if cols_ok (proj_rows t v2_names) 0 v3_cols
                      then Some (mk_conn f (Some f) [("subscriber_backup", mk_tab v3_cols (proj_rows t v2_names))]) else None
     | None => None end).
  destruct (get_tab (f_tabs f) "subscriber") as [t|] eqn:G; [|reflexivity].
  destruct (forallb (has_col (t_cols t)) v2_names); [|reflexivity]. cbn [negb andb].
  destruct (cols_ok (proj_rows t v2_names) 0 v3_cols) eqn:K; [|reflexivity]. cbn [andb]. cbv iota.
  set (rows := proj_rows t v2_names) in *.
  assert (W : Forall (fun r => length r = length v3_cols) rows) by exact (proj_wide t v2_names).
  rewrite exec_all_cons.
  change (exec (SDrop "subscriber") (mk_conn f (Some f) [("subscriber_backup", mk_tab v3_cols rows)])) with
    (match get_tab (f_tabs f) "subscriber" with
     | Some _ => Some (mk_conn (with_idx (with_tabs f (del_tab (f_tabs f) "subscriber")) (off_idx "subscriber" (f_idx f))) (Some f) [("subscriber_backup", mk_tab v3_cols rows)])
     | None => None end).
  rewrite G. set (g := with_idx (with_tabs f (del_tab (f_tabs f) "subscriber")) (off_idx "subscriber" (f_idx f))).
  rewrite exec_all_cons.
  change (exec (SCreate false "subscriber" v3_cols) (mk_conn g (Some f) [("subscriber_backup", mk_tab v3_cols rows)])) with
    (match get_tab (del_tab (f_tabs f) "subscriber") "subscriber" with
     | Some _ => None
     | None => if get_idx (off_idx "subscriber" (f_idx f)) "subscriber" then None
               else Some (mk_conn (with_tabs g (("subscriber", mk_tab v3_cols []) :: del_tab (f_tabs f) "subscriber")) (Some f) [("subscriber_backup", mk_tab v3_cols rows)])
     end).
  rewrite get_del. change (String.eqb "subscriber" "subscriber") with true. cbv iota.
  destruct (get_idx (off_idx "subscriber" (f_idx f)) "subscriber"); [reflexivity|]. cbn [negb]. cbv iota.
  rewrite exec_all_cons.
  change (exec (SInsert "subscriber" v3_names "subscriber_backup")
      (mk_conn (with_tabs g (("subscriber", mk_tab v3_cols []) :: del_tab (f_tabs f) "subscriber")) (Some f) [("subscriber_backup", mk_tab v3_cols rows)])) with
    (if cols_ok (map (fun r => map (cell v3_cols r) (map c_name v3_cols)) rows) 0 v3_cols
     then Some (mk_conn (with_tabs g (("subscriber", mk_tab v3_cols (map (fun r => map (cell v3_cols r) (map c_name v3_cols)) rows)) ::
                                      set_tab (del_tab (f_tabs f) "subscriber") "subscriber" (mk_tab v3_cols (map (fun r => map (cell v3_cols r) (map c_name v3_cols)) rows))))
                        (Some f) [("subscriber_backup", mk_tab v3_cols rows)])
     else None).
  rewrite (proj_self rows v3_cols v3_nodup W), K, set_del. cbv iota.
  reflexivity.
Qed.
Lemma v3_eq f : exec_all upgrade_v3 (conn_open f) =
  match get_tab (f_tabs f) "subscriber" with
  | Some t =>
    if forallb (has_col (t_cols t)) v2_names && cols_ok (proj_rows t v2_names) 0 v3_cols && negb (get_idx (off_idx "subscriber" (f_idx f)) "subscriber")
    then Some (conn_open (with_version (v3_file f (proj_rows t v2_names)) 3)) else None
  | None => None
  end.
Proof.
  rewrite v3_split, exec_all_app, v3_body_eq. destruct (get_tab (f_tabs f) "subscriber") as [t|]; [|reflexivity].
  destruct (_ && _); reflexivity.
Qed.

Definition move_idx (n n' : string) (l : list index) : list index := map (fun x => if String.eqb (fst (snd x)) n then (fst x, (n', snd (snd x))) else x) l.
Definition v7_file (f : file) (rows : list (list val)) : file :=
  mk_file 7 (f_wal f) (("auc_3g", mk_tab auc_3g_cols rows) :: del_tab (del_tab (f_tabs f) "auc_3g") "old_auc_3g")
    (off_idx "old_auc_3g" (move_idx "auc_3g" "old_auc_3g" (f_idx f))).
Definition v7_body : list stmt := [
  SRename "auc_3g" "old_auc_3g"; SCreate false "auc_3g" auc_3g_cols; SInsert "auc_3g" auc_3g_names "old_auc_3g"; SDrop "old_auc_3g"; SVersion 7 ].
Lemma v7_split : upgrade_v7 = (SBegin :: v7_body) ++ [SCommit].
Proof. reflexivity. Qed.
Lemma auc_3g_nodup : NoDup (map c_name auc_3g_cols). Proof. apply dedup_ok. reflexivity. Qed.
Lemma v7_body_eq f : exec_all (SBegin :: v7_body) (conn_open f) =
  match get_tab (f_tabs f) "auc_3g", get_tab (f_tabs f) "old_auc_3g" with
  | Some t, None =>
    if negb (get_idx (f_idx f) "old_auc_3g") && negb (get_idx (move_idx "auc_3g" "old_auc_3g" (f_idx f)) "auc_3g")
       && forallb (has_col (t_cols t)) auc_3g_names && cols_ok (proj_rows t auc_3g_names) 0 auc_3g_cols
    then Some (mk_conn (v7_file f (proj_rows t auc_3g_names)) (Some f) []) else None
  | _, _ => None
  end.
Proof.
  unfold v7_body. rewrite exec_all_cons. change (exec SBegin (conn_open f)) with (Some (mk_conn f (Some f) [])). cbv iota.
  rewrite exec_all_cons.
  change (exec (SRename "auc_3g" "old_auc_3g") (mk_conn f (Some f) [])) with
    (match get_tab (f_tabs f) "auc_3g", get_tab (f_tabs f) "old_auc_3g" with
     | Some t, None => if get_idx (f_idx f) "old_auc_3g" then None
        else Some (mk_conn (with_idx (with_tabs f (("old_auc_3g", t) :: del_tab (f_tabs f) "auc_3g")) (move_idx "auc_3g" "old_auc_3g" (f_idx f))) (Some f) [])
     | _, _ => None end).
  destruct (get_tab (f_tabs f) "auc_3g") as [t|] eqn:G; [|reflexivity]. destruct (get_tab (f_tabs f) "old_auc_3g") as [t0|] eqn:G0; [reflexivity|].
  destruct (get_idx (f_idx f) "old_auc_3g"); [reflexivity|]. cbn [negb andb].
  set (g := with_idx (with_tabs f (("old_auc_3g", t) :: del_tab (f_tabs f) "auc_3g")) (move_idx "auc_3g" "old_auc_3g" (f_idx f))).
  rewrite exec_all_cons.
  change (exec (SCreate false "auc_3g" auc_3g_cols) (mk_conn g (Some f) [])) with
    (match get_tab (("old_auc_3g", t) :: del_tab (f_tabs f) "auc_3g") "auc_3g" with
     | Some _ => None
     | None => if get_idx (move_idx "auc_3g" "old_auc_3g" (f_idx f)) "auc_3g" then None
               else Some (mk_conn (with_tabs g (("auc_3g", mk_tab auc_3g_cols []) :: ("old_auc_3g", t) :: del_tab (f_tabs f) "auc_3g")) (Some f) []) end).
  rewrite get_cons, get_del. change (String.eqb "old_auc_3g" "auc_3g") with false. change (String.eqb "auc_3g" "auc_3g") with true. cbv iota.
  destruct (get_idx (move_idx "auc_3g" "old_auc_3g" (f_idx f)) "auc_3g"); [reflexivity|]. cbn [negb andb].
  rewrite exec_all_cons.
  change (exec (SInsert "auc_3g" auc_3g_names "old_auc_3g") (mk_conn (with_tabs g (("auc_3g", mk_tab auc_3g_cols []) :: ("old_auc_3g", t) :: del_tab (f_tabs f) "auc_3g")) (Some f) [])) with
    (if negb (forallb (has_col (t_cols t)) auc_3g_names) then None
     else if cols_ok (proj_rows t auc_3g_names) 0 auc_3g_cols
          then Some (mk_conn (with_tabs g (("auc_3g", mk_tab auc_3g_cols (proj_rows t auc_3g_names)) :: ("old_auc_3g", t) ::
                 set_tab (del_tab (f_tabs f) "auc_3g") "auc_3g" (mk_tab auc_3g_cols (proj_rows t auc_3g_names)))) (Some f) []) else None).
  destruct (forallb (has_col (t_cols t)) auc_3g_names); [|reflexivity]. cbn [negb andb]. rewrite set_del.
  destruct (cols_ok (proj_rows t auc_3g_names) 0 auc_3g_cols); [|reflexivity].
  reflexivity.
Qed.
Lemma v7_eq f : exec_all upgrade_v7 (conn_open f) =
  match get_tab (f_tabs f) "auc_3g", get_tab (f_tabs f) "old_auc_3g" with
  | Some t, None =>
    if negb (get_idx (f_idx f) "old_auc_3g") && negb (get_idx (move_idx "auc_3g" "old_auc_3g" (f_idx f)) "auc_3g")
       && forallb (has_col (t_cols t)) auc_3g_names && cols_ok (proj_rows t auc_3g_names) 0 auc_3g_cols
    then Some (conn_open (v7_file f (proj_rows t auc_3g_names))) else None
  | _, _ => None
  end.
Proof.
  rewrite v7_split, exec_all_app, v7_body_eq. destruct (get_tab (f_tabs f) "auc_3g") as [t|]; [|reflexivity].
  destruct (get_tab (f_tabs f) "old_auc_3g"); [reflexivity|]. destruct (_ && _); reflexivity.
Qed.
