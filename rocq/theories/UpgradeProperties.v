(** C41 (upgrades survive crashes), C42 (upgrades preserve data) and C43 (only a matching version is opened): theorems and cases. *)
From Verif Require Import Base Upgrade UpgradeSpec UpgradeThms UpgradeThms2 UpgradeThms3 UpgradeThms4 UpgradeThms5 UpgradeThms6 UpgradeThms7 UpgradeThms8.
From Coq Require Import Permutation Lia Bool.
Local Open Scope string_scope. Local Open Scope list_scope. Local Open Scope Z_scope.

(** ** C41 *)
(** Nothing of a subscriber is ever lost: for any file with any contents, after any number of starts, with or without upgrading allowed, each failing or
    dying at any point. *)
Theorem C41_nothing_lost f l : kept f (starts l f).
Proof. exact (starts_kept l f). Qed.
Print Assumptions C41_nothing_lost.

(** The next start completes an interrupted upgrade, unless a step was done without the version having been raised.
    Missing from C41: that the latter cannot happen, see C41_upgrade_refuted and C41_create_refuted. *)
Theorem C41_upgrade_partial v f l : (v <= 7)%nat -> database v f ->
  stuck (starts l f) \/ exists f', db_open true [] (starts l f) = Opened f' /\ database 7 f' /\ kept f f'.
Proof.
  intros L D. destruct (starts_leave l v f L D) as [(j & Lj & Dj)|St]; [right|left; exact St].
  destruct (open_calm j _ (proj2 Lj) Dj) as (f' & _ & D' & O). exists f'. split; [exact O|]. split; [exact D'|].
  eapply kept_trans; [apply (starts_kept l f)|]. pose proof (db_open_kept true [] (starts l f)) as K. rewrite O in K. exact K.
Qed.
Print Assumptions C41_upgrade_partial.

(** The upgrade to version 7 is one transaction that includes the version: it can be interrupted anywhere, any number of times. *)
Theorem C41_upgrade_v7 v f l : (6 <= v <= 7)%nat -> database v f -> exists f', db_open true [] (starts l f) = Opened f' /\ database 7 f' /\ kept f f'.
Proof.
  intros L D. destruct (starts_leave_6 l v f L D) as (j & Lj & Dj).
  destruct (open_calm j _ (proj2 Lj) Dj) as (f' & _ & D' & O). exists f'. split; [exact O|]. split; [exact D'|].
  eapply kept_trans; [apply (starts_kept l f)|]. pose proof (db_open_kept true [] (starts l f)) as K. rewrite O in K. exact K.
Qed.
Print Assumptions C41_upgrade_v7.

(** All other upgrades can be interrupted such that no later start, however often and whether upgrading is allowed or not, opens the database again. *)
Theorem C41_upgrade_refuted v f : (v < 6)%nat -> database v f ->
  exists l f', db_open true l f = Died f' /\ forall l' allow s, is_open (db_open allow s (starts l' f')) = false.
Proof.
  intros L D. destruct (upgrade_dies v f L D) as (l & f' & E & St). exists l, f'. split; [exact E|]. intros l' allow s. apply (stuck_forever l' f' St).
Qed.
Print Assumptions C41_upgrade_refuted.

(** So can the creation of the database. *)
Theorem C41_create_refuted :
  exists l f', db_open false l file_empty = Died f' /\ forall l' allow s, is_open (db_open allow s (starts l' f')) = false.
Proof.
  destruct create_dies as (l & f' & E & St). exists l, f'. split; [exact E|]. intros l' allow s. apply (stuck_forever l' f' St).
Qed.
Print Assumptions C41_create_refuted.

(** If it gets nowhere or to the end, then the next start is fine. *)
Theorem C41_create_partial f allow l : blank f ->
  stuck (op_file (db_open allow l f)) \/ forall allow', exists f', db_open allow' [] (op_file (db_open allow l f)) = Opened f' /\ database 7 f'.
Proof.
  intros B. destruct (create_leaves allow l f B) as [H|[H|H]]; [right|right|left; exact H]; intros allow'.
  - apply create_calm. exact H.
  - eexists. split; [apply open_current; exact H|apply database_wal; exact H].
Qed.
Print Assumptions C41_create_partial.

(** ** C42 *)
(** From a valid database of any version, with any rows, an undisturbed start succeeds and leaves a valid database of the current version. *)
Theorem C42_succeeds v f : (v <= 7)%nat -> database v f -> exists f', db_open true [] f = Opened f' /\ database 7 f'.
Proof. intros L D. destruct (open_calm v f L D) as (f' & _ & D' & O). exists f'. auto. Qed.
Print Assumptions C42_succeeds.

(** The rows of all tables are the same in the columns that both versions have. *)
Theorem C42_kept v f f' : (v <= 7)%nat -> database v f -> db_open true [] f = Opened f' -> kept f f'.
Proof. intros _ _ O. pose proof (db_open_kept true [] f) as K. rewrite O in K. exact K. Qed.
Print Assumptions C42_kept.

(** In particular, for every subscriber: identity, permissions, serving nodes *)
Theorem C42_subscriber v f f' t i r : (v <= 7)%nat -> database v f -> db_open true [] f = Opened f' ->
  get_tab (f_tabs f) "subscriber" = Some t -> nth_error (t_rows t) i = Some r ->
  exists t' r', get_tab (f_tabs f') "subscriber" = Some t' /\ length (t_rows t') = length (t_rows t) /\ nth_error (t_rows t') i = Some r'
  /\ (forall n, In n ["id"; "imsi"; "msisdn"; "imeisv"; "vlr_number"; "sgsn_number"; "sgsn_address"; "nam_cs"; "nam_ps"; "ms_purged_cs"; "ms_purged_ps"] ->
        cell (t_cols t') r' n = cell (t_cols t) r n)
  /\ cell (t_cols t') r' "msc_number" = cell (t_cols t) r (if Nat.ltb v 3 then "hlr_number" else "msc_number")
  /\ (5 <= v -> cell (t_cols t') r' "vlr_via_proxy" = cell (t_cols t) r "vlr_via_proxy" /\ cell (t_cols t') r' "sgsn_via_proxy" = cell (t_cols t) r "sgsn_via_proxy")%nat.
Proof. 
  intros L D O G E. destruct (C42_kept v f f' L D O) as (_ & S & _). destruct (db_sub _ _ D) as (t0 & G0 & P & V). assert (t0 = t) by congruence. subst t0.
  destruct (S t G (proj1 V)) as (t' & G' & W' & R). exists t'.
  assert (X : exists r', nth_error (t_rows t') i = Some r' /\ same_row (fun n => lasting n \/ 3 <= f_version f /\ n <> "hlr_number") (t_cols t) (t_cols t') r r' /\ length (t_rows t') = length (t_rows t)).
  { clear -R E. unfold same_rows in R. revert i E. induction R as [|a b l m X R IH]; intros i E; [destruct i; discriminate E|]. destruct i as [|i].
    - cbn in E. injection E as <-. exists b. split; [reflexivity|]. split; [exact X|]. cbn. f_equal. clear -R. induction R; cbn; congruence.
    - destruct (IH i E) as (r' & E' & X' & Ln). exists r'. cbn. auto. }
  destruct X as (r' & E' & [X1 X2] & Ln). exists r'. split; [exact G'|]. split; [exact Ln|]. split; [exact E'|].
  assert (H : forall n, has_col (sub_cols v) n = true -> has_col (t_cols t) n = true) by (intros n; rewrite (has_col_perm _ _ n P); auto).
  destruct (C42_succeeds v f L D) as (f2 & O2 & D7). assert (f2 = f') by congruence. subst f2.
  destruct (db_sub _ _ D7) as (t7 & G7 & P7 & _). assert (t7 = t') by congruence. subst t7. split; [|split].
  - intros n I. assert (Q : lasting n /\ has_col (sub_cols v) n = true).
    { clear -I L. cbn in I. repeat (destruct I as [<-|I]; [split; [split; [cbn; tauto|discriminate]|do 8 (destruct v as [|v]; [reflexivity|]); lia]|]). destruct I. }
    apply X1; [left; apply Q|apply H; apply Q].
  - assert (M : msc_column (t_cols t) = if Nat.ltb v 3 then "hlr_number" else "msc_number").
    { unfold msc_column. rewrite (has_col_perm _ _ _ P). clear -L. do 8 (destruct v as [|v]; [reflexivity|]). lia. }
    assert (M' : msc_column (t_cols t') = "msc_number") by (unfold msc_column; rewrite (has_col_perm _ _ _ P7); reflexivity).
    rewrite <- M, <- M'. apply X2. rewrite M. apply H. clear -L. do 8 (destruct v as [|v]; [reflexivity|]). lia.
  - intros L5. pose proof (db_version _ _ D) as Vf. split; apply X1; try (right; split; [lia|discriminate]); apply H; clear -L L5; do 5 (destruct v as [|v]; [lia|]); do 3 (destruct v as [|v]; [reflexivity|]); lia.
Qed.
Print Assumptions C42_subscriber.

(** and the keys and sequence numbers *)
Theorem C42_keys v f f' : (v <= 7)%nat -> database v f -> db_open true [] f = Opened f' ->
  get_tab (f_tabs f') "auc_2g" = get_tab (f_tabs f) "auc_2g"
  /\ exists t t', get_tab (f_tabs f) "auc_3g" = Some t /\ get_tab (f_tabs f') "auc_3g" = Some t'
  /\ Forall2 (fun r r' => forall n, In n ["subscriber_id"; "algo_id_3g"; "k"; "op"; "opc"; "sqn"; "ind_bitlen"] -> cell (t_cols t') r' n = cell (t_cols t) r n) (t_rows t) (t_rows t').
Proof.
  intros L D O. destruct (C42_kept v f f' L D O) as (_ & _ & A & K). destruct (db_2g _ _ D) as (a & Ga & _). split; [rewrite Ga; apply A; exact Ga|].
  destruct (db_3g _ _ D) as (t & G & P & V). destruct (K t G (proj1 V)) as (t' & G' & _ & R). exists t, t'. split; [exact G|]. split; [exact G'|].
  clear -R P. revert R. generalize (t_rows t) (t_rows t'). intros l l'. induction 1 as [|r r' l l' X R IH]; constructor; [|exact IH]. intros n I. apply X.
  - cbn. cbn in I. tauto.
  - rewrite (has_col_perm _ _ _ P). apply has_col_in. cbn in I. unfold auc_3g_of. destruct (Nat.ltb v 7); cbn; tauto.
Qed.
Print Assumptions C42_keys.

(** The tables are then those of a created database.  Missing from C42: the index, see C42_index_refuted. *)
Theorem C42_schema_partial v f f' : (v <= 7)%nat -> database v f -> canon v f -> db_open true [] f = Opened f' ->
  tables_of f' = tables_of fresh /\ f_version f' = f_version fresh /\ ((3 <= v)%nat -> f_idx f = f_idx fresh -> f_idx f' = f_idx fresh).
Proof.
  intros L D C O. destruct (open_calm v f L D) as (f2 & E & D' & O2). assert (f2 = f') by congruence. subst f2.
  split; [apply canon_fresh; exact (canon_chain _ v (with_wal f) f' eq_refl L (database_wal _ _ D) C E)|]. split; [rewrite (db_version _ _ D'); reflexivity|].
  intros L3 I. apply (index_kept v (with_wal f) f'); [lia|apply database_wal; exact D|exact E|exact I].
Qed.
Print Assumptions C42_schema_partial.

(** A created database has an index that every database upgraded from version 2 or older lacks: it is dropped together with the old subscriber table. *)
Theorem C42_index_refuted : In the_index (f_idx fresh)
  /\ forall v f f', (v < 3)%nat -> database v f -> db_open true [] f = Opened f' -> ~ In the_index (f_idx f').
Proof.
  split; [rewrite fresh_idx; left; reflexivity|]. intros v f f' L D O I. destruct (open_calm v f ltac:(lia) D) as (f2 & E & _ & O2). assert (f2 = f') by congruence. subst f2.
  apply (index_lost v (with_wal f) f' L (database_wal _ _ D) E _ I). reflexivity.
Qed.
Print Assumptions C42_index_refuted.

(** ** C43 *)
(** The HLR only gets a database of the current version, in which all statements it uses can be prepared. *)
Theorem C43_version allow l f : is_open (db_open allow l f) = true ->
  f_version (op_file (db_open allow l f)) = 7 /\ forallb (prepare (op_file (db_open allow l f))) stmt_sql = true.
Proof. exact (c43_version allow l f). Qed.
Print Assumptions C43_version.

(** A newer database is refused and none of its contents changed, even if upgrading is allowed. *)
Theorem C43_newer allow l f : 7 < f_version f -> same_contents f (op_file (db_open allow l f)) /\ is_open (db_open allow l f) = false.
Proof. intros V. destruct (c43_untouched allow l f) as [S O]; [right; lia|lia|]. split; [exact S|]. apply O. lia. Qed.
Print Assumptions C43_newer.

(** So is one with a version number below 0, and one of an older version if upgrading is not allowed, except for one of version 0 without a subscriber table
    (which C43 as stated does not except, see C43_other_refuted). *)
Theorem C43_older_partial allow l f : f_version f < 0 \/ (allow = false /\ f_version f < 7) -> (f_version f = 0 -> get_tab (f_tabs f) "subscriber" <> None) ->
  same_contents f (op_file (db_open allow l f)) /\ is_open (db_open allow l f) = false.
Proof.
  intros V B. destruct (c43_untouched allow l f) as [S O]; [destruct V as [V|[-> V]]; [right; lia|left; reflexivity]|exact B|]. split; [exact S|]. apply O. lia.
Qed.
Print Assumptions C43_older_partial.

(** A database of the current version is not changed by opening it. *)
Theorem C43_same allow l f : f_version f = 7 -> same_contents f (op_file (db_open allow l f)).
Proof. intros V. apply (c43_untouched allow l f); [right; lia|lia]. Qed.
Print Assumptions C43_same.

(** a database that is opened has every column that is ever read or written, whatever it was before *)
Theorem C43_columns allow l f f' : db_open allow l f = Opened f' -> forall t n, In (t, n) columns_used ->
  exists x, get_tab (f_tabs f') t = Some x /\ exists c, In c (t_cols x) /\ c_name c = n.
Proof. exact (opened_columns allow l f f'). Qed.
Print Assumptions C43_columns.
(** A database of something else, which has version 0 since its program sets none, gets the tables of the HLR though upgrading was not allowed. *)
Definition other_db : file := mk_file 0 false [("songs", mk_tab [col "title" "TEXT"] [[UText "Anthem"]])] [].
Theorem C43_other_refuted : exists f', db_open false [] other_db = Opened f' /\ ~ same_contents other_db f'.
Proof. eexists. split; [vm_compute; reflexivity|]. intros (V & _). discriminate V. Qed.
Print Assumptions C43_other_refuted.

(** The journal mode of a refused database is changed in any case, also of a newer one. *)
Theorem C43_journal_refuted : exists f, 7 < f_version f /\ f_wal f = false /\ exists f', db_open false [] f = Refused f' /\ f_wal f' = true.
Proof. exists (mk_file 8 false [] []). split; [reflexivity|]. split; [reflexivity|]. eexists. split; [vm_compute; reflexivity|reflexivity]. Qed.
Print Assumptions C43_journal_refuted.

(** ** Cases *)
(** Part of tests/db_upgrade/hlr_db_v0.sql *)
Definition v0_row (id : Z) (imsi : string) (msisdn : val) (vlr msc : val) (ncs nps pcs pps : Z) : list val :=
  [UInt id; UText imsi; msisdn; UNull; vlr; msc; UNull; UNull; UNull; UNull; UNull; UNull; UNull; UInt ncs; UInt nps; UNull; UInt pcs; UInt pps].
Definition auc_2g_v0 : table := mk_tab auc_2g_cols [[UInt 1; UInt 1; UText "BeefedCafeFaceAcedAddedDecadeFee"]].
Definition auc_3g_v0 : table := mk_tab (auc_3g_of 0)
  [[UInt 1; UInt 5; UText "C01ffedC1cadaeAc1d1f1edAcac1aB0a"; UNull; UText "CededEffacedAceFacedBadFadedBeef"; UInt 96; UInt 5]].
Definition sub_rows_v0 : list (list val) := [
  v0_row 1 "123456789012345" (UText "098765432109876") (UText "MSC-1") (UText "MSC-2") 1 1 0 0;
  v0_row 2 "111111111" UNull UNull UNull 1 1 1 0;
  v0_row 4 "333333" (UText "3") UNull UNull 0 1 0 0 ].
Definition v0_file : file := mk_file 0 false
  [("subscriber", mk_tab sub_v0 sub_rows_v0); ("subscriber_apn", mk_tab apn_cols []); ("subscriber_multi_msisdn", mk_tab multi_msisdn_cols []);
   ("auc_2g", auc_2g_v0); ("auc_3g", auc_3g_v0)] [the_index].
(** The current schema, as in the file sql/hlr.sql: for each column its name, type, and whether it is the primary key, unique and not null, and its default; a
    database that was upgraded has the same tables ([C42_schema_partial]). *)
Definition schema (f : file) : list (string * list column) := map (fun t => (fst t, t_cols (snd t))) (f_tabs f).
Example C42_schema_case : f_version fresh = 7 /\ f_idx fresh = [("idx_subscr_imsi", ("subscriber", "imsi"))] /\ rev (schema fresh) =
  [("subscriber",
    [mk_col "id" "INTEGER" true false false UNull; mk_col "imsi" "VARCHAR(15)" false true true UNull; mk_col "msisdn" "VARCHAR(15)" false true false UNull;
     mk_col "imeisv" "VARCHAR" false false false UNull; mk_col "imei" "VARCHAR(14)" false false false UNull; mk_col "vlr_number" "VARCHAR(15)" false false false UNull;
     mk_col "msc_number" "VARCHAR(15)" false false false UNull; mk_col "sgsn_number" "VARCHAR(15)" false false false UNull; mk_col "sgsn_address" "VARCHAR" false false false UNull;
     mk_col "ggsn_number" "VARCHAR(15)" false false false UNull; mk_col "gmlc_number" "VARCHAR(15)" false false false UNull; mk_col "smsc_number" "VARCHAR(15)" false false false UNull;
     mk_col "periodic_lu_tmr" "INTEGER" false false false UNull; mk_col "periodic_rau_tau_tmr" "INTEGER" false false false UNull;
     mk_col "nam_cs" "BOOLEAN" false false true (UInt 1); mk_col "nam_ps" "BOOLEAN" false false true (UInt 1); mk_col "lmsi" "INTEGER" false false false UNull;
     mk_col "ms_purged_cs" "BOOLEAN" false false true (UInt 0); mk_col "ms_purged_ps" "BOOLEAN" false false true (UInt 0);
     mk_col "last_lu_seen" "TIMESTAMP" false false false UNull; mk_col "last_lu_seen_ps" "TIMESTAMP" false false false UNull;
     mk_col "vlr_via_proxy" "VARCHAR" false false false UNull; mk_col "sgsn_via_proxy" "VARCHAR" false false false UNull]);
   ("subscriber_apn", [mk_col "subscriber_id" "INTEGER" false false false UNull; mk_col "apn" "VARCHAR(256)" false false true UNull]);
   ("subscriber_multi_msisdn", [mk_col "subscriber_id" "INTEGER" false false false UNull; mk_col "msisdn" "VARCHAR(15)" false false true UNull]);
   ("auc_2g", [mk_col "subscriber_id" "INTEGER" true false false UNull; mk_col "algo_id_2g" "INTEGER" false false true UNull; mk_col "ki" "VARCHAR(32)" false false true UNull]);
   ("auc_3g", [mk_col "subscriber_id" "INTEGER" true false false UNull; mk_col "algo_id_3g" "INTEGER" false false true UNull; mk_col "k" "VARCHAR(64)" false false true UNull;
     mk_col "op" "VARCHAR(64)" false false false UNull; mk_col "opc" "VARCHAR(64)" false false false UNull; mk_col "sqn" "INTEGER" false false true (UInt 0);
     mk_col "ind_bitlen" "INTEGER" false false true (UInt 5)]);
   ("ind", [mk_col "ind" "INTEGER" true false false UNull; mk_col "vlr" "TEXT" false true true UNull])].
Proof. repeat (split; [vm_compute; reflexivity|]). vm_compute. reflexivity. Qed.
Example C42_case_valid : database 0 v0_file /\ canon 0 v0_file.
Proof.
  split.
  - constructor.
    + reflexivity.
    + exists (mk_tab sub_v0 sub_rows_v0). split; [reflexivity|]. split; [apply Permutation_refl|]. apply cols_ok_valid; [apply dedup_ok; reflexivity|repeat constructor|vm_compute; reflexivity].
    + exists auc_2g_v0. split; [reflexivity|apply Permutation_refl].
    + exists auc_3g_v0. split; [reflexivity|]. split; [apply Permutation_refl|]. apply cols_ok_valid; [apply dedup_ok; reflexivity|repeat constructor|vm_compute; reflexivity].
    + reflexivity.
    + reflexivity.
    + unfold free. cbn. repeat split; intros [H|[]]; discriminate.
  - split; [lia|]. split; [lia|]. split; [lia|]. repeat split.
Qed.
(** the rows of its upgraded form, by some columns *)
Definition show (f : file) (t : string) (names : list string) : list (list val) :=
  match get_tab (f_tabs f) t with Some t => proj_rows t names | None => [] end.
Example C42_case : let f' := op_file (db_open true [] v0_file) in
  is_open (db_open true [] v0_file) = true /\ f_version f' = 7
  /\ show f' "subscriber" ["id"; "imsi"; "msisdn"; "vlr_number"; "msc_number"; "nam_cs"; "ms_purged_cs"; "last_lu_seen"; "vlr_via_proxy"] =
     [[UInt 1; UText "123456789012345"; UText "098765432109876"; UText "MSC-1"; UText "MSC-2"; UInt 1; UInt 0; UNull; UNull];
      [UInt 2; UText "111111111"; UNull; UNull; UNull; UInt 1; UInt 1; UNull; UNull];
      [UInt 4; UText "333333"; UText "3"; UNull; UNull; UInt 0; UInt 0; UNull; UNull]]
  /\ show f' "auc_3g" ["subscriber_id"; "k"; "opc"; "sqn"] = [[UInt 1; UText "C01ffedC1cadaeAc1d1f1edAcac1aB0a"; UText "CededEffacedAceFacedBadFadedBeef"; UInt 96]]
  /\ f_idx f' = [].
Proof. vm_compute. repeat split. Qed.
(** Killed after the first ALTER TABLE of an upgrade: the rows are there, but the database can never be opened again. *)
Example C41_case : let f' := op_file (db_open true [FOk; FOk; FOk; FOk; FOk; FCrash] v0_file) in
  f_version f' = 0
  /\ show f' "subscriber" ["imsi"; "vlr_number"; "last_lu_seen"] = [[UText "123456789012345"; UText "MSC-1"; UNull]; [UText "111111111"; UNull; UNull]; [UText "333333"; UNull; UNull]]
  /\ is_open (db_open true [] f') = false.
Proof. vm_compute. repeat split. Qed.
(** Killed within the transaction of version 3 (14 calls later), then started again *)
Example C41_case_txn : let f' := op_file (db_open true (repeat FOk 14 ++ [FCrash]) v0_file) in
  f_version f' = 2 /\ is_open (db_open true [] f') = true.
Proof. vm_compute. repeat split. Qed.
Example C41_case_v7 : let f6 := op_file (db_open true (repeat FOk 28 ++ [FCrash]) v0_file) in let f' := op_file (db_open true (repeat FOk 7 ++ [FCrash]) f6) in
  f_version f6 = 6 /\ f_version f' = 6 /\ is_open (db_open true [] f') = true.
Proof. vm_compute. repeat split. Qed.
(** an error in the middle of the transaction of version 3: rolled back when the connection is closed *)
Example C41_case_error : let f' := op_file (db_open true (repeat FOk 14 ++ [FErr]) v0_file) in
  f_version f' = 2 /\ is_open (db_open true [] f') = true /\ show f' "subscriber" ["hlr_number"] = [[UText "MSC-2"]; [UNull]; [UNull]].
Proof. vm_compute. repeat split. Qed.
Definition no_imei : file := mk_file 7 true
  (map (fun t => if (fst t =? "subscriber")%string then (fst t, mk_tab (filter (fun c => negb (c_name c =? "imei")%string) (t_cols (snd t))) []) else t) (f_tabs fresh)) (f_idx fresh).
Example C43_columns_case : In ("subscriber", "imei") columns_used /\ db_open true [] no_imei = Refused no_imei /\ db_open true [] fresh = Opened fresh.
Proof. vm_compute. split; [tauto|]. split; reflexivity. Qed.
Example C43_case : db_open false [] v0_file = Refused (with_wal v0_file) /\ is_open (db_open false [] fresh) = true.
Proof. vm_compute. repeat split. Qed.
