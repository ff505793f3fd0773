(** What C41, C42 and C43 say of database files, apart from how the code reads and changes them. *)
From Verif Require Import Base Upgrade.
From Coq Require Import Permutation.
Local Open Scope string_scope. Local Open Scope list_scope. Local Open Scope Z_scope.

(** ** Valid databases of each version *)
(** A table as SQLite keeps it: every row has a value for every column, and the declared constraints hold. *)
Definition wide (t : table) : Prop := Forall (fun r => length r = length (t_cols t)) (t_rows t).
Definition nonnull (v : val) : bool := match v with UNull => false | _ => true end.
Definition column_valid (t : table) (c : column) : Prop :=
  let vs := map (fun r => cell (t_cols t) r (c_name c)) (t_rows t) in
  (c_notnull c = true -> ~ In UNull vs)
  /\ (c_pk c = true -> forall v, In v vs -> exists z, v = UInt z)
  /\ (c_pk c = true \/ c_uniq c = true -> NoDup (filter nonnull vs)).
Definition valid (t : table) : Prop := wide t /\ Forall (column_valid t) (t_cols t).

(** The columns of table "subscriber": version 0 as in tests/db_upgrade/hlr_db_v0.sql:3-38, later ones with what each version adds; version 3 renames
    "hlr_number" to "msc_number". *)
Definition sub_v0 : list column := [
  col_pk "id" "INTEGER"; mk_col "imsi" "VARCHAR(15)" false true true UNull; mk_col "msisdn" "VARCHAR(15)" false true false UNull;
  col "imeisv" "VARCHAR"; col "vlr_number" "VARCHAR(15)"; col "hlr_number" "VARCHAR(15)";
  col "sgsn_number" "VARCHAR(15)"; col "sgsn_address" "VARCHAR"; col "ggsn_number" "VARCHAR(15)"; col "gmlc_number" "VARCHAR(15)";
  col "smsc_number" "VARCHAR(15)"; col "periodic_lu_tmr" "INTEGER"; col "periodic_rau_tau_tmr" "INTEGER";
  col_def "nam_cs" "BOOLEAN" 1; col_def "nam_ps" "BOOLEAN" 1; col "lmsi" "INTEGER";
  col_def "ms_purged_cs" "BOOLEAN" 0; col_def "ms_purged_ps" "BOOLEAN" 0 ].
Definition since (c : column) : nat :=
  if String.eqb (c_name c) "last_lu_seen" then 1 else if String.eqb (c_name c) "imei" then 2 else if String.eqb (c_name c) "last_lu_seen_ps" then 4
  else if String.eqb (c_name c) "vlr_via_proxy" then 5 else if String.eqb (c_name c) "sgsn_via_proxy" then 5 else 0.
Definition sub_cols (v : nat) : list column :=
  match v with
  | 0 => sub_v0
  | 1 => sub_v0 ++ [col "last_lu_seen" "TIMESTAMP"]
  | 2 => sub_v0 ++ [col "last_lu_seen" "TIMESTAMP"; col "imei" "VARCHAR(14)"]
  | _ => filter (fun c => Nat.leb (since c) v) subscriber_cols
  end%nat.
(** Table "auc_3g": keys of up to 32 hex digits before version 7 *)
Definition auc_3g_of (v : nat) : list column :=
  if Nat.ltb v 7 then [
    col_pk "subscriber_id" "INTEGER"; col_nn "algo_id_3g" "INTEGER"; col_nn "k" "VARCHAR(32)"; col "op" "VARCHAR(32)"; col "opc" "VARCHAR(32)";
    col_def "sqn" "INTEGER" 0; col_def "ind_bitlen" "INTEGER" 5 ]
  else auc_3g_cols.
(** A valid database of version v: its tables with the columns of that version, in any order, and any rows.  Other tables may be there too, except under
    the names that the upgrades use. *)
Definition free (f : file) (n : string) : Prop := ~ In n (map fst (f_idx f)).
Record database (v : nat) (f : file) : Prop := mk_database {
  db_version : f_version f = Z.of_nat v;
  db_sub : exists t, get_tab (f_tabs f) "subscriber" = Some t /\ Permutation (t_cols t) (sub_cols v) /\ valid t;
  db_2g : exists t, get_tab (f_tabs f) "auc_2g" = Some t /\ Permutation (t_cols t) auc_2g_cols;
  db_3g : exists t, get_tab (f_tabs f) "auc_3g" = Some t /\ Permutation (t_cols t) (auc_3g_of v) /\ valid t;
  db_ind : if Nat.ltb v 6 then get_tab (f_tabs f) "ind" = None else exists t, get_tab (f_tabs f) "ind" = Some t /\ Permutation (t_cols t) ind_cols;
  db_old : get_tab (f_tabs f) "old_auc_3g" = None;
  db_free : free f "subscriber" /\ free f "auc_3g" /\ free f "old_auc_3g" /\ free f "ind" }.

(** ** What must be kept *)
(** The column with the name of the MSC: "hlr_number" up to version 2, then "msc_number" *)
Definition msc_column (cs : list column) : string := if has_col cs "hlr_number" then "hlr_number" else "msc_number".
(** The same values of all columns [names] that the old table has, and the same name of the MSC *)
Definition same_row (names : string -> Prop) (cs cs' : list column) (r r' : list val) : Prop :=
  (forall n, names n -> has_col cs n = true -> has_col cs' n = true /\ cell cs' r' n = cell cs r n)
  /\ (has_col cs (msc_column cs) = true -> has_col cs' (msc_column cs') = true /\ cell cs' r' (msc_column cs') = cell cs r (msc_column cs)).
Definition same_rows (names : string -> Prop) (t t' : table) : Prop :=
  Forall2 (same_row names (t_cols t) (t_cols t')) (t_rows t) (t_rows t').
(** Columns of table "subscriber" that every version since they were introduced has under the same name *)
Definition lasting (n : string) : Prop := In n (map c_name (sub_cols 2)) /\ n <> "hlr_number".
(** Nothing of the subscribers is lost from one file to the other: the same rows of the subscriber table in the same order (from version 3 on with all
    columns, even those not of the HLR), the 2G keys as they are, and the 3G keys and sequence numbers. *)
Definition kept (f f' : file) : Prop :=
  f_version f <= f_version f'
  /\ (forall t, get_tab (f_tabs f) "subscriber" = Some t -> wide t ->
      exists t', get_tab (f_tabs f') "subscriber" = Some t' /\ wide t' /\ same_rows (fun n => lasting n \/ (3 <= f_version f /\ n <> "hlr_number")) t t')
  /\ (forall t, get_tab (f_tabs f) "auc_2g" = Some t -> get_tab (f_tabs f') "auc_2g" = Some t)
  /\ (forall t, get_tab (f_tabs f) "auc_3g" = Some t -> wide t ->
      exists t', get_tab (f_tabs f') "auc_3g" = Some t' /\ wide t' /\ Forall2 (fun r r' => forall n, In n (map c_name (auc_3g_of 0)) -> has_col (t_cols t) n = true ->
        has_col (t_cols t') n = true /\ cell (t_cols t') r' n = cell (t_cols t) r n) (t_rows t) (t_rows t')).

(** ** The schema *)
Definition hlr_tables : list string := ["subscriber"; "subscriber_apn"; "subscriber_multi_msisdn"; "auc_2g"; "auc_3g"; "ind"].
Definition tables_of (f : file) : list (option (list column)) := map (fun n => option_map t_cols (get_tab (f_tabs f) n)) hlr_tables.
Definition cols_of (f : file) (n : string) : option (list column) := option_map t_cols (get_tab (f_tabs f) n).
(** The tables with the columns of the version in the order of a created file; up to version 2 the subscriber table in any order *)
Definition canon (v : nat) (f : file) : Prop :=
  ((3 <= v)%nat -> cols_of f "subscriber" = Some (sub_cols v))
  /\ ((7 <= v)%nat -> cols_of f "auc_3g" = Some auc_3g_cols)
  /\ ((6 <= v)%nat -> cols_of f "ind" = Some ind_cols)
  /\ cols_of f "subscriber_apn" = Some apn_cols /\ cols_of f "subscriber_multi_msisdn" = Some multi_msisdn_cols /\ cols_of f "auc_2g" = Some auc_2g_cols.
Definition the_index : index := ("idx_subscr_imsi", ("subscriber", "imsi")).
(** A file without anything in it, as made by opening a new name, and one that was created *)
Definition blank (f : file) : Prop := f_version f = 0 /\ f_tabs f = [] /\ f_idx f = [].
Definition fresh : file := op_file (db_open false [] file_empty).

(** ** What is in the file, apart from its journal mode *)
Definition same_contents (f g : file) : Prop := f_version f = f_version g /\ f_tabs f = f_tabs g /\ f_idx f = f_idx g.
Definition is_open (o : opened) : bool := match o with Opened _ => true | _ => false end.
(** Several starts of the program, one after the other *)
Fixpoint starts (l : list (bool * list fate)) (f : file) : file :=
  match l with [] => f | (allow, s) :: l => starts l (op_file (db_open allow s f)) end.
(** A file left half upgraded: a step of the upgrade is done, but the version does not say so. *)
Definition stuck (f : file) : Prop :=
  exists t, get_tab (f_tabs f) "subscriber" = Some t
  /\ ( (f_version f = 0 /\ has_col (t_cols t) "last_lu_seen" = true)
    \/ (f_version f = 1 /\ has_col (t_cols t) "imei" = true)
    \/ (f_version f = 2 /\ has_col (t_cols t) "hlr_number" = false)
    \/ (f_version f = 3 /\ has_col (t_cols t) "last_lu_seen_ps" = true)
    \/ (f_version f = 4 /\ has_col (t_cols t) "vlr_via_proxy" = true)
    \/ (f_version f = 5 /\ get_tab (f_tabs f) "ind" <> None) ).

(** the columns that the statements of the HLR name, by table *)
Definition columns_used : list (string * string) :=
  map (pair "subscriber") ["id"; "imsi"; "msisdn"; "imei"; "vlr_number"; "sgsn_number"; "sgsn_address"; "periodic_lu_tmr"; "periodic_rau_tau_tmr"; "nam_cs"; "nam_ps"; "lmsi";
    "ms_purged_cs"; "ms_purged_ps"; "last_lu_seen"; "last_lu_seen_ps"; "vlr_via_proxy"; "sgsn_via_proxy"]
  ++ map (pair "auc_2g") ["subscriber_id"; "algo_id_2g"; "ki"]
  ++ map (pair "auc_3g") ["subscriber_id"; "algo_id_3g"; "k"; "op"; "opc"; "sqn"; "ind_bitlen"]
  ++ map (pair "ind") ["ind"; "vlr"].
