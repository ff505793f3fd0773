(** Opening, creating and upgrading the database: /repo/src/db.c (db_run_statements, db_bootstrap, db_upgrade_v1 to db_upgrade_v7, db_open) and
    /repo/sql/hlr.sql.

    The database file is modelled as tables with columns, constraints and rows; the SQL statements of the code are data (stmt below), with the part of
    SQLite's behaviour they rely on given by [exec].  What is left out: type affinity (no statement copies between columns of different affinity),
    case-insensitive names, views and triggers, and indexes other than by name and column. *)
From Verif Require Import Base.
From Coq Require Import Lia.
Local Open Scope string_scope. Local Open Scope list_scope. Local Open Scope Z_scope.

(** ** The database file *)
Inductive val := UNull | UInt (z : Z) | UText (t : string).
(** A column as declared by CREATE TABLE: name, type, PRIMARY KEY, UNIQUE, NOT NULL, DEFAULT *)
Record column := mk_col { c_name : string; c_type : string; c_pk : bool; c_uniq : bool; c_notnull : bool; c_default : val }.
Record table := mk_tab { t_cols : list column; t_rows : list (list val) }.
(** An index: name, table, column *)
Definition index := (string * (string * string))%type.
(** Contents of the file: PRAGMA user_version, whether the header says write-ahead log, tables and indexes of sqlite_master *)
Record file := mk_file { f_version : Z; f_wal : bool; f_tabs : list (string * table); f_idx : list index }.
Definition file_empty : file := mk_file 0 false [] [].

Definition get_tab (l : list (string * table)) (n : string) : option table :=
  match find (fun p => String.eqb (fst p) n) l with Some p => Some (snd p) | None => None end.
Definition set_tab (l : list (string * table)) (n : string) (t : table) : list (string * table) :=
  map (fun p => if String.eqb (fst p) n then (n, t) else p) l.
Definition del_tab (l : list (string * table)) (n : string) : list (string * table) :=
  filter (fun p => negb (String.eqb (fst p) n)) l.
Definition get_idx (l : list index) (n : string) : bool := existsb (fun p => String.eqb (fst p) n) l.

(** Position of a column in a list of names, and the value a row has for it *)
Fixpoint col_pos (cs : list column) (n : string) : option nat :=
  match cs with
  | [] => None
  | c :: cs => if String.eqb (c_name c) n then Some 0%nat else option_map S (col_pos cs n)
  end.
Definition has_col (cs : list column) (n : string) : bool := match col_pos cs n with Some _ => true | None => false end.
Definition cell (cs : list column) (r : list val) (n : string) : val :=
  match col_pos cs n with Some i => nth i r UNull | None => UNull end.

(** ** Statements of the code *)
Inductive stmt :=
| SBegin
| SCommit
| SVersion (v : Z)                                              (* PRAGMA user_version = v *)
| SAddCol (t : string) (c : column)                             (* ALTER TABLE t ADD COLUMN c *)
| SCreate (temp : bool) (t : string) (cs : list column)         (* CREATE [TEMPORARY] TABLE t (cs) *)
| SInsert (t : string) (names : list string) (src : string)     (* INSERT INTO t SELECT names FROM src *)
| SDrop (t : string)
| SRename (t t' : string)                                       (* ALTER TABLE t RENAME TO t' *)
| SIndex (n t c : string).                                      (* CREATE UNIQUE INDEX n ON t (c) *)

(** A connection: what its statements see, what is in the file while a transaction is open, and the temporary tables *)
Record conn := mk_conn { n_main : file; n_saved : option file; n_temp : list (string * table) }.
(** What is in the file if the process stops now, or closes the connection (an open transaction is rolled back) *)
Definition durable (c : conn) : file := match n_saved c with Some f => f | None => n_main c end.
Definition conn_open (f : file) : conn := mk_conn f None [].

Definition val_null (v : val) : bool := match v with UNull => true | _ => false end.
Definition val_int (v : val) : bool := match v with UInt _ => true | _ => false end.
Definition val_eqb (a b : val) : bool :=
  match a, b with
  | UNull, UNull => true
  | UInt x, UInt y => Z.eqb x y
  | UText x, UText y => String.eqb x y
  | _, _ => false
  end.
Fixpoint vals_distinct (l : list val) : bool :=
  match l with
  | [] => true
  | v :: l => negb (existsb (val_eqb v) l) && vals_distinct l
  end.
(** The constraints of column number i hold for the rows *)
Definition col_ok (rows : list (list val)) (i : nat) (c : column) : bool :=
  let vs := map (fun r => nth i r UNull) rows in
  (negb (c_notnull c) || forallb (fun v => negb (val_null v)) vs)
  && (negb (c_pk c) || forallb val_int vs)
  && (negb (c_pk c || c_uniq c) || vals_distinct (filter (fun v => negb (val_null v)) vs)).
Fixpoint cols_ok (rows : list (list val)) (i : nat) (cs : list column) : bool :=
  match cs with
  | [] => true
  | c :: cs => col_ok rows i c && cols_ok rows (S i) cs
  end.

Definition with_main (c : conn) (f : file) : conn := mk_conn f (n_saved c) (n_temp c).
Definition with_tabs (f : file) (l : list (string * table)) : file := mk_file (f_version f) (f_wal f) l (f_idx f).
Definition with_idx (f : file) (l : list index) : file := mk_file (f_version f) (f_wal f) (f_tabs f) l.
Definition with_version (f : file) (v : Z) : file := mk_file v (f_wal f) (f_tabs f) (f_idx f).
Definition with_wal (f : file) : file := mk_file (f_version f) true (f_tabs f) (f_idx f).

(** The table a name stands for: a temporary one hides one of the file *)
Definition lookup (c : conn) (n : string) : option table :=
  match get_tab (n_temp c) n with Some t => Some t | None => get_tab (f_tabs (n_main c)) n end.
Definition store_tab (c : conn) (n : string) (t : table) : conn :=
  match get_tab (n_temp c) n with
  | Some _ => mk_conn (n_main c) (n_saved c) (set_tab (n_temp c) n t)
  | None => with_main c (with_tabs (n_main c) (set_tab (f_tabs (n_main c)) n t))
  end.

(** sqlite3_prepare_v2() and sqlite3_step() of one statement; None: an error is returned and nothing is changed *)
Definition exec (s : stmt) (c : conn) : option conn :=
  let f := n_main c in
  match s with
  | SBegin => match n_saved c with Some _ => None | None => Some (mk_conn f (Some f) (n_temp c)) end
  | SCommit => match n_saved c with Some _ => Some (mk_conn f None (n_temp c)) | None => None end
  | SVersion v => Some (with_main c (with_version f v))
  | SAddCol n col =>
    match lookup c n with
    | Some t =>
      if has_col (t_cols t) (c_name col) then None
      else Some (store_tab c n (mk_tab (t_cols t ++ [col]) (map (fun r => r ++ [c_default col]) (t_rows t))))
    | None => None
    end
  | SCreate true n cs =>
    match get_tab (n_temp c) n with
    | Some _ => None
    | None => Some (mk_conn f (n_saved c) ((n, mk_tab cs []) :: n_temp c))
    end
  | SCreate false n cs =>
    match get_tab (f_tabs f) n with
    | Some _ => None
    | None => if get_idx (f_idx f) n then None else Some (with_main c (with_tabs f ((n, mk_tab cs []) :: f_tabs f)))
    end
  | SInsert n names src =>
    match lookup c n, lookup c src with
    | Some d, Some t =>
      if negb (Nat.eqb (length names) (length (t_cols d))) then None
      else if negb (forallb (has_col (t_cols t)) names) then None
      else
        let rows := t_rows d ++ map (fun r => map (cell (t_cols t) r) names) (t_rows t) in
        if cols_ok rows 0 (t_cols d) then Some (store_tab c n (mk_tab (t_cols d) rows)) else None
    | _, _ => None
    end
  | SDrop n =>
    match get_tab (n_temp c) n with
    | Some _ => Some (mk_conn f (n_saved c) (del_tab (n_temp c) n))
    | None =>
      match get_tab (f_tabs f) n with
      | Some _ => Some (with_main c (with_idx (with_tabs f (del_tab (f_tabs f) n)) (filter (fun x => negb (String.eqb (fst (snd x)) n)) (f_idx f))))
      | None => None
      end
    end
  | SRename n n' =>
    match get_tab (f_tabs f) n, get_tab (f_tabs f) n' with
    | Some t, None =>
      if get_idx (f_idx f) n' then None
      else Some (with_main c (with_idx (with_tabs f ((n', t) :: del_tab (f_tabs f) n))
                   (map (fun x => if String.eqb (fst (snd x)) n then (fst x, (n', snd (snd x))) else x) (f_idx f))))
    | _, _ => None
    end
  | SIndex i n col =>
    match get_tab (f_tabs f) n with
    | Some t =>
      if get_idx (f_idx f) i || (if get_tab (f_tabs f) i then true else false) then None
      else if negb (has_col (t_cols t) col) then None
      else if vals_distinct (filter (fun v => negb (val_null v)) (map (fun r => cell (t_cols t) r col) (t_rows t)))
           then Some (with_main c (with_idx f ((i, (n, col)) :: f_idx f))) else None
    | None => None
    end
  end.

(** ** Schedules: every call into SQLite succeeds or fails as the statement demands, fails for another reason, or the process dies before it *)
Inductive fate := FOk | FErr | FCrash.
Inductive done (A : Type) := Done (a : A) (l : list fate) | Err (a : A) (l : list fate) | Dead (a : A).
Arguments Done {A}. Arguments Err {A}. Arguments Dead {A}.

(** db_run_statements(), db.c:238-261: the first statement that is not SQLITE_DONE ends it *)
Fixpoint run_statements (ss : list stmt) (l : list fate) (c : conn) : done conn :=
  match ss with
  | [] => Done c l
  | s :: ss =>
    let l' := List.tl l in
    match hd FOk l with
    | FCrash => Dead c
    | FErr => Err c l'
    | FOk => match exec s c with Some c' => run_statements ss l' c' | None => Err c l' end
    end
  end.

(** ** The schema *)
Definition col (n ty : string) : column := mk_col n ty false false false UNull.
Definition col_nn (n ty : string) : column := mk_col n ty false false true UNull.
Definition col_def (n ty : string) (d : Z) : column := mk_col n ty false false true (UInt d).
Definition col_pk (n ty : string) : column := mk_col n ty true false false UNull.

(** sql/hlr.sql:1-52 *)
Definition subscriber_cols : list column := [
  col_pk "id" "INTEGER"; mk_col "imsi" "VARCHAR(15)" false true true UNull; mk_col "msisdn" "VARCHAR(15)" false true false UNull;
  col "imeisv" "VARCHAR"; col "imei" "VARCHAR(14)"; col "vlr_number" "VARCHAR(15)"; col "msc_number" "VARCHAR(15)";
  col "sgsn_number" "VARCHAR(15)"; col "sgsn_address" "VARCHAR"; col "ggsn_number" "VARCHAR(15)"; col "gmlc_number" "VARCHAR(15)";
  col "smsc_number" "VARCHAR(15)"; col "periodic_lu_tmr" "INTEGER"; col "periodic_rau_tau_tmr" "INTEGER";
  col_def "nam_cs" "BOOLEAN" 1; col_def "nam_ps" "BOOLEAN" 1; col "lmsi" "INTEGER";
  col_def "ms_purged_cs" "BOOLEAN" 0; col_def "ms_purged_ps" "BOOLEAN" 0;
  col "last_lu_seen" "TIMESTAMP"; col "last_lu_seen_ps" "TIMESTAMP"; col "vlr_via_proxy" "VARCHAR"; col "sgsn_via_proxy" "VARCHAR" ].
(** hlr.sql:54-57 *)
Definition apn_cols : list column := [col "subscriber_id" "INTEGER"; col_nn "apn" "VARCHAR(256)"].
(** hlr.sql:59-63 *)
Definition multi_msisdn_cols : list column := [col "subscriber_id" "INTEGER"; col_nn "msisdn" "VARCHAR(15)"].
(** hlr.sql:65-69 *)
Definition auc_2g_cols : list column := [col_pk "subscriber_id" "INTEGER"; col_nn "algo_id_2g" "INTEGER"; col_nn "ki" "VARCHAR(32)"].
(** hlr.sql:71-80 *)
Definition auc_3g_cols : list column := [
  col_pk "subscriber_id" "INTEGER"; col_nn "algo_id_3g" "INTEGER"; col_nn "k" "VARCHAR(64)"; col "op" "VARCHAR(64)"; col "opc" "VARCHAR(64)";
  col_def "sqn" "INTEGER" 0; col_def "ind_bitlen" "INTEGER" 5 ].
(** hlr.sql:82-88; UNIQUE (vlr) of one column is that column's UNIQUE *)
Definition ind_cols : list column := [col_pk "ind" "INTEGER"; mk_col "vlr" "TEXT" false true true UNull].

(** stmt_bootstrap_sql (db_bootstrap.h, made of sql/hlr.sql): the statements in the order of the file *)
Definition bootstrap_sql : list stmt := [
  SCreate false "subscriber" subscriber_cols; SCreate false "subscriber_apn" apn_cols; SCreate false "subscriber_multi_msisdn" multi_msisdn_cols;
  SCreate false "auc_2g" auc_2g_cols; SCreate false "auc_3g" auc_3g_cols; SCreate false "ind" ind_cols;
  SIndex "idx_subscr_imsi" "subscriber" "imsi"; SVersion 7 ].

(** db_upgrade_v1(), db.c:308-322 *)
Definition upgrade_v1 : list stmt := [SAddCol "subscriber" (col "last_lu_seen" "TIMESTAMP"); SVersion 1].
(** db_upgrade_v2(), db.c:324-338 *)
Definition upgrade_v2 : list stmt := [SAddCol "subscriber" (col "imei" "VARCHAR(14)"); SVersion 2].
(** SUBSCR_V3_CREATE, db.c:348-394 *)
Definition v3_cols : list column := [
  col_pk "id" "INTEGER"; mk_col "imsi" "VARCHAR(15)" false true true UNull; mk_col "msisdn" "VARCHAR(15)" false true false UNull;
  col "imeisv" "VARCHAR"; col "imei" "VARCHAR(14)"; col "vlr_number" "VARCHAR(15)"; col "msc_number" "VARCHAR(15)";
  col "sgsn_number" "VARCHAR(15)"; col "sgsn_address" "VARCHAR"; col "ggsn_number" "VARCHAR(15)"; col "gmlc_number" "VARCHAR(15)";
  col "smsc_number" "VARCHAR(15)"; col "periodic_lu_tmr" "INTEGER"; col "periodic_rau_tau_tmr" "INTEGER";
  col_def "nam_cs" "BOOLEAN" 1; col_def "nam_ps" "BOOLEAN" 1; col "lmsi" "INTEGER";
  col_def "ms_purged_cs" "BOOLEAN" 0; col_def "ms_purged_ps" "BOOLEAN" 0; col "last_lu_seen" "TIMESTAMP" ].
(** SUBSCR_V2_COLUMN_NAMES, db.c:396-416 *)
Definition v2_names : list string := [
  "id"; "imsi"; "msisdn"; "imeisv"; "imei"; "vlr_number"; "hlr_number"; "sgsn_number"; "sgsn_address"; "ggsn_number"; "gmlc_number"; "smsc_number";
  "periodic_lu_tmr"; "periodic_rau_tau_tmr"; "nam_cs"; "nam_ps"; "lmsi"; "ms_purged_cs"; "ms_purged_ps"; "last_lu_seen" ].
(** SUBSCR_V3_COLUMN_NAMES, db.c:418-438 *)
Definition v3_names : list string := [
  "id"; "imsi"; "msisdn"; "imeisv"; "imei"; "vlr_number"; "msc_number"; "sgsn_number"; "sgsn_address"; "ggsn_number"; "gmlc_number"; "smsc_number";
  "periodic_lu_tmr"; "periodic_rau_tau_tmr"; "nam_cs"; "nam_ps"; "lmsi"; "ms_purged_cs"; "ms_purged_ps"; "last_lu_seen" ].
(** db_upgrade_v3(), db.c:340-458 *)
Definition upgrade_v3 : list stmt := [
  SBegin;
  SCreate true "subscriber_backup" v3_cols;
  SInsert "subscriber_backup" v2_names "subscriber";
  SDrop "subscriber";
  SCreate false "subscriber" v3_cols;
  SInsert "subscriber" v3_names "subscriber_backup";
  SDrop "subscriber_backup";
  SCommit;
  SVersion 3 ].
(** db_upgrade_v4(), db.c:460-474 *)
Definition upgrade_v4 : list stmt := [SAddCol "subscriber" (col "last_lu_seen_ps" "TIMESTAMP"); SVersion 4].
(** db_upgrade_v5(), db.c:476-491 *)
Definition upgrade_v5 : list stmt := [SAddCol "subscriber" (col "vlr_via_proxy" "VARCHAR"); SAddCol "subscriber" (col "sgsn_via_proxy" "VARCHAR"); SVersion 5].
(** db_upgrade_v6(), db.c:493-514 *)
Definition upgrade_v6 : list stmt := [SCreate false "ind" ind_cols; SVersion 6].
(** db_upgrade_v7(), db.c:516-554 *)
Definition auc_3g_names : list string := ["subscriber_id"; "algo_id_3g"; "k"; "op"; "opc"; "sqn"; "ind_bitlen"].
Definition upgrade_v7 : list stmt := [
  SBegin;
  SRename "auc_3g" "old_auc_3g";
  SCreate false "auc_3g" auc_3g_cols;
  SInsert "auc_3g" auc_3g_names "old_auc_3g";
  SDrop "old_auc_3g";
  SVersion 7;
  SCommit ].
(** db_upgrade_path[], db.c:557-565 *)
Definition upgrade_path : list (list stmt) := [upgrade_v1; upgrade_v2; upgrade_v3; upgrade_v4; upgrade_v5; upgrade_v6; upgrade_v7].
(** CURRENT_SCHEMA_VERSION, db.c:31 *)
Definition CURRENT : Z := 7.

(** ** The prepared statements *)
(** What sqlite3_prepare_v2() checks for a statement: its tables exist, every unqualified column is in exactly one of them, every qualified one in its *)
Record need := mk_need { d_tabs : list string; d_cols : list string; d_qual : list (string * string) }.
Definition count_col (f : file) (ts : list string) (n : string) : nat :=
  length (filter (fun t => match get_tab (f_tabs f) t with Some t => has_col (t_cols t) n | None => false end) ts).
Definition prepare (f : file) (n : need) : bool :=
  forallb (fun t => if get_tab (f_tabs f) t then true else false) (d_tabs n)
  && forallb (fun c => Nat.eqb (count_col f (d_tabs n) c) 1) (d_cols n)
  && forallb (fun q => Nat.eqb (count_col f [fst q] (snd q)) 1) (d_qual n).
(** SEL_COLUMNS, db.c:33-51 *)
Definition sel_columns : list string := [
  "id"; "imsi"; "msisdn"; "imei"; "vlr_number"; "sgsn_number"; "sgsn_address"; "periodic_lu_tmr"; "periodic_rau_tau_tmr"; "nam_cs"; "nam_ps"; "lmsi";
  "ms_purged_cs"; "ms_purged_ps"; "last_lu_seen"; "last_lu_seen_ps"; "vlr_via_proxy"; "sgsn_via_proxy" ].
Definition need_sub (cs : list string) : need := mk_need ["subscriber"] cs [].
(** stmt_sql[], db.c:53-99, in its order: the columns each statement names *)
Definition stmt_sql : list need := [
  need_sub sel_columns; need_sub sel_columns; need_sub sel_columns; need_sub sel_columns; need_sub sel_columns; need_sub sel_columns; need_sub sel_columns;
  need_sub sel_columns; need_sub sel_columns; need_sub sel_columns; need_sub sel_columns;
  need_sub ["vlr_number"; "vlr_via_proxy"; "id"];
  need_sub ["sgsn_number"; "sgsn_via_proxy"; "id"];
  need_sub ["imei"; "imsi"];
  mk_need ["subscriber"; "auc_2g"; "auc_3g"] ["id"; "algo_id_2g"; "ki"; "algo_id_3g"; "k"; "op"; "opc"; "sqn"; "ind_bitlen"; "imsi"]
    [("auc_2g", "subscriber_id"); ("subscriber", "id"); ("auc_3g", "subscriber_id")];
  mk_need ["auc_3g"] ["sqn"; "subscriber_id"] [];
  need_sub ["ms_purged_cs"; "imsi"]; need_sub ["ms_purged_ps"; "imsi"]; need_sub ["nam_cs"; "imsi"]; need_sub ["nam_ps"; "imsi"];
  need_sub ["imsi"; "nam_cs"; "nam_ps"]; need_sub ["id"]; need_sub ["msisdn"; "imsi"]; need_sub ["msisdn"; "imsi"];
  mk_need ["auc_2g"] ["subscriber_id"; "algo_id_2g"; "ki"] []; mk_need ["auc_2g"] ["subscriber_id"] [];
  mk_need ["auc_3g"] ["subscriber_id"; "algo_id_3g"; "k"; "op"; "opc"; "ind_bitlen"] []; mk_need ["auc_3g"] ["subscriber_id"] [];
  need_sub ["last_lu_seen"; "id"]; need_sub ["last_lu_seen_ps"; "id"]; need_sub ["imsi"]; need_sub ["msisdn"];
  mk_need ["ind"] ["vlr"] []; mk_need ["ind"] ["ind"; "vlr"] []; mk_need ["ind"] ["vlr"] [] ].

(** ** db_open *)
(** The result, each with what is then in the file: a database context, NULL, or the process died *)
Inductive opened := Opened (f : file) | Refused (f : file) | Died (f : file).
Definition op_file (o : opened) : file := match o with Opened f | Refused f | Died f => f end.

(** the loop of db.c:681-692, the path from the version on *)
Fixpoint run_path (p : list (list stmt)) (l : list fate) (c : conn) : done conn :=
  match p with
  | [] => Done c l
  | ss :: p => match run_statements ss l c with Done c' l' => run_path p l' c' | r => r end
  end.
(** db.c:714-724: all statements are prepared, then "return dbc" *)
Fixpoint prepare_all (ns : list need) (l : list fate) (f : file) : opened :=
  match ns with
  | [] => Opened f
  | n :: ns =>
    match hd FOk l with
    | FCrash => Died f
    | FErr => Refused f
    | FOk => if prepare f n then prepare_all ns (List.tl l) f else Refused f
    end
  end.
(** db.c:666-728, once the version is known: [boot] says whether the tables are to be created.  A failure closes the connection. *)
Definition db_open_version (allow : bool) (version : Z) (boot : bool) (l : list fate) (c : conn) : opened :=
  match (if boot then run_statements bootstrap_sql l c else Done c l) with
  | Dead c => Died (durable c)
  | Err c _ => Refused (durable c)
  | Done c l =>
    let version := if boot then CURRENT else version in
    match (if allow && (version <? Z.of_nat (length upgrade_path)) then run_path (skipn (Z.to_nat version) upgrade_path) l c else Done c l) with
    | Dead c => Died (durable c)
    | Err c _ => Refused (durable c)
    | Done c l =>
      let version := if allow && (version <? Z.of_nat (length upgrade_path)) then Z.of_nat (length upgrade_path) else version in
      if negb (version =? CURRENT) then Refused (durable c)
      else prepare_all stmt_sql l (durable c)
    end
  end.
(** db_open(), db.c:591-728: sqlite3_open(), the journal mode (its failure is only logged), the version (-1 if it cannot be read), whether there is a
    table "subscriber" (no, if that cannot be found out, db.c:274-295). *)
Definition db_open (allow : bool) (l : list fate) (f : file) : opened :=
  match hd FOk l with
  | FCrash => Died f
  | FErr => Refused f
  | FOk =>
    let l := List.tl l in
    match hd FOk l with
    | FCrash => Died f
    | wal =>
      let f := match wal with FOk => with_wal f | _ => f end in
      let l := List.tl l in
      match hd FOk l with
      | FCrash => Died f
      | FErr => Refused f
      | FOk =>
        let l := List.tl l in
        let version := f_version f in
        if version <? 0 then Refused f
        else if version =? 0 then
          match hd FOk l with
          | FCrash => Died f
          | FErr => db_open_version allow version true (List.tl l) (conn_open f)
          | FOk => db_open_version allow version (negb (if get_tab (f_tabs f) "subscriber" then true else false)) (List.tl l) (conn_open f)
          end
        else db_open_version allow version false l (conn_open f)
      end
    end
  end.
