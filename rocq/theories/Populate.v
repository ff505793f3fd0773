(** src/populate_hlr_db.pl and sql/hlr_data.sql: the script and the file that fill a database for tests.

    Simplifications: the messages of the script and of DBI are left out. DBI's PrintError is on and RaiseError off (the defaults), so that a
    statement that fails only prints a message and the script goes on. "AutoCommit = 0" makes all of the statements one transaction: what
    the database holds after a script that was killed before the commit is what it held before. PRAGMA synchronous has no effect on the
    contents. hlr_data.sql is fed to the sqlite3 shell, which goes on after a statement that fails. *)
From Verif Require Import Base PeerId Db.

(** sprintf("%010u") of a number below 10^10, populate_hlr_db.pl:68: [w] digits of it *)
Fixpoint udigits (w : nat) (i : N) : string :=
  match w with
  | O => ""
  | S w => udigits w (i / 10) ++ String (ascii_of_N (48 + i mod 10)) ""
  end%string.
(** populate_hlr_db.pl:62 and 68 *)
Definition pl_imsi (i : N) : string := "90179" ++ udigits 10 i.
(** populate_hlr_db.pl:15-17: substr($imsi, 5) *)
Fixpoint str_drop (n : nat) (s : string) : string :=
  match n, s with S n, String _ r => str_drop n r | _, _ => s end.
Definition pl_msisdn (imsi : string) : string := "49" ++ str_drop 5 imsi.

(** The connection: the database as the transaction sees it, and sqlite_last_insert_rowid() *)
Record plc := mk_plc { p_db : db; p_last : Z }.
(** populate_hlr_db.pl:7 and 19, with the defaults of the other columns; both columns are UNIQUE, hlr.sql:5-7. [ok]: the statement
    does not fail for another reason *)
Definition pl_base (ok : bool) (imsi : string) (p : plc) : plc :=
  let d := p_db p in
  if negb ok || existsb (by_imsi imsi) (d_sub d) || existsb (by_msisdn (pl_msisdn imsi)) (d_sub d) then p
  else let id := next_rowid (map s_id (d_sub d)) in
       mk_plc (with_sub d (d_sub d ++ [set_msisdn (Some (pl_msisdn imsi)) (new_row id imsi true true)])) id.
(** an INSERT with a value for the INTEGER PRIMARY KEY of a table *)
Definition ins_2g (ok : bool) (r : auc2_row) (p : plc) : plc :=
  if negb ok || existsb (fun a => a2_id a =? a2_id r) (d_auc2 (p_db p)) then p
  else mk_plc (with_auc2 (p_db p) (d_auc2 (p_db p) ++ [r])) (a2_id r).
Definition ins_3g (ok : bool) (r : auc3_row) (p : plc) : plc :=
  if negb ok || existsb (fun a => a3_id a =? a3_id r) (d_auc3 (p_db p)) then p
  else mk_plc (with_auc3 (p_db p) (d_auc3 (p_db p) ++ [r])) (a3_id r).
(** the keys, populate_hlr_db.pl:26, 35-36 *)
Definition PL_K : string := "000102030405060708090a0b0c0d0e0f".
Definition PL_OP : string := "00102030405060708090a0b0c0d0e0f0".
(** create_auc_2g and create_auc_3g, populate_hlr_db.pl:22-39; ind_bitlen has its default 5 *)
Definition pl_2g (id : Z) : auc2_row := mk_auc2 id 1 PL_K.
Definition pl_3g (id : Z) : auc3_row := mk_auc3 id 5 PL_K (Some PL_OP) None 0%N 5.
(** Which of the three statements for a subscriber work *)
Record fates := mk_fates { f_base : bool; f_3g : bool; f_2g : bool }.
(** create_subscr, populate_hlr_db.pl:41-59, with both flags set: whether the first INSERT worked is not asked *)
Definition pl_subscr (f : fates) (imsi : string) (p : plc) : plc :=
  let p := pl_base (f_base f) imsi p in
  let id := p_last p in
  let p := ins_3g (f_3g f) (pl_3g id) p in
  ins_2g (f_2g f) (pl_2g id) p.
(** The loop, populate_hlr_db.pl:67-73, for the first [n] numbers. [p_last] is 0 on a new connection. *)
Fixpoint pl_loop (fs : N -> fates) (n : nat) (d : db) : plc :=
  match n with
  | O => mk_plc d 0
  | S n => pl_subscr (fs (N.of_nat n)) (pl_imsi (N.of_nat n)) (pl_loop fs n d)
  end.
Definition PL_COUNT : nat := N.to_nat 1000000.
(** The script, populate_hlr_db.pl:64-75: [Some n]: it was killed after [n] subscribers, or at the end before the commit. If the commit
    fails, nothing is changed either. *)
Definition populate (fs : N -> fates) (commit : bool) (killed : option nat) (d : db) : db :=
  match killed with
  | Some _ => d
  | None => if commit then p_db (pl_loop fs PL_COUNT d) else d
  end.

(** One INSERT INTO subscriber (id, imsi) of hlr_data.sql *)
Definition ins_sub (id : Z) (imsi : string) (p : plc) : plc :=
  let d := p_db p in
  if existsb (by_id id) (d_sub d) || existsb (by_imsi imsi) (d_sub d) then p
  else mk_plc (with_sub d (d_sub d ++ [new_row id imsi true true])) id.
(** hlr_data.sql:4, 8, 12 and 13 *)
Definition DATA_OPC : string := "101112131415161718191a1b1c1d1e1f".
Definition data_2g (id : Z) : auc2_row := mk_auc2 id 1 PL_K.
Definition data_3g (id : Z) : auc3_row := mk_auc3 id 5 PL_K None (Some DATA_OPC) 0%N 5.
(** hlr_data.sql:1-13 *)
Definition hlr_data (d : db) : db :=
  p_db (ins_3g true (data_3g 3) (ins_2g true (data_2g 3) (ins_sub 3 "901990000000003"
       (ins_3g true (data_3g 2) (ins_sub 2 "901990000000002"
       (ins_2g true (data_2g 1) (ins_sub 1 "901990000000001" (mk_plc d 0)))))))).
