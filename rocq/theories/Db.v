(** The HLR database: tables of /repo/sql/hlr.sql, prepared statements of
    /repo/src/db.c:53-99, API functions of /repo/src/db_hlr.c. *)
From Verif Require Import Base PeerId.

(** Row of table subscriber, hlr.sql:1-52. Simplification: columns that no code path
    writes or branches on (imeisv, msc_number, sgsn_address, ggsn_number, gmlc_number,
    smsc_number, periodic timers, lmsi) are omitted. last_lu_seen is kept as Unix
    seconds instead of the text made by datetime(). *)
Record sub_row := mk_sub {
  s_id : Z;
  s_imsi : string;
  s_msisdn : option string;
  s_imei : option string;
  s_vlr : option string;
  s_sgsn : option string;
  s_nam_cs : bool;
  s_nam_ps : bool;
  s_purged_cs : bool;
  s_purged_ps : bool;
  s_lu_cs : option Z;
  s_lu_ps : option Z;
  s_vlr_proxy : option string;
  s_sgsn_proxy : option string }.

(** Row of auc_2g, hlr.sql:65-69 *)
Record auc2_row := mk_auc2 { a2_id : Z; a2_algo : Z; a2_ki : string }.
(** Row of auc_3g, hlr.sql:71-80 *)
Record auc3_row := mk_auc3 {
  a3_id : Z; a3_algo : Z; a3_k : string;
  a3_op : option string; a3_opc : option string;
  a3_sqn : N; a3_ind_bitlen : Z }.
(** Row of ind, hlr.sql:82-88 *)
Record ind_row := mk_ind { i_ind : Z; i_vlr : string }.

Record db := mk_db {
  d_sub : list sub_row; d_auc2 : list auc2_row; d_auc3 : list auc3_row; d_ind : list ind_row }.
Definition db_init : db := mk_db [] [] [] [].

Definition with_sub (d : db) l := mk_db l (d_auc2 d) (d_auc3 d) (d_ind d).
Definition with_auc2 (d : db) l := mk_db (d_sub d) l (d_auc3 d) (d_ind d).
Definition with_auc3 (d : db) l := mk_db (d_sub d) (d_auc2 d) l (d_ind d).
Definition with_ind (d : db) l := mk_db (d_sub d) (d_auc2 d) (d_auc3 d) l.

(** Field updates of a subscriber row. *)
Definition set_msisdn (v : option string) (r : sub_row) : sub_row :=
  mk_sub (s_id r) (s_imsi r) v (s_imei r) (s_vlr r) (s_sgsn r) (s_nam_cs r) (s_nam_ps r)
         (s_purged_cs r) (s_purged_ps r) (s_lu_cs r) (s_lu_ps r) (s_vlr_proxy r) (s_sgsn_proxy r).
Definition set_imei (v : option string) (r : sub_row) : sub_row :=
  mk_sub (s_id r) (s_imsi r) (s_msisdn r) v (s_vlr r) (s_sgsn r) (s_nam_cs r) (s_nam_ps r)
         (s_purged_cs r) (s_purged_ps r) (s_lu_cs r) (s_lu_ps r) (s_vlr_proxy r) (s_sgsn_proxy r).
Definition set_vlr (v p : option string) (r : sub_row) : sub_row :=
  mk_sub (s_id r) (s_imsi r) (s_msisdn r) (s_imei r) v (s_sgsn r) (s_nam_cs r) (s_nam_ps r)
         (s_purged_cs r) (s_purged_ps r) (s_lu_cs r) (s_lu_ps r) p (s_sgsn_proxy r).
Definition set_sgsn (v p : option string) (r : sub_row) : sub_row :=
  mk_sub (s_id r) (s_imsi r) (s_msisdn r) (s_imei r) (s_vlr r) v (s_nam_cs r) (s_nam_ps r)
         (s_purged_cs r) (s_purged_ps r) (s_lu_cs r) (s_lu_ps r) (s_vlr_proxy r) p.
Definition set_nam_cs (v : bool) (r : sub_row) : sub_row :=
  mk_sub (s_id r) (s_imsi r) (s_msisdn r) (s_imei r) (s_vlr r) (s_sgsn r) v (s_nam_ps r)
         (s_purged_cs r) (s_purged_ps r) (s_lu_cs r) (s_lu_ps r) (s_vlr_proxy r) (s_sgsn_proxy r).
Definition set_nam_ps (v : bool) (r : sub_row) : sub_row :=
  mk_sub (s_id r) (s_imsi r) (s_msisdn r) (s_imei r) (s_vlr r) (s_sgsn r) (s_nam_cs r) v
         (s_purged_cs r) (s_purged_ps r) (s_lu_cs r) (s_lu_ps r) (s_vlr_proxy r) (s_sgsn_proxy r).
Definition set_purged_cs (v : bool) (r : sub_row) : sub_row :=
  mk_sub (s_id r) (s_imsi r) (s_msisdn r) (s_imei r) (s_vlr r) (s_sgsn r) (s_nam_cs r) (s_nam_ps r)
         v (s_purged_ps r) (s_lu_cs r) (s_lu_ps r) (s_vlr_proxy r) (s_sgsn_proxy r).
Definition set_purged_ps (v : bool) (r : sub_row) : sub_row :=
  mk_sub (s_id r) (s_imsi r) (s_msisdn r) (s_imei r) (s_vlr r) (s_sgsn r) (s_nam_cs r) (s_nam_ps r)
         (s_purged_cs r) v (s_lu_cs r) (s_lu_ps r) (s_vlr_proxy r) (s_sgsn_proxy r).
Definition set_lu_cs (v : option Z) (r : sub_row) : sub_row :=
  mk_sub (s_id r) (s_imsi r) (s_msisdn r) (s_imei r) (s_vlr r) (s_sgsn r) (s_nam_cs r) (s_nam_ps r)
         (s_purged_cs r) (s_purged_ps r) v (s_lu_ps r) (s_vlr_proxy r) (s_sgsn_proxy r).
Definition set_lu_ps (v : option Z) (r : sub_row) : sub_row :=
  mk_sub (s_id r) (s_imsi r) (s_msisdn r) (s_imei r) (s_vlr r) (s_sgsn r) (s_nam_cs r) (s_nam_ps r)
         (s_purged_cs r) (s_purged_ps r) (s_lu_cs r) v (s_vlr_proxy r) (s_sgsn_proxy r).

(** Prepared statements, db.c:53-99. The list selections of db_subscrs_get() (db.c:54-61)
    are not modelled. *)
Inductive stmt :=
| SEL_BY_IMSI (imsi : string)
| SEL_BY_MSISDN (msisdn : string)
| SEL_BY_ID (id : Z)
| SEL_BY_IMEI (imei : string)
| UPD_VLR_BY_ID (number : option string) (proxy : option string) (id : Z)
| UPD_SGSN_BY_ID (number : option string) (proxy : option string) (id : Z)
| UPD_IMEI_BY_IMSI (imei : option string) (imsi : string)
| AUC_BY_IMSI (imsi : string)
| AUC_UPD_SQN (sqn : N) (id : Z)
| UPD_PURGE_CS_BY_IMSI (v : bool) (imsi : string)
| UPD_PURGE_PS_BY_IMSI (v : bool) (imsi : string)
| UPD_NAM_CS_BY_IMSI (v : bool) (imsi : string)
| UPD_NAM_PS_BY_IMSI (v : bool) (imsi : string)
| SUBSCR_CREATE (imsi : string) (nam_cs nam_ps : bool)
| DEL_BY_ID (id : Z)
| SET_MSISDN_BY_IMSI (msisdn : string) (imsi : string)
| DELETE_MSISDN_BY_IMSI (imsi : string)
| AUC_2G_INSERT (id : Z) (algo : Z) (ki : string)
| AUC_2G_DELETE (id : Z)
| AUC_3G_INSERT (id : Z) (algo : Z) (k : string) (op opc : option string) (ind_bitlen : Z)
| AUC_3G_DELETE (id : Z)
| SET_LAST_LU_SEEN (t : Z) (id : Z)
| SET_LAST_LU_SEEN_PS (t : Z) (id : Z)
| EXISTS_BY_IMSI (imsi : string)
| EXISTS_BY_MSISDN (msisdn : string)
| IND_ADD (vlr : string)
| IND_SELECT (vlr : string)
| IND_DEL (vlr : string).

(** Result of sqlite3_step() plus, for SQLITE_DONE, sqlite3_changes(), or the row. *)
Inductive res :=
| RErr                       (* any error code other than SQLITE_CONSTRAINT_UNIQUE *)
| RUnique                    (* SQLITE_CONSTRAINT_UNIQUE *)
| RDone (changes : nat)      (* SQLITE_DONE *)
| RSub (r : sub_row)         (* SQLITE_ROW of a subscriber SELECT *)
| RAuc (id : Z) (a2 : option auc2_row) (a3 : option auc3_row)
| RInd (ind : Z)
| RRow.                      (* SQLITE_ROW of an EXISTS query *)

Definition str_opt_is (s : string) (o : option string) : bool := opt_eqb String.eqb o (Some s).

(** UPDATE .. WHERE cond: new table and number of matching rows. *)
Definition upd {R} (cond : R -> bool) (f : R -> R) (l : list R) : list R :=
  map (fun r => if cond r then f r else r) l.
Definition cnt {R} (cond : R -> bool) (l : list R) : nat := length (filter cond l).
Definition del {R} (cond : R -> bool) (l : list R) : list R := filter (fun r => negb (cond r)) l.

(** Row id chosen by SQLite for an INTEGER PRIMARY KEY without AUTOINCREMENT: one more than
    the largest in use, 1 for an empty table. Simplification: the behaviour at
    2^63-1 is not modelled. *)
Definition next_rowid (ids : list Z) : Z := fold_right Z.max 0 ids + 1.

Definition by_imsi (i : string) (r : sub_row) : bool := (s_imsi r =? i)%string.
Definition by_id (i : Z) (r : sub_row) : bool := s_id r =? i.
Definition by_msisdn (m : string) (r : sub_row) : bool := str_opt_is m (s_msisdn r).
Definition by_imei (m : string) (r : sub_row) : bool := str_opt_is m (s_imei r).

Definition sel (cond : sub_row -> bool) (d : db) : res * db :=
  match find cond (d_sub d) with Some r => (RSub r, d) | None => (RDone 0, d) end.
Definition upd_sub (cond : sub_row -> bool) (f : sub_row -> sub_row) (d : db) : res * db :=
  (RDone (cnt cond (d_sub d)), with_sub d (upd cond f (d_sub d))).

(** Row made by INSERT INTO subscriber (imsi, nam_cs, nam_ps), db.c:80, with the column
    defaults of hlr.sql. *)
Definition new_row (id : Z) (imsi : string) (cs ps : bool) : sub_row :=
  mk_sub id imsi None None None None cs ps false false None None None None.

(** Effect of one statement that SQLite executes successfully or refuses because of a
    constraint. Statements are atomic. *)
Definition exec (s : stmt) (d : db) : res * db :=
  match s with
  | SEL_BY_IMSI i => sel (by_imsi i) d
  | SEL_BY_MSISDN m => sel (by_msisdn m) d
  | SEL_BY_ID i => sel (by_id i) d
  | SEL_BY_IMEI m => sel (by_imei m) d
  | UPD_VLR_BY_ID n p i => upd_sub (by_id i) (set_vlr n p) d
  | UPD_SGSN_BY_ID n p i => upd_sub (by_id i) (set_sgsn n p) d
  | UPD_IMEI_BY_IMSI m i => upd_sub (by_imsi i) (set_imei m) d
  | AUC_BY_IMSI i =>
      match find (by_imsi i) (d_sub d) with
      | None => (RDone 0, d)
      | Some r => (RAuc (s_id r) (find (fun a => a2_id a =? s_id r) (d_auc2 d))
                                 (find (fun a => a3_id a =? s_id r) (d_auc3 d)), d)
      end
  | AUC_UPD_SQN q i =>
      (RDone (cnt (fun a => a3_id a =? i) (d_auc3 d)),
       with_auc3 d (upd (fun a => a3_id a =? i)
                        (fun a => mk_auc3 (a3_id a) (a3_algo a) (a3_k a) (a3_op a) (a3_opc a) q (a3_ind_bitlen a))
                        (d_auc3 d)))
  | UPD_PURGE_CS_BY_IMSI v i => upd_sub (by_imsi i) (set_purged_cs v) d
  | UPD_PURGE_PS_BY_IMSI v i => upd_sub (by_imsi i) (set_purged_ps v) d
  | UPD_NAM_CS_BY_IMSI v i => upd_sub (by_imsi i) (set_nam_cs v) d
  | UPD_NAM_PS_BY_IMSI v i => upd_sub (by_imsi i) (set_nam_ps v) d
  | SUBSCR_CREATE i cs ps =>
      if existsb (by_imsi i) (d_sub d) then (RUnique, d)
      else (RDone 1, with_sub d (d_sub d ++ [new_row (next_rowid (map s_id (d_sub d))) i cs ps]))
  | DEL_BY_ID i => (RDone (cnt (by_id i) (d_sub d)), with_sub d (del (by_id i) (d_sub d)))
  | SET_MSISDN_BY_IMSI m i =>
      if existsb (by_imsi i) (d_sub d) && existsb (fun r => by_msisdn m r && negb (by_imsi i r)) (d_sub d)
      then (RUnique, d)
      else upd_sub (by_imsi i) (set_msisdn (Some m)) d
  | DELETE_MSISDN_BY_IMSI i => upd_sub (by_imsi i) (set_msisdn None) d
  | AUC_2G_INSERT i al ki =>
      if existsb (fun a => a2_id a =? i) (d_auc2 d) then (RErr, d)
      else (RDone 1, with_auc2 d (d_auc2 d ++ [mk_auc2 i al ki]))
  | AUC_2G_DELETE i => (RDone (cnt (fun a => a2_id a =? i) (d_auc2 d)),
                        with_auc2 d (del (fun a => a2_id a =? i) (d_auc2 d)))
  | AUC_3G_INSERT i al k op opc b =>
      if existsb (fun a => a3_id a =? i) (d_auc3 d) then (RErr, d)
      else (RDone 1, with_auc3 d (d_auc3 d ++ [mk_auc3 i al k op opc 0%N b]))
  | AUC_3G_DELETE i => (RDone (cnt (fun a => a3_id a =? i) (d_auc3 d)),
                        with_auc3 d (del (fun a => a3_id a =? i) (d_auc3 d)))
  | SET_LAST_LU_SEEN t i => upd_sub (by_id i) (set_lu_cs (Some t)) d
  | SET_LAST_LU_SEEN_PS t i => upd_sub (by_id i) (set_lu_ps (Some t)) d
  | EXISTS_BY_IMSI i => (if existsb (by_imsi i) (d_sub d) then RRow else RDone 0, d)
  | EXISTS_BY_MSISDN m => (if existsb (by_msisdn m) (d_sub d) then RRow else RDone 0, d)
  | IND_ADD v =>
      if existsb (fun r => (i_vlr r =? v)%string) (d_ind d) then (RUnique, d)
      else (RDone 1, with_ind d (d_ind d ++ [mk_ind (next_rowid (map i_ind (d_ind d))) v]))
  | IND_SELECT v =>
      match find (fun r => (i_vlr r =? v)%string) (d_ind d) with
      | Some r => (RInd (i_ind r), d)
      | None => (RDone 0, d)
      end
  | IND_DEL v => (RDone (cnt (fun r => (i_vlr r =? v)%string) (d_ind d)),
                  with_ind d (del (fun r => (i_vlr r =? v)%string) (d_ind d)))
  end.

(** A C function as a program over SQL statements. [Undef]: undefined behaviour. *)
Inductive prog (A : Type) : Type :=
| Ret (a : A)
| Exec (s : stmt) (k : res -> prog A)
| Undef.
Arguments Ret {A} a.
Arguments Exec {A} s k.
Arguments Undef {A}.

Fixpoint bind {A B} (p : prog A) (f : A -> prog B) : prog B :=
  match p with
  | Ret a => f a
  | Exec s k => Exec s (fun r => bind (k r) f)
  | Undef => Undef
  end.
Notation "'do' x <- p ;; q" := (bind p (fun x => q)) (at level 200, x pattern, p at level 100, q at level 200).

(** What happens when a statement is about to be executed: it runs, SQLite reports an error
    without effect (this also stands for a failed bind), or the process dies before it. *)
Inductive ev := EvOk | EvFail | EvCrash.
Definition sched := list ev.
Inductive outcome (A : Type) := Fin (a : A) | Crashed | Ub.
Arguments Fin {A} a. Arguments Crashed {A}. Arguments Ub {A}.

(** Run a program under a schedule; an exhausted schedule means no more faults. *)
Fixpoint run {A} (p : prog A) (c : sched) (d : db) : outcome A * db * sched :=
  match p with
  | Ret a => (Fin a, d, c)
  | Undef => (Ub, d, c)
  | Exec s k =>
      match c with
      | [] => let '(r, d') := exec s d in run (k r) [] d'
      | EvOk :: c' => let '(r, d') := exec s d in run (k r) c' d'
      | EvFail :: c' => run (k RErr) c' d
      | EvCrash :: c' => (Crashed, d, c')
      end
  end.

Definition run_out {A} (p : prog A) (c : sched) (d : db) : outcome A := fst (fst (run p c d)).
Definition run_db {A} (p : prog A) (c : sched) (d : db) : db := snd (fst (run p c d)).

(** Return code of an UPDATE by key, the pattern at db_hlr.c:180-205, 421-443, 790-820,
    947-978 and db_auc.c:49-73. *)
Definition upd_rc (r : res) : Z :=
  match r with
  | RDone 0 => - ENOENT
  | RDone 1 => 0
  | _ => - EIO
  end.

(** db_subscr_create, db_hlr.c:51-83; flags are DB_SUBSCR_FLAG_NAM_CS (1<<1) and
    DB_SUBSCR_FLAG_NAM_PS (1<<2), db.h:147-148. *)
Definition db_subscr_create (imsi : string) (flags : N) : prog Z :=
  if negb (imsi_valid imsi) then Ret (- EINVAL)
  else Exec (SUBSCR_CREATE imsi (N.testbit flags 1) (N.testbit flags 2)) (fun r =>
    Ret (match r with
         | RDone _ => 0
         | RUnique => - EEXIST
         | _ => - EIO
         end)).

(** enum osmo_auth_algo (libosmocore include/osmocom/crypt/auth.h) *)
Definition ALG_NONE : Z := 0.
Definition ALG_COMP128v1 : Z := 1.
Definition ALG_COMP128v2 : Z := 2.
Definition ALG_COMP128v3 : Z := 3.
Definition ALG_XOR_3G : Z := 4.
Definition ALG_MILENAGE : Z := 5.
Definition ALG_XOR_2G : Z := 6.
Definition ALG_TUAK : Z := 7.

(** struct sub_auth_data_str, db.h:130-145; the sqn member is never read by the code. *)
Inductive aud_str :=
| AudGsm (algo : Z) (ki : string)
| AudUmts (algo : Z) (k opc : string) (opc_is_op : bool) (ind_bitlen : Z)
| AudOther.   (* any other aud->type *)

(** OSMO_MILENAGE_IND_BITLEN_MAX, libosmocore auth.h *)
Definition IND_BITLEN_MAX : Z := 28.

(** DELETE result handling of db_subscr_update_aud_by_id, db_hlr.c:317-340 *)
Definition aud_del_rc (r : res) : Z :=
  match r with
  | RDone 0 => - ENOENT
  | RDone 1 => 0
  | _ => - EIO
  end.

Definition ins_rc (r : res) : Z := match r with RDone _ => 0 | _ => - EIO end.

(** db_subscr_update_aud_by_id, db_hlr.c:220-397 *)
Definition db_subscr_update_aud_by_id (id : Z) (aud : aud_str) : prog Z :=
  match aud with
  | AudGsm algo ki =>
      if negb ((algo =? ALG_NONE) || (algo =? ALG_COMP128v1) || (algo =? ALG_COMP128v2)
               || (algo =? ALG_COMP128v3) || (algo =? ALG_XOR_2G))
      then Ret (- EINVAL)
      else if negb (algo =? ALG_NONE) && negb (is_hexstr ki 32 32) then Ret (- EINVAL)
      else Exec (AUC_2G_DELETE id) (fun r =>
             let ret := aud_del_rc r in
             if negb (ret =? 0) && negb (ret =? - ENOENT) then Ret ret
             else if algo =? ALG_NONE then Ret ret
             else Exec (AUC_2G_INSERT id algo ki) (fun r => Ret (ins_rc r)))
  | AudUmts algo k opc is_op bl =>
      if negb ((algo =? ALG_NONE) || (algo =? ALG_MILENAGE) || (algo =? ALG_XOR_3G))
      then Ret (- EINVAL)
      else if negb (algo =? ALG_NONE)
              && (negb (is_hexstr k 32 64) || negb (is_hexstr opc 32 64)
                  || negb ((0 <=? bl) && (bl <=? IND_BITLEN_MAX)))
      then Ret (- EINVAL)
      else Exec (AUC_3G_DELETE id) (fun r =>
             let ret := aud_del_rc r in
             if negb (ret =? 0) && negb (ret =? - ENOENT) then Ret ret
             else if algo =? ALG_NONE then Ret ret
             else Exec (AUC_3G_INSERT id algo k (if is_op then Some opc else None)
                                      (if is_op then None else Some opc) bl)
                       (fun r => Ret (ins_rc r)))
  | AudOther => Ret (- EINVAL)
  end.

(** db_subscr_delete_by_id, db_hlr.c:94-148 *)
Definition db_subscr_delete_by_id (id : Z) : prog Z :=
  Exec (DEL_BY_ID id) (fun r =>
    match r with
    | RDone n =>
        let ret := match n with O => - ENOENT | S O => 0 | _ => - EIO end in
        do rc2 <- db_subscr_update_aud_by_id id (AudGsm ALG_NONE "");;
        let ret := if (ret =? - ENOENT) && (rc2 =? 0) then 0 else ret in
        do rc3 <- db_subscr_update_aud_by_id id (AudUmts ALG_NONE "" "" false 0);;
        Ret (if (ret =? - ENOENT) && (rc3 =? 0) then 0 else ret)
    | _ => Ret (- EIO)
    end).

(** db_subscr_update_msisdn_by_imsi, db_hlr.c:157-206 *)
Definition db_subscr_update_msisdn_by_imsi (imsi : string) (msisdn : option string) : prog Z :=
  match msisdn with
  | Some m => if negb (msisdn_valid m) then Ret (- EINVAL)
              else Exec (SET_MSISDN_BY_IMSI m imsi) (fun r => Ret (upd_rc r))
  | None => Exec (DELETE_MSISDN_BY_IMSI imsi) (fun r => Ret (upd_rc r))
  end.

(** db_subscr_update_imei_by_imsi, db_hlr.c:406-444 *)
Definition db_subscr_update_imei_by_imsi (imsi : string) (imei : option string) : prog Z :=
  match imei with
  | Some m => if negb (imei_valid14 m) then Ret (- EINVAL)
              else Exec (UPD_IMEI_BY_IMSI (Some m) imsi) (fun r => Ret (upd_rc r))
  | None => Exec (UPD_IMEI_BY_IMSI None imsi) (fun r => Ret (upd_rc r))
  end.

(** struct hlr_subscriber as filled by db_sel, db.h:91-117, without the omitted columns. *)
Record subscriber := mk_subscriber {
  h_id : Z; h_imsi : string; h_msisdn : string; h_imei : string;
  h_vlr : string; h_sgsn : string;
  h_nam_cs : bool; h_nam_ps : bool; h_purged_cs : bool; h_purged_ps : bool;
  h_lu_cs : Z; h_lu_ps : Z;
  h_vlr_proxy : ipa_name; h_sgsn_proxy : ipa_name }.

(** copy_sqlite3_text_to_buf, db.h:188-192: NULL gives "", longer text is cut. *)
Definition text_to_buf (size : nat) (t : option string) : string :=
  match t with None => EmptyString | Some s => str_take (size - 1) s end.

(** Column extraction of db_sel, db_hlr.c:491-514. [tz] is the local time zone's offset:
    parse_last_lu_seen (db_hlr.c:446-468) parses the stored UTC text and converts it
    with mktime(), which takes it as local time. Simplification: one constant offset
    (no daylight saving switch). [None] = undefined behaviour of the printf-style copy
    (db.h:199-203). *)
Definition sub_of_row (tz : Z) (r : sub_row) : option subscriber :=
  match ipa_set_str ipa_empty (s_vlr_proxy r), ipa_set_str ipa_empty (s_sgsn_proxy r) with
  | Some vp, Some sp =>
      Some (mk_subscriber (s_id r) (text_to_buf 16 (Some (s_imsi r))) (text_to_buf 16 (s_msisdn r))
             (text_to_buf 16 (s_imei r)) (text_to_buf 32 (s_vlr r)) (text_to_buf 32 (s_sgsn r))
             (s_nam_cs r) (s_nam_ps r) (s_purged_cs r) (s_purged_ps r)
             (match s_lu_cs r with Some t => t - tz | None => 0 end)
             (match s_lu_ps r with Some t => t - tz | None => 0 end)
             vp sp)
  | _, _ => None
  end.

(** db_sel, db_hlr.c:471-531, for the four db_subscr_get_by_* functions (565-580, 616-631,
    728-765): return code and the record on success. *)
Definition db_sel (tz : Z) (s : stmt) : prog (Z * option subscriber) :=
  Exec s (fun r =>
    match r with
    | RDone _ => Ret (- ENOENT, None)
    | RSub row => match sub_of_row tz row with
                  | Some x => Ret (0, Some x)
                  | None => Undef
                  end
    | _ => Ret (- EIO, None)
    end).
Definition db_subscr_get_by_imsi tz imsi := db_sel tz (SEL_BY_IMSI imsi).
Definition db_subscr_get_by_msisdn tz m := db_sel tz (SEL_BY_MSISDN m).
Definition db_subscr_get_by_id tz i := db_sel tz (SEL_BY_ID i).
Definition db_subscr_get_by_imei tz m := db_sel tz (SEL_BY_IMEI m).

(** db_subscr_exists_by_imsi / _by_msisdn, db_hlr.c:538-556, 587-607. On an SQL error the
    positive SQLite code is returned; 1 (SQLITE_ERROR) stands for it. *)
Definition exists_rc (r : res) : Z :=
  match r with RRow => 0 | RDone _ => - ENOENT | _ => 1 end.
Definition db_subscr_exists_by_imsi (imsi : string) : prog Z :=
  Exec (EXISTS_BY_IMSI imsi) (fun r => Ret (exists_rc r)).
Definition db_subscr_exists_by_msisdn (m : string) : prog Z :=
  Exec (EXISTS_BY_MSISDN m) (fun r => Ret (exists_rc r)).

(** db_subscr_nam, db_hlr.c:776-821 *)
Definition db_subscr_nam (imsi : string) (v : bool) (is_ps : bool) : prog Z :=
  Exec (if is_ps then UPD_NAM_PS_BY_IMSI v imsi else UPD_NAM_CS_BY_IMSI v imsi)
       (fun r => Ret (upd_rc r)).

(** db_subscr_purge, db_hlr.c:933-979 *)
Definition db_subscr_purge (imsi : string) (v : bool) (is_ps : bool) : prog Z :=
  Exec (if is_ps then UPD_PURGE_PS_BY_IMSI v imsi else UPD_PURGE_CS_BY_IMSI v imsi)
       (fun r => Ret (upd_rc r)).

(** value bound to $proxy, db_hlr.c:848-854; outer [None]: over-read *)
Definition lu_proxy (via_proxy : option ipa_name) : option (option string) :=
  match via_proxy with
  | Some p => if ipa_is_empty p then Some None
              else match ipa_cstr p with Some s => Some (Some s) | None => None end
  | None => Some None
  end.

(** db_subscr_lu, db_hlr.c:831-923. [now = None]: the clock could not be read (errno taken as
    EINVAL). [via_proxy = None] is NULL. A name buffer without NUL is over-read (db_hlr.c:845,849). *)
Definition db_subscr_lu (id : Z) (vlr : ipa_name) (is_ps : bool) (via_proxy : option ipa_name)
           (now : option Z) : prog Z :=
  match ipa_cstr vlr with
  | None => Undef
  | Some number =>
      match lu_proxy via_proxy with
      | None => Undef
      | Some proxy =>
          Exec (if is_ps then UPD_SGSN_BY_ID (Some number) proxy id
                else UPD_VLR_BY_ID (Some number) proxy id) (fun r =>
            let rc := upd_rc r in
            if negb (rc =? 0) then Ret rc
            else match now with
                 | None => Ret (- EINVAL)
                 | Some t => Exec (if is_ps then SET_LAST_LU_SEEN_PS t id else SET_LAST_LU_SEEN t id)
                                  (fun r => Ret (upd_rc r))
                 end)
      end
  end.

(** db_update_sqn, db_auc.c:37-74 *)
Definition db_update_sqn (id : Z) (sqn : N) : prog Z :=
  Exec (AUC_UPD_SQN sqn id) (fun r => Ret (upd_rc r)).

(** unsigned int conversion at db_hlr.c:1029 *)
Definition to_uint (z : Z) : N := Z.to_N (z mod 4294967296).

(** _db_ind_get, db_hlr.c:1013-1033 *)
Definition _db_ind_get (vlr : string) : prog (Z * N) :=
  Exec (IND_SELECT vlr) (fun r =>
    match r with
    | RDone _ => Ret (- ENOENT, 0%N)
    | RInd i => Ret (0, to_uint i)
    | _ => Ret (- EIO, 0%N)
    end).

(** name check of _db_ind, db_hlr.c:1041-1054: IPA name with at least two bytes whose last
    byte is NUL; then the buffer is read as a C string. *)
Definition ind_vlr_name (vlr : peer_id) : option string :=
  match p_type vlr with
  | PT_EMPTY => None
  | PT_IPA =>
      let n := p_ipa vlr in
      if (in_len n <? 2)%nat || negb (nth (in_len n - 1) (in_val n) "x"%char =? nul)%char then None
      else ipa_cstr n
  end.

(** db_ind, db_hlr.c:1035-1077 (del = false): get, else add and get again. The add is also
    tried when the first get failed with an SQL error. *)
Definition db_ind (vlr : peer_id) : prog (Z * N) :=
  match ind_vlr_name vlr with
  | None => Ret (- ENOTSUP, 0%N)
  | Some v =>
      do (rc, i) <- _db_ind_get v;;
      if rc =? 0 then Ret (0, i)
      else Exec (IND_ADD v) (fun r =>
             match r with
             | RDone _ => _db_ind_get v
             | _ => Ret (- EIO, 0%N)
             end)
  end.

(** db_ind_del, db_hlr.c:1005-1011, 1079-1082: the result of the DELETE is ignored. *)
Definition db_ind_del (vlr : peer_id) : prog Z :=
  match ind_vlr_name vlr with
  | None => Ret (- ENOTSUP)
  | Some v => Exec (IND_DEL v) (fun _ => Ret 0)
  end.

(** One call of the database API, with its arguments. *)
Inductive api :=
| ACreate (imsi : string) (flags : N)
| ADelete (id : Z)
| AMsisdn (imsi : string) (msisdn : option string)
| AAud (id : Z) (aud : aud_str)
| AImei (imsi : string) (imei : option string)
| ANam (imsi : string) (v is_ps : bool)
| APurge (imsi : string) (v is_ps : bool)
| ALu (id : Z) (vlr : ipa_name) (is_ps : bool) (via : option ipa_name) (now : option Z)
| ASqn (id : Z) (sqn : N)
| AInd (vlr : peer_id)
| AIndDel (vlr : peer_id)
| AGetImsi (imsi : string) | AGetMsisdn (m : string) | AGetId (id : Z) | AGetImei (m : string)
| AExImsi (imsi : string) | AExMsisdn (m : string).

Definition api_prog (a : api) : prog Z :=
  match a with
  | ACreate i f => db_subscr_create i f
  | ADelete i => db_subscr_delete_by_id i
  | AMsisdn i m => db_subscr_update_msisdn_by_imsi i m
  | AAud i a => db_subscr_update_aud_by_id i a
  | AImei i m => db_subscr_update_imei_by_imsi i m
  | ANam i v p => db_subscr_nam i v p
  | APurge i v p => db_subscr_purge i v p
  | ALu i n p v t => db_subscr_lu i n p v t
  | ASqn i q => db_update_sqn i q
  | AInd v => do (rc, _) <- db_ind v;; Ret rc
  | AIndDel v => db_ind_del v
  | AGetImsi i => do (rc, _) <- db_subscr_get_by_imsi 0 i;; Ret rc
  | AGetMsisdn m => do (rc, _) <- db_subscr_get_by_msisdn 0 m;; Ret rc
  | AGetId i => do (rc, _) <- db_subscr_get_by_id 0 i;; Ret rc
  | AGetImei m => do (rc, _) <- db_subscr_get_by_imei 0 m;; Ret rc
  | AExImsi i => db_subscr_exists_by_imsi i
  | AExMsisdn m => db_subscr_exists_by_msisdn m
  end.

(** A history: calls, each with its own fault schedule. A crash ends the call; the next call is
    made by the restarted process on the same database file. *)
Definition db_step (d : db) (x : api * sched) : db := run_db (api_prog (fst x)) (snd x) d.
Definition db_hist (h : list (api * sched)) (d : db) : db := fold_left db_step h d.
