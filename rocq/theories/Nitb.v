(** Import of subscribers from an OsmoNITB database: /repo/src/hlr_db_tool.c, the action import-nitb-db. *)
From Verif Require Import Base PeerId Db Mdns Dbd Auth Gsup Router Hlr Ctrl VtySubscr.

(** ** What is read from the OsmoNITB database *)
(** the value of a column: an integer, a text or NULL *)
Inductive ncol := NInt (z : Z) | NText (s : string) | NNull.
(** sqlite3_column_int64(): texts are converted like by strtoll() *)
Definition column_int64 (v : ncol) : Z := match v with NInt z => z | NText s => atoll s | NNull => 0 end.
(** sqlite3_column_int(): the lower 32 bits of it *)
Definition to_int (z : Z) : Z := let u := z mod 4294967296 in if u <? 2147483648 then u else u - 4294967296.
Definition column_int (v : ncol) : Z := to_int (column_int64 v).
(** row of NITB_SELECT_AUTH_KEYS, hlr_db_tool.c:225-227: algorithm_id; size of a3a8_ki and the octets that can be read where
    sqlite3_column_blob() points to (none if that is NULL, as it is for an empty value) *)
Record nkey := mk_nkey { nk_algo : ncol; nk_size : N; nk_mem : list N }.
(** row of NITB_SELECT_SUBSCR, hlr_db_tool.c:215-224, with the rows of keys that can be read for its id. [nr_imei] is the IMEI of
    the equipment seen last, before SUBSTR; [nr_expire] is what STRFTIME('%s', expire_lu) gives. *)
Record nrow := mk_nrow { nr_imsi : ncol; nr_ext : option string; nr_auth : ncol; nr_imei : option string; nr_expire : ncol; nr_keys : list nkey }.

(** ** Import *)
(** "%" PRId64 *)
Definition int_text (z : Z) : string :=
  if z <? 0 then ("-" ++ dec_upto 20 (Z.to_N (- z)) "")%string else dec_upto 20 (Z.to_N z) "".
(** a program, and then something else, on the same schedule *)
Definition after_run {A B} (x : outcome A * db * sched) (f : A -> db -> sched -> outcome B * db * sched) : outcome B * db * sched :=
  match x with
  | (Fin a, d, c) => f a d c
  | (Crashed, d, c) => (Crashed, d, c)
  | (Ub, d, c) => (Ub, d, c)
  end.
(** db_subscr_update_lu_by_imsi, hlr_db_tool.c:256-290, whose statement is at 237-238. 0 is not bound, which leaves NULL. *)
Definition update_lu_by_imsi (imsi : string) (lu : Z) (d : db) (c : sched) : outcome Z * db * sched :=
  let ok c := let '(r, d') := upd_sub (by_imsi imsi) (set_lu_cs (if lu =? 0 then None else Some lu)) d in (Fin (upd_rc r), d', c) in
  match c with
  | [] => ok []
  | EvOk :: c' => ok c'
  | EvFail :: c' => (Fin (- EIO), d, c')
  | EvCrash :: c' => (Crashed, d, c')
  end.
(** import_nitb_subscr_aud, hlr_db_tool.c:292-353. Only the first row is used. If it is too large, the statement is reset, which also
    unbinds the id, so that no further row comes. osmo_hexdump_nospc() makes two characters of an octet; the text is cut to the buffer ki. *)
Definition import_nitb_subscr_aud (keys : list nkey) (hlr_id : Z) : prog Z :=
  match keys with
  | [] => Ret 0
  | k :: _ =>
      if (4096 <? nk_size k)%N then Ret 0
      else match dbd_decode (nk_mem k) 4096 with
           | Bad => Undef
           | Val l => db_subscr_update_aud_by_id hlr_id (AudGsm (column_int (nk_algo k)) (str_take 127 (hexdump l)))
           end
  end.
(** import_nitb_subscr, hlr_db_tool.c:355-414; the results of most calls are not looked at. The subtraction at 388 may overflow;
    a subscriber found under another IMSI would end the process at 411. *)
Definition import_nitb_subscr (tz : Z) (n : nrow) (d : db) (c : sched) : outcome unit * db * sched :=
  let imsi := int_text (column_int64 (nr_imsi n)) in
  let imei := text_to_buf 16 (match nr_imei n with Some m => Some (str_take 14 m) | None => None end) in
  after_run (run (db_subscr_create imsi 6) c d) (fun _ d c =>
    if column_int (nr_expire n) - 3660 <? - 2147483648 then (Ub, d, c)
    else
      let lu := column_int (nr_expire n) - 3660 in
      let authorized := negb (column_int (nr_auth n) =? 0) in
      after_run (run (do _ <- db_subscr_update_msisdn_by_imsi imsi (Some (text_to_buf 16 (nr_ext n)));;
                      (if (String.length imei =? 14)%nat then db_subscr_update_imei_by_imsi imsi (Some imei) else Ret 0)) c d) (fun _ d c =>
      after_run (update_lu_by_imsi imsi lu d c) (fun _ d c =>
      after_run (run (do _ <- db_subscr_nam imsi authorized true;;
                      do _ <- db_subscr_nam imsi authorized false;;
                      do (rc, h) <- db_subscr_get_by_imsi tz imsi;;
                      match h with
                      | None => Ret 0
                      | Some h => if negb (h_imsi h =? imsi)%string then Undef else import_nitb_subscr_aud (nr_keys n) (h_id h)
                      end) c d) (fun _ d c => (Fin tt, d, c))))).
Fixpoint import_rows (tz : Z) (l : list nrow) (d : db) (c : sched) : outcome unit * db * sched :=
  match l with [] => (Fin tt, d, c) | n :: t => after_run (import_nitb_subscr tz n d c) (fun _ d c => import_rows tz t d c) end.
(** import_nitb_db, hlr_db_tool.c:416-471: the return code. [opened]: the OsmoNITB database was opened and all statements were
    prepared. [failed]: reading the subscribers ended with an error, after the rows [l]. *)
Definition import_nitb_db (tz : Z) (opened failed : bool) (l : list nrow) (d : db) (c : sched) : outcome Z * db * sched :=
  if negb opened then (Fin (-1), d, c) else after_run (import_rows tz l d c) (fun _ d c => (Fin 0, d, c)).
