(** The lists of subscribers on the VTY: db_subscrs_get of /repo/src/db_hlr.c and the "show subscribers" commands of
    /repo/src/hlr_vty_subscr.c. *)
From Verif Require Import Base PeerId Db Mdns Proxy Gsup Router Hlr Ctrl VtySubscr.

(** ** SQL *)
(** the operator LIKE of SQLite, without ESCAPE: "%" is any text, "_" any one character, letters match in upper and lower case.
    Simplification: characters are octets (the columns are ASCII). *)
Fixpoint like (p : list ascii) : list ascii -> bool :=
  match p with
  | [] => fun s => match s with [] => true | _ => false end
  | c :: p =>
      if (c =? "%")%char then fix any s := like p s || match s with [] => false | _ :: t => any t end
      else if (c =? "_")%char then fun s => match s with [] => false | _ :: t => like p t end
      else fun s => match s with [] => false | x :: t => (lower c =? lower x)%char && like p t end
  end.
Definition like_text (p s : string) : bool := like (bytes_of p) (bytes_of s).
Definition like_col (p : string) (c : option string) : bool := match c with Some s => like_text p s | None => false end.
(** ORDER BY: NULL first, text in the order of octets (BINARY). Times are texts YYYY-MM-DD HH:MM:SS, in the order of the times.
    Simplification: rows with equal keys stay in the order of the table. *)
Fixpoint insert (le : sub_row -> sub_row -> bool) (r : sub_row) (l : list sub_row) : list sub_row :=
  match l with [] => [r] | x :: t => if le r x then r :: l else x :: insert le r t end.
Definition order (le : sub_row -> sub_row -> bool) (l : list sub_row) : list sub_row := fold_right (insert le) [] l.
Definition le_opt {A} (le : A -> A -> bool) (a b : option A) : bool :=
  match a, b with None, _ => true | Some _, None => false | Some a, Some b => le a b end.
Definition by_lu (a b : sub_row) : bool := le_opt Z.leb (s_lu_cs a) (s_lu_cs b).

(** ** db_subscrs_get, db_hlr.c:633-719 *)
(** the text searched for, db_hlr.c:674-682: search[256] is written by sprintf(). [None]: written past its end. *)
Definition search_text (f : string) : option string :=
  if (f =? "on")%string then Some "1"%string
  else if (f =? "off")%string then Some "0"%string
  else if (254 <=? String.length f)%nat then None else Some ("%" ++ f ++ "%")%string.
(** comparing a BOOLEAN column, which has numeric affinity, with a text: the text is converted if it looks like a number *)
Definition bool_is (b : bool) (t : string) : bool := if b then (t =? "1")%string else (t =? "0")%string.
(** the rows of a statement, db.c:54-61; [None]: the filter is of an unknown type *)
Definition select (d : db) (ft : option string) (search : string) : option (list sub_row) :=
  match ft with
  | None => Some (d_sub d)
  | Some t =>
      if (t =? "imei")%string then Some (order (fun a b => le_opt String.leb (s_imei a) (s_imei b)) (filter (fun r => like_col search (s_imei r)) (d_sub d)))
      else if (t =? "imsi")%string then Some (order (fun a b => String.leb (s_imsi a) (s_imsi b)) (filter (fun r => like_text search (s_imsi r)) (d_sub d)))
      else if (t =? "msisdn")%string then Some (order (fun a b => le_opt String.leb (s_msisdn a) (s_msisdn b)) (filter (fun r => like_col search (s_msisdn r)) (d_sub d)))
      else if (t =? "cs")%string then Some (order by_lu (filter (fun r => bool_is (s_nam_cs r) search) (d_sub d)))
      else if (t =? "ps")%string then Some (order by_lu (filter (fun r => bool_is (s_nam_ps r) search) (d_sub d)))
      else if (t =? "last_lu_seen")%string then Some (order by_lu (filter (fun r => is_some (s_lu_cs r)) (d_sub d)))
      else None
  end.
(** what fails: the bind, or sqlite3_step() after so many rows; with the text of sqlite3_errmsg() *)
Record lfault := mk_lfault { lf_bind : bool; lf_step : option nat; lf_msg : string }.
Definition no_lfault : lfault := mk_lfault false None "".
(** struct hlr_subscriber as passed to the callback; the other members are 0. [ls]: the time is read too. *)
Record lsub := mk_lsub { ls_id : Z; ls_imsi : string; ls_msisdn : string; ls_imei : string; ls_cs : bool; ls_ps : bool; ls_lu : Z }.
Definition lsub_of_row (tz : Z) (ls : bool) (r : sub_row) : lsub :=
  mk_lsub (s_id r) (text_to_buf 16 (Some (s_imsi r))) (text_to_buf 16 (s_msisdn r)) (text_to_buf 16 (s_imei r)) (s_nam_cs r) (s_nam_ps r)
    (if ls then match s_lu_cs r with Some t => t - tz | None => 0 end else 0).
(** return code, calls of the callback, and what *err is set to ([Some None]: NULL); [None]: not set *)
Definition db_subscrs_get (tz : Z) (x : lfault) (d : db) (ft : option string) (f : option string) : mres (Z * list lsub * option (option string)) :=
  let ls := match ft with Some t => (t =? "last_lu_seen")%string | None => false end in
  match ft, select d ft "" with
  | Some _, None => Val (- EIO, [], None)
  | _, _ =>
      mdo search <- match ft, f with
                    | Some _, Some f => if ls then Val None else match search_text f with Some s => Val (Some s) | None => Bad end
                    | _, _ => Val None
                    end;;
      if match search with Some _ => lf_bind x | None => false end then Val (- EIO, [], Some (Some (lf_msg x)))
      else
        let rows := match select d ft (match search with Some s => s | None => "" end) with Some l => l | None => [] end in
        match lf_step x with
        | Some n => if (n <=? length rows)%nat then Val (1, map (lsub_of_row tz ls) (firstn n rows), Some (Some (lf_msg x)))
                    else match rows with [] => Val (- ENOENT, [], Some (Some "No matching subscriber(s)"%string)) | _ => Val (0, map (lsub_of_row tz ls) rows, Some None) end
        | None => match rows with [] => Val (- ENOENT, [], Some (Some "No matching subscriber(s)"%string)) | _ => Val (0, map (lsub_of_row tz ls) rows, Some None) end
        end
  end.

(** ** The commands *)
(** the columns of a line: subscr_dump_summary_vty, hlr_vty_subscr.c:168-188; the IMEI is followed by its check digit *)
Record line := mk_line { n_id : Z; n_msisdn : string; n_imsi : string; n_imei : string; n_cs : bool; n_ps : bool; n_age : string }.
(** UNIT_AGO, hlr_vty_subscr.c:60-68 *)
Definition unit_ago (u : Z) (name : string) (x : Z * string) : Z * string :=
  let '(age, t) := x in if u <=? age then (age mod u, t ++ dec_text (Z.to_N (age / u)) ++ name)%string else x.
Definition age_text (age : Z) : string := snd (unit_ago 1 "s" (unit_ago 60 "m" (unit_ago 3600 "h" (unit_ago 86400 "d" (age, ""%string))))).
(** dump_last_lu_seen, hlr_vty_subscr.c:48-75, the age only *)
Definition last_seen (tz now lu : Z) : mres string :=
  if lu =? 0 then Val ""%string
  else mdo a <- timestamp_age (timestamp_now tz now) lu;;
       Val (match a with Some a => " (" ++ age_text a ++ " ago)" | None => " (invalid timestamp)" end)%string.
Definition line_of (tz now : Z) (h : lsub) : mres line :=
  mdo age <- last_seen tz now (ls_lu h);;
  let word t := if (t =? "")%string then "none"%string else t in
  Val (mk_line (ls_id h) (word (ls_msisdn h)) (word (ls_imsi h)) (if (ls_imei h =? "")%string then "------------- "%string else (ls_imei h ++ String (luhn (ls_imei h)) "")%string)
         (ls_cs h) (ls_ps h) age).
Fixpoint lines (tz now : Z) (l : list lsub) : mres (list line) :=
  match l with [] => Val [] | h :: t => mdo x <- line_of tz now h;; mdo r <- lines tz now t;; Val (x :: r) end.
(** what is printed: the lines, the number of subscribers, a warning; the command succeeds iff there is no warning *)
Record table := mk_table { tb_lines : list line; tb_again : bool; tb_count : option nat; tb_warning : option string }.
(** get_subscrs, hlr_vty_subscr.c:236-252. [tb_again]: the header is repeated below more than 40 lines. An unset error text is undefined. *)
Definition get_subscrs (tz now : Z) (x : lfault) (d : db) (ft f : option string) : mres table :=
  mdo (rc, l, err) <- db_subscrs_get tz x d ft f;;
  mdo p <- lines tz now l;;
  mdo w <- (if rc =? 0 then Val None else match err with Some (Some e) => Val (Some e) | _ => Bad end);;
  Val (mk_table p (40 <? length l)%nat (if (0 <? length l)%nat then Some (length l) else None) w).
(** the words of "show subscribers ...": show_subscriber_all 297-306, show_subscriber_filtered 308-328, show_subscriber_order_last_seen 330-338 *)
Inductive lcmd :=
| LAll
| LFilter (type filter : string)     (* imei, imsi, msisdn with any text; cs, ps with on, off *)
| LLastSeen.
Definition list_run (tz now : Z) (x : lfault) (d : db) (c : lcmd) : mres table :=
  match c with
  | LAll => get_subscrs tz now x d None None
  | LFilter t f => get_subscrs tz now x d (Some t) (Some f)
  | LLastSeen => get_subscrs tz now x d (Some "last_lu_seen"%string) None
  end.
