(** The texts about a subscriber: those of the "show" commands of /repo/src/hlr_vty_subscr.c and of the "info" commands of
    /repo/src/ctrl.c. What they are about is read by VtySubscr.v, VtyList.v and Ctrl.v.
    Simplifications: the columns sgsn_address, periodic_lu_tmr, periodic_rau_tau_tmr and lmsi, which the program never writes, are NULL
    and read as "" or 0; time_t is a number without bounds. *)
From Verif Require Import Base PeerId Db Auth Mdns Proxy Gsup Router Hlr Ctrl VtySubscr VtyList.

(** ** Numbers and dates *)
(** "%" PRIu64 of a member of 64 bits *)
Definition dec64 (n : Z) : string := dec_upto 20 (Z.to_N (n mod 18446744073709551616)) "".
(** "%02d" of a number below 100 *)
Definition two_text (n : Z) : string := String (ascii_of_N (Z.to_N (n / 10) + 48)) (String (ascii_of_N (Z.to_N (n mod 10) + 48)) "").
(** gmtime_r() of the C library: year, month and day of a day counted from 1970-01-01. The year is taken to begin in March; 400 years
    have 146097 days. *)
Definition civil (n : Z) : Z * Z * Z :=
  let z := n + 719468 in
  let doe := z mod 146097 in
  let yoe := (doe - doe / 1460 + doe / 36524 - doe / 146096) / 365 in
  let doy := doe - (365 * yoe + yoe / 4 - yoe / 100) in
  let mp := (5 * doy + 2) / 153 in
  let m := if mp <? 10 then mp + 3 else mp - 9 in
  (yoe + 400 * (z / 146097) + (if m <=? 2 then 1 else 0), m, doy - (153 * mp + 2) / 5 + 1).
(** get_datestr, hlr_vty_subscr.c:39-45. gmtime_r() fails, and the text is made from an unset struct, if the year does not fit an int.
    Simplification: so it is for times before 1970, whose years strftime() may write with less or more than four characters. *)
Definition date_text (t : Z) : mres string :=
  let '(y, m, d) := civil (t / 86400) in
  let s := t mod 86400 in
  if (t <? 0) || (2147483647 <? y - 1900) then Bad
  else Val (dec_text (Z.to_N y) ++ "-" ++ two_text m ++ "-" ++ two_text d ++ "T" ++ two_text (s / 3600) ++ ":" ++ two_text (s / 60 mod 60) ++ ":"
            ++ two_text (s mod 60) ++ "+00:00")%string.

(** ** subscr_dump_full_vty, hlr_vty_subscr.c:77-166 *)
(** dump_last_lu_seen, hlr_vty_subscr.c:48-75, with the date *)
Definition seen_line (tz now : Z) (domain : string) (lu : Z) : mres (list string) :=
  if lu =? 0 then Val []
  else mdo d <- date_text lu;; mdo a <- last_seen tz now lu;; Val ["    last LU seen on " ++ domain ++ ": " ++ d ++ a]%string.
(** "none" in place of an empty text, hlr_vty_subscr.c:85-86 and 172-173 *)
Definition or_none (t : string) : string := if (t =? "")%string then "none"%string else t.
(** osmo_luhn(imei, 14) of libosmocore: [None] is -EINVAL, one of the 14 characters is not a digit. A char is signed, as on x86. *)
Definition luhn14 (imei : string) : option ascii := let t := str_take 14 imei in if is_n_digits t 14 14 then Some (luhn t) else None.
(** hlr_vty_subscr.c:88-94 *)
Definition imei_line (imei : string) : string :=
  ("    IMEI: " ++ imei ++ match luhn14 imei with Some c => String c "" | None => " (INVALID LENGTH!)" end)%string.
(** a line that is left out: "if (...) vty_out(...)" *)
Definition line_if (b : bool) (t : string) : list string := if b then [t] else [].
Definition filled (t : string) : bool := negb (t =? "")%string.
(** hlr_vty_subscr.c:148-153 *)
Definition lines_2g (a : aud2) : list string := ["    2G auth: " ++ alg_name (g_algo a); "             KI=" ++ hexdump (g_ki a)]%string.
(** hlr_vty_subscr.c:155-165 *)
Definition lines_3g (u : aud3) : list string :=
  ["    3G auth: " ++ alg_name (u_algo u); "             K=" ++ hexdump (u_k u);
   "             " ++ (if u_is_op u then "OP" else "OPC") ++ "=" ++ hexdump (u_opc u);
   "             IND-bitlen=" ++ dec_text (to_uint (u_bitlen u))
     ++ (if (u_sqn u =? 0)%N then "" else " last-SQN=" ++ dec64 (Z.of_N (u_sqn u)))]%string.
(** hlr_vty_subscr.c:116-166: [None] is a failure to read the keys, for which db_get_auth_data() has -EIO only *)
Definition key_lines (keys : option (option aud2 * option aud3)) : list string :=
  match keys with
  | None => ["% Error retrieving data from database (-5)"]%string
  | Some (a2, a3) => match a2 with Some a => lines_2g a | None => [] end ++ match a3 with Some u => lines_3g u | None => [] end
  end.
Definition full_lines (tz now : Z) (h : subscriber) (keys : option (option aud2 * option aud3)) : mres (list string) :=
  mdo cs <- seen_line tz now "CS" (h_lu_cs h);;
  mdo ps <- seen_line tz now "PS" (h_lu_ps h);;
  Val (["    ID: " ++ dec64 (h_id h); "    IMSI: " ++ or_none (h_imsi h); "    MSISDN: " ++ or_none (h_msisdn h)]%string
       ++ line_if (filled (h_imei h)) (imei_line (h_imei h))
       ++ line_if (filled (h_vlr h)) ("    VLR number: " ++ h_vlr h)%string
       ++ line_if (filled (h_sgsn h)) ("    SGSN number: " ++ h_sgsn h)%string
       ++ line_if (negb (h_nam_cs h)) "    CS disabled"%string
       ++ line_if (h_purged_cs h) "    CS purged"%string
       ++ line_if (negb (h_nam_ps h)) "    PS disabled"%string
       ++ line_if (h_purged_ps h) "    PS purged"%string
       ++ cs ++ ps
       ++ (if filled (h_imsi h) then key_lines keys else [])).

(** ** The lines of the lists *)
(** "%-5s": filled up with spaces on the right *)
Definition pad (n : nat) (t : string) : string := (t ++ string_of_list_ascii (repeat " "%char (n - String.length t)))%string.
(** subscr_dump_summary_vty, hlr_vty_subscr.c:168-188; the last field is that of dump_last_lu_seen() *)
Definition imei_cell (imei : string) : string :=
  if filled imei then
    match luhn14 imei with
    | Some c => "  " ++ pad 14 imei ++ String c ""
    | None => "  " ++ pad 14 imei ++ " (INVALID LENGTH!)"
    end%string
  else "   ------------- "%string.
Definition list_line (tz now : Z) (h : lsub) : mres string :=
  mdo a <- last_seen tz now (ls_lu h);;
  Val (pad 5 (dec64 (ls_id h)) ++ "  " ++ pad 12 (or_none (ls_msisdn h)) ++ "  " ++ pad 16 (or_none (ls_imsi h)) ++ imei_cell (ls_imei h)
       ++ "   " ++ pad 2 (if ls_cs h then "CS" else "") ++ pad 2 (if ls_ps h then "PS" else "") ++ "  " ++ a)%string.
(** dump_summary_table_vty, hlr_vty_subscr.c:217-235 *)
Definition texts : string := "ID     MSISDN        IMSI              IMEI              NAM".
Definition rules : string := "-----  ------------  ----------------  ----------------  -----".
Definition head_lines (header show_ls : bool) : list string :=
  let t := (texts ++ if show_ls then "    LAST SEEN" else "")%string in
  let r := (rules ++ if show_ls then "  ------------" else "")%string in
  if header then [t; r] else [r; t].

(** ** The control interface *)
Definition TAB : string := String (ascii_of_N 9) "".
Definition LF : string := String (ascii_of_N 10) "".
(** ARG_S and ARG_BOOL, ctrl.c:122-134; the newline in front is put by [info_text] *)
Definition arg_s (name val : string) : list string := line_if (filled val) (name ++ TAB ++ val)%string.
Definition arg_bool (name : string) (val : bool) : string := (name ++ TAB ++ if val then "1" else "0")%string.
(** print_subscr_info, ctrl.c:135-167 *)
Definition info_lines (h : subscriber) : list string :=
  ["id" ++ TAB ++ dec64 (h_id h)]%string ++ arg_s "imsi" (h_imsi h) ++ arg_s "msisdn" (h_msisdn h)
  ++ [arg_bool "nam_cs" (h_nam_cs h); arg_bool "nam_ps" (h_nam_ps h)]
  ++ arg_s "vlr_number" (h_vlr h) ++ arg_s "sgsn_number" (h_sgsn h)
  ++ [arg_bool "ms_purged_cs" (h_purged_cs h); arg_bool "ms_purged_ps" (h_purged_ps h);
      "periodic_lu_timer" ++ TAB ++ "0"; "periodic_rau_tau_timer" ++ TAB ++ "0"; "lmsi" ++ TAB ++ "00000000"]%string.
(** print_subscr_info_aud2g, ctrl.c:169-179 *)
Definition info_2g (a : aud2) : list string := ["aud2g.algo" ++ TAB ++ alg_name (g_algo a); "aud2g.ki" ++ TAB ++ hexdump (g_ki a)]%string.
(** print_subscr_info_aud3g, ctrl.c:181-202 *)
Definition info_3g (u : aud3) : list string :=
  ["aud3g.algo" ++ TAB ++ alg_name (u_algo u); "aud3g.k" ++ TAB ++ hexdump (u_k u);
   "aud3g." ++ (if u_is_op u then "op" else "opc") ++ TAB ++ hexdump (u_opc u);
   "aud3g.ind_bitlen" ++ TAB ++ dec_text (to_uint (u_bitlen u)); "aud3g.sqn" ++ TAB ++ dec64 (Z.of_N (u_sqn u))]%string.
Definition opt_lines {A} (f : A -> list string) (a : option A) : list string := match a with Some x => f x | None => [] end.
(** the reply of an info command: ctrl_cmd_reply_printf() of libosmocore appends to the reply. [None]: nothing was, the reply is NULL. *)
Definition info_text (h : option subscriber) (a2 : option aud2) (a3 : option aud3) : option string :=
  match opt_lines info_lines h ++ opt_lines info_2g a2 ++ opt_lines info_3g a3 with
  | [] => None
  | l => Some (String.concat "" (map (fun x => LF ++ x)%string l))
  end.
(** what a terminal gets: every line ends with VTY_NEWLINE *)
Definition vty_text (nl : string) (l : list string) : string := String.concat "" (map (fun x => x ++ nl)%string l).
