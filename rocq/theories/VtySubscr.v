(** The telnet (VTY) commands on subscribers: /repo/src/hlr_vty_subscr.c. Commands come as the words that libosmocore's VTY has matched
    with the syntax in the DEFUNs (abbreviated keywords are completed by it). Memory does not run out. *)
From Verif Require Import Base PeerId Db Auth Gsup Router Hlr Ctrl.

(** ** Identifying a subscriber *)
(** atoll(): glibc computes strtoll(), which saturates *)
Definition atoll (s : string) : Z :=
  let '(neg, t) := sign_of (skip_space s) in
  let v := lead_digits t 0 in
  Z.max (- 9223372036854775808) (Z.min 9223372036854775807 (if neg then - v else v)).
(** the sum in libosmocore's osmo_luhn(): every second digit counted from the end is doubled and the digits of the result are added;
    [dbl] tells whether the last digit of the (reversed) string is to be doubled *)
Fixpoint luhn_sum (dbl : bool) (l : list ascii) : Z :=
  match l with
  | [] => 0
  | c :: r => (let d := digit_val c in if dbl then (if 9 <? 2 * d then 2 * d - 9 else 2 * d) else d) + luhn_sum (negb dbl) r
  end.
(** osmo_luhn(in, len) of a string of digits *)
Definition luhn (s : string) : ascii := ascii_of_N (Z.to_N (luhn_sum true (rev (bytes_of s)) * 9 mod 10) + 48).
(** osmo_imei_str_valid(imei, true) of libosmocore: 15 digits, the last of which is the check digit of the others *)
Definition imei_valid15 (s : string) : bool :=
  is_n_digits s 15 15 && match String.get 14 s with Some c => (luhn (str_take 14 s) =? c)%char | None => false end.
(** cutting the check digit off, hlr_vty_subscr.c:200-208 and 747-752 *)
Definition cut_check (s : string) : string := if imei_valid15 s then str_take 14 s else s.

(** get_subscr_by_argv, hlr_vty_subscr.c:190-215: keyword and identifier *)
Definition argv_selector (type id : string) : option selector :=
  if (type =? "imsi")%string then Some (ByImsi id)
  else if (type =? "msisdn")%string then Some (ByMsisdn id)
  else if (type =? "id")%string then Some (ById (atoll id))
  else if (type =? "imei")%string then Some (ByImei (cut_check id))
  else None.
Definition get_by_argv (k : cfg) (type id : string) : prog (Z * option subscriber) :=
  match argv_selector type id with Some x => get_by k x | None => Ret (-1, None) end.

(** ** Results *)
(** CMD_WARNING, or CMD_SUCCESS; with what is printed. [VFull] is the dump of a subscriber with its keys
    (subscr_dump_full_vty, hlr_vty_subscr.c:77-166), [None] if they could not be read. *)
Inductive vres :=
| VWarn (t : string)
| VOk (t : string)
| VFull (h : subscriber) (keys : option (option aud2 * option aud3)).

Definition quoted (s : string) : string := "'" ++ s ++ "'".
Definition no_subscriber (type id : string) : vres :=
  VWarn ("No subscriber for " ++ type ++ " = " ++ quoted (if (type =? "imei")%string then cut_check id else id)).
(** a command on a subscriber that was found; what GSUP messages it sends *)
Definition on_argv (k : cfg) (type id : string) (f : subscriber -> prog (vres * list out)) : prog (vres * list out) :=
  do (rc, h) <- get_by_argv k type id;;
  match h with Some h => f h | None => Ret (no_subscriber type id, []) end.
Definition quiet (p : prog vres) : prog (vres * list out) := do r <- p;; Ret (r, []).

(** subscr_dump_full_vty, hlr_vty_subscr.c:77-166: the keys are shown like on the control interface, unless the IMSI is empty *)
Definition dump_full (h : subscriber) : prog vres :=
  if (h_imsi h =? "")%string then Ret (VFull h (Some (None, None)))
  else do ks <- get_keys (h_imsi h);; Ret (VFull h ks).

(** ** Commands *)
(** subscriber_show, hlr_vty_subscr.c:277-291 *)
Definition vty_show (k : cfg) (type id : string) : prog (vres * list out) := on_argv k type id (fun h => quiet (dump_full h)).

(** subscriber_create, hlr_vty_subscr.c:340-375. The result of reading the subscriber back is not checked: on failure the variable
    printed has not been set. *)
Definition vty_create (k : cfg) (imsi : string) : prog (vres * list out) :=
  if negb (imsi_valid imsi) then Ret (VWarn ("Not a valid IMSI: " ++ imsi), [])
  else
    do rc <- db_subscr_create imsi 6;;
    if negb (rc =? 0) then
      Ret (VWarn (if rc =? - EEXIST then "Subscriber already exists for IMSI = " ++ imsi else "cannot create subscriber for IMSI = " ++ imsi), [])
    else
      do (_, h) <- db_subscr_get_by_imsi (k_tz k) imsi;;
      match h with Some h => quiet (dump_full h) | None => Undef end.

(** subscriber_delete, hlr_vty_subscr.c:377-401 *)
Definition vty_delete (k : cfg) (type id : string) : prog (vres * list out) :=
  on_argv k type id (fun h =>
    do rc <- db_subscr_delete_by_id (h_id h);;
    Ret (if rc =? 0 then VOk ("Deleted subscriber for IMSI " ++ quoted (h_imsi h))
         else VWarn ("Error: Failed to remove subscriber for IMSI " ++ quoted (h_imsi h)), [])).

(** subscriber_msisdn, hlr_vty_subscr.c:403-453 *)
Definition vty_set_msisdn (k : cfg) (s : hst) (type id v : string) : prog (vres * list out) :=
  let m := if (v =? "none")%string then None else Some v in
  if match m with Some m => (15 <? String.length m)%nat | None => false end then
    Ret (VWarn "MSISDN is too long, max. 15 characters are allowed", [])
  else if match m with Some m => negb (msisdn_valid m) | None => false end then Ret (VWarn ("MSISDN invalid: " ++ quoted v), [])
  else on_argv k type id (fun h =>
    do rc <- db_subscr_update_msisdn_by_imsi (h_imsi h) m;;
    if negb (rc =? 0) then Ret (VWarn ("Error: cannot update MSISDN for subscriber IMSI=" ++ quoted (h_imsi h)), [])
    else match m with
         | Some m =>
             let done := VOk ("Updated subscriber IMSI=" ++ quoted (h_imsi h) ++ " to MSISDN=" ++ quoted m) in
             do (rc, h') <- db_subscr_get_by_msisdn (k_tz k) m;;
             Ret (done, match h' with Some h' => update_notify k (t_srv s) h' | None => [] end)
         | None => Ret (VOk ("Updated subscriber IMSI=" ++ quoted (h_imsi h) ++ ": removed MSISDN"), update_notify k (t_srv s) h)
         end).

(** db_subscr_update_aud_by_id() and its evaluation; [gone] is whether -ENOENT counts as success *)
Definition vty_store (k : cfg) (type id gen : string) (gone : bool) (a : aud_str) : prog (vres * list out) :=
  on_argv k type id (fun h =>
    do rc <- db_subscr_update_aud_by_id (h_id h) a;;
    Ret (if (rc =? 0) || (gone && (rc =? - ENOENT)) then VOk ""
         else VWarn ("Error: cannot " ++ (if gone then "disable " else "set ") ++ gen ++ " auth data for IMSI=" ++ quoted (h_imsi h)), [])).
(** subscriber_no_aud2g, hlr_vty_subscr.c:524-551; subscriber_no_aud3g, 595-622 *)
Definition vty_no_aud2g (k : cfg) (type id : string) : prog (vres * list out) := vty_store k type id "2G" true (AudGsm ALG_NONE "").
Definition vty_no_aud3g (k : cfg) (type id : string) : prog (vres * list out) := vty_store k type id "3G" true (AudUmts ALG_NONE "" "" false 0).
(** subscriber_aud2g, hlr_vty_subscr.c:553-593, with is_hexkey_valid, 455-462 *)
Definition vty_aud2g (k : cfg) (type id alg ki : string) : prog (vres * list out) :=
  match auth_algo_parse alg with
  | None => Ret (VWarn ("Unknown auth algorithm: " ++ quoted alg), [])
  | Some (algo, len, _) =>
      if negb (hex_len ki len) then Ret (VWarn ("Invalid value for KI: " ++ quoted ki), [])
      else vty_store k type id "2G" false (AudGsm algo ki)
  end.
(** the optional bit length, hlr_vty_subscr.c:647 and 699; the member is an unsigned int *)
Definition bitlen_arg (b : option string) : Z := match b with Some t => Z.of_N (to_uint (atoi t)) | None => 5 end.
(** subscriber_aud3g, hlr_vty_subscr.c:624-680 *)
Definition vty_aud3g (k : cfg) (type id alg key choice opc : string) (bl : option string) : prog (vres * list out) :=
  let is_op := same_nocase "op" choice in
  match auth_algo_parse alg with
  | None => Ret (VWarn ("Unknown auth algorithm: " ++ quoted alg), [])
  | Some (algo, len, len_opc) =>
      if negb (hex_len key len) then Ret (VWarn ("Invalid value for K: " ++ quoted key), [])
      else if negb (hex_len opc len_opc) then Ret (VWarn ("Invalid value for " ++ (if is_op then "OP: " else "OPC: ") ++ quoted opc), [])
      else vty_store k type id "3G" false (AudUmts algo key opc is_op (bitlen_arg bl))
  end.
(** subscriber_aud3g_xor, hlr_vty_subscr.c:682-729 *)
Definition vty_aud3g_xor (k : cfg) (type id key : string) (bl : option string) : prog (vres * list out) :=
  match auth_algo_parse "xor-3g" with
  | None => Ret (VWarn "Unknown auth algorithm: 'xor-3g'", [])
  | Some (algo, len, _) =>
      if negb (hex_len key len) then Ret (VWarn ("Invalid value for K: " ++ quoted key), [])
      else vty_store k type id "3G" false (AudUmts algo key "00000000000000000000000000000000" false (bitlen_arg bl))
  end.

(** subscriber_imei, hlr_vty_subscr.c:731-776 *)
Definition vty_set_imei (k : cfg) (type id v : string) : prog (vres * list out) :=
  let m := if (v =? "none")%string then None else Some (cut_check v) in
  if match m with Some _ => negb (imei_valid15 v) && negb (imei_valid14 v) | None => false end then
    Ret (VWarn ("IMEI invalid: " ++ quoted v), [])
  else on_argv k type id (fun h =>
    do rc <- db_subscr_update_imei_by_imsi (h_imsi h) m;;
    Ret (if negb (rc =? 0) then VWarn ("Error: cannot update IMEI for subscriber IMSI=" ++ quoted (h_imsi h))
         else match m with
              | Some m => VOk ("Updated subscriber IMSI=" ++ quoted (h_imsi h) ++ " to IMEI=" ++ quoted m)
              | None => VOk ("Updated subscriber IMSI=" ++ quoted (h_imsi h) ++ ": removed IMEI")
              end, [])).

(** strstr(s, p) *)
Fixpoint contains (p s : string) : bool :=
  is_some (after p s) || match s with String _ r => contains p r | EmptyString => false end.
(** subscriber_nam, hlr_vty_subscr.c:778-803; the results of hlr_subscr_nam() are not looked at *)
Definition vty_set_nam (k : cfg) (s : hst) (type id v : string) : prog (vres * list out) :=
  let cs := contains "cs" v in
  let ps := contains "ps" v in
  on_argv k type id (fun h =>
    do a <- (if Bool.eqb cs (h_nam_cs h) then Ret [] else do r <- hlr_subscr_nam k (t_srv s) h cs false;; Ret (snd r));;
    do b <- (if Bool.eqb ps (h_nam_ps h) then Ret [] else do r <- hlr_subscr_nam k (t_srv s) h ps true;; Ret (snd r));;
    Ret (VOk "", a ++ b)).

(** ** Command lines *)
(** the words of "subscriber TYPE ID ..." and "show subscriber TYPE ID", hlr_vty_subscr.c:258-803 *)
Inductive vcmd :=
| VShow (type id : string)
| VCreate (imsi : string)
| VDelete (type id : string)
| VMsisdn (type id v : string)
| VNoAud2g (type id : string)
| VAud2g (type id alg ki : string)
| VNoAud3g (type id : string)
| VAud3g (type id alg k choice opc : string) (bitlen : option string)
| VAud3gXor (type id k : string) (bitlen : option string)
| VImei (type id v : string)
| VNam (type id v : string).
Definition vty_run (k : cfg) (s : hst) (c : vcmd) : prog (vres * list out) :=
  match c with
  | VShow t i => vty_show k t i
  | VCreate i => vty_create k i
  | VDelete t i => vty_delete k t i
  | VMsisdn t i v => vty_set_msisdn k s t i v
  | VNoAud2g t i => vty_no_aud2g k t i
  | VAud2g t i a ki => vty_aud2g k t i a ki
  | VNoAud3g t i => vty_no_aud3g k t i
  | VAud3g t i a ke ch o b => vty_aud3g k t i a ke ch o b
  | VAud3gXor t i ke b => vty_aud3g_xor k t i ke b
  | VImei t i v => vty_set_imei k t i v
  | VNam t i v => vty_set_nam k s t i v
  end.
