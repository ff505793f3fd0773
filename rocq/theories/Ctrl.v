(** The control interface: /repo/src/ctrl.c, and auth_algo_parse() of /repo/src/hlr_vty_subscr.c. Requests come as the variable and
    value of a GET or SET that libosmocore's control interface has read; replies are the text, or for the "info" commands the data
    printed. Memory does not run out. *)
From Verif Require Import Base PeerId Db Auth.

(** ** C strings *)
(** startswith, ctrl.c:46-49: [Some] of what follows the prefix *)
Fixpoint after (p s : string) : option string :=
  match p, s with
  | EmptyString, _ => Some s
  | String a p, String b s => if (a =? b)%char then after p s else None
  | String _ _, EmptyString => None
  end.
(** isspace() in the C locale *)
Definition is_space (c : ascii) : bool := (acode c =? 32)%N || ((9 <=? acode c)%N && (acode c <=? 13)%N).
Fixpoint skip_space (s : string) : string :=
  match s with String c r => if is_space c then skip_space r else s | EmptyString => s end.
(** sign of strtoll() and atoi() *)
Definition sign_of (s : string) : bool * string :=
  match s with
  | String c r => if (c =? "-")%char then (true, r) else if (c =? "+")%char then (false, r) else (false, s)
  | EmptyString => (false, s)
  end.
Definition digit_val (c : ascii) : Z := Z.of_N (acode c) - 48.
(** the number written in a string that has only digits *)
Fixpoint all_digits (s : string) (acc : Z) : option Z :=
  match s with
  | EmptyString => Some acc
  | String c r => if is_digit c then all_digits r (10 * acc + digit_val c) else None
  end.
(** strtoll() of a whole string as at ctrl.c:73-76; [None]: errno is set or something follows the number. glibc reports no error for an
    empty string, whose end is reached. *)
Definition strtoll_all (s : string) : option Z :=
  match s with
  | EmptyString => Some 0
  | _ =>
      let '(neg, t) := sign_of (skip_space s) in
      match t with
      | EmptyString => None
      | _ => match all_digits t 0 with
             | Some v => let v := if neg then - v else v in
                         if (- 9223372036854775808 <=? v) && (v <=? 9223372036854775807) then Some v else None
             | None => None
             end
      end
  end.
(** atoi(), which takes the digits at the start; glibc computes (int) strtol() *)
Fixpoint lead_digits (s : string) (acc : Z) : Z :=
  match s with
  | String c r => if is_digit c then lead_digits r (10 * acc + digit_val c) else acc
  | EmptyString => acc
  end.
Definition atoi (s : string) : Z :=
  let '(neg, t) := sign_of (skip_space s) in
  let v := lead_digits t 0 in
  let v := Z.max (- 9223372036854775808) (Z.min 9223372036854775807 (if neg then - v else v)) in
  (v + 2147483648) mod 4294967296 - 2147483648.
(** strtok_r() with a set of delimiters: the token and where the next call goes on (glibc: the end of the string if there is no more) *)
Fixpoint skip_delim (f : ascii -> bool) (s : string) : string :=
  match s with String c r => if f c then skip_delim f r else s | EmptyString => s end.
Fixpoint cut (f : ascii -> bool) (s : string) : string * string :=
  match s with
  | EmptyString => (EmptyString, EmptyString)
  | String c r => if f c then (EmptyString, r) else let '(t, u) := cut f r in (String c t, u)
  end.
Definition strtok (f : ascii -> bool) (s : string) : option (string * string) :=
  match skip_delim f s with EmptyString => None | t => Some (cut f t) end.
Definition comma (c : ascii) : bool := (c =? ",")%char.
Definition no_delim (c : ascii) : bool := false.
(** strchr(s, ',') *)
Fixpoint has_comma (s : string) : bool := match s with String c r => comma c || has_comma r | EmptyString => false end.
(** strcasecmp() == 0 in the C locale *)
Definition lower (c : ascii) : ascii := if (65 <=? acode c)%N && (acode c <=? 90)%N then ascii_of_N (acode c + 32) else c.
Fixpoint same_nocase (a b : string) : bool :=
  match a, b with
  | EmptyString, EmptyString => true
  | String c a, String e b => (lower c =? lower e)%char && same_nocase a b
  | _, _ => false
  end.

(** ** Selectors *)
(** _get_subscriber, ctrl.c:51-81 *)
Definition sel_get (tz : Z) (sel : string) : prog (Z * option subscriber) :=
  match after "by-imsi-" sel with
  | Some v => if imsi_valid v then db_subscr_get_by_imsi tz v else Ret (- EINVAL, None)
  | None =>
      match after "by-msisdn-" sel with
      | Some v => if msisdn_valid v then db_subscr_get_by_msisdn tz v else Ret (- EINVAL, None)
      | None =>
          match after "by-id-" sel with
          | Some v =>
              if match v with String c _ => (c =? "+")%char | EmptyString => false end then Ret (- EINVAL, None)
              else match strtoll_all v with
                   | Some i => db_subscr_get_by_id tz i
                   | None => Ret (- EINVAL, None)
                   end
          | None => Ret (- ENOTSUP, None)
          end
      end
  end.

(** a reply, error or not; the info commands print the data given here *)
Inductive reply :=
| RpError (t : string)
| RpText (t : string)
| RpId (i : Z)
| RpInfo (h : option subscriber) (a2 : option aud2) (a3 : option aud3).

(** get_subscriber, ctrl.c:83-105 *)
Definition get_subscriber (tz : Z) (sel : string) : prog (string + subscriber) :=
  do (rc, h) <- sel_get tz sel;;
  match h with
  | Some h => Ret (inr h)
  | None =>
      Ret (inl (if rc =? - ENOTSUP then "Not a known subscriber 'by-xxx-' selector."
                else if rc =? - EINVAL then "Invalid value part of 'by-xxx-value' selector."
                else if rc =? - ENOENT then "No such subscriber."
                else "An unknown error has occurred during get_subscriber()."))
  end.
(** get_subscriber_imsi, ctrl.c:107-120: an IMSI in the selector is not looked up, nor checked *)
Definition get_subscriber_imsi (tz : Z) (sel : string) : prog (string + string) :=
  match after "by-imsi-" sel with
  | Some v => Ret (inr v)
  | None => do r <- get_subscriber tz sel;;
            Ret (match r with inl e => inl e | inr h => inr (h_imsi h) end)
  end.

(** a command on a subscriber that was found *)
Definition on_subscriber (tz : Z) (sel : string) (f : subscriber -> prog reply) : prog reply :=
  do r <- get_subscriber tz sel;; match r with inl e => Ret (RpError e) | inr h => f h end.

(** ** Reading *)
(** print_subscr_info_aud2g and _aud3g print nothing for algorithm "none", ctrl.c:169-202 *)
Definition shown2 (a : option aud2) : option aud2 :=
  match a with Some x => if g_algo x =? ALG_NONE then None else a | None => None end.
Definition shown3 (a : option aud3) : option aud3 :=
  match a with Some x => if u_algo x =? ALG_NONE then None else a | None => None end.
(** db_get_auth_data() and the evaluation of its result, ctrl.c:304-318, 339-353, 516-532, 616-632: the keys, or an error *)
Definition get_keys (imsi : string) : prog (option (option aud2 * option aud3)) :=
  do r <- db_get_auth_data imsi;;
  Ret (match r with
       | inr a => Some (shown2 (ad_2g a), shown3 (ad_3g a))
       | inl rc => if (rc =? - ENOENT) || (rc =? - ENOKEY) then Some (None, None) else None
       end).

(** get_subscr_info, ctrl.c:276-288 *)
Definition get_info (tz : Z) (sel : string) : prog reply := on_subscriber tz sel (fun h => Ret (RpInfo (Some h) None None)).
(** get_subscr_info_aud, ctrl.c:291-324 *)
Definition get_info_aud (tz : Z) (sel : string) : prog reply :=
  do r <- get_subscriber_imsi tz sel;;
  match r with
  | inl e => Ret (RpError e)
  | inr i => do k <- get_keys i;;
             Ret (match k with Some (a, b) => RpInfo None a b | None => RpError "Error retrieving authentication data." end)
  end.
(** get_subscr_info_all, ctrl.c:327-360 *)
Definition get_info_all (tz : Z) (sel : string) : prog reply :=
  on_subscriber tz sel (fun h =>
    do k <- get_keys (h_imsi h);;
    Ret (match k with Some (a, b) => RpInfo (Some h) a b | None => RpError "Error retrieving authentication data." end)).
(** get_subscr_cs_ps_enabled, ctrl.c:370-383 *)
Definition get_enabled (tz : Z) (sel : string) (ps : bool) : prog reply :=
  on_subscriber tz sel (fun h => Ret (RpText (if (if ps then h_nam_ps h else h_nam_cs h) then "1" else "0"))).
(** get_subscr_imsi, ctrl.c:430-441 *)
Definition get_imsi (tz : Z) (sel : string) : prog reply := on_subscriber tz sel (fun h => Ret (RpText (h_imsi h))).
(** get_subscr_msisdn, ctrl.c:455-469 *)
Definition get_msisdn (tz : Z) (sel : string) : prog reply :=
  on_subscriber tz sel (fun h => Ret (RpText (match h_msisdn h with EmptyString => "none" | m => m end))).

(** osmo_auth_alg_name() of libosmogsm *)
Definition alg_name (a : Z) : string :=
  if a =? ALG_NONE then "None" else if a =? ALG_COMP128v1 then "COMP128v1" else if a =? ALG_COMP128v2 then "COMP128v2"
  else if a =? ALG_COMP128v3 then "COMP128v3" else if a =? ALG_XOR_3G then "XOR-3G" else if a =? ALG_MILENAGE then "MILENAGE"
  else if a =? ALG_XOR_2G then "XOR-2G" else if a =? ALG_TUAK then "TUAK" else "unknown".
(** osmo_hexdump_nospc() *)
Definition hex_digit_of (n : N) : ascii := ascii_of_N (if (n <? 10)%N then n + 48 else n + 87).
Fixpoint hexdump (l : list N) : string :=
  match l with [] => EmptyString | b :: r => String (hex_digit_of (b / 16)) (String (hex_digit_of (b mod 16)) (hexdump r)) end.
(** "%u" of a number below 2^32, which has at most ten digits *)
Fixpoint dec_upto (fuel : nat) (n : N) (acc : string) : string :=
  match fuel with
  | O => acc
  | S f => let acc := String (ascii_of_N (n mod 10 + 48)) acc in if (n <? 10)%N then acc else dec_upto f (n / 10) acc
  end.
Definition dec_text (n : N) : string := dec_upto 10 n EmptyString.

(** get_subscr_aud2g, ctrl.c:504-537 *)
Definition text2 (a : aud2) : string := alg_name (g_algo a) ++ "," ++ hexdump (g_ki a).
Definition get_aud2g (tz : Z) (sel : string) : prog reply :=
  on_subscriber tz sel (fun h =>
    do k <- get_keys (h_imsi h);;
    Ret (match k with
         | None => RpError "Error retrieving data from database."
         | Some (None, _) => RpText "none"
         | Some (Some a, _) => RpText (text2 a)
         end)).
(** get_subscr_aud3g, ctrl.c:604-640 *)
Definition text3 (u : aud3) : string :=
  alg_name (u_algo u) ++ "," ++ hexdump (u_k u) ++ "," ++ (if u_is_op u then "OP" else "OPC") ++ "," ++ hexdump (u_opc u) ++ ","
  ++ dec_text (to_uint (u_bitlen u)).
Definition get_aud3g (tz : Z) (sel : string) : prog reply :=
  on_subscriber tz sel (fun h =>
    do k <- get_keys (h_imsi h);;
    Ret (match k with
         | None => RpError "Error retrieving data from database."
         | Some (_, None) => RpText "none"
         | Some (_, Some u) => RpText (text3 u)
         end)).

(** ** Writing *)
(** the reply libosmocore fills in when a command fails without one *)
Definition no_reply : reply := RpError "An error has occured.".

(** set_subscr_create, ctrl.c:205-239 *)
Definition set_create (tz : Z) (imsi : string) : prog reply :=
  if negb (imsi_valid imsi) then Ret (RpError "Invalid IMSI value.")
  else
    do rc <- db_subscr_create imsi 6;;
    if negb (rc =? 0) then Ret (RpError (if rc =? - EEXIST then "Subscriber already exists." else "Cannot create subscriber."))
    else
      do (_, h) <- db_subscr_get_by_imsi tz imsi;;
      Ret (match h with Some h => RpId (h_id h) | None => RpError "Failed retrieving ID of newly created subscriber." end).
(** set_subscr_delete, ctrl.c:242-273 *)
Definition set_delete (tz : Z) (imsi : string) : prog reply :=
  if negb (imsi_valid imsi) then Ret (RpError "Invalid IMSI value.")
  else
    do (_, h) <- db_subscr_get_by_imsi tz imsi;;
    match h with
    | None => Ret (RpError "Subscriber doesn't exist.")
    | Some h => do rc <- db_subscr_delete_by_id (h_id h);;
                Ret (if rc =? 0 then RpId (h_id h) else RpError "Cannot delete subscriber.")
    end.

(** set_subscr_cs_ps_enabled, ctrl.c:385-399 *)
Definition set_enabled (tz : Z) (sel : string) (ps : bool) (v : string) : prog reply :=
  do r <- get_subscriber_imsi tz sel;;
  match r with
  | inl e => Ret (RpError e)
  | inr i => do rc <- db_subscr_nam i (v =? "1")%string ps;; Ret (if rc =? 0 then RpText "OK" else no_reply)
  end.
(** set_subscr_msisdn, ctrl.c:470-492 *)
Definition set_msisdn_cmd (tz : Z) (sel v : string) : prog reply :=
  on_subscriber tz sel (fun h =>
    do rc <- db_subscr_update_msisdn_by_imsi (h_imsi h) (if (v =? "none")%string then None else Some v);;
    Ret (if rc =? 0 then RpText "OK" else RpError "Update MSISDN failed")).

(** auth_algo_parse, hlr_vty_subscr.c:476-522: algorithm, least and greatest length of the key and of OP/OPC in octets (libosmocore:
    A38_COMP128_KEY_LEN, A38_XOR2G_KEY_LEN and MILENAGE_KEY_LEN are 16, A38_XOR_MIN_KEY_LEN 12, A38_XOR_MAX_KEY_LEN 16) *)
Definition auth_algo_parse (t : string) : option (Z * (nat * nat) * (nat * nat)) :=
  if same_nocase t "none" then Some (ALG_NONE, (0, 0), (0, 0))%nat
  else if same_nocase t "comp128v1" then Some (ALG_COMP128v1, (16, 16), (0, 0))%nat
  else if same_nocase t "comp128v2" then Some (ALG_COMP128v2, (16, 16), (0, 0))%nat
  else if same_nocase t "comp128v3" then Some (ALG_COMP128v3, (16, 16), (0, 0))%nat
  else if same_nocase t "xor-3g" then Some (ALG_XOR_3G, (12, 16), (0, 0))%nat
  else if same_nocase t "xor-2g" then Some (ALG_XOR_2G, (16, 16), (0, 0))%nat
  else if same_nocase t "milenage" then Some (ALG_MILENAGE, (16, 16), (16, 16))%nat
  else if same_nocase t "tuak" then Some (ALG_TUAK, (16, 32), (32, 32))%nat
  else None.
Definition hex_len (t : string) (r : nat * nat) : bool := is_hexstr t (2 * fst r) (2 * snd r).

(** the value of aud2g, ctrl.c:559-583: an error or what is stored *)
Definition parse_aud2g (v : string) : string + aud_str :=
  match strtok comma v with
  | None => inl "Invalid format"
  | Some (tok, rest) =>
      match auth_algo_parse tok with
      | None => inl "Unknown auth algorithm."
      | Some (algo, len, _) =>
          if algo =? ALG_NONE then inr (AudGsm ALG_NONE "")
          else match strtok no_delim rest with
               | None => inl "Invalid format."
               | Some (ki, _) => if hex_len ki len then inr (AudGsm algo ki) else inl "Invalid KI."
               end
      end
  end.
(** set_subscr_aud2g, ctrl.c:538-592 *)
Definition set_aud2g (tz : Z) (sel v : string) : prog reply :=
  on_subscriber tz sel (fun h =>
    match parse_aud2g v with
    | inl e => Ret (RpError e)
    | inr a => do rc <- db_subscr_update_aud_by_id (h_id h) a;; Ret (if rc =? 0 then RpText "OK" else RpError "Update aud2g failed.")
    end).

(** the value of aud3g, ctrl.c:666-730. The bit length is stored in an unsigned int. *)
Definition parse_aud3g (v : string) : string + aud_str :=
  match strtok comma v with
  | None => inl "Invalid format."
  | Some (tok, rest) =>
      match auth_algo_parse tok with
      | None => inl "Unknown auth algorithm."
      | Some (algo, len, len_opc) =>
          if algo =? ALG_NONE then inr (AudUmts ALG_NONE "" "" false 5)
          else match strtok comma rest with
               | None => inl "Invalid format."
               | Some (k, rest) =>
                   if negb (hex_len k len) then inl "Invalid KI."
                   else match strtok comma rest with
                        | None => inl "Invalid format."
                        | Some (choice, rest) =>
                            if negb (same_nocase choice "op" || same_nocase choice "opc") then inl "Invalid format."
                            else
                              let present := has_comma rest in
                              match strtok (if present then comma else no_delim) rest with
                              | None => inl "Invalid format."
                              | Some (opc, rest) =>
                                  if negb (hex_len opc len_opc) then inl "Invalid OP/OPC."
                                  else if negb present then inr (AudUmts algo k opc (same_nocase choice "op") 5)
                                  else match strtok no_delim rest with
                                       | None => inl "Invalid format."
                                       | Some (b, _) => inr (AudUmts algo k opc (same_nocase choice "op") (Z.of_N (to_uint (atoi b))))
                                       end
                              end
                        end
               end
      end
  end.
(** set_subscr_aud3g, ctrl.c:641-739 *)
Definition set_aud3g (tz : Z) (sel v : string) : prog reply :=
  on_subscriber tz sel (fun h =>
    match parse_aud3g v with
    | inl e => Ret (RpError e)
    | inr a => do rc <- db_subscr_update_aud_by_id (h_id h) a;; Ret (if rc =? 0 then RpText "OK" else RpError "Update aud3g failed.")
    end).

(** verify_subscr_cs_ps_enabled, ctrl.c:362-368; verify_subscr_msisdn, 444-454; verify_subscr_aud2g and _aud3g, 496-503, 596-603.
    [true]: the value is accepted. *)
Definition verify_enabled (v : string) : bool := (v =? "0")%string || (v =? "1")%string.
Definition verify_msisdn (v : string) : bool := (String.length v <=? 15)%nat && ((v =? "none")%string || msisdn_valid v).
Definition verify_aud (v : string) : bool := same_nocase v "none" || has_comma v.

(** ** Requests *)
Inductive request := CtrlGet (var : string) | CtrlSet (var val : string).

(** libosmocore ctrl_cmd_handle() replaces dots by blanks and splits at white space (cmd_make_strvec()) *)
Definition separator (c : ascii) : bool := is_space c || (c =? ".")%char.
Fixpoint words_from (s : string) : string * list string :=
  match s with
  | EmptyString => (EmptyString, [])
  | String c r =>
      let '(w, l) := words_from r in
      if separator c then (EmptyString, match w with EmptyString => l | _ => w :: l end) else (String c w, l)
  end.
Definition words (s : string) : list string := let '(w, l) := words_from s in match w with EmptyString => l | _ => w :: l end.
(** cmd_make_strvec() takes a line that starts with ! or # for a comment *)
Definition is_comment (l : list string) : bool :=
  match l with String c _ :: _ => (c =? "!")%char || (c =? "#")%char | _ => false end.

(** hlr_ctrl_node_lookup, ctrl.c:741-764 *)
Inductive cnode := NRoot | NSubscr | NSubscrBy (sel : string).
Definition node_lookup (n : cnode) (token : string) : option cnode :=
  match n with
  | NRoot => if (token =? "subscriber")%string then Some NSubscr else None
  | NSubscr => if is_some (after "by-" token) then Some (NSubscrBy token) else None
  | NSubscrBy _ => None
  end.
(** loop of libosmocore ctrl_cmd_handle(): nodes as long as they are known, the rest is the command *)
Fixpoint descend (n : cnode) (l : list string) : cnode * list string :=
  match l with
  | [] => (n, [])
  | t :: r => match node_lookup n t with Some n' => descend n' r | None => (n, l) end
  end.

Definition not_found : reply := RpError "Command not found".
Definition read_only : reply := RpError "Read Only attribute".
Definition write_only : reply := RpError "Write Only attribute".
Definition bad_value : reply := RpError "Value failed verification.".

(** commands installed by hlr_ctrl_cmds_install, ctrl.c:766-784, with CTRL_CMD_DEFINE, _RO and _WO_NOVRF of libosmocore *)
Definition get_cmd (tz : Z) (sel c : string) : prog reply :=
  if (c =? "info")%string then get_info tz sel
  else if (c =? "info-aud")%string then get_info_aud tz sel
  else if (c =? "info-all")%string then get_info_all tz sel
  else if (c =? "ps-enabled")%string then get_enabled tz sel true
  else if (c =? "cs-enabled")%string then get_enabled tz sel false
  else if (c =? "imsi")%string then get_imsi tz sel
  else if (c =? "msisdn")%string then get_msisdn tz sel
  else if (c =? "aud2g")%string then get_aud2g tz sel
  else if (c =? "aud3g")%string then get_aud3g tz sel
  else Ret not_found.
Definition set_cmd (tz : Z) (sel c v : string) : prog reply :=
  if (c =? "info")%string || (c =? "info-aud")%string || (c =? "info-all")%string || (c =? "imsi")%string then Ret read_only
  else if (c =? "ps-enabled")%string then if verify_enabled v then set_enabled tz sel true v else Ret bad_value
  else if (c =? "cs-enabled")%string then if verify_enabled v then set_enabled tz sel false v else Ret bad_value
  else if (c =? "msisdn")%string then if verify_msisdn v then set_msisdn_cmd tz sel v else Ret bad_value
  else if (c =? "aud2g")%string then if verify_aud v then set_aud2g tz sel v else Ret bad_value
  else if (c =? "aud3g")%string then if verify_aud v then set_aud3g tz sel v else Ret bad_value
  else Ret not_found.

(** One request. Commands of libosmocore itself (below the root node) are left out. *)
Definition ctrl_handle (tz : Z) (q : request) : prog reply :=
  let l := words (match q with CtrlGet v => v | CtrlSet v _ => v end) in
  if is_comment l then Ret (RpError "cmd_make_strvec failed.")
  else match l with
  | [] => Ret (RpError "cmd_make_strvec failed.")
  | _ =>
      match descend NRoot l with
      | (_, []) => Ret (RpError "Command not present.")
      | (NSubscr, [c]) =>
          if (c =? "create")%string then match q with CtrlSet _ v => set_create tz v | CtrlGet _ => Ret write_only end
          else if (c =? "delete")%string then match q with CtrlSet _ v => set_delete tz v | CtrlGet _ => Ret write_only end
          else Ret not_found
      | (NSubscrBy sel, [c]) => match q with CtrlGet _ => get_cmd tz sel c | CtrlSet _ v => set_cmd tz sel c v end
      | _ => Ret not_found
      end
  end.
