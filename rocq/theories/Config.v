(** The configuration: the commands that change it, what is written for it and how a file is read:
    /repo/src/hlr_vty.c:49-956, /repo/src/dgsm_vty.c:29-584; PDP profiles in messages: /repo/src/gsup_server.c:479-490 *)
From Verif Require Import Base PeerId Db Auth Gsup Router Hlr UssdCfg SmsCfg MsLookup Mdns Proxy MsServer Ctrl.
Local Open Scope string_scope.
Local Open Scope list_scope.

(** ** What is configured *)
(** g_hlr->subscr_create_on_demand.mode and rand_msisdn_len, hlr.h:42-47, 90-95 *)
Inductive cod_mode := CodOff | CodNone | CodRand (len : Z) | CodImsi.
(** struct osmo_gsup_pdp_info as far as it is configured: context_id (0: the slot is free) and the text of apn_enc *)
Record pslot := mk_pslot { sl_ctx : Z; sl_apn : option string }.
(** g_hlr->mslookup.server and client, hlr.h:97-136 (services: MsServer.v) *)
Record ms_server := mk_srv { sr_on : bool; sr_mdns : bool; sr_bind : sa; sr_suffix : string; sr_mscs : list msc }.
Record ms_client := mk_cli { cl_on : bool; cl_gw : sa; cl_timeout : Z; cl_mdns : bool; cl_query : sa; cl_suffix : string }.
(** g_hlr->ps.pdp_profile, hlr.h:69-75 *)
Record pdp := mk_pdp { pd_on : bool; pd_slots : list pslot; pd_num : nat }.
(** struct hlr, hlr.h:49-137: the members that commands change *)
Record conf := mk_conf {
  f_reject : Z; f_noproxy : Z; f_imei : bool; f_db : string; f_cod : cod_mode; f_cs : bool; f_ps : bool;
  f_bind : option string; f_name : string; f_ussd : ucfg; f_ncss : Z; f_smsc : ucfg;
  f_pdp : pdp; f_srv : ms_server; f_cli : ms_client }.

Definition set_reject c x := mk_conf x (f_noproxy c) (f_imei c) (f_db c) (f_cod c) (f_cs c) (f_ps c) (f_bind c) (f_name c) (f_ussd c) (f_ncss c) (f_smsc c) (f_pdp c) (f_srv c) (f_cli c).
Definition set_noproxy c x := mk_conf (f_reject c) x (f_imei c) (f_db c) (f_cod c) (f_cs c) (f_ps c) (f_bind c) (f_name c) (f_ussd c) (f_ncss c) (f_smsc c) (f_pdp c) (f_srv c) (f_cli c).
Definition set_imei c x := mk_conf (f_reject c) (f_noproxy c) x (f_db c) (f_cod c) (f_cs c) (f_ps c) (f_bind c) (f_name c) (f_ussd c) (f_ncss c) (f_smsc c) (f_pdp c) (f_srv c) (f_cli c).
Definition set_db c x := mk_conf (f_reject c) (f_noproxy c) (f_imei c) x (f_cod c) (f_cs c) (f_ps c) (f_bind c) (f_name c) (f_ussd c) (f_ncss c) (f_smsc c) (f_pdp c) (f_srv c) (f_cli c).
Definition set_cod c m x y := mk_conf (f_reject c) (f_noproxy c) (f_imei c) (f_db c) m x y (f_bind c) (f_name c) (f_ussd c) (f_ncss c) (f_smsc c) (f_pdp c) (f_srv c) (f_cli c).
Definition set_bind c x := mk_conf (f_reject c) (f_noproxy c) (f_imei c) (f_db c) (f_cod c) (f_cs c) (f_ps c) x (f_name c) (f_ussd c) (f_ncss c) (f_smsc c) (f_pdp c) (f_srv c) (f_cli c).
Definition set_name c x := mk_conf (f_reject c) (f_noproxy c) (f_imei c) (f_db c) (f_cod c) (f_cs c) (f_ps c) (f_bind c) x (f_ussd c) (f_ncss c) (f_smsc c) (f_pdp c) (f_srv c) (f_cli c).
Definition set_ussd c x := mk_conf (f_reject c) (f_noproxy c) (f_imei c) (f_db c) (f_cod c) (f_cs c) (f_ps c) (f_bind c) (f_name c) x (f_ncss c) (f_smsc c) (f_pdp c) (f_srv c) (f_cli c).
Definition set_ncss c x := mk_conf (f_reject c) (f_noproxy c) (f_imei c) (f_db c) (f_cod c) (f_cs c) (f_ps c) (f_bind c) (f_name c) (f_ussd c) x (f_smsc c) (f_pdp c) (f_srv c) (f_cli c).
Definition set_smsc c x := mk_conf (f_reject c) (f_noproxy c) (f_imei c) (f_db c) (f_cod c) (f_cs c) (f_ps c) (f_bind c) (f_name c) (f_ussd c) (f_ncss c) x (f_pdp c) (f_srv c) (f_cli c).
Definition set_pdp c x := mk_conf (f_reject c) (f_noproxy c) (f_imei c) (f_db c) (f_cod c) (f_cs c) (f_ps c) (f_bind c) (f_name c) (f_ussd c) (f_ncss c) (f_smsc c) x (f_srv c) (f_cli c).
Definition set_srv c x := mk_conf (f_reject c) (f_noproxy c) (f_imei c) (f_db c) (f_cod c) (f_cs c) (f_ps c) (f_bind c) (f_name c) (f_ussd c) (f_ncss c) (f_smsc c) (f_pdp c) x (f_cli c).
Definition set_cli c x := mk_conf (f_reject c) (f_noproxy c) (f_imei c) (f_db c) (f_cod c) (f_cs c) (f_ps c) (f_bind c) (f_name c) (f_ussd c) (f_ncss c) (f_smsc c) (f_pdp c) (f_srv c) x.

(** gsm48_gmm_cause_vty_names, hlr_vty.c:49-61 *)
Definition cause_names : list (Z * string) :=
  [(2, "imsi-unknown"); (3, "illegal-ms"); (11, "plmn-not-allowed"); (12, "la-not-allowed"); (13, "roaming-not-allowed");
   (15, "no-suitable-cell-in-la"); (17, "net-fail"); (22, "congestion"); (23, "auth-unacceptable"); (111, "proto-error-unspec")].
(** get_value_string_or_null() and get_string_value() on that table; without an entry "%s" of NULL is written *)
Definition cause_name (c : Z) : string := match find (fun x => fst x =? c)%Z cause_names with Some x => snd x | None => "(null)" end.
Definition cause_of (s : string) : option Z := match find (fun x => snd x =? s)%string cause_names with Some x => Some (fst x) | None => None end.

(** HLR_DEFAULT_DB_FILE_PATH (hlr.h:34), NCSS_GUARD_TIMEOUT_DEFAULT (hlr_ussd.h:10), OSMO_DGSM_DEFAULT_RESULT_TIMEOUT_MS
    (dgsm.h:28), OSMO_MDNS_DOMAIN_SUFFIX_DEFAULT (mdns.h:26), OSMO_MSLOOKUP_MDNS_IP4 and PORT (mslookup_client_mdns.h) *)
Definition DB_DEFAULT : string := "hlr.db".
Definition NCSS_DEFAULT : Z := 30.
Definition TIMEOUT_DEFAULT : Z := 2000.
Definition SUFFIX_DEFAULT : string := "mdns.osmocom.org".
Definition MDNS_DEFAULT : sa := Sa4 [239; 192; 23; 42]%N 4266.
Definition GSUP_PORT : Z := 4222.
Definition MAX_PDP : nat := 10.   (* OSMO_GSUP_MAX_NUM_PDP_INFO *)
Definition APN_MAXLEN : nat := 100.
(** main(), hlr.c:771-785 and dgsm_init, dgsm.c:166-183: before a file is read *)
Definition conf0 : conf :=
  mk_conf 11 17 false DB_DEFAULT CodOff false false None "unnamed-HLR" ucfg0 NCSS_DEFAULT ucfg0
    (mk_pdp false (repeat (mk_pslot 0 None) MAX_PDP) 0)
    (mk_srv false false MDNS_DEFAULT SUFFIX_DEFAULT []) (mk_cli false SaNone TIMEOUT_DEFAULT false MDNS_DEFAULT SUFFIX_DEFAULT).

(** ** Commands *)
(** Conversions of libosmocore: is a text an A.B.C.D of the VTY; osmo_sockaddr_str_from_str() ([SaNone]: error) and the text that the
    address keeps; osmo_apn_to_str() of what osmo_apn_from_str() makes of a text ([None]: error). Simplification: the text kept for
    an address is a function of the address. *)
Record venv := mk_venv { v_ipv4 : string -> bool; v_addr : string -> N -> sa; v_show : sa -> string; v_apn : string -> option string }.
Definition sa_port (a : sa) : N := match a with SaNone => 0 | Sa4 _ p | Sa6 _ p => p end.

(** Nodes, hlr_vty.h:30-42. The node of an MSC stands for vty->index by its name, that of a profile by the number of the slot. *)
Inductive node := NdConfig | NdHlr | NdGsup | NdEuse | NdSmsc | NdMs | NdServer | NdMsc (name : string) | NdClient | NdPs | NdPdps | NdProfile (slot : nat).

(** Words of a command as in the strings of DEFUN: keyword, any word, <lo-hi>, (a|b|c), A.B.C.D, .REST, and [optional] ones.
    Simplifications: keywords are not abbreviated (a file is read by cmd_execute_command_strict, which does not allow that),
    numbers are digits only. *)
Inductive tok := K (s : string) | Any | Range (lo hi : Z) | Choice (l : list string) | Ip4 | Rest | Opt (t : tok).
Definition in_range (lo hi : Z) (w : string) : bool :=
  negb (w =? "")%string && match all_digits w 0 with Some v => (lo <=? v)%Z && (v <=? hi)%Z | None => false end.
(** does one word match *)
Fixpoint fits (e : venv) (t : tok) (w : string) : bool :=
  match t with
  | K s => (w =? s)%string
  | Any | Rest => true
  | Range lo hi => in_range lo hi w
  | Choice l => existsb (String.eqb w) l
  | Ip4 => v_ipv4 e w
  | Opt t => fits e t w
  end.
(** argv of a command line that matches: the words that are no keywords *)
Definition is_kw (t : tok) : bool := match t with K _ => true | _ => false end.
Fixpoint args (e : venv) (p : list tok) (ws : list string) : option (list string) :=
  match p, ws with
  | [], [] => Some []
  | [Rest], _ :: _ => Some ws
  | Opt _ :: p', [] => args e p' []
  | t :: p', w :: ws' =>
      if fits e t w then match args e p' ws' with Some r => Some (if is_kw t then r else w :: r) | None => None end else None
  | _, _ => None
  end.
Definition argn (n : nat) (argv : list string) : string := nth n argv "".

(** What a command does: there is no such command; CMD_WARNING or CMD_ERR_INCOMPLETE; CMD_SUCCESS, with the node entered;
    undefined behaviour *)
Inductive xres := XNo | XWarn (c : conf) | XOk (c : conf) (child : option node) | XUb.
(** the command of a node that matches (no two do) *)
Fixpoint dispatch (e : venv) (ws : list string) (l : list (list tok * (list string -> xres))) : xres :=
  match l with
  | [] => XNo
  | (p, h) :: r => match args e p ws with Some argv => h argv | None => dispatch e ws r end
  end.

(** get_pdp_profile, hlr_vty.c:163-173; [0]: a free slot *)
Fixpoint slot_of (id : Z) (l : list pslot) : option nat :=
  match l with
  | [] => None
  | s :: r => if (sl_ctx s =? id)%Z then Some 0%nat else match slot_of id r with Some n => Some (S n) | None => None end
  end.
Fixpoint slot_put (n : nat) (x : pslot) (l : list pslot) : list pslot :=
  match n, l with
  | _, [] => []
  | O, _ :: r => x :: r
  | S m, s :: r => s :: slot_put m x r
  end.
(** create_pdp_profile, hlr_vty.c:175-187, and cfg_ps_pdp_profiles_profile, 199-220 *)
Definition profile_enter (c : conf) (id : Z) : xres :=
  let p := f_pdp c in
  match slot_of id (pd_slots p) with
  | Some n => XOk c (Some (NdProfile n))
  | None => match slot_of 0 (pd_slots p) with
            | Some n => XOk (set_pdp c (mk_pdp (pd_on p) (slot_put n (mk_pslot id None) (pd_slots p)) (S (pd_num p)))) (Some (NdProfile n))
            | None => XWarn c
            end
  end.
(** destroy_pdp_profile, hlr_vty.c:189-197, and cfg_no_ps_pdp_profiles_profile, 222-237 *)
Definition profile_del (c : conf) (id : Z) : xres :=
  let p := f_pdp c in
  match slot_of id (pd_slots p) with
  | Some n => XOk (set_pdp c (mk_pdp (pd_on p) (slot_put n (mk_pslot 0 None) (pd_slots p)) (pd_num p - 1))) None
  | None => XOk c None
  end.
Definition slot_apn (c : conf) (n : nat) (a : option string) : conf :=
  let p := f_pdp c in
  match nth_error (pd_slots p) n with
  | Some s => set_pdp c (mk_pdp (pd_on p) (slot_put n (mk_pslot (sl_ctx s) a) (pd_slots p)) (pd_num p))
  | None => c
  end.
(** cfg_ps_pdp_profile_apn, hlr_vty.c:239-268 *)
Definition profile_apn (e : venv) (c : conf) (n : nat) (w : string) : xres :=
  if (APN_MAXLEN <? String.length w + 1)%nat then XWarn c
  else match v_apn e w with Some a => XOk (slot_apn c n (Some a)) None | None => XWarn (slot_apn c n None) end.

(** the internal handlers, hlr_ussd.c:427-447, by the words of INT_CHOICE, hlr_vty.c:445 *)
Definition iuse_word (i : iuse) : string := match i with OwnMsisdn => "own-msisdn" | OwnImsi => "own-imsi" | TestIdle => "test-idle" end.
Definition iuse_of (w : string) : iuse := if (w =? "own-msisdn")%string then OwnMsisdn else if (w =? "own-imsi")%string then OwnImsi else TestIdle.
(** A command on USSD or SMSC entities and routes (UssdCfg.v) answers CMD_WARNING and changes nothing when a route for the prefix
    exists already, or the entity or route named does not exist, or an entity that is the default is to be removed. *)
Definition ucmd_ok (u : ucfg) (x : ucmd) : bool :=
  match x with
  | CRouteInt p _ => negb (is_some (find_prefix u p))
  | CRouteExt p n => negb (is_some (find_prefix u p)) && is_some (euse_find u n)
  | CNoRoute p => is_some (find_prefix u p)
  | CDefault n => is_some (euse_find u n)
  | CNoDefault => true
  | CEuse _ => true
  | CNoEuse n => match euse_find u n with
                 | Some x => negb match u_default u with Some d => (d =? e_nr x)%nat | None => false end
                 | None => false
                 end
  end.
Definition ussd_do (c : conf) (x : ucmd) (child : option node) : xres :=
  let c' := set_ussd c (ucmd_run (f_ussd c) x) in if ucmd_ok (f_ussd c) x then XOk c' child else XWarn c'.
Definition smsc_do (c : conf) (x : scmd) (child : option node) : xres :=
  let c' := set_smsc c (ucmd_run (f_smsc c) (as_ucmd x)) in if ucmd_ok (f_smsc c) (as_ucmd x) then XOk c' child else XWarn c'.

(** strstr() *)
Fixpoint contains (t s : string) : bool := prefix t s || match s with EmptyString => false | String _ r => contains t r end.
(** cfg_subscr_create_on_demand, hlr_vty.c:813-847 *)
Definition cod_do (c : conf) (argv : list string) : xres :=
  let m := argn 0 argv in
  XOk (set_cod c (if (m =? "no-msisdn")%string then CodNone else if (m =? "msisdn-from-imsi")%string then CodImsi else CodRand (atoi m))
         (contains "cs" (argn 1 argv)) (contains "ps" (argn 1 argv))) None.
(** cfg_reject_cause, hlr_vty.c:782-794; a cause that is not in the table is no choice of the command (886-890) *)
Definition reject_do (c : conf) (argv : list string) : xres :=
  match cause_of (argn 1 argv) with
  | Some x => XOk (if (argn 0 argv =? "not-found")%string then set_reject c x else set_noproxy c x) None
  | None => XUb
  end.

(** mslookup_server_mdns_bind, dgsm_vty.c:44-62, and mslookup_client_mdns_to, 64-82. [None]: CMD_WARNING *)
Definition mdns_addr (e : venv) (old : sa) (argv : list string) : sa :=
  let ip := match argv with a :: _ => a | [] => v_show e old end in
  let port := match argv with _ :: p :: _ => Z.to_N (atoi p) | _ => sa_port old end in
  v_addr e ip port.
Definition srv_bind (e : venv) (c : conf) (argv : list string) : bool * conf :=
  let s := f_srv c in let a := mdns_addr e (sr_bind s) argv in
  if sa_nonzero a then (true, set_srv c (mk_srv true true a (sr_suffix s) (sr_mscs s))) else (false, c).
Definition cli_bind (e : venv) (c : conf) (argv : list string) : bool * conf :=
  let s := f_cli c in let a := mdns_addr e (cl_query s) argv in
  if sa_nonzero a then (true, set_cli c (mk_cli true (cl_gw s) (cl_timeout s) true a (cl_suffix s))) else (false, c).
Definition answer_of (r : bool * conf) : xres := if fst r then XOk (snd r) None else XWarn (snd r).
Definition srv_mdns (c : conf) (b : bool) : conf := let s := f_srv c in set_srv c (mk_srv (sr_on s) b (sr_bind s) (sr_suffix s) (sr_mscs s)).
Definition cli_mdns (c : conf) (b : bool) : conf := let s := f_cli c in set_cli c (mk_cli (cl_on s) (cl_gw s) (cl_timeout s) b (cl_query s) (cl_suffix s)).
Definition srv_suffix (c : conf) (w : string) : conf := let s := f_srv c in set_srv c (mk_srv (sr_on s) (sr_mdns s) (sr_bind s) w (sr_mscs s)).
Definition cli_suffix (c : conf) (w : string) : conf := let s := f_cli c in set_cli c (mk_cli (cl_on s) (cl_gw s) (cl_timeout s) (cl_mdns s) (cl_query s) w).
Definition srv_on (c : conf) (b : bool) : conf := let s := f_srv c in set_srv c (mk_srv b (sr_mdns s) (sr_bind s) (sr_suffix s) (sr_mscs s)).
Definition cli_on (c : conf) (b : bool) : conf := let s := f_cli c in set_cli c (mk_cli b (cl_gw s) (cl_timeout s) (cl_mdns s) (cl_query s) (cl_suffix s)).
Definition cli_timeout (c : conf) (t : Z) : conf := let s := f_cli c in set_cli c (mk_cli (cl_on s) (cl_gw s) t (cl_mdns s) (cl_query s) (cl_suffix s)).
Definition cli_gw (c : conf) (a : sa) : conf := let s := f_cli c in set_cli c (mk_cli (cl_on s) a (cl_timeout s) (cl_mdns s) (cl_query s) (cl_suffix s)).
(** a command on services (MsServer.v), dgsm_vty.c:197-324 *)
Definition svc_do (c : conf) (x : vcmd) (child : option node) : xres :=
  let s := f_srv c in
  match vcmd_run (sr_mscs s) x with
  | Bad => XUb
  | Val (b, l) => let c' := set_srv c (mk_srv (sr_on s) (sr_mdns s) (sr_bind s) (sr_suffix s) l) in if b then XOk c' child else XWarn c'
  end.
(** argv_concat(): the words with one blank between them *)
Fixpoint join (ws : list string) : string :=
  match ws with [] => "" | [w] => w | w :: r => (w ++ String " " (join r))%string end.
Definition Port : tok := Range 1 65535.
Definition port_arg (w : string) : N := Z.to_N (atoi w).
Definition svc_cmds (e : venv) (c : conf) (n : option string) : list (list tok * (list string -> xres)) :=
  [ ([K "service"; Any; K "at"; Any; Port], fun v => svc_do c (VSet n (argn 0 v) (v_addr e (argn 1 v) (port_arg (argn 2 v)))) None);
    ([K "no"; K "service"; Any], fun v => svc_do c (VNo n (argn 0 v)) None);
    ([K "no"; K "service"; Any; K "at"; Any; Port], fun v => svc_do c (VNoAt n (argn 0 v) (v_addr e (argn 1 v) (port_arg (argn 2 v)))) None) ].

(** The commands of each node, hlr_vty.c:904-953 and dgsm_vty.c:548-584. [file]: vty->type == VTY_FILE *)
Definition cmds (e : venv) (file : bool) (c : conf) (n : node) : list (list tok * (list string -> xres)) :=
  let ok c := fun _ : list string => XOk c None in
  match n with
  | NdConfig => [ ([K "hlr"], fun _ => XOk c (Some NdHlr));          (* hlr_vty.c:86-93 *)
                  ([K "mslookup"], fun _ => XOk c (Some NdMs)) ]     (* dgsm_vty.c:35-42 *)
  | NdHlr =>
      [ ([K "gsup"], fun _ => XOk c (Some NdGsup));                  (* hlr_vty.c:101-108 *)
        ([K "ps"], fun _ => XOk c (Some NdPs));                      (* 116-123 *)
        ([K "database"; Any], fun v => XOk (set_db c (argn 0 v)) None);                                       (* 534-541 *)
        ([K "euse"; Any], fun v => ussd_do c (CEuse (argn 0 v)) (Some NdEuse));                               (* 549-568 *)
        ([K "no"; K "euse"; Any], fun v => ussd_do c (CNoEuse (argn 0 v)) None);                              (* 570-586 *)
        ([K "ussd"; K "route"; K "prefix"; Any; K "internal"; Choice ["own-msisdn"; "own-imsi"; "test-idle"]],
         fun v => ussd_do c (CRouteInt (argn 0 v) (iuse_of (argn 1 v))) None);                                (* 454-467 *)
        ([K "ussd"; K "route"; K "prefix"; Any; K "external"; Any],
         fun v => ussd_do c (CRouteExt (argn 0 v) (argn 1 v)) None);                                          (* 469-486 *)
        ([K "no"; K "ussd"; K "route"; K "prefix"; Any], fun v => ussd_do c (CNoRoute (argn 0 v)) None);      (* 488-500 *)
        ([K "ussd"; K "default-route"; K "external"; Any], fun v => ussd_do c (CDefault (argn 0 v)) None);    (* 502-523 *)
        ([K "no"; K "ussd"; K "default-route"], fun _ => ussd_do c CNoDefault None);                          (* 525-532 *)
        ([K "ncss-guard-timeout"; Range 0 255], fun v => XOk (set_ncss c (atoi (argn 0 v))) None);            (* 618-625 *)
        ([K "smsc"; K "entity"; Any], fun v => smsc_do c (SEntity (argn 0 v)) (Some NdSmsc));                 (* 639-659 *)
        ([K "no"; K "smsc"; K "entity"; Any], fun v => smsc_do c (SNoEntity (argn 0 v)) None);                (* 661-680 *)
        ([K "smsc"; K "route"; Any; Any], fun v => smsc_do c (SRoute (argn 0 v) (argn 1 v)) None);            (* 682-705 *)
        ([K "no"; K "smsc"; K "route"; Any], fun v => smsc_do c (SNoRoute (argn 0 v)) None);                  (* 707-721 *)
        ([K "smsc"; K "default-route"; Any], fun v => smsc_do c (SDefault (argn 0 v)) None);                  (* 723-745 *)
        ([K "no"; K "smsc"; K "default-route"], fun _ => smsc_do c SNoDefault None);                          (* 747-755 *)
        ([K "reject-cause"; Choice ["not-found"; "no-proxy"]; Choice (map snd cause_names)], reject_do c);    (* 782-794 *)
        ([K "store-imei"], ok (set_imei c true));                                                             (* 796-803 *)
        ([K "no"; K "store-imei"], ok (set_imei c false));                                                    (* 805-811 *)
        ([K "subscriber-create-on-demand"; Choice ["no-msisdn"; "msisdn-from-imsi"]; Choice ["none"; "cs"; "ps"; "cs+ps"]], cod_do c);
        ([K "subscriber-create-on-demand"; Range 3 15; Choice ["none"; "cs"; "ps"; "cs+ps"]], cod_do c);      (* 813-847 *)
        ([K "no"; K "subscriber-create-on-demand"], ok (set_cod c CodOff (f_cs c) (f_ps c))) ]                (* 849-855 *)
  | NdGsup =>
      [ ([K "bind"; K "ip"; Ip4], fun v => XOk (set_bind c (Some (argn 0 v))) None);                          (* 405-417 *)
        ([K "ipa-name"; Any], fun v => if file then XOk (set_name c (argn 0 v)) None else XWarn c) ]          (* 419-435 *)
  | NdEuse | NdSmsc => []
  | NdPs =>
      [ ([K "pdp-profiles"; K "default"],
         fun _ => XOk (set_pdp c (mk_pdp true (pd_slots (f_pdp c)) (pd_num (f_pdp c)))) (Some NdPdps));       (* 131-141 *)
        ([K "no"; K "pdp-profiles"; K "default"], ok (set_pdp c (mk_pdp false (pd_slots (f_pdp c)) (pd_num (f_pdp c))))) ]   (* 143-152 *)
  | NdPdps =>
      [ ([K "profile"; Range 1 10], fun v => profile_enter c (atoi (argn 0 v)));
        ([K "no"; K "profile"; Range 1 10], fun v => profile_del c (atoi (argn 0 v))) ]
  | NdProfile k =>
      [ ([K "apn"; Any], fun v => profile_apn e c k (argn 0 v));
        ([K "no"; K "apn"], ok (slot_apn c k None)) ]                                                         (* 270-283 *)
  | NdMs =>
      [ ([K "mdns"; K "bind"; Opt Any; Opt Port],                                                             (* dgsm_vty.c:94-106 *)
         fun v => let r1 := srv_bind e c v in let r2 := cli_bind e (snd r1) v in answer_of (fst r1 && fst r2, snd r2));
        ([K "mdns"; K "domain-suffix"; Any], fun v => XOk (cli_suffix (srv_suffix c (argn 0 v)) (argn 0 v)) None);   (* 108-118 *)
        ([K "no"; K "mdns"; K "bind"], ok (cli_mdns (srv_mdns c false) false));                               (* 120-130 *)
        ([K "server"], fun _ => XOk (srv_on c true) (Some NdServer));                                         (* 138-147 *)
        ([K "no"; K "server"], ok (srv_on c false));                                                          (* 149-157 *)
        ([K "client"], fun _ => XOk (cli_on c true) (Some NdClient));                                         (* 332-341 *)
        ([K "no"; K "client"], ok (cli_on c false)) ]                                                         (* 343-351 *)
  | NdServer =>
      [ ([K "mdns"; K "bind"; Opt Any; Opt Port], fun v => answer_of (srv_bind e c v));                       (* 159-167 *)
        ([K "mdns"; K "domain-suffix"; Any], fun v => XOk (srv_suffix c (argn 0 v)) None);                    (* 169-179 *)
        ([K "no"; K "mdns"; K "bind"], ok (srv_mdns c false));                                                (* 181-189 *)
        ([K "msc"; K "ipa-name"; Rest], fun v => svc_do c (VMsc (join v)) (Some (NdMsc (join v)))) ]          (* 197-216 *)
      ++ svc_cmds e c None
  | NdMsc m => svc_cmds e c (Some m)
  | NdClient =>
      [ ([K "timeout"; Range 1 100000], fun v => XOk (cli_timeout c (atoi (argn 0 v))) None);                 (* 353-362 *)
        ([K "mdns"; K "bind"; Opt Any; Opt Port], fun v => answer_of (cli_bind e c v));                       (* 369-377 *)
        ([K "mdns"; K "domain-suffix"; Any], fun v => XOk (cli_suffix c (argn 0 v)) None);                    (* 379-389 *)
        ([K "no"; K "mdns"; K "bind"], ok (cli_mdns c false));                                                (* 391-399 *)
        ([K "gateway-proxy"; Any; Opt Port],                                                                  (* 487-506 *)
         fun v => let a := v_addr e (argn 0 v) (match v with _ :: p :: _ => port_arg p | _ => Z.to_N GSUP_PORT end) in
                  if sa_nonzero a then XOk (cli_gw c a) None else XWarn c);
        ([K "no"; K "gateway-proxy"], ok (cli_gw c SaNone)) ]                                                 (* 508-515 *)
  end.
Definition exec (e : venv) (file : bool) (n : node) (ws : list string) (c : conf) : xres := dispatch e ws (cmds e file c n).

(** ** What is written *)
Fixpoint blanks (n : nat) : string := match n with O => "" | S m => String " " (blanks m) end.
(** a line: indentation and words (VTY_NEWLINE is not part of it) *)
Definition out (i : nat) (ws : list string) : string := (blanks i ++ join ws)%string.
Definition show (z : Z) : string := dec_text (Z.to_N z).
Definition showN (n : N) : string := dec_text n.

(** config_write_subscr_create_on_demand, hlr_vty.c:285-316 *)
Definition flags_word (cs ps : bool) : string := if cs && ps then "cs+ps" else if cs then "cs" else if ps then "ps" else "none".
Definition write_cod (c : conf) : list string :=
  match f_cod c with
  | CodOff => [out 1 ["no"; "subscriber-create-on-demand"]]
  | m => [out 1 ["subscriber-create-on-demand"; match m with CodImsi => "msisdn-from-imsi" | CodRand n => show n | _ => "no-msisdn" end;
                 flags_word (f_cs c) (f_ps c)]]
  end.
Definition opt (b : bool) (l : string) : list string := if b then [l] else [].
(** config_write_hlr, hlr_vty.c:319-335 *)
Definition write_hlr (c : conf) : list string :=
  [out 0 ["hlr"]; out 1 ["reject-cause"; "not-found"; cause_name (f_reject c)]; out 1 ["reject-cause"; "no-proxy"; cause_name (f_noproxy c)]]
  ++ opt (f_imei c) (out 1 ["store-imei"])
  ++ opt (negb (f_db c =? DB_DEFAULT)%string) (out 1 ["database"; f_db c]) ++ write_cod c.
(** config_write_hlr_gsup, hlr_vty.c:337-345 *)
Definition write_gsup (c : conf) : list string :=
  [out 1 ["gsup"]] ++ match f_bind c with Some a => [out 2 ["bind"; "ip"; a]] | None => [] end ++ [out 2 ["ipa-name"; f_name c]].
(** config_write_euse, hlr_vty.c:593-616; [Bad]: a route points to an entity that was freed *)
Definition route_line (r : string * ussd_target) : string :=
  out 1 ["ussd"; "route"; "prefix"; fst r; match snd r with TExt _ => "external" | TInt _ => "internal" end;
         match snd r with TExt n => n | TInt i => iuse_word i end].
Definition default_name (u : ucfg) : mres (option string) :=
  match u_default u with None => Val None | Some d => match euse_name u d with Some n => Val (Some n) | None => Bad end end.
Definition write_euse (c : conf) : mres (list string) :=
  let u := f_ussd c in
  match route_table u with
  | None => Bad
  | Some t =>
      mdo d <- default_name u;;
      Val (map (fun x => out 1 ["euse"; e_name x]) (u_euses u) ++ map route_line t
           ++ match d with Some n => [out 1 ["ussd"; "default-route"; "external"; n]] | None => [] end
           ++ opt (negb (f_ncss c =? NCSS_DEFAULT)%Z) (out 1 ["ncss-guard-timeout"; show (f_ncss c)]))
  end.
(** config_write_smsc, hlr_vty.c:762-780 *)
Definition write_smsc (c : conf) : mres (list string) :=
  let u := f_smsc c in
  match smsc_table u with
  | None => Bad
  | Some t =>
      mdo d <- default_name u;;
      Val (map (fun x => out 1 ["smsc"; "entity"; e_name x]) (u_euses u) ++ map (fun r => out 1 ["smsc"; "route"; fst r; snd r]) t
           ++ match d with Some n => [out 1 ["smsc"; "default-route"; n]] | None => [] end)
  end.
(** osmo_escape_str(): control characters have letters, backslash and quote a backslash before them, other characters that are
    not printable are written as numbers *)
Definition esc (c : ascii) : string :=
  let n := acode c in
  let two x := String "\" (String x "") in
  if (n =? 92)%N || (n =? 34)%N then two c
  else if ((32 <=? n) && (n <=? 126))%N then String c ""
  else if (n =? 10)%N then two "n"%char else if (n =? 13)%N then two "r"%char else if (n =? 9)%N then two "t"%char else if (n =? 0)%N then two "0"%char
  else if (n =? 7)%N then two "a"%char else if (n =? 8)%N then two "b"%char else if (n =? 11)%N then two "v"%char else if (n =? 12)%N then two "f"%char
  else String "\" (dec_text n).
Fixpoint escape (l : list ascii) : string := match l with [] => "" | c :: r => (esc c ++ escape r)%string end.
(** osmo_ipa_name_to_str_c, cni_peer_id.c:102-110: without the NUL at the end *)
Definition ipa_str (n : ipa_name) : string :=
  let b := ipa_bytes n in
  escape (match rev b with z :: r => if (z =? nul)%char then rev r else b | [] => [] end).
(** config_write_msc_services, dgsm_vty.c:401-413 *)
Definition addr_line (e : venv) (i : nat) (s : string) (a : sa) : list string :=
  opt (sa_nonzero a) (out i ["service"; s; "at"; v_show e a; showN (sa_port a)]).
Definition write_services (e : venv) (i : nat) (l : list svc) : list string :=
  flat_map (fun x => addr_line e i (sv_name x) (sv_v4 x) ++ addr_line e i (sv_name x) (sv_v6 x)) l.
Definition is_wild (m : msc) : bool := (ipa_cmp ipa_empty (m_name m) =? 0)%Z.
Definition is_nil {A} (l : list A) : bool := match l with [] => true | _ => false end.
(** config_write_mslookup, dgsm_vty.c:415-485 *)
Definition write_ms (e : venv) (c : conf) : list string :=
  let s := f_srv c in let k := f_cli c in
  let have := sr_on s || negb (is_nil (sr_mscs s)) in
  if negb have && negb (cl_on k) then []
  else [out 0 ["mslookup"]]
    ++ (if have then
          [out 1 ["server"]]
          ++ opt (sr_mdns s) (out 2 (["mdns"; "bind"] ++ if sa_nonzero (sr_bind s) then [v_show e (sr_bind s); showN (sa_port (sr_bind s))] else []))
          ++ opt (negb (sr_suffix s =? SUFFIX_DEFAULT)%string) (out 2 ["mdns"; "domain-suffix"; sr_suffix s])
          ++ match msc_get (sr_mscs s) ipa_empty with Some m => write_services e 2 (m_svcs m) | None => [] end
          ++ flat_map (fun m => if is_wild m then [] else out 2 ["msc"; "ipa-name"; ipa_str (m_name m)] :: write_services e 3 (m_svcs m)) (sr_mscs s)
          ++ opt (negb (sr_on s)) (out 1 ["no"; "server"])
        else [])
    ++ (if cl_on k then
          [out 1 ["client"]]
          ++ opt (sa_nonzero (cl_gw k)) (out 2 ["gateway-proxy"; v_show e (cl_gw k); showN (sa_port (cl_gw k))])
          ++ opt (cl_mdns k && sa_nonzero (cl_query k)) (out 2 ["mdns"; "bind"; v_show e (cl_query k); showN (sa_port (cl_query k))])
          ++ opt (negb (cl_suffix k =? SUFFIX_DEFAULT)%string) (out 2 ["mdns"; "domain-suffix"; cl_suffix k])
          ++ opt (negb (cl_timeout k =? TIMEOUT_DEFAULT)%Z) (out 2 ["timeout"; show (cl_timeout k)])
        else []).
(** config_write_hlr_ps, hlr_vty.c:347-351, and config_write_hlr_ps_pdp_profiles, 353-376 *)
Definition profile_lines (s : pslot) : list string :=
  if (sl_ctx s =? 0)%Z then []
  else out 3 ["profile"; show (sl_ctx s)] :: match sl_apn s with Some a => [out 4 ["apn"; a]] | None => [] end.
Definition write_ps (c : conf) : list string :=
  let p := f_pdp c in
  [out 1 ["ps"]] ++ (if pd_on p then [out 2 ["pdp-profiles"; "default"]] ++ flat_map profile_lines (firstn (pd_num p) (pd_slots p)) else []).
(** The file: the functions are called in the order of the node numbers (hlr_vty.h:30-42). Lines of the parts of libosmocore that are
    written before these (logging, statistics, VTY, control interface) and comments are left out. *)
Definition write (e : venv) (c : conf) : mres (list string) :=
  mdo u <- write_euse c;; mdo s <- write_smsc c;;
  Val (write_hlr c ++ write_gsup c ++ u ++ s ++ write_ms e c ++ write_ps c).

(** ** Reading a file, vty_read_config_file() of libosmocore *)
Fixpoint indent (s : string) : nat := match s with String c r => if is_space c then S (indent r) else O | EmptyString => O end.
Fixpoint split_words (s : string) : list string :=
  match s with
  | EmptyString => [EmptyString]
  | String c r => if is_space c then EmptyString :: split_words r
                  else match split_words r with w :: ws => String c w :: ws | [] => [String c EmptyString] end
  end.
Definition words (s : string) : list string := filter (fun w => negb (w =? "")%string) (split_words s).
Definition is_comment (w : string) : bool := match w with String c _ => (c =? "!")%char || (c =? "#")%char | EmptyString => true end.
(** the nodes entered, innermost first, each with the indentation of its commands once there was one *)
Definition nodes := list (option nat * node).
(** a line with indentation [i]: the first line of a node that was just entered sets its indentation if it is deeper than that of
    the parent; else nodes are left until the indentation is the same ([None]: it is that of no node, the file is refused) *)
Fixpoint settle (i : nat) (st : nodes) : option nodes :=
  match st with
  | [] => None
  | (None, n) :: r => match r with
                      | (Some j, _) :: _ => if (j <? i)%nat then Some ((Some i, n) :: r) else settle i r
                      | _ => None
                      end
  | (Some j, n) :: r => if (j =? i)%nat then Some st else if (i <? j)%nat then settle i r else None
  end.
(** [Val None]: the file is refused, main() ends (hlr.c:804-811). Simplification: a warning is also fatal. *)
Fixpoint read (e : venv) (ls : list string) (st : nodes) (c : conf) : mres (option conf) :=
  match ls with
  | [] => Val (Some c)
  | l :: r =>
      match words l with
      | [] => read e r st c
      | w :: ws =>
          if is_comment w then read e r st c
          else match settle (indent l) st with
               | Some ((i, n) :: st') =>
                   match exec e true n (w :: ws) c with
                   | XNo | XWarn _ => Val None
                   | XOk c' ch => read e r (match ch with Some m => [(None, m)] | None => [] end ++ (i, n) :: st') c'
                   | XUb => Bad
                   end
               | _ => Val None
               end
      end
  end.
Definition read_file (e : venv) (ls : list string) : mres (option conf) := read e ls [(Some O, NdConfig)] conf0.

(** ** What happens to a configuration: a command in a file or typed, the path given with -l (hlr.c:820-821) *)
Inductive act := AFile (n : node) (ws : list string) | ATyped (n : node) (ws : list string) | APath (p : string).
Definition act_run (e : venv) (c : conf) (a : act) : mres conf :=
  let after r := match r with XNo => Val c | XWarn c' => Val c' | XOk c' _ => Val c' | XUb => Bad end in
  match a with
  | AFile n ws => after (exec e true n ws c)
  | ATyped n ws => after (exec e false n ws c)
  | APath p => Val (set_db c p)
  end.
Fixpoint acts (e : venv) (l : list act) (c : conf) : mres conf :=
  match l with [] => Val c | a :: r => mdo c' <- act_run e c a;; acts e r c' end.

(** ** PDP profiles in the Insert Subscriber Data message, gsup_server.c:479-490: the first [num] slots; [None]: the wildcard APN *)
Definition pdp_sent (c : conf) : option (list pslot) :=
  let p := f_pdp c in if pd_on p then Some (firstn (pd_num p) (pd_slots p)) else None.
