(** When the mDNS lookup server and client of the HLR run: /repo/src/dgsm.c:166-247, /repo/src/mslookup_server_mdns.c:91-157,
    /repo/src/mslookup/mslookup_client_mdns.c:142-236, /repo/src/mslookup/mdns_sock.c, the calls in /repo/src/dgsm_vty.c. *)
From Verif Require Import Base PeerId Db Auth Gsup Router Hlr UssdCfg SmsCfg MsLookup Mdns Proxy MsServer Ctrl Config.
Local Open Scope string_scope.
Local Open Scope list_scope.

(** ** Sockets *)
(** Which system calls succeed at a time: getaddrinfo(), socket(), IP_MULTICAST_IF, IP_ADD_MEMBERSHIP for the octets of a group, SO_REUSEADDR, bind() for an
    address, osmo_fd_register(); osmo_get_rand_id() *)
Record os := mk_os { os_gai : sa -> bool; os_socket : bool; os_mif : bool; os_join : list N -> bool; os_reuse : bool; os_bind : sa -> bool; os_reg : bool; os_rand : bool }.
(** the octets that mdns_sock.c:89-90 takes for the group: those of sin_addr of a struct sockaddr_in. In a struct sockaddr_in6 sin6_flowinfo is in their place,
    which is 0 in what getaddrinfo() returns. *)
Definition group_octets (a : sa) : list N := match a with Sa4 ip _ => ip | _ => [0; 0; 0; 0]%N end.
(** osmo_mdns_sock_init, mdns_sock.c:49-126: whether there is a socket *)
Definition sock_init (o : os) (a : sa) : bool :=
  os_gai o a && os_socket o && os_mif o && os_join o (group_octets a) && os_reuse o && os_bind o a && os_reg o.

(** ** What runs *)
Inductive dnote := SrvStart (a : sa) (w : string) | SrvFail (a : sa) | SrvStop | CliStart (a : sa) (w : string) | CliFail (a : sa) | CliStop.
(** configuration, allow_startup, server.mdns.running (bind_addr, domain_suffix) and client.mdns.running. The server has its own copy of the suffix
    (mslookup_server_mdns.c:98). The client keeps the pointer to the text in the configuration (mslookup_client_mdns.c:197): [dr_gen] counts the texts that
    were there, and the client has the number of its text. The log is newest first. *)
Record drun := mk_drun { dr_conf : conf; dr_allow : bool; dr_gen : nat; dr_srv : option (sa * string); dr_cli : option (sa * string * nat); dr_log : list dnote }.
(** after dgsm_init, dgsm.c:166-183 *)
Definition dr_init : drun := mk_drun conf0 false 0 None None [].
Definition dr_with_srv (s : drun) (x : option (sa * string)) (n : list dnote) : drun := mk_drun (dr_conf s) (dr_allow s) (dr_gen s) x (dr_cli s) (n ++ dr_log s).
Definition dr_with_cli (s : drun) (x : option (sa * string * nat)) (n : list dnote) : drun := mk_drun (dr_conf s) (dr_allow s) (dr_gen s) (dr_srv s) x (n ++ dr_log s).

(** mslookup_server_mdns_config_apply, mslookup_server_mdns.c:124-157; osmo_mslookup_server_mdns_start and _stop, 91-122 *)
Definition apply_srv (o : os) (s : drun) : drun :=
  let c := f_srv (dr_conf s) in
  let should_run := dr_allow s && sr_on c && sr_mdns c in
  let s := match dr_srv s with
           | Some (a, w) => if negb should_run || negb (sa_eqb (sr_bind c) a) || negb (sr_suffix c =? w) then dr_with_srv s None [SrvStop] else s
           | None => s
           end in
  match dr_srv s with
  | None => if should_run then
              if sock_init o (sr_bind c) then dr_with_srv s (Some (sr_bind c, sr_suffix c)) [SrvStart (sr_bind c) (sr_suffix c)]
              else dr_with_srv s None [SrvFail (sr_bind c)]
            else s
  | Some _ => s
  end.
(** dgsm_mdns_client_config_apply, dgsm.c:201-247; osmo_mslookup_client_add_mdns, mslookup_client_mdns.c:170-218. [Bad]: strcmp() of a text that was freed *)
Definition apply_cli (o : os) (s : drun) : mres drun :=
  let c := f_cli (dr_conf s) in
  let should_run := dr_allow s && cl_on c && cl_mdns c in
  mdo s <- match dr_cli s with
           | Some (a, w, g) =>
               if negb should_run || negb (sa_eqb (cl_query c) a) then Val (dr_with_cli s None [CliStop])
               else if negb (g =? dr_gen s)%nat then Bad
               else Val (if negb (cl_suffix c =? w) then dr_with_cli s None [CliStop] else s)
           | None => Val s
           end;;
  Val (match dr_cli s with
       | None => if should_run then
                   if os_rand o && sock_init o (cl_query c) then dr_with_cli s (Some (cl_query c, cl_suffix c, dr_gen s)) [CliStart (cl_query c) (cl_suffix c)]
                   else dr_with_cli s None [CliFail (cl_query c)]
                 else s
       | Some _ => s
       end).

(** ** Commands *)
(** what a command does besides changing the configuration: replace the text of the client's suffix (osmo_talloc_replace_string() frees the old one and makes a
    new one, even if it is the same), and call the functions above *)
Record calls := mk_calls { ca_text : bool; ca_srv : bool; ca_cli : bool }.
Definition no_calls : calls := mk_calls false false false.
Fixpoint starts (p ws : list string) : option (list string) :=
  match p, ws with
  | [], _ => Some ws
  | x :: p, y :: ws => if x =? y then starts p ws else None
  | _, _ => None
  end.
Definition calls_of (e : venv) (c : conf) (n : node) (ws : list string) : calls :=
  match n with
  | NdMs =>
      match starts ["mdns"; "bind"] ws with
      | Some v => let r := srv_bind e c v in mk_calls false (fst r) (fst (cli_bind e (snd r) v))   (* dgsm_vty.c:94-106, 60, 80 *)
      | None =>
          if is_some (starts ["mdns"; "domain-suffix"] ws) then mk_calls true true true            (* 108-118 *)
          else if is_some (starts ["no"; "mdns"; "bind"] ws) then mk_calls false true true         (* 120-130 *)
          else if is_some (starts ["server"] ws) || is_some (starts ["no"; "server"] ws) then mk_calls false true false   (* 138-157 *)
          else mk_calls false false true                                                           (* 332-351 *)
      end
  | NdServer =>
      match starts ["mdns"; "bind"] ws with
      | Some v => mk_calls false (fst (srv_bind e c v)) false                                      (* 159-167 *)
      | None => if is_some (starts ["mdns"; "domain-suffix"] ws) || is_some (starts ["no"; "mdns"; "bind"] ws) then mk_calls false true false   (* 169-189 *)
                else no_calls
      end
  | NdClient =>
      match starts ["mdns"; "bind"] ws with
      | Some v => mk_calls false false (fst (cli_bind e c v))                                      (* 369-377 *)
      | None => if is_some (starts ["mdns"; "domain-suffix"] ws) then mk_calls true false true     (* 379-389 *)
                else if is_some (starts ["no"; "mdns"; "bind"] ws) then mk_calls false false true  (* 391-399 *)
                else no_calls
      end
  | _ => no_calls
  end.

(** ** Events *)
(** A command in the configuration file or typed; dgsm_start (dgsm.c:185-192, called once the file has been read: hlr.c:855) and dgsm_stop (194-199, hlr.c:873) *)
Inductive runev := RCmd (file : bool) (n : node) (ws : list string) | RStart | RStop.
Definition applies (o : os) (k : calls) (s : drun) : mres drun :=
  let s := if ca_srv k then apply_srv o s else s in if ca_cli k then apply_cli o s else Val s.
Definition with_conf (s : drun) (c : conf) (k : calls) : drun :=
  mk_drun c (dr_allow s) (if ca_text k then S (dr_gen s) else dr_gen s) (dr_srv s) (dr_cli s) (dr_log s).
Definition with_allow (s : drun) (b : bool) : drun := mk_drun (dr_conf s) b (dr_gen s) (dr_srv s) (dr_cli s) (dr_log s).
Definition rstep (e : venv) (s : drun) (x : os * runev) : mres drun :=
  match snd x with
  | RCmd file n ws =>
      match exec e file n ws (dr_conf s) with
      | XNo => Val s
      | XWarn c | XOk c _ => let k := calls_of e (dr_conf s) n ws in applies (fst x) k (with_conf s c k)
      | XUb => Bad
      end
  | RStart => applies (fst x) (mk_calls false true true) (with_allow s true)
  | RStop => applies (fst x) (mk_calls false true true) (with_allow s false)
  end.
Fixpoint rrun (e : venv) (s : drun) (l : list (os * runev)) : mres drun :=
  match l with [] => Val s | x :: r => mdo s' <- rstep e s x;; rrun e s' r end.
