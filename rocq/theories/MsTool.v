(** The lookup tool and daemon: /repo/src/mslookup/osmo-mslookup-client.c, run on the lookup client of MsClient.v with its mDNS method.

    Simplifications: memory does not run out; sockets can be created, registered and accepted; write() to a socket either succeeds or
    fails without a change in this program (it only prints an error then); log output and error output are left out. The options of
    the command line are given by their values. Text is made of the bytes of C strings. *)
From Verif Require Import Base Db Auth Gsup Router Ctrl MsLookup Mdns MsClient.
Local Open Scope N_scope.

(** enum result_format, osmo-mslookup-client.c:193-196 *)
Inductive fmt := Csv | Json.
(** cmdline_opts, osmo-mslookup-client.c:198-215; inet_ntop() of the octets of an address *)
Record topts := mk_topts { o_daemon : bool; o_min : N; o_tmo : N; o_fmt : fmt; o_head : bool; o_ntop : list N -> string }.

(** struct osmo_mslookup_result as the callback gets it: code, addresses and age, whether it is the last *)
Record tres := mk_tres { r_code : rcode; r_res : lresult; r_last : bool }.

(** ** Text *)
Definition TAB : string := String "009"%char "".
Definition tabs (n : nat) : string := String.concat "" (repeat TAB n).
(** CSV_HEADERS, osmo-mslookup-client.c:41 *)
Definition CSV_COLUMNS : list string := ["query"; "result"; "last"; "age"; "v4_ip"; "v4_port"; "v6_ip"; "v6_port"].
Definition CSV_HEADERS : string := String.concat TAB CSV_COLUMNS.
(** osmo_mslookup_result_code_names, mslookup.c:97-102 *)
Definition code_name (c : rcode) : string := match c with RcNone => "none" | RcResult => "result" | RcNotFound => "not-found" end.
(** osmo_sockaddr_str_is_nonzero() of libosmocore: there is an address, with a port, and it is not the address that has only zeros *)
Definition nonzero (h : option (list N * N)) : option (list N * N) :=
  match h with
  | Some (a, p) => if (p =? 0) || forallb (fun b => b =? 0) a then None else h
  | None => None
  end.
(** formatter_csv, osmo-mslookup-client.c:349-376 *)
Definition csv_host (o : topts) (h : option (list N * N)) : string :=
  match nonzero h with Some (a, p) => TAB ++ o_ntop o a ++ TAB ++ dec p | None => tabs 2 end.
Definition csv_text (o : topts) (q : string) (r : option tres) : string :=
  q ++ match r with
       | None => TAB ++ "ERROR" ++ tabs 6
       | Some r =>
           TAB ++ code_name (r_code r) ++ TAB ++ (if r_last r then "last" else "not-last") ++ TAB ++ dec (lr_age (r_res r)) ++
           match r_code r with
           | RcResult => csv_host o (lr_v4 (r_res r)) ++ csv_host o (lr_v6 (r_res r))
           | _ => tabs 5
           end
       end.
(** formatter_json, osmo-mslookup-client.c:378-397 *)
Definition QT : string := String "034"%char "".
Definition quoted (s : string) : string := QT ++ s ++ QT.
Definition json_host (o : topts) (name : string) (h : option (list N * N)) : string :=
  match nonzero h with
  | Some (a, p) => ", " ++ quoted name ++ ": [" ++ quoted (o_ntop o a) ++ ", " ++ quoted (dec p) ++ "]"
  | None => ""
  end.
Definition json_text (o : topts) (q : string) (r : option tres) : string :=
  "{" ++ quoted "query" ++ ": " ++ quoted q ++
  match r with
  | None => ", " ++ quoted "result" ++ ": " ++ quoted "ERROR"
  | Some r =>
      ", " ++ quoted "result" ++ ": " ++ quoted (code_name (r_code r)) ++
      ", " ++ quoted "last" ++ ": " ++ (if r_last r then "true" else "false") ++
      ", " ++ quoted "age" ++ ": " ++ dec (lr_age (r_res r)) ++
      match r_code r with
      | RcResult => json_host o "v4" (lr_v4 (r_res r)) ++ json_host o "v6" (lr_v6 (r_res r))
      | _ => ""
      end
  end ++ "}".
(** formatters, osmo-mslookup-client.c:399-402, into g_buf[1024] (osmo-mslookup-client.c:222): OSMO_STRBUF_PRINTF() cuts the text *)
Definition G_BUF : nat := 1024.
Definition format (o : topts) (q : string) (r : option tres) : string :=
  str_take (G_BUF - 1) (match o_fmt o with Csv => csv_text o q r | Json => json_text o q r end).

(** ** State *)
(** struct socket_client, osmo-mslookup-client.c:412-416. [k_id] stands for the socket. *)
Record tclient := mk_tclient { k_id : N; k_str : string }.
(** What the program did: a line on stdout, a message to a socket client, the socket closed *)
Inductive tout := OLine (s : string) | OMsg (i : N) (s : string) | OClose (i : N).
(** globals, osmo-mslookup-client.c:334-345, and the lookup client. Queries (struct query, osmo-mslookup-client.c:579-585) are given by
    handle and query_str; both lists are newest first (llist_add). [t_out] is newest first. *)
Record tst := mk_tst { t_cl : cst; t_qs : list (N * string); t_cls : list tclient; t_next : N; t_handled : N; t_out : list tout }.
Definition t_init : tst := mk_tst c_init [] [] 0 0 [].
Definition t_with_cl (s : tst) (c : cst) : tst := mk_tst c (t_qs s) (t_cls s) (t_next s) (t_handled s) (t_out s).
Definition t_with_qs (s : tst) (l : list (N * string)) : tst := mk_tst (t_cl s) l (t_cls s) (t_next s) (t_handled s) (t_out s).
Definition t_with_cls (s : tst) (l : list tclient) : tst := mk_tst (t_cl s) (t_qs s) l (t_next s) (t_handled s) (t_out s).
Definition t_put (s : tst) (x : tout) : tst := mk_tst (t_cl s) (t_qs s) (t_cls s) (t_next s) (t_handled s) (x :: t_out s).
Definition t_count (s : tst) : tst := mk_tst (t_cl s) (t_qs s) (t_cls s) (t_next s) ((t_handled s + 1) mod 4294967296) (t_out s).

(** socket_client_close, osmo-mslookup-client.c:418-428 *)
Definition close_client (s : tst) (i : N) : tst := t_put (t_with_cls s (filter (fun k => negb (k_id k =? i)) (t_cls s))) (OClose i).
(** the loop of respond_result, osmo-mslookup-client.c:593-599; socket_client_respond_result, 430-437 *)
Fixpoint respond_clients (l : list tclient) (q text : string) (fin : bool) (s : tst) : tst :=
  match l with
  | [] => s
  | k :: r =>
      if (q =? k_str k)%string then
        let s := t_put s (OMsg (k_id k) text) in
        respond_clients r q text fin (if fin then close_client s (k_id k) else s)
      else respond_clients r q text fin s
  end.
(** respond_result and respond_err, osmo-mslookup-client.c:587-607. The name in g_buf is compared as it was given. *)
Definition is_final (r : option tres) : bool := match r with None => true | Some r => r_last r end.
Definition respond (o : topts) (s : tst) (q : string) (r : option tres) : tst :=
  let text := format o q r in
  let s := t_put s (OLine text) in
  let s := respond_clients (t_cls s) q text (is_final r) s in
  if is_final r then t_count s else s.

(** mslookup_result_cb and query_by_handle, osmo-mslookup-client.c:609-632 *)
Fixpoint query_del (h : N) (l : list (N * string)) : list (N * string) :=
  match l with [] => [] | (h', q) :: r => if h' =? h then r else (h', q) :: query_del h r end.
Definition result_cb (o : topts) (s : tst) (h : N) (r : tres) : tst :=
  match find (fun e => fst e =? h) (t_qs s) with
  | None => s
  | Some (_, q) =>
      let s := respond o s q (Some r) in
      if r_last r then t_with_qs s (query_del h (t_qs s)) else s
  end.
(** The lookup client has called the callback: it runs and returns. What it was called with is the newest note of MsClient.v. *)
Definition settle (o : topts) (s : tst) : mres tst :=
  match c_stack (t_cl s), c_trace (t_cl s) with
  | f :: _, TCall _ rc x last _ :: _ =>
      let s := result_cb o s (f_handle f) (mk_tres rc x last) in
      mdo c <- cstep (t_cl s) CReturn;; Val (t_with_cl s c)
  | _, _ => Val s
  end.

(** ** Queries *)
(** strchr(): what is before and after the first such character *)
Fixpoint split_at (c : ascii) (s : string) : option (string * string) :=
  match s with
  | EmptyString => None
  | String a r => if (a =? c)%char then Some (EmptyString, r)
                  else match split_at c r with Some (x, y) => Some (String a x, y) | None => None end
  end.
(** parse_int(0, UINT32_MAX, ..), osmo-mslookup-client.c:224-239 *)
Definition parse_u32 (s : string) : option N :=
  match strtoll_all s with
  | Some v => if ((0 <=? v) && (v <=? 4294967295))%Z then Some (Z.to_N v) else None
  | None => None
  end.
(** the part before '@', osmo-mslookup-client.c:645-684; timeouts[16] *)
Definition TIMEOUTS_BUF : nat := 16.
Definition handling (t : string) : option (N * N) :=
  if (TIMEOUTS_BUF <=? String.length t)%nat then None
  else
    let '(min, rest) := match split_at "-" t with
                        | Some (d, r) => (parse_u32 d, r)
                        | None => (Some 0, t)
                        end in
    match min with
    | None => None
    | Some m => match rest with
                | EmptyString => Some (m, 0)
                | _ => match parse_u32 rest with Some t => Some (m, t) | None => None end
                end
    end.
(** start_query_str, osmo-mslookup-client.c:634-712; query_str[128] *)
Definition QUERY_STR : nat := 128.
Definition domain_of (q : string) : string := match split_at "@" q with Some (_, d) => d | None => q end.
Definition start_query (o : topts) (s : tst) (q : string) : mres tst :=
  let d := domain_of q in
  match match split_at "@" q with Some (t, _) => handling t | None => Some (o_min o, o_tmo o) end with
  | None => Val (respond o s d None)
  | Some (mn, tm) =>
      if (QUERY_STR <=? String.length d)%nat then Val (respond o s d None)
      else
        match query_init d with
        | inr _ => Val (respond o s d None)
        | inl qq =>
            let h := if negb (service_valid (lq_service qq)) || negb (id_valid (lq_type qq) (lq_id qq)) then 0
                     else if c_next (t_cl s) =? 0 then 1 else c_next (t_cl s) in
            mdo s <- settle o (t_with_cl s (request (t_cl s) qq mn tm));;
            Val (if h =? 0 then respond o s d None else t_with_qs s ((h, d) :: t_qs s))
        end
  end.
(** start_query_strs, osmo-mslookup-client.c:714-719 *)
Fixpoint start_queries (o : topts) (l : list string) (s : tst) : mres tst :=
  match l with [] => Val s | q :: r => mdo s <- start_query o s q;; start_queries o r s end.

(** ** The socket *)
(** the line in a packet: recv() and strtok(), osmo-mslookup-client.c:448-466; rxbuf[1024]. [None]: the socket is closed. *)
Definition RX_BUF : nat := 1024.
Definition crlf (c : ascii) : bool := (c =? "010")%char || (c =? "013")%char.
Definition line_of (b : list ascii) : option string :=
  let b := firstn RX_BUF b in
  if (length b =? 0)%nat || (RX_BUF <=? length b)%nat then None
  else match cstr (b ++ ["000"%char]) with
       | Some t => match strtok crlf t with Some (x, _) => Some x | None => None end
       | None => None
       end.
(** socket_read_cb, osmo-mslookup-client.c:439-488 *)
Definition set_str (s : tst) (i : N) (q : string) : tst :=
  t_with_cls s (map (fun k => if k_id k =? i then mk_tclient i q else k) (t_cls s)).
Definition socket_read (o : topts) (s : tst) (i : N) (b : list ascii) : mres tst :=
  match find (fun k => k_id k =? i) (t_cls s) with
  | None => Val s
  | Some k =>
      match line_of b with
      | None => Val (close_client s i)
      | Some x =>
          let q := domain_of x in
          if negb (k_str k =? "")%string then Val (t_put s (OMsg i (format o q None)))
          else
            mdo s <- start_query o (set_str s i q) x;;
            Val (t_put s (OLine ("query: " ++ x)))
      end
  end.
(** socket_accept, osmo-mslookup-client.c:502-542 *)
Definition socket_accept (o : topts) (s : tst) : tst :=
  let i := t_next s in
  let s := mk_tst (t_cl s) (t_qs s) (mk_tclient i "" :: t_cls s) (i + 1) (t_handled s) (t_out s) in
  match o_fmt o with
  | Csv => if o_head o then t_put s (OMsg i CSV_HEADERS) else s
  | Json => s
  end.

(** ** The main loop *)
(** A program connects to the socket; sends a packet; closes its end, or recv() fails; an answer to a query arrives by mDNS; a timer of
    the lookup client is due; time passes. *)
Inductive tev := EAccept | EPacket (i : N) (b : list ascii) | EHangup (i : N) | EAnswer (q : query) (x : lresult) | ETimer (u : N) | ETick (ms : N).
Definition tstep (o : topts) (s : tst) (e : tev) : mres tst :=
  let client c := mdo c <- cstep (t_cl s) c;; settle o (t_with_cl s c) in
  match e with
  | EAccept => Val (socket_accept o s)
  | EPacket i b => socket_read o s i b
  | EHangup i => Val (match find (fun k => k_id k =? i) (t_cls s) with None => s | Some _ => close_client s i end)
  | EAnswer q x => client (CAnswer q x)
  | ETimer u => client (CTimer u)
  | ETick ms => client (CTick ms)
  end.
Fixpoint trun (o : topts) (s : tst) (l : list tev) : mres tst :=
  match l with [] => Val s | e :: r => mdo s <- tstep o s e;; trun o s r end.
(** main, osmo-mslookup-client.c:859-885, from the headers on: the queries of the command line, then the loop. Each pass through
    osmo_select_main_ctx() handles what is ready, and blocks until something is. The flag tells whether the program has ended;
    socket_close, osmo-mslookup-client.c:567-577. *)
Definition start (o : topts) (args : list string) : mres tst :=
  start_queries o args (match o_fmt o with Csv => if o_head o then t_put t_init (OLine CSV_HEADERS) else t_init | Json => t_init end).
Definition done (o : topts) (s : tst) : bool := negb (o_daemon o) && negb (t_handled s =? 0) && match t_qs s with [] => true | _ => false end.
Fixpoint loop (o : topts) (s : tst) (l : list (list tev)) : mres (tst * bool) :=
  match l with
  | [] => Val (s, false)
  | b :: r => mdo s <- trun o s b;;
              if done o s then Val (fold_left (fun s k => close_client s (k_id k)) (t_cls s) s, true) else loop o s r
  end.
Definition main (o : topts) (args : list string) (l : list (list tev)) : mres (tst * bool) := mdo s <- start o args;; loop o s l.
