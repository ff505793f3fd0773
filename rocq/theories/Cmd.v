(** Command lines of osmo-mslookup-client, /repo/src/mslookup/osmo-mslookup-client.c, and osmo-euse-demo, /repo/src/osmo-euse-demo.c. What these programs
    do once they run is in MsTool.v, MsNet.v and Euse.v; getopt_long() is in Main.v. *)
From Verif Require Import Base Ctrl Mdns Main.
From Verif Require MsNet MsTool.
Local Open Scope string_scope. Local Open Scope N_scope.

(** ** osmo-mslookup-client *)
(** osmo-mslookup-client.c:741-756, 767 *)
Definition look_shorts : list (ascii * bool) :=
  [("f", true); ("H", false); ("d", false); ("m", true); ("M", true); ("D", true); ("t", true); ("T", true); ("s", true); ("S", false); ("q", false); ("h", false); ("V", false)]%char.
Definition look_longs : list lopt := [
  mk_lopt "format" true (RChar "f"); mk_lopt "no-csv-headers" false (RChar "H"); mk_lopt "daemon" false (RChar "d"); mk_lopt "mdns-ip" true (RChar "m");
  mk_lopt "mdns-port" true (RChar "M"); mk_lopt "mdns-domain-suffix" true (RChar "D"); mk_lopt "timeout" true (RChar "T"); mk_lopt "min-delay" true (RChar "t");
  mk_lopt "socket" true (RChar "s"); mk_lopt "send" false (RChar "S"); mk_lopt "quiet" false (RChar "q"); mk_lopt "help" false (RChar "h"); mk_lopt "version" false (RChar "V")].
(** cmdline_opts, osmo-mslookup-client.c:198-215; mslookup_client_mdns.h:28-30, mdns.h:26 *)
Record lopts := mk_lopts { k_daemon : bool; k_ip : string; k_port : N; k_min : N; k_tmo : N; k_sock : option string; k_fmt : option string;
  k_suffix : string; k_head : bool; k_send : bool; k_quiet : bool }.
Definition lopts0 : lopts := mk_lopts false "239.192.23.42" 4266 1000 1000 None None "mdns.osmocom.org" true false false.
(** what is written to stderr: by getopt_long() itself, or with print_error(), osmo-mslookup-client.c:217-220 *)
Inductive lmsg := MLibrary | MOptions | MValue (c : ascii) | MListening | MSend | MTimeout | MFormat | MMdns | MSocket.
Definition say (o : lopts) (m : lmsg) : list lmsg := if k_quiet o then [] else [m].
(** how far the program came; [LRan s false]: it still runs *)
Inductive lend :=
| LHelp | LVersion | LBad | LUsage | LTimeout | LFormat | LMdns | LSocket
| LSent (rc : Z) (p : option (list N)) | LRan (s : MsTool.tst) (ended : bool).
(** exit status: rc of main, osmo-mslookup-client.c:723, 813, 817, 831, 887 *)
Definition look_status (x : lend) : option Z :=
  match x with
  | LHelp | LVersion => Some 0%Z
  | LBad | LUsage | LTimeout | LFormat | LMdns | LSocket => Some 1%Z
  | LSent rc _ => Some rc
  | LRan _ b => if b then Some 0%Z else None
  end.

(** One option, osmo-mslookup-client.c:772-824; [pton] is what osmo_sockaddr_str_from_str() makes of a text. *)
Definition look_option (pton : string -> option (bool * list N)) (o : lopts) (e : gev) : lopts + (lend * list lmsg) :=
  let arg := opt_default "" (snd e) in
  let '(mk_lopts dm ip port mn tm sock fm sfx hd sn qt) := o in
  let bad c := inr (LBad, say o (MValue c)) in
  match fst e with
  | RChar "f" => inl (mk_lopts dm ip port mn tm sock (Some arg) sfx hd sn qt)
  | RChar "H" => inl (mk_lopts dm ip port mn tm sock fm sfx false sn qt)
  | RChar "d" => inl (mk_lopts true ip port mn tm sock fm sfx hd sn qt)
  | RChar "m" => match pton arg with
                 | Some (_, a) => if ((port =? 0) || forallb (fun b => b =? 0) a)%N then bad "m"
                                  else inl (mk_lopts dm arg port mn tm sock fm sfx hd sn qt)
                 | None => bad "m"
                 end
  | RChar "M" => match MsNet.parse_in 1 65535 arg with Some n => inl (mk_lopts dm ip n mn tm sock fm sfx hd sn qt) | None => bad "M" end
  | RChar "D" => inl (mk_lopts dm ip port mn tm sock fm arg hd sn qt)
  | RChar "t" => match MsNet.parse_in 0 4294967295 arg with Some n => inl (mk_lopts dm ip port n tm sock fm sfx hd sn qt) | None => bad "t" end
  | RChar "T" => match MsNet.parse_in 0 4294967295 arg with Some n => inl (mk_lopts dm ip port mn n sock fm sfx hd sn qt) | None => bad "T" end
  | RChar "s" => inl (mk_lopts dm ip port mn tm (Some arg) fm sfx hd sn qt)
  | RChar "S" => inl (mk_lopts dm ip port mn tm sock fm sfx hd true qt)
  | RChar "q" => inl (mk_lopts dm ip port mn tm sock fm sfx hd sn true)
  | RChar "h" => inr (LHelp, [])
  | RChar "V" => inr (LVersion, [])
  | _ => inr (LBad, say o MOptions)
  end%char.
Fixpoint look_options (pton : string -> option (bool * list N)) (o : lopts) (l : list gev) (words : option (list string)) : lopts * list string + (lend * list lmsg) :=
  match l with
  | [] => match words with None => inr (LBad, (MLibrary :: say o MOptions)) | Some w => inl (o, w) end
  | e :: l => match look_option pton o e with inl o => look_options pton o l words | inr x => inr x end
  end.
(** what is outside: texts of addresses, whether the mDNS socket for address and port and the unix socket can be opened *)
Record lenv := mk_lenv { e_pton : string -> option (bool * list N); e_ntop : list N -> string; e_mdns : string -> N -> bool; e_sock : string -> bool }.
(** the options, osmo-mslookup-client.c:735-825 *)
Definition look_args (e : lenv) (args : list string) : lopts * list string + (lend * list lmsg) :=
  let '(l, words) := getopt look_shorts look_longs args in look_options (e_pton e) lopts0 l words.
(** osmo_str_startswith(), libosmocore, with the arguments of osmo-mslookup-client.c:848-857 *)
Definition look_format (f : option string) : option MsTool.fmt :=
  match f with
  | None => Some MsTool.Csv
  | Some f => if prefix f "json" then Some MsTool.Json else if prefix f "csv" then Some MsTool.Csv else None
  end.
(** main, osmo-mslookup-client.c:827-894; [b] is what befalls the program once it runs. Output of the lookup itself to stderr is left out. *)
Definition look_main (e : lenv) (args : list string) (b : list (list MsTool.tev)) : mres (lend * list lmsg) :=
  match look_args e args with
  | inr x => Val x
  | inl (o, ws) =>
      if k_send o then
        (let m := if k_daemon o || is_some (k_fmt o) || is_some (k_sock o) then say o MListening else [] in
        mdo r <- (if e_mdns e (k_ip o) (k_port o) then MsNet.do_send (e_pton e) (k_suffix o) ws else Val (1%Z, None));;
        Val (LSent (fst r) (snd r), (m ++ if (fst r =? 0)%Z then [] else say o MSend)%list))
      else if negb (k_daemon o) && match ws with [] => true | _ => false end then Val (LUsage, [])
      else if k_daemon o && (k_tmo o =? 0) then Val (LTimeout, say o MTimeout)
      else
        match look_format (k_fmt o) with
        | None => Val (LFormat, say o MFormat)
        | Some f =>
            if negb (e_mdns e (k_ip o) (k_port o)) then Val (LMdns, say o MMdns)
            else if negb match k_sock o with Some p => e_sock e p | None => true end then Val (LSocket, say o MSocket)
            else
              mdo r <- MsTool.main (MsTool.mk_topts (k_daemon o) (k_min o) (k_tmo o) f (k_head o) (e_ntop e)) ws b;;
              Val (LRan (fst r) (snd r), [])
        end
  end.

(** ** osmo-euse-demo *)
(** main, osmo-euse-demo.c:211-239: [None]: the usage is printed; or the HLR it connects to. OSMO_GSUP_PORT is 4222. *)
Definition demo_main (args : list string) : option (string * N) :=
  match args with
  | [] => Some ("127.0.0.1", 4222)
  | a :: r =>
      if (a =? "--help")%string || (a =? "-h")%string then None
      else Some (a, match r with [] => 4222 | p :: _ => Z.to_N (atoi p mod 65536) end)
  end.
