(** C71: command lines of osmo-mslookup-client and osmo-euse-demo. *)
From Verif Require Import Base Ctrl Mdns Main MainSpec Cmd.
From Verif Require MsNetSpec MsTool.
Local Open Scope string_scope. Local Open Scope N_scope.

(** osmo-mslookup-client.c:135-180; -V, as in the other programs, is not in the help *)
Definition look_documented : list (ascii * string * bool) := [
  ("f"%char, "format", true); ("H"%char, "no-csv-headers", false); ("d"%char, "daemon", false); ("m"%char, "mdns-ip", true); ("M"%char, "mdns-port", true);
  ("D"%char, "mdns-domain-suffix", true); ("t"%char, "min-delay", true); ("T"%char, "timeout", true); ("s"%char, "socket", true); ("S"%char, "send", false);
  ("q"%char, "quiet", false); ("h"%char, "help", false); ("V"%char, "version", false)].

(** the argument can be used: an address that has not only zeros, a port, a number of milliseconds *)
Record usable (pton : string -> option (bool * list N)) (e : gev) : Prop := {
  us_ip : fst e = RChar "m" -> exists t v6 a, snd e = Some t /\ pton t = Some (v6, a) /\ exists b, In b a /\ b <> 0;
  us_port : fst e = RChar "M" -> exists t v, snd e = Some t /\ MsNetSpec.writes t v /\ (1 <= v <= 65535)%Z;
  us_ms : fst e = RChar "t" \/ fst e = RChar "T" -> exists t v, snd e = Some t /\ MsNetSpec.writes t v /\ (0 <= v < 2 ^ 32)%Z }.
(** options after which nothing else is looked at *)
Definition stops (pton : string -> option (bool * list N)) (e : gev) : Prop := fst e = RChar "h" \/ fst e = RChar "V" \/ ~ usable pton e.
(** the number that a text says, or the default *)
Definition number_of (x : option string) (d n : N) : Prop := match x with Some t => MsNetSpec.writes t (Z.of_N n) | None => n = d end.
(** what osmo-mslookup-client is to do, in the words of its help *)
Record look_asked (l : list gev) (o : lopts) : Prop := {
  la_daemon : k_daemon o = true <-> given l "d"%char;
  la_head : k_head o = false <-> given l "H"%char;
  la_send : k_send o = true <-> given l "S"%char;
  la_quiet : k_quiet o = true <-> given l "q"%char;
  la_fmt : last_given l "f"%char None (k_fmt o);
  la_sock : last_given l "s"%char None (k_sock o);
  la_suffix : last_given l "D"%char (Some "mdns.osmocom.org") (Some (k_suffix o));
  la_ip : last_given l "m"%char (Some "239.192.23.42") (Some (k_ip o));
  la_port : exists x, last_given l "M"%char None x /\ number_of x 4266 (k_port o);
  la_min : exists x, last_given l "t"%char None x /\ number_of x 1000 (k_min o);
  la_tmo : exists x, last_given l "T"%char None x /\ number_of x 1000 (k_tmo o) }.
(** the format: a beginning of its name will do *)
Definition format_named (x : option string) (f : MsTool.fmt) : Prop :=
  match x with
  | None => f = MsTool.Csv
  | Some t => (f = MsTool.Json /\ begins t "json") \/ (f = MsTool.Csv /\ begins t "csv" /\ t <> "")
  end.
(** nothing speaks against looking up [ws] *)
Record startable (e : lenv) (o : lopts) (ws : list string) : Prop := {
  st_work : ws <> [] \/ k_daemon o = true;
  st_tmo : k_daemon o = true -> k_tmo o <> 0;
  st_fmt : exists f, format_named (k_fmt o) f;
  st_mdns : e_mdns e (k_ip o) (k_port o) = true;
  st_sock : forall p, k_sock o = Some p -> e_sock e p = true }.
(** the options of the running program *)
Record runs_with (e : lenv) (o : lopts) (t : MsTool.topts) : Prop := {
  rw_daemon : MsTool.o_daemon t = k_daemon o;
  rw_min : MsTool.o_min t = k_min o;
  rw_tmo : MsTool.o_tmo t = k_tmo o;
  rw_fmt : format_named (k_fmt o) (MsTool.o_fmt t);
  rw_head : MsTool.o_head t = k_head o;
  rw_ntop : MsTool.o_ntop t = e_ntop e }.
