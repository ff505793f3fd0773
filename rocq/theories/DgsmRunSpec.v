(** Vocabulary for the mDNS server and client of the HLR (C63). *)
From Verif Require Import Base PeerId Db Auth Gsup Router Hlr UssdCfg SmsCfg MsLookup Mdns Proxy MsServer Ctrl Config DgsmRun.
Local Open Scope string_scope.
Local Open Scope list_scope.

(** what is configured to run: where and with which suffix *)
Definition srv_wanted (c : conf) (a : sa) (w : string) : Prop :=
  sr_on (f_srv c) = true /\ sr_mdns (f_srv c) = true /\ sr_bind (f_srv c) = a /\ sr_suffix (f_srv c) = w.
Definition cli_wanted (c : conf) (a : sa) (w : string) : Prop :=
  cl_on (f_cli c) = true /\ cl_mdns (f_cli c) = true /\ cl_query (f_cli c) = a /\ cl_suffix (f_cli c) = w.
(** what runs *)
Definition srv_runs (s : drun) (a : sa) (w : string) : Prop := dr_srv s = Some (a, w).
Definition cli_runs (s : drun) (a : sa) (w : string) : Prop := exists g, dr_cli s = Some (a, w, g).
(** everything that is configured runs, once the program has started *)
Definition srv_up (s : drun) : Prop := dr_allow s = true -> forall a w, srv_wanted (dr_conf s) a w -> srv_runs s a w.
Definition cli_up (s : drun) : Prop := dr_allow s = true -> forall a w, cli_wanted (dr_conf s) a w -> cli_runs s a w.
(** a socket can be opened for what is configured *)
Definition can_open (o : os) (s : drun) : Prop :=
  (forall a w, srv_wanted (dr_conf s) a w -> sock_init o a = true) /\ (forall a w, cli_wanted (dr_conf s) a w -> sock_init o a = true /\ os_rand o = true).
(** that is so at each event of a history *)
Fixpoint opens (e : venv) (s : drun) (l : list (os * runev)) : Prop :=
  match l with
  | [] => True
  | x :: r => match rstep e s x with Val s' => can_open (fst x) s' /\ opens e s' r | Bad => True end
  end.
(** commands that replace the suffix of the client *)
Definition sets_cli_suffix (x : runev) : Prop := exists f n w, (n = NdMs \/ n = NdClient) /\ x = RCmd f n ["mdns"; "domain-suffix"; w].
(** notes on the server, notes on the client *)
Definition on_srv (n : dnote) : bool := match n with SrvStart _ _ | SrvFail _ | SrvStop => true | _ => false end.
(** what the kernel accepts as a group to join: an IPv4 multicast address (224.0.0.0/4) *)
Definition joins_multicast (o : os) : Prop := forall g, os_join o g = true -> exists x r, g = x :: r /\ (224 <= x <= 239)%N.
