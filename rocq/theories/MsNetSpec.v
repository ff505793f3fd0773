(** Vocabulary for lookups over the network (C61) and --send (C62). *)
From Verif Require Import Base PeerId Db DbSpec Ctrl CtrlSpec MsLookup MsSpec Mdns MdnsSpec Proxy MsServer MsServerSpec MsClient MsClientSpec MsNet.
Local Open Scope string_scope.
Local Open Scope list_scope.
Local Open Scope N_scope.

(** ** Arguments of --send *)
(** a number as strtoll() reads it: blanks, a sign, digits; or nothing, for 0 *)
Definition blank (c : ascii) : Prop := c = " "%char \/ 9 <= N_of_ascii c <= 13.
Definition writes (s : string) (v : Z) : Prop :=
  (s = "" /\ v = 0%Z) \/
  exists b g t, s = (b ++ g ++ t)%string /\ Forall blank (bytes_of b) /\
    ((g = "-" /\ numeral t (- v)) \/ ((g = "" \/ g = "+") /\ numeral t v)).
(** the addresses are the arguments 2 and 4, each may be followed by a port *)
Definition addr_arg (pton : string -> option (bool * list N)) (argv : list string) (i : nat) (v6 : bool) (a : list N) (p : N) : Prop :=
  exists ip, nth_error argv i = Some ip /\ pton ip = Some (v6, a) /\ 1 <= p <= 65535 /\
    match nth_error argv (S i) with Some t => writes t (Z.of_N p) | None => p = 2342 end.
(** the address of a family that is sent: the last one *)
Definition addr_given (pton : string -> option (bool * list N)) (argv : list string) (v6 : bool) (h : option (list N * N)) : Prop :=
  match h with
  | Some (a, p) => addr_arg pton argv 4 v6 a p \/ (addr_arg pton argv 2 v6 a p /\ forall b r, ~ addr_arg pton argv 4 v6 b r)
  | None => forall i b r, (i = 2 \/ i = 4)%nat -> ~ addr_arg pton argv i v6 b r
  end.
Definition given (pton : string -> option (bool * list N)) (argv : list string) (q : query) (x : lresult) : Prop :=
  exists qs age, nth_error argv 0 = Some qs /\ nth_error argv 1 = Some age /\ names_query qs q /\ writes age (Z.of_N (lr_age x)) /\ lr_age x < 4294967296 /\
    addr_given pton argv false (lr_v4 x) /\ addr_given pton argv true (lr_v6 x).
(** every address that is given is valid *)
Definition addrs_valid (pton : string -> option (bool * list N)) (argv : list string) : Prop :=
  forall i, (i = 2 \/ i = 4)%nat -> nth_error argv i <> None -> exists v6 a p, addr_arg pton argv i v6 a p.
(** texts of addresses are read as 4 or 16 octets *)
Definition reads_addrs (pton : string -> option (bool * list N)) : Prop :=
  forall t v6 a, pton t = Some (v6, a) -> length a = (if v6 then 16 else 4)%nat /\ Forall (fun x => x < 256) a.

(** ** The network *)
(** an HLR in this state answers this *)
Definition answers (y : msrv) (now : Z) (c : list pent) (f : sched) (d : db) (q : query) (x : lresult) : Prop :=
  exists y' v4 v6 age, run_out (mslookup_server_rx y now c q) f d = Fin (y', Found v4 v6 age) /\ x = mk_result (host_of v4) (host_of v6) (Z.to_N age).
(** [x] was said of [q], by an HLR or by the user of --send *)
Definition told (l : list nev) (q : query) (x : lresult) : Prop :=
  (exists k y now c f d, In (NServe k y now c f d) l /\ answers y now c f d q x) \/ (exists pton argv, In (NSend pton argv) l /\ given pton argv q x).

(** addresses of the right length with a port, each family in its place *)
Definition sa_fits (v6 : bool) (a : sa) : Prop :=
  match a with
  | SaNone => True
  | Sa4 ip p => v6 = false /\ good_host 4 (Some (ip, p))
  | Sa6 ip p => v6 = true /\ good_host 16 (Some (ip, p))
  end.
Definition server_fits (y : msrv) : Prop :=
  (forall m e, In m (y_cfg y) -> In e (m_svcs m) -> sa_fits false (sv_v4 e) /\ sa_fits true (sv_v6 e)) /\
  (sa_fits false (y_bind y) \/ sa_fits true (y_bind y)) /\ sa_fits false (fst (y_static y)) /\ sa_fits true (snd (y_static y)).
(** names of services have the form of domain names, without empty labels, and fit the structures *)
Definition service_fits (s : string) : Prop := dns_name s /\ (String.length s <= 64)%nat.
Definition suffix_fits (s : string) : Prop := dns_name s /\ (String.length s <= 91)%nat.
Definition event_fits (e : nev) : Prop :=
  match e with
  | NClient (CRequest q _ _) => service_fits (lq_service q)
  | NServe _ y _ _ _ _ => server_fits y
  | NSend pton argv => reads_addrs pton /\ forall q x, given pton argv q x -> dns_name (lq_service q)
  | _ => True
  end.
Definition nreqs (l : list nev) : N := N.of_nat (length (filter (fun e => match e with NClient (CRequest _ _ _) => true | _ => false end) l)).
(** [s] is reached by a history of such events, with less than 2^32 requests so that handles do not come up again *)
Definition net_run (suffix : string) (id : N) (l : list nev) (s : nst) : Prop :=
  suffix_fits suffix /\ id < 65536 /\ Forall event_fits l /\ nreqs l <= 4294967295 /\ nrun suffix (n_init id) l = Val s.

(** ** Other networks *)
(** [w] is one of the labels of [s] *)
Definition has_label (s w : string) : Prop :=
  exists a b, (a = "" \/ exists a', a = a' ++ ".")%string /\ (b = "" \/ exists b', b = "." ++ b')%string /\ s = (a ++ w ++ b)%string.
(** a suffix in which no label says what kind of identity comes before it *)
Definition plain_suffix (s : string) : Prop := forall t w, t <> IdNone -> word_for t w -> ~ has_label s w.
