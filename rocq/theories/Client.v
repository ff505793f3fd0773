(** The GSUP client: /repo/src/gsupclient/gsup_client.c *)
From Verif Require Import Base.
Local Open Scope Z_scope.

(** OSMO_GSUP_CLIENT_RECONNECT_INTERVAL, OSMO_GSUP_CLIENT_PING_INTERVAL, gsup_client.h:34-35, seconds *)
Definition RECONNECT_INTERVAL : Z := 1.
Definition PING_INTERVAL : Z := 20.
(** errno values *)
Definition EBADF : Z := 9.
Definition ENOTSOCK : Z := 88.
Definition EAFNOSUPPORT : Z := 97.

(** struct ipa_client_conn of libosmo-abis (assumed): no socket, connecting, connected. *)
Inductive link := LClosed | LConnecting | LUp.
(** What is put into the transmit queue of the link. *)
Inductive item := IPing | IOap | IGsup (g : nat).
(** struct osmo_gsup_client, gsup_client.h:46-64. Timers hold the time they are due at. [c_nr] (ghost) counts the sockets that were
    opened; [c_q] is the transmit queue of the link, each item with the number of the socket it was queued at. *)
Record client := mk_client {
  c_conn : bool; c_pong : bool; c_ct : option Z; c_pt : option Z; c_link : link; c_nr : nat; c_q : list (nat * item) }.
(** Observable: a socket is opened, an attempt to open one failed at once, the socket is closed, an item is queued while the link
    is in some state, an item is written to a socket (number at queueing, number of the socket), up_down_cb() is called, a
    received GSUP message is handed to read_cb(), the user is refused with -ENOTCONN. *)
Inductive cout :=
| OOpen | OOpenFailed (rc : Z) | OClose | OQueue (l : link) (i : item) | OWire (queued socket : nat) (i : item)
| OUpDown (up : bool) | ORead (g : nat) | ORefused (g : nat).

(** The environment of one event: result of ipa_client_conn_open(), the answer of up_down_cb() ([None]: not set), whether
    osmo_oap_client_register() / osmo_oap_client_handle() produce a message. *)
Record cenv := mk_cenv { v_open : Z; v_cb : option bool; v_oap : bool }.

(** Events: the non-blocking connect succeeds or fails, the connection is lost, messages received on the link, timers, the socket is
    writable, osmo_gsup_client_send(). Only those can happen that the state allows. *)
Inductive cevent :=
| CEstablished | CConnectFailed | CLost | CPong | CBadCcm | COtherCcm | CInvalid | CRxGsup (g : nat) | CRxOap
| CConnectTimer | CPingTimer | CWrite | CSend (g : nat).

Definition set_link (c : client) (l : link) : client := mk_client (c_conn c) (c_pong c) (c_ct c) (c_pt c) l (c_nr c) (c_q c).
Definition set_conn (c : client) (b : bool) : client := mk_client b (c_pong c) (c_ct c) (c_pt c) (c_link c) (c_nr c) (c_q c).
Definition set_pong (c : client) (b : bool) : client := mk_client (c_conn c) b (c_ct c) (c_pt c) (c_link c) (c_nr c) (c_q c).
Definition set_ct (c : client) (t : option Z) : client := mk_client (c_conn c) (c_pong c) t (c_pt c) (c_link c) (c_nr c) (c_q c).
Definition set_pt (c : client) (t : option Z) : client := mk_client (c_conn c) (c_pong c) (c_ct c) t (c_link c) (c_nr c) (c_q c).
Definition set_q (c : client) (q : list (nat * item)) : client := mk_client (c_conn c) (c_pong c) (c_ct c) (c_pt c) (c_link c) (c_nr c) q.

(** ipa_client_conn_send(), libosmo-abis (assumed): appends to the queue whatever the state of the link. *)
Definition conn_send (i : item) (c : client) : client * list cout :=
  (set_q c (c_q c ++ [(c_nr c, i)]), [OQueue (c_link c) i]).
(** ipa_client_conn_close(), libosmo-abis (assumed): no updown callback; the queue stays *)
Definition conn_close (c : client) : client * list cout :=
  (set_link c LClosed, match c_link c with LClosed => [] | _ => [OClose] end).
(** ipa_client_conn_open(), libosmo-abis (assumed): a new socket that is connecting, or an error at once and no socket *)
Definition conn_open (rc : Z) (c : client) : client * list cout :=
  if rc <? 0 then (c, [OOpenFailed rc])
  else (mk_client (c_conn c) (c_pong c) (c_ct c) (c_pt c) LConnecting (S (c_nr c)) (c_q c), [OOpen]).

(** gsup_client_connect, gsup_client.c:52-96: return code, state, outputs *)
Definition gsup_client_connect (now : Z) (v : cenv) (c : client) : Z * client * list cout :=
  if c_conn c then (0, c, [])
  else
    let c := set_q (set_pt (set_ct c None) None) [] in
    let '(c, o) := conn_open (v_open v) c in
    let rc := v_open v in
    if 0 <=? rc then (0, c, o)
    else if (rc =? - EBADF) || (rc =? - ENOTSOCK) || (rc =? - EAFNOSUPPORT) || (rc =? - EINVAL) then (rc, c, o)
    else (0, set_ct c (Some (now + RECONNECT_INTERVAL)), o).

(** connect_timer_cb, gsup_client.c:98-112; the timer is no longer pending *)
Definition connect_timer_cb (now : Z) (v : cenv) (c : client) : client * list cout :=
  if c_conn c then (c, [])
  else
    let reconnect o := let '(_, c, o') := gsup_client_connect now v c in (c, o ++ o') in
    match v_cb v with
    | Some b => if b then reconnect [OUpDown false] else (c, [OUpDown false])
    | None => reconnect []
    end.

(** start_test_procedure, gsup_client.c:285-293, with gsup_client_send_ping, 42-50 *)
Definition start_test_procedure (now : Z) (c : client) : client * list cout :=
  conn_send IPing (set_pt (set_pong c false) (Some (now + PING_INTERVAL))).

(** gsup_client_updown_cb, gsup_client.c:150-182, with gsup_client_oap_register, 123-135 *)
Definition gsup_client_updown_cb (now : Z) (v : cenv) (up : bool) (c : client) : client * list cout :=
  let c := set_conn c up in
  if up then
    let '(c, o1) := start_test_procedure now c in
    let '(c, o2) := if v_oap v then conn_send IOap c else (c, []) in
    let c := set_ct c None in
    (c, o1 ++ o2 ++ (if v_cb v then [OUpDown true] else []))
  else
    let c := set_pt c None in
    match v_cb v with
    | Some false => (c, [OUpDown false])
    | Some true => (set_ct c (Some (now + RECONNECT_INTERVAL)), [OUpDown false])
    | None => (set_ct c (Some (now + RECONNECT_INTERVAL)), [])
    end.

(** ping_timer_cb, gsup_client.c:265-283; the timer is no longer pending *)
Definition ping_timer_cb (now : Z) (v : cenv) (c : client) : client * list cout :=
  if c_pong c then start_test_procedure now c
  else
    let '(c, o) := conn_close c in
    let c := set_conn c false in
    let '(_, c, o') := gsup_client_connect now v c in
    (c, o ++ o').

(** osmo_gsup_client_send, gsup_client.c:399-410, with client_send, 114-121 *)
Definition osmo_gsup_client_send (g : nat) (c : client) : client * list cout :=
  if c_conn c then conn_send (IGsup g) c else (c, [ORefused g]).

(** One event; [None]: cannot happen in this state. libosmo-abis (assumed): ipa_client_fd_cb() closes the socket before it calls
    gsup_client_updown_cb(.., 0) when the connect fails or the connection is lost (ipaccess.c); ipaccess_bts_handle_ccm() closes it before it
    returns an error (gsup_client.c:213-223). Messages: gsup_client_read_cb, gsup_client.c:201-263, gsup_client_oap_handle, 184-199. *)
Definition cstep (now : Z) (v : cenv) (e : cevent) (c : client) : option (client * list cout) :=
  let up (r : client * list cout) := match c_link c with LUp => Some r | _ => None end in
  match e with
  | CEstablished => match c_link c with LConnecting => Some (gsup_client_updown_cb now v true (set_link c LUp)) | _ => None end
  | CConnectFailed =>
      match c_link c with
      | LConnecting => let '(c, o) := conn_close c in let '(c, o') := gsup_client_updown_cb now v false c in Some (c, o ++ o')
      | _ => None
      end
  | CLost => up (let '(c, o) := conn_close c in let '(c, o') := gsup_client_updown_cb now v false c in (c, o ++ o'))
  | CPong => up (set_pong c true, [])
  | CBadCcm => up (let '(c, o) := conn_close c in (set_conn c false, o))
  | COtherCcm | CInvalid => up (c, [])
  | CRxGsup g => up (c, [ORead g])
  | CRxOap => up (if v_oap v then conn_send IOap c else (c, []))
  | CConnectTimer =>
      match c_ct c with
      | Some t => if t <=? now then Some (connect_timer_cb now v (set_ct c None)) else None
      | None => None
      end
  | CPingTimer =>
      match c_pt c with
      | Some t => if t <=? now then Some (ping_timer_cb now v (set_pt c None)) else None
      | None => None
      end
  | CWrite => up (match c_q c with [] => (c, []) | (n, i) :: q => (set_q c q, [OWire n (c_nr c) i]) end)
  | CSend g => Some (osmo_gsup_client_send g c)
  end.

(** osmo_gsup_client_create3, gsup_client.c:303-348, after the allocations: [None] if it fails and everything is freed. *)
Definition client0 : client := mk_client false false None None LClosed 0 [].
Definition client_create (now : Z) (v : cenv) : option (client * list cout) :=
  let '(rc, c, o) := gsup_client_connect now v client0 in
  if rc <? 0 then None else Some (c, o).

(** A history until osmo_gsup_client_destroy() (386-397), which removes both timers and the link, so that nothing happens later. Each
    event with its time. The trace, oldest first, has the time, the event ([None]: creation) and the outputs. *)
Definition trace := list (Z * option cevent * list cout).
Fixpoint chist (l : list (Z * cenv * cevent)) (c : client) (tr : trace) : option (client * trace) :=
  match l with
  | [] => Some (c, tr)
  | (now, v, e) :: l =>
      match cstep now v e c with
      | Some (c, o) => chist l c (tr ++ [(now, Some e, o)])
      | None => None
      end
  end.
Definition crun (now : Z) (v : cenv) (l : list (Z * cenv * cevent)) : option (client * trace) :=
  match client_create now v with
  | Some (c, o) => chist l c [(now, None, o)]
  | None => None
  end.
