(** Lookup client: /repo/src/mslookup/mslookup_client.c and the bookkeeping of mslookup_client_mdns.c.

    The client runs in the main loop of a process; results, timers and the user call into it one at a time. The user's callback can call
    back into the client before it returns, so a state has a stack of callbacks that are running. Not modelled: adding and removing
    lookup methods while requests are open, freeing of the client. Times are in milliseconds. *)
From Verif Require Import Base MsLookup Mdns.
Local Open Scope N_scope.

(** enum osmo_mslookup_result_code, mslookup.h:55-61 *)
Inductive rcode := RcNone | RcResult | RcNotFound.

(** struct osmo_mslookup_client_request, mslookup_client.c:31-42. [q_uid] is the identity of the object in memory. [q_timer] is the time at which the
    timer is due, [None]: not running. *)
Record req := mk_req {
  q_uid : N; q_handle : N; q_query : query; q_min : N; q_tmo : N;
  q_waiting : bool; q_rc : rcode; q_res : lresult; q_timer : option N }.
Definition q_with_result (r : req) (rc : rcode) (x : lresult) : req :=
  mk_req (q_uid r) (q_handle r) (q_query r) (q_min r) (q_tmo r) (q_waiting r) rc x (q_timer r).
Definition q_with_waiting (r : req) (w : bool) : req :=
  mk_req (q_uid r) (q_handle r) (q_query r) (q_min r) (q_tmo r) w (q_rc r) (q_res r) (q_timer r).
Definition q_with_timer (r : req) (t : option N) : req :=
  mk_req (q_uid r) (q_handle r) (q_query r) (q_min r) (q_tmo r) (q_waiting r) (q_rc r) (q_res r) t.

(** What happened, for the specification: requests, results handed in for a request by a lookup method, calls of the user's callback, requests
    cancelled by the user; each with the time. *)
Inductive note :=
| TStart (u : N) (q : query) (min tmo : N) (t : N)
| TRes (u : N) (q : query) (rc : rcode) (x : lresult) (t : N)
| TCall (u : N) (rc : rcode) (x : lresult) (last : bool) (t : N)
| TCancel (u : N) (t : N).

(** What is left to be done when a callback returns: nothing, start the timer of a request (timeout_cb), the rest of osmo_mslookup_client_request *)
Inductive after := ADone | ATimer (u ms : N) | ARequest (r : req).
Record frame := mk_frame { f_handle : N; f_finish : bool; f_after : after }.

(** struct osmo_mslookup_client, mslookup_client.c:23-27; c_mdns: the list of requests of the mDNS method, mslookup_client_mdns.c:45-50, newest first *)
Record cst := mk_cst {
  c_reqs : list req; c_next : N; c_uid : N; c_mdns : list (N * query); c_now : N; c_stack : list frame; c_trace : list note }.
Definition c_with_reqs (s : cst) (l : list req) : cst := mk_cst l (c_next s) (c_uid s) (c_mdns s) (c_now s) (c_stack s) (c_trace s).
Definition c_with_mdns (s : cst) (l : list (N * query)) : cst := mk_cst (c_reqs s) (c_next s) (c_uid s) l (c_now s) (c_stack s) (c_trace s).
Definition c_with_stack (s : cst) (l : list frame) : cst := mk_cst (c_reqs s) (c_next s) (c_uid s) (c_mdns s) (c_now s) l (c_trace s).
Definition c_note (s : cst) (n : note) : cst := mk_cst (c_reqs s) (c_next s) (c_uid s) (c_mdns s) (c_now s) (c_stack s) (n :: c_trace s).
Definition c_init : cst := mk_cst [] 0 0 [] 0 [] [].

(** get_request, mslookup_client.c:44-54 *)
Definition get_request (s : cst) (h : N) : option req :=
  if h =? 0 then None else find (fun r => q_handle r =? h) (c_reqs s).
(** change of one object in the list *)
Definition put_req (s : cst) (r : req) : cst := c_with_reqs s (map (fun r' => if q_uid r' =? q_uid r then r else r') (c_reqs s)).

(** removal of the first entry with the handle: mdns_method_request_cleanup, mslookup_client_mdns.c:127-140 *)
Fixpoint mdns_cleanup (h : N) (l : list (N * query)) : list (N * query) :=
  match l with [] => [] | (h', q) :: r => if h' =? h then r else (h', q) :: mdns_cleanup h r end.
(** _osmo_mslookup_client_request_cleanup, mslookup_client.c:176-187 *)
Definition cleanup (s : cst) (r : req) : cst :=
  c_with_reqs (c_with_mdns s (mdns_cleanup (q_handle r) (c_mdns s))) (filter (fun r' => negb (q_uid r' =? q_uid r)) (c_reqs s)).
(** osmo_mslookup_client_request_cancel, mslookup_client.c:304-310 *)
Definition cancel (s : cst) (h : N) : cst := match get_request s h with None => s | Some r => cleanup s r end.

(** osmo_mslookup_request_send_result, mslookup_client.c:127-139, up to the call of result_cb *)
Definition send_result (s : cst) (r : req) (finish : bool) (a : after) : cst :=
  let s := c_note s (TCall (q_uid r) (q_rc r) (q_res r) finish (c_now s)) in
  c_with_stack s (mk_frame (q_handle r) finish a :: c_stack s).

(** osmo_mslookup_client_rx_result, mslookup_client.c:141-174 *)
Definition rx_result (s : cst) (h : N) (rc : rcode) (x : lresult) : cst :=
  match get_request s h with
  | None => s
  | Some r =>
      let s := c_note s (TRes (q_uid r) (q_query r) rc x (c_now s)) in
      match rc with
      | RcResult =>
          if match q_rc r with RcResult => lr_age (q_res r) <=? lr_age x | _ => false end then s
          else
            let r := q_with_result r RcResult x in
            let s := put_req s r in
            if lr_age x =? 0 then send_result s r true ADone
            else if q_waiting r then s
            else send_result s r false ADone
      | _ => s
      end
  end.
(** request_handle_by_query and mdns_method_recv, mslookup_client_mdns.c:52-95, for a packet that decodes to this query and result *)
Definition rx_answer (s : cst) (q : query) (x : lresult) : cst :=
  match find (fun e => query_eqb (snd e) q) (c_mdns s) with
  | None => s
  | Some (h, _) => rx_result s h RcResult x
  end.

(** timeout_cb, mslookup_client.c:197-231 *)
Definition timeout (s : cst) (r : req) : cst :=
  let r := q_with_timer r None in
  if q_waiting r then
    let r := q_with_waiting r false in
    if q_tmo r <=? q_min r then
      let r := match q_rc r with RcResult => r | _ => q_with_result r RcNotFound (q_res r) end in
      send_result (put_req s r) r true ADone
    else
      let ms := q_tmo r - q_min r in
      match q_rc r with
      | RcResult => send_result (put_req s r) r false (ATimer (q_uid r) ms)
      | _ => put_req s (q_with_timer r (Some (c_now s + ms)))
      end
  else
    let r := q_with_result r (match q_rc r with RcResult => RcNone | _ => RcNotFound end) (q_res r) in
    send_result (put_req s r) r true ADone.

(** osmo_mslookup_client_request, mslookup_client.c:283-297, and mdns_method_request, mslookup_client_mdns.c:97-125 (the packet that is sent is not
    modelled here; sending does not call back) *)
Definition request_add (s : cst) (r : req) : cst :=
  let w := negb (q_min r =? 0) in
  let r := q_with_timer (q_with_waiting r w) (Some (c_now s + (if w then q_min r else q_tmo r))) in
  c_with_mdns (c_with_reqs s (c_reqs s ++ [r])) ((q_handle r, q_query r) :: c_mdns s).
(** osmo_mslookup_client_request, mslookup_client.c:238-281; the handle has 32 bit *)
Definition request (s : cst) (q : query) (min tmo : N) : cst :=
  if negb (service_valid (lq_service q)) || negb (id_valid (lq_type q) (lq_id q)) then s
  else
    let h := if c_next s =? 0 then 1 else c_next s in
    let tmo := if tmo =? 0 then min else tmo in
    let tmo := if tmo =? 0 then 1000 else tmo in
    let r := mk_req (c_uid s) h q min tmo false RcNone (mk_result None None 0) None in
    let s := mk_cst (c_reqs s) ((h + 1) mod 4294967296) (c_uid s + 1) (c_mdns s) (c_now s) (c_stack s) (TStart (c_uid s) q min tmo (c_now s) :: c_trace s) in
    match find (fun r' => q_handle r' =? h) (c_reqs s) with
    | Some other => send_result s other true (ARequest r)
    | None => request_add s r
    end.

(** The callback returns: the rest of osmo_mslookup_request_send_result, and of its caller. [Bad]: the timer of a freed request is set
    (set_timer, mslookup_client.c:191-195, 216). *)
Definition return_cb (s : cst) (f : frame) : mres cst :=
  let s := if f_finish f then cancel s (f_handle f) else s in
  match f_after f with
  | ADone => Val s
  | ATimer u ms => match find (fun r => q_uid r =? u) (c_reqs s) with
                   | None => Bad
                   | Some r => Val (put_req s (q_with_timer r (Some (c_now s + ms))))
                   end
  | ARequest r => Val (request_add s r)
  end.

(** Events. Results, answers, timers and the passing of time are only seen by the main loop, that is, when no callback runs. *)
Inductive cev :=
| CRequest (q : query) (min tmo : N)
| CCancel (h : N)
| CReturn
| CResult (h : N) (rc : rcode) (x : lresult)
| CAnswer (q : query) (x : lresult)
| CTimer (u : N)
| CTick (ms : N).
Definition cstep (s : cst) (e : cev) : mres cst :=
  match e, c_stack s with
  | CRequest q min tmo, _ => Val (request s q min tmo)
  | CCancel h, _ => Val (match get_request s h with None => s | Some r => c_note (cleanup s r) (TCancel (q_uid r) (c_now s)) end)
  | CReturn, [] => Val s
  | CReturn, f :: st => return_cb (c_with_stack s st) f
  | _, _ :: _ => Val s
  | CResult h rc x, [] => Val (rx_result s h rc x)
  | CAnswer q x, [] => Val (rx_answer s q x)
  | CTimer u, [] =>
      match find (fun r => q_uid r =? u) (c_reqs s) with
      | None => Val s
      | Some r => match q_timer r with
                  | Some t => if t <=? c_now s then Val (timeout s r) else Val s
                  | None => Val s
                  end
      end
  | CTick ms, [] => Val (mk_cst (c_reqs s) (c_next s) (c_uid s) (c_mdns s) (c_now s + ms) [] (c_trace s))
  end.
Fixpoint crun (s : cst) (l : list cev) : mres cst :=
  match l with [] => Val s | e :: r => mdo s' <- cstep s e;; crun s' r end.
