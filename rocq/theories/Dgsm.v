(** D-GSM: requests for subscribers of other HLRs are passed on to these.
    /repo/src/dgsm.c, /repo/src/proxy.c, /repo/src/remote_hlr.c and read_cb of /repo/src/hlr.c. *)
From Verif Require Import Base PeerId Db Auth Gsup Router Hlr Mdns Proxy.

(** ** State *)
(** struct remote_hlr, remote_hlr.h:39-44: address, whether the GSUP client is connected, number of entries of pending_up_callbacks
    (all with proxy_remote_hlr_connect_result_cb). *)
Record rem := mk_rem { rm_addr : sa; rm_up : bool; rm_cbs : nat }.
(** struct proxy, proxy.h:30-38 (subscr_list, pending_gsup_reqs), remote_hlrs (remote_hlr.c:32), the IMSIs of the lookups that resolve_hlr_result_cb
    has not been called for yet, and of g_hlr: whether the lookup client is active, gsup_gateway_proxy, no_proxy_reject_cause. *)
Record dgst := mk_dgst {
  z_cache : list pent; z_wait : list req; z_rems : list rem; z_look : list string;
  z_active : bool; z_gw : sa; z_cause : Z }.
Definition dgst0 : dgst := mk_dgst [] [] [] [] false SaNone CAUSE_NET_FAIL.
Definition z_with_cache (z : dgst) (c : list pent) : dgst := mk_dgst c (z_wait z) (z_rems z) (z_look z) (z_active z) (z_gw z) (z_cause z).
Definition z_with_wait (z : dgst) (l : list req) : dgst := mk_dgst (z_cache z) l (z_rems z) (z_look z) (z_active z) (z_gw z) (z_cause z).
Definition z_with_rems (z : dgst) (l : list rem) : dgst := mk_dgst (z_cache z) (z_wait z) l (z_look z) (z_active z) (z_gw z) (z_cause z).
Definition z_with_look (z : dgst) (l : list string) : dgst := mk_dgst (z_cache z) (z_wait z) (z_rems z) l (z_active z) (z_gw z) (z_cause z).

(** What is done, in a log: by the HLR itself; a request is taken over by the proxy, forwarded to a remote HLR, ended with an answer (or freed); a
    message of a remote HLR is sent on a connection; an error is returned to a remote HLR; the cache entry of an IMSI is removed. *)
Inductive dout :=
| DLoc (o : out)
| DTake (q : req)
| DFwd (nr : nat) (a : sa) (g : gsup)
| DAns (o : out)
| DTx (from : sa) (conn : nat) (g : gsup)
| DErr (a : sa) (g : gsup)
| DGone (imsi : string).

(** What the outside decides: the clock, and whether osmo_gsup_client_create3() succeeds for an address *)
Record dworld := mk_dw { dw_w : world; dw_now : Z; dw_ok : sa -> bool }.

Section Functions.
Context (k : cfg) (x : dworld) (s : hst).

(** timestamp_update() *)
Definition stamp : Z := timestamp_now (k_tz k) (dw_now x).
Definition store (z : dgst) (p : psub) : dgst := z_with_cache z (cache_update (z_cache z) p stamp).

(** ** Remote HLRs *)
Definition find_rem (z : dgst) (a : sa) : option rem := find (fun r => sa_eqb (rm_addr r) a) (z_rems z).
(** change of the first remote HLR with this address *)
Fixpoint edit_rem (l : list rem) (a : sa) (f : rem -> option rem) : list rem :=
  match l with
  | [] => []
  | r :: l' => if sa_eqb (rm_addr r) a then (match f r with Some r' => r' :: l' | None => l' end) else r :: edit_rem l' a f
  end.
(** remote_hlr_is_up, remote_hlr.c:128-131, [None]: NULL *)
Definition is_up (r : option rem) : bool := match r with Some r => rm_up r | None => false end.

(** remote_hlr_gsup_forward_to_remote_hlr, remote_hlr.c:222-252, to a remote HLR that is up *)
Definition gsup_forward (a : sa) (q : req) : list dout :=
  let err := map DAns (respond_err (tx k s) q CAUSE_NET_FAIL) in
  if negb (is_ipa (q_src q)) then err
  else let g := with_src (q_gsup q) (ipa_bytes (p_ipa (q_src q))) in
       if k_enc k g then [DFwd (q_nr q) a g] else err.

(** proxy_pending_req_remote_hlr_connect_result, proxy.c:81-101 *)
Definition connect_result (z : dgst) (q : req) (r : option rem) : list dout :=
  match r with
  | Some (mk_rem a true _) => gsup_forward a q
  | _ => map DAns (if g_type (q_gsup q) =? MSGT_CHECK_IMEI_REQUEST
                   then snd (respond (tx k s) q (with_ext (msg0 MSGT_CHECK_IMEI_RESULT)
                               (mk_ext None None 0 0 [] None true None [] PlNone None None None [])) false true)
                   else respond_err (tx k s) q (z_cause z))
  end.

(** ** Deferred requests *)
Definition of_imsi (imsi : string) (q : req) : bool := (g_imsi (q_gsup q) =? imsi)%string.
(** proxy_deferred_gsup_req_add, proxy.c:70-79 *)
Definition defer (z : dgst) (q : req) : dgst := z_with_wait z (z_wait z ++ [q]).
(** proxy_deferred_gsup_req_waiting, proxy.c:103-114 *)
Definition waiting (z : dgst) (imsi : string) : bool := existsb (of_imsi imsi) (z_wait z).
(** proxy_deferred_gsup_req_pop, proxy.c:118-132 *)
Definition pop (z : dgst) (imsi : string) (r : option rem) : dgst * list dout :=
  (z_with_wait z (filter (fun q => negb (of_imsi imsi q)) (z_wait z)),
   flat_map (fun q => connect_result z q r) (filter (of_imsi imsi) (z_wait z))).
(** proxy_remote_hlr_connect_result_cb, proxy.c:427-439 *)
Fixpoint connect_cb (z : dgst) (l : list pent) (a : sa) (r : option rem) : dgst * list dout :=
  match l with
  | [] => (z, [])
  | e :: l' =>
      let '(z1, o1) := if sa_eqb a (ps_addr (pe_sub e)) then pop z (ps_imsi (pe_sub e)) r else (z, []) in
      let '(z2, o2) := connect_cb z1 l' a r in (z2, o1 ++ o2)
  end.
(** proxy_subscr_del, proxy.c:210-218 *)
Definition subscr_del (z : dgst) (imsi : string) : dgst * list dout :=
  let '(z, o) := pop z imsi None in (z_with_cache z (cache_del (z_cache z) imsi), o ++ [DGone imsi]).

(** remote_hlr_get_or_connect, remote_hlr.c:133-200, with connect and proxy_remote_hlr_connect_result_cb. A new client is not connected yet. *)
Definition connect (z : dgst) (a : sa) : dgst * list dout :=
  match find_rem z a with
  | Some r => if rm_up r then connect_cb z (z_cache z) a (Some r)
              else (z_with_rems z (edit_rem (z_rems z) a (fun r => Some (mk_rem (rm_addr r) (rm_up r) (S (rm_cbs r))))), [])
  | None => if dw_ok x a then (z_with_rems z (mk_rem a false 1 :: z_rems z), []) else connect_cb z (z_cache z) a None
  end.

(** ** Proxy *)
(** proxy_acknowledge_gsup_to_remote_hlr, proxy.c:272-327; [None]: not allowed *)
Definition with_prelim (d : pdom) (n : ipa_name) : pdom := mk_pdom (pd_name d) (pd_lu d) n (pd_via d).
Definition ack_to_remote (z : dgst) (p : psub) (q : req) : option dgst :=
  if negb (is_ipa (q_src q)) then None
  else if g_type (q_gsup q) =? MSGT_UPDATE_LOCATION_REQUEST then
    let n := p_ipa (q_src q) in
    let p' := if g_cn (q_gsup q) =? CN_CS then mk_psub (ps_imsi p) (ps_msisdn p) (ps_addr p) (with_prelim (ps_cs p) n) (ps_ps p)
              else if g_cn (q_gsup q) =? CN_PS then mk_psub (ps_imsi p) (ps_msisdn p) (ps_addr p) (ps_cs p) (with_prelim (ps_ps p) n)
              else p in
    if negb (ipa_cmp (pd_prelim (ps_cs p')) (pd_prelim (ps_cs p)) =? 0) || negb (ipa_cmp (pd_prelim (ps_ps p')) (pd_prelim (ps_ps p)) =? 0)
    then Some (store z p') else Some z
  else Some z.

(** proxy_subscr_forward_to_remote_hlr, proxy.c:481-525; true: 0 is returned *)
Definition forward_to_remote (z : dgst) (p : psub) (q : req) : dgst * list dout * bool :=
  match ack_to_remote z p q with
  | None => (z, map DAns (respond_err (tx k s) q CAUSE_PROTO_ERR_UNSPEC), false)
  | Some z =>
      let take := DTake q in
      if negb (sa_nonzero (ps_addr p)) then (defer z q, [take], true)
      else if is_up (find_rem z (ps_addr p)) then (z, take :: connect_result z q (find_rem z (ps_addr p)), true)
      else let '(z, o) := connect (defer z q) (ps_addr p) in (z, take :: o, true)
  end.

(** proxy_subscr_remote_hlr_resolved, proxy.c:445-479 *)
Definition resolved (z : dgst) (p : psub) (a : sa) : dgst * list dout :=
  if sa_nonzero (ps_addr p) && sa_eqb a (ps_addr p) then (z, [])
  else
    let z := store z (mk_psub (ps_imsi p) (ps_msisdn p) a (ps_cs p) (ps_ps p)) in
    if waiting z (ps_imsi p) then connect z a else (z, []).

(** proxy_acknowledge_gsup_from_remote_hlr, proxy.c:332-425; [None]: not allowed. gsm48_decode_bcd_number2() gives the number that x_msisdn stands for, or
    fails because it does not fit, which is then not valid either. *)
Definition confirm (d : pdom) (dest via : ipa_name) : pdom * bool :=
  if ipa_cmp dest (pd_prelim d) =? 0 then (mk_pdom dest stamp ipa_empty via, true) else (d, false).
Definition ack_from_remote (z : dgst) (p : psub) (g : gsup) (dest via_peer : ipa_name) : option dgst :=
  let via := if ipa_cmp via_peer dest =? 0 then ipa_empty else via_peer in
  if g_type g =? MSGT_INSERT_DATA_REQUEST then
    match x_msisdn (g_x g) with
    | None => Some z
    | Some m => if negb (msisdn_valid m) || (ps_msisdn p =? m)%string then Some z
                else Some (store z (mk_psub (ps_imsi p) m (ps_addr p) (ps_cs p) (ps_ps p)))
    end
  else if g_type g =? MSGT_UPDATE_LOCATION_RESULT then
    let '(cs, c1) := confirm (ps_cs p) dest via in
    let '(ps, c2) := confirm (ps_ps p) dest via in
    if c1 || c2 then Some (store z (mk_psub (ps_imsi p) (ps_msisdn p) (ps_addr p) cs ps)) else None
  else Some z.

(** proxy_subscr_forward_to_vlr, proxy.c:527-568; [None]: an error is returned. The state may have changed in any case. *)
Definition forward_to_vlr (z : dgst) (p : psub) (g : gsup) (from : sa) : dgst * option (list dout) :=
  let '(rc, dest) := ipa_set ipa_empty (Some (g_dst g)) in
  if negb (rc =? 0) then (z, None)
  else match route_find (v_routes (t_srv s)) (ipa_bytes dest) with
       | None => (z, None)
       | Some c =>
           match find_conn (t_srv s) c with
           | None => (z, None)
           | Some cn =>
               match ack_from_remote z p g dest (c_name cn) with
               | None => (z, None)
               | Some z' => if k_enc k g then (z', Some [DTx from c g]) else (z', None)
               end
           end
       end.

(** remote_hlr_err_reply, remote_hlr.c:34-63 *)
Definition err_reply (a : sa) (up : bool) (g : gsup) (cause : Z) : list dout :=
  if negb (is_request (g_type g)) then []
  else let e := mk_gsup (to_error (g_type g)) (g_imsi g) cause (g_class g) [] [] (g_mr g)
                        (if g_ss g =? SS_NONE then 0 else g_sid g) (if g_ss g =? SS_NONE then SS_NONE else SS_END) 0 ext0 in
       if k_enc k e && up then [DErr a e] else [].
(** remote_hlr_rx, remote_hlr.c:67-101, for a message that could be decoded *)
Definition remote_rx (z : dgst) (a : sa) (g : gsup) : dgst * list dout :=
  match find_rem z a with
  | None => (z, [])
  | Some r =>
      if negb (imsi_valid (g_imsi g)) then (z, err_reply a (rm_up r) g CAUSE_INV_MAND_INFO)
      else match cache_by_imsi (z_cache z) (g_imsi g) with
           | None => (z, err_reply a (rm_up r) g CAUSE_NET_FAIL)
           | Some p => match forward_to_vlr z p g a with
                       | (z, None) => (z, err_reply a (rm_up r) g CAUSE_NET_FAIL)
                       | (z, Some o) => (z, o)
                       end
           end
  end.

(** remote_hlr_up_down, remote_hlr.c:109-126, with is_connected set by the GSUP client: up (all callbacks are called, then removed), down (the remote HLR is
    removed), and a link that is closed without notice (gsup_client.c:205-220, 274-277). *)
Fixpoint call_cbs (n : nat) (z : dgst) (a : sa) (r : rem) : dgst * list dout :=
  match n with
  | O => (z, [])
  | S n' => let '(z1, o1) := connect_cb z (z_cache z) a (Some r) in
            let '(z2, o2) := call_cbs n' z1 a r in (z2, o1 ++ o2)
  end.
Definition rem_up (z : dgst) (a : sa) : dgst * list dout :=
  match find_rem z a with
  | None => (z, [])
  | Some r =>
      let r := mk_rem (rm_addr r) true (rm_cbs r) in
      let '(z, o) := call_cbs (rm_cbs r) (z_with_rems z (edit_rem (z_rems z) a (fun _ => Some r))) a r in
      (z_with_rems z (edit_rem (z_rems z) a (fun r => Some (mk_rem (rm_addr r) (rm_up r) 0))), o)
  end.
Definition rem_down (z : dgst) (a : sa) : dgst := z_with_rems z (edit_rem (z_rems z) a (fun _ => None)).
Definition rem_lost (z : dgst) (a : sa) : dgst := z_with_rems z (edit_rem (z_rems z) a (fun r => Some (mk_rem (rm_addr r) false (rm_cbs r)))).

(** ** Lookups *)
(** resolve_hlr_result_cb, dgsm.c:40-83, called for a lookup that is running. [None]: the result code is not OSMO_MSLOOKUP_RC_RESULT. The requests of the HLR
    are for IMSIs and get one call each, see C35 and C36. *)
Fixpoint del1 (i : string) (l : list string) : list string := match l with [] => [] | j :: r => if (j =? i)%string then r else j :: del1 i r end.
Definition lookup_result (z : dgst) (imsi : string) (r : option (sa * sa)) : dgst * list dout :=
  if negb (existsb (String.eqb imsi) (z_look z)) then (z, [])
  else
    let z := z_with_look z (del1 imsi (z_look z)) in
    match (match r with
           | Some (v4, v6) => if sa_nonzero v4 then Some v4 else if sa_nonzero v6 then Some v6 else None
           | None => None
           end) with
    | None => subscr_del z imsi
    | Some a => match cache_by_imsi (z_cache z) imsi with
                | None => (z, [])
                | Some p => resolved z p a
                end
    end.

(** dgsm_check_forward_gsup_msg, dgsm.c:86-164: state, log, and whether the message has been handled. osmo_mslookup_client_request() fails only for
    an IMSI that is not valid (mslookup_client.c:245-250); then the request would be freed and used. *)
Definition check_forward (z : dgst) (q : req) : prog (dgst * list dout * bool) :=
  let imsi := g_imsi (q_gsup q) in
  do rc <- db_subscr_exists_by_imsi imsi;;
  if rc =? 0 then Ret (z, [], false)
  else match cache_by_imsi (z_cache z) imsi with
       | Some p => let '(z, o, _) := forward_to_remote z p q in Ret (z, o, true)
       | None =>
           let p := mk_psub imsi "" SaNone pdom0 pdom0 in
           let z := store z p in
           if sa_nonzero (z_gw z) then
             let '(z, o1) := resolved z p (z_gw z) in
             match cache_by_imsi (z_cache z) imsi with
             | None => Ret (z, o1 ++ map DAns (respond_err (tx k s) q CAUSE_NET_FAIL), true)
             | Some p => let '(z, o2, _) := forward_to_remote z p q in Ret (z, o1 ++ o2, true)
             end
           else if negb (z_active z) then Ret (z, [], false)
           else match forward_to_remote z p q with
                | (z, o, false) => Ret (z, o, true)
                | (z, o, true) => if imsi_valid imsi then Ret (z_with_look z (imsi :: z_look z), o, true) else Undef
                end
       end.

End Functions.

(** ** Reception *)
(** read_cb, hlr.c:508-587 *)
Definition dread (k : cfg) (x : dworld) (s : hst) (z : dgst) (cid : nat) (g : gsup) : prog (hst * dgst * list dout) :=
  let '(v, r) := conn_rx (k_enc k) (t_srv s) (t_nr s) cid g in
  let s' := mk_hst v (t_lus s) (t_ss s) (S (t_nr s)) in
  let rx := DLoc (ORx (t_nr s) cid g) in
  let local p := do y <- p;; Ret (fst y, z, rx :: map DLoc (snd y)) in
  let here q :=
    if z_active z || sa_nonzero (z_gw z) then
      do y <- check_forward k x s' z q;;
      let '(z', o, handled) := y in
      if handled : bool then Ret (s', z', rx :: o)
      else do y <- dispatch k (dw_w x) s' q;; Ret (fst y, z', rx :: o ++ map DLoc (snd y))
    else local (dispatch k (dw_w x) s' q) in
  match r with
  | inr o => local (Ret (s', o))
  | inl q =>
      match g_dst g with
      | [] => here q
      | d =>
          match ipa_set_str ipa_empty (Some (k_serno k)) with
          | None => Undef
          | Some my_name =>
              let '(rc, dest) := ipa_set ipa_empty (Some d) in
              if (rc =? 0) && negb (ipa_cmp dest my_name =? 0) then local (same s' (read_cb_forward k s' dest q))
              else here q
          end
      end
  end.

(** ** Events *)
(** What happens: an event of Hlr.v (all GSUP messages are received through [dread]); the lookup client is switched on or off, the gateway or the reject cause
    changed (dgsm_vty.c, hlr_vty.c:784-793); a lookup ends; the link to a remote HLR changes; a remote HLR sends a message; the cleanup timer of the cache
    (proxy.c:221-238, fresh_time is 3600). *)
Inductive devent :=
| DHlr (e : event)
| DSet (active : bool) (gw : sa) (cause : Z)
| DLook (imsi : string) (r : option (sa * sa))
| DUp (a : sa)
| DDown (a : sa)
| DLost (a : sa)
| DRx (a : sa) (g : gsup)
| DClean.
Definition FRESH : Z := 3600.
(** the entries of [c] that [c'] lacks, for the log *)
Definition gone (c c' : list pent) : list dout :=
  map (fun e => DGone (ps_imsi (pe_sub e)))
    (filter (fun e => negb (existsb (fun e' => (ps_imsi (pe_sub e') =? ps_imsi (pe_sub e))%string) c')) c).
Definition dhandle (k : cfg) (x : dworld) (s : hst) (z : dgst) (e : devent) : prog (hst * dgst * list dout) :=
  let pure y := Ret (s, fst y, snd y) in
  match e with
  | DHlr (ERx c g) => match find_conn (t_srv s) c with Some _ => dread k x s z c g | None => Ret (s, z, []) end
  | DHlr e => do y <- handle k (dw_w x) s e;; Ret (fst y, z, map DLoc (snd y))
  | DSet b gw c => pure (mk_dgst (z_cache z) (z_wait z) (z_rems z) (z_look z) b gw c, [])
  | DLook imsi r => pure (lookup_result k x s z imsi r)
  | DUp a => pure (rem_up k s z a)
  | DDown a => pure (rem_down z a, [])
  | DLost a => pure (rem_lost z a, [])
  | DRx a g => pure (remote_rx k x s z a g)
  | DClean => match cache_clean (z_cache z) (stamp k x) FRESH with Bad => Undef | Val c => pure (z_with_cache z c, gone (z_cache z) c) end
  end.
(** One event with its world and fault schedule, with the log of the running process. [None]: undefined behaviour. After a crash nothing is left but the
    configuration, and the log of the new process starts. *)
Definition dstate : Type := hst * dgst * db * list dout.
Definition dstep (k : cfg) (y : dstate) (e : dworld * devent * sched) : option dstate :=
  let '(s, z, d, l) := y in
  let '(x, e, c) := e in
  match run (dhandle k x s z e) c d with
  | (Fin (s', z', o), d', _) => Some (s', z', d', l ++ o)
  | (Crashed, d', _) => Some (restart s, mk_dgst [] [] [] [] (z_active z) (z_gw z) (z_cause z), d', [])
  | (Ub, _, _) => None
  end.
Fixpoint dhist (k : cfg) (y : dstate) (es : list (dworld * devent * sched)) : option dstate :=
  match es with
  | [] => Some y
  | e :: es' => match dstep k y e with None => None | Some y' => dhist k y' es' end
  end.
