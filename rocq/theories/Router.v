(** GSUP server: connections, routes, reception and transmission.
    /repo/src/gsup_server.c, gsup_router.c, gsup_send.c *)
From Verif Require Import Base PeerId Db Gsup.

(** struct gsup_route (gsup_router.h): address and connection *)
Record route := mk_route { rt_addr : list ascii; rt_conn : nat }.
(** struct osmo_gsup_conn (gsup_server.h:37-52): peer_name, the SERNR identity tag of ccm, supports_cs,
    supports_ps. A connection is known by a number. *)
Record conn := mk_conn { c_id : nat; c_name : ipa_name; c_ccm : option (list ascii); c_cs : bool; c_ps : bool }.
(** struct osmo_gsup_server: clients and routes; [v_next] numbers the connections. *)
Record server := mk_server { v_conns : list conn; v_routes : list route; v_next : nat }.
Definition server0 : server := mk_server [] [] 0.
Definition with_conns (v : server) (l : list conn) : server := mk_server l (v_routes v) (v_next v).
Definition with_routes (v : server) (l : list route) : server := mk_server (v_conns v) l (v_next v).

Definition bytes_eqb (a b : list ascii) : bool := if list_eq_dec Ascii.ascii_dec a b then true else false.

(** gsup_route_find, gsup_router.c:37-48 *)
Definition route_find (rs : list route) (addr : list ascii) : option nat :=
  match find (fun r => bytes_eqb (rt_addr r) addr) rs with Some r => Some (rt_conn r) | None => None end.

(** gsup_route_add, gsup_router.c:72-97 *)
Definition route_add (v : server) (cid : nat) (addr : list ascii) : Z * server :=
  match route_find (v_routes v) addr with
  | Some c => if (c =? cid)%nat then (0, v) else (- EEXIST, v)
  | None => (0, with_routes v (v_routes v ++ [mk_route addr cid]))
  end.

(** gsup_route_del_conn, gsup_router.c:105-121 *)
Definition route_del_conn (v : server) (cid : nat) : server :=
  with_routes v (filter (fun r => negb (rt_conn r =? cid)%nat) (v_routes v)).

Definition find_conn (v : server) (cid : nat) : option conn := find (fun c => (c_id c =? cid)%nat) (v_conns v).
Definition set_conn (v : server) (cid : nat) (f : conn -> conn) : server :=
  with_conns v (map (fun c => if (c_id c =? cid)%nat then f c else c) (v_conns v)).

(** osmo_gsup_server_accept_cb, gsup_server.c:334-371 *)
Definition srv_accept (v : server) : server :=
  mk_server (v_conns v ++ [mk_conn (v_next v) ipa_empty None false false]) (v_routes v) (S (v_next v)).

(** osmo_gsup_conn_free via osmo_gsup_server_closed_cb, gsup_server.c:302-318 *)
Definition srv_close (v : server) (cid : nat) : server :=
  let v := route_del_conn v cid in
  with_conns v (filter (fun c => negb (c_id c =? cid)%nat) (v_conns v)).

(** osmo_gsup_server_ccm_cb, gsup_server.c:273-300, for the SERNR tag of an identity response
    ([None] or []: absent or empty, the callback fails and libosmo-abis closes the connection). The results
    of osmo_ipa_name_set and gsup_route_add_ipa_name are ignored. *)
Definition srv_ident (v : server) (cid : nat) (tag : option (list ascii)) : server :=
  match find_conn v cid with
  | None => v
  | Some c =>
      match tag with
      | None | Some [] => srv_close v cid
      | Some l =>
          let name := snd (ipa_set (c_name c) (Some l)) in
          let v := set_conn v cid (fun c => mk_conn (c_id c) name (Some l) (c_cs c) (c_ps c)) in
          snd (route_add v cid (ipa_bytes name))
      end
  end.

(** gsup_server_send_req_response, gsup_server.c:69-113: the connection the response is
    transmitted on. [enc]: osmo_gsup_encode succeeds. *)
Definition srv_tx (enc : gsup -> bool) (v : server) : sender := fun q r =>
  let routing := if (g_type r =? MSGT_ROUTING_ERROR) && negb (peer_is_empty (q_via q)) then q_via q else q_src q in
  match p_type routing with
  | PT_EMPTY => None
  | PT_IPA => match route_find (v_routes v) (ipa_bytes (p_ipa routing)) with
              | Some c => if enc r then Some c else None
              | None => None
              end
  end.

(** osmo_gsup_req_new, gsup_req.c:104-167, for a message that could be decoded: the request, or
    the response sent instead. [peer] is the name of the connection. *)
Definition req_new (tx : sender) (nr cid : nat) (peer : peer_id) (g : gsup) : req + list out :=
  let q0 := mk_req nr cid peer peer_zero g in
  match (match g_src g with
         | [] => inl q0
         | l => let '(rc, src) := peer_set peer (Some l) in
                let q := mk_req nr cid src peer_zero g in
                if negb (rc =? 0) then inr (snd (respond_msgt tx q MSGT_ROUTING_ERROR true))
                else if negb (peer_cmp src peer =? 0) then inl (mk_req nr cid src peer g) else inl q
         end) with
  | inr o => inr o
  | inl q => if negb (imsi_valid (g_imsi g)) then inr (respond_err tx q CAUSE_INV_MAND_INFO) else inl q
  end.

(** osmo_gsup_conn_rx, gsup_server.c:115-152. The unsupported peer id kind cannot occur: both
    kinds are IPA names. *)
Definition conn_rx (enc : gsup -> bool) (v : server) (nr cid : nat) (g : gsup) : server * (req + list out) :=
  match find_conn v cid with
  | None => (v, inr [])
  | Some c =>
      match req_new (srv_tx enc v) nr cid (mk_peer PT_IPA (c_name c)) g with
      | inr o => (v, inr o)
      | inl q =>
          if negb (peer_is_empty (q_via q)) then
            let '(rc, v') := route_add v cid (ipa_bytes (p_ipa (q_src q))) in
            if negb (rc =? 0) then (v', inr (snd (respond_msgt (srv_tx enc v') q MSGT_ROUTING_ERROR true)))
            else (v', inl q)
          else (v, inl q)
      end
  end.

(** osmo_gsup_send_to_ipa_name, gsup_send.c:59-74 with osmo_gsup_addr_send, gsup_send.c:37-52. A name without
    NUL at its end gets one. [None]: the empty name, val[-1] is read. *)
Definition send_to (v : server) (n : ipa_name) (g : gsup) : option (Z * list out) :=
  let addr_send addr := match route_find (v_routes v) addr with
                        | Some c => (0, [OTx c g])
                        | None => (- ENODEV, [])
                        end in
  match in_len n with
  | O => None
  | S l =>
      if (nth l (in_val n) nul =? nul)%char then Some (addr_send (ipa_bytes n))
      else if (IPA_MAX <=? in_len n)%nat then Some (- EINVAL, [])
      else Some (addr_send (ipa_bytes n ++ [nul]))
  end.

(** osmo_gsup_enc_send_to_ipa_name, gsup_send.c:76-91 *)
Definition enc_send_to (enc : gsup -> bool) (v : server) (n : ipa_name) (g : gsup) : option (Z * list out) :=
  if enc g then send_to v n g else Some (- EINVAL, []).

(** osmo_gsup_forward_to_local_peer, gsup_server.c:495-529, for IPA names (the only kind there
    is: for another kind the request would be used after having been freed). *)
Definition forward_to_local_peer (enc : gsup -> bool) (v : server) (to : peer_id) (q : req) : option (list out) :=
  match p_type (q_src q), p_type to with
  | PT_IPA, PT_IPA =>
      match enc_send_to enc v (p_ipa to) (with_src (q_gsup q) (ipa_bytes (p_ipa (q_src q)))) with
      | None => None
      | Some (rc, o) => if rc =? 0 then Some (o ++ [OFree (q_nr q)])
                        else Some (snd (respond_msgt (srv_tx enc v) q MSGT_ROUTING_ERROR true))
      end
  | _, _ => None
  end.
