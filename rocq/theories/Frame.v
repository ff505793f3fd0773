(** Octets on the GSUP connections of the HLR: message buffers, IPA headers, what is received and forwarded.
    /repo/src/gsup_server.c:42-67, 154-222, src/gsup_send.c:37-74, src/hlr.c:461-535, src/gsupclient/gsup_req.c:104-140.
    libosmocore: msgb_alloc_headroom(), msgb_put(), msgb_push() (which abort the process when there is no room),
    ipa_prepend_header(), ipa_prepend_header_ext(), and the buffer that ipa_msg_recv_buffered() fills. *)
From Verif Require Import Base PeerId Db Auth Gsup Router Hlr.

(** ** Message buffers *)

(** struct msgb: room before the data, data, room behind it *)
Record msgb := mk_msgb { mb_head : nat; mb_data : list N; mb_tail : nat }.
(** msgb_alloc_headroom(size, headroom) *)
Definition msgb_alloc (size headroom : nat) : msgb := mk_msgb headroom [] (size - headroom).
(** msgb_put() and memcpy() to the place; [None]: MSGB_ABORT() *)
Definition msgb_put (m : msgb) (l : list N) : option msgb :=
  if (length l <=? mb_tail m)%nat then Some (mk_msgb (mb_head m) (mb_data m ++ l) (mb_tail m - length l)) else None.
(** msgb_push() and writing to the place *)
Definition msgb_push (m : msgb) (l : list N) : option msgb :=
  if (length l <=? mb_head m)%nat then Some (mk_msgb (mb_head m - length l) (l ++ mb_data m) (mb_tail m)) else None.

(** osmo_gsup_msgb_alloc, gsup_server.c:42-47 *)
Definition gsup_msgb_alloc : msgb := msgb_alloc (1024 + 512) 512.

(** IPA stream identifiers, libosmocore protocol/ipaccess.h *)
Definition PROTO_OSMO : N := 238.      (* IPAC_PROTO_OSMO 0xee *)
Definition PROTO_IPACCESS : N := 254.  (* IPAC_PROTO_IPACCESS 0xfe *)
Definition EXT_GSUP : N := 5.          (* IPAC_PROTO_EXT_GSUP *)
Definition EXT_OAP : N := 6.           (* IPAC_PROTO_EXT_OAP *)

(** ipa_prepend_header_ext() *)
Definition prepend_ext (m : msgb) (proto : N) : option msgb := msgb_push m [proto].
(** ipa_prepend_header(): length of what follows (16 bit, network order), stream identifier *)
Definition prepend_header (m : msgb) (proto : N) : option msgb :=
  let n := N.of_nat (length (mb_data m)) in msgb_push m [(n / 256 mod 256)%N; (n mod 256)%N; proto].
(** osmo_gsup_server_send, gsup_server.c:49-55, and osmo_gsup_conn_send, 57-67: the octets written to the connection *)
Definition server_send (m : msgb) : option (list N) :=
  match prepend_ext m EXT_GSUP with
  | None => None
  | Some m1 => match prepend_header m1 PROTO_OSMO with Some m2 => Some (mb_data m2) | None => None end
  end.

(** ** Reception *)

(** IPA_ALLOC_SIZE of libosmocore: ipa_msg_recv_buffered() closes the connection when a message with its header is longer *)
Definition IPA_ALLOC_SIZE : nat := 1200.
(** ipa_msg_recv_buffered(): the next message in the octets received so far *)
Inductive recv := RMore | RClose | RFrame (proto : N) (payload rest : list N).
Definition ipa_recv (l : list N) : recv :=
  match l with
  | a :: b :: proto :: r =>
      let n := N.to_nat (a * 256 + b) in
      if (IPA_ALLOC_SIZE <? n + 3)%nat then RClose
      else if (length r <? n)%nat then RMore else RFrame proto (firstn n r) (skipn n r)
  | _ => RMore
  end.

(** osmo_gsup_server_read_cb, gsup_server.c:171-225: what is done with a message *)
Inductive action :=
| ACcm (payload : list N)   (* ipa_server_conn_ccm() *)
| AGsup (l2 : list N)       (* read_cb of the server *)
| AOap                      (* osmo_gsup_conn_oap_handle *)
| AInvalid.
Definition server_read (proto : N) (payload : list N) : action :=
  if (proto =? PROTO_IPACCESS)%N then ACcm payload
  else if negb (proto =? PROTO_OSMO)%N then AInvalid
  else match payload with
       | [] => AInvalid
       | ext :: l2 => if (ext =? EXT_GSUP)%N then AGsup l2 else if (ext =? EXT_OAP)%N then AOap else AInvalid
       end.
(** whether the buffer of the message is freed, or handed over to a request that frees it (gsup_server.c:184, 205,
    222; gsup_req.c:119-124, 136-140); osmo_gsup_conn_oap_handle (154-169) does not: its body is disabled *)
Definition released (a : action) : bool := match a with AOap => false | _ => true end.

(** Octets written: connection and message *)
Definition wire := list (nat * list N).

(** read_cb_forward, hlr.c:461-506, with the copy of the octets received (481-485), which is made before the route is looked up *)
Definition forward8 (k : cfg) (s : hst) (dest : ipa_name) (q : req) (l2 : list N) : prog (list out * wire) :=
  let g := q_gsup q in
  let routing_error := snd (respond (tx k s) q (with_src (msg0 MSGT_ROUTING_ERROR) (g_dst g)) true true) in
  match g_src g with
  | [] => Ret (routing_error, [])
  | _ =>
      match msgb_put gsup_msgb_alloc l2 with
      | None => Undef                                  (* abort() *)
      | Some m =>
          match server_send m, send_to (t_srv s) dest g with
          | Some o8, Some (rc, o) =>
              Ret (if rc =? 0 then (o ++ [OFree (q_nr q)], flat_map (fun x => match x with OTx c _ => [(c, o8)] | _ => [] end) o)
                   else (routing_error, []))
          | _, _ => Undef
          end
      end
  end.

(** read_cb, hlr.c:508-587, for a message that could be decoded as [g] from the octets [l2] *)
Definition read_msg8 (k : cfg) (w : world) (s : hst) (cid : nat) (l2 : list N) (g : gsup) : prog (hst * list out * wire) :=
  let '(v, r) := conn_rx (k_enc k) (t_srv s) (t_nr s) cid g in
  let s := mk_hst v (t_lus s) (t_ss s) (S (t_nr s)) in
  let go p := do x <- p;; Ret (x, []) in
  match r with
  | inr o => Ret (s, o, [])
  | inl q =>
      match g_dst g with
      | [] => go (dispatch k w s q)
      | d =>
          match ipa_set_str ipa_empty (Some (k_serno k)) with
          | None => Undef
          | Some my_name =>
              let '(rc, dest) := ipa_set ipa_empty (Some d) in
              if (rc =? 0) && negb (ipa_cmp dest my_name =? 0) then do x <- forward8 k s dest q l2;; Ret (s, fst x, snd x)
              else go (dispatch k w s q)
          end
      end
  end.

(** read_cb with osmo_gsup_req_new, gsup_req.c:104-140: no octets, or octets that cannot be decoded ([dec] is osmo_gsup_decode()) *)
Definition read_gsup (dec : list N -> option gsup) (k : cfg) (w : world) (s : hst) (cid : nat) (l2 : list N) : prog (hst * list out * wire) :=
  match l2 with
  | [] => Ret (s, [], [])
  | _ => match dec l2 with
         | None => Ret (mk_hst (t_srv s) (t_lus s) (t_ss s) (S (t_nr s)), [], [])
         | Some g => do x <- read_msg8 k w s cid l2 g;; Ret (fst (fst x), ORx (t_nr s) cid g :: snd (fst x), snd x)
         end
  end.

(** What ipa_server_conn_ccm() of libosmo-abis makes of an IPA message: an identity response with its SERNR tag, which goes to
    osmo_gsup_server_ccm_cb; or something else that it handles itself (PING, PONG, ID_ACK). *)
Definition ccm_parse := list N -> option (option (list ascii)).

(** One message on connection [cid]. *)
Definition read_frame (dec : list N -> option gsup) (ccm : ccm_parse) (k : cfg) (w : world) (s : hst) (cid : nat) (proto : N) (payload : list N)
  : prog (hst * list out * wire) :=
  match find_conn (t_srv s) cid with
  | None => Ret (s, [], [])
  | Some _ =>
      match server_read proto payload with
      | ACcm p => match ccm p with Some tag => Ret (with_srv s (srv_ident (t_srv s) cid tag), [], []) | None => Ret (s, [], []) end
      | AGsup l2 => read_gsup dec k w s cid l2
      | AOap | AInvalid => Ret (s, [], [])
      end
  end.
