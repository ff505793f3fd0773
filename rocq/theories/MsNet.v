(** Lookups over the network: the packets of the mDNS lookup method, /repo/src/mslookup/mslookup_client_mdns.c, of lookup servers
    (mslookup_server_mdns.c, see MsServer.v) and of the tool's --send (osmo-mslookup-client.c:246-332).

    A process with a lookup client, any number of HLRs and any number of runs of the tool with --send share a multicast group. What was sent
    can be read by everyone who listens, by each of them any number of times, late, in any order, or not at all. Everyone also reads
    what they sent themselves (mdns_sock.c:38-40). Sending (mdns_sock.c:128-138) does not fail. *)
From Verif Require Import Base PeerId Db Ctrl MsLookup Mdns Proxy MsServer MsClient.
Local Open Scope string_scope.
Local Open Scope list_scope.
Local Open Scope N_scope.

(** ** --send *)
(** parse_int(), osmo-mslookup-client.c:224-239, for other bounds *)
Definition parse_in (lo hi : Z) (s : string) : option N :=
  match strtoll_all s with
  | Some v => if ((lo <=? v) && (v <=? hi))%Z then Some (Z.to_N v) else None
  | None => None
  end.
(** the address at index [i] of ip_strs, osmo-mslookup-client.c:284-302; [pton] is what osmo_sockaddr_str_from_str() makes of a text, which is
    assumed. [None]: an error. *)
Definition send_addr (pton : string -> option (bool * list N)) (ip port : option string) (r : lresult) : option lresult :=
  match ip with
  | None => Some r
  | Some ip =>
      match parse_in 1 65535 (match port with Some p => p | None => "2342" end) with
      | None => None
      | Some p =>
          match pton ip with
          | None => None
          | Some (false, a) => Some (mk_result (Some (a, p)) (lr_v6 r) (lr_age r))
          | Some (true, a) => Some (mk_result (lr_v4 r) (Some (a, p)) (lr_age r))
          end
      end
  end.
(** do_send, osmo-mslookup-client.c:246-332: arguments, suffix, exit code and packet sent *)
Definition do_send (pton : string -> option (bool * list N)) (suffix : string) (argv : list string) : mres (Z * option (list N)) :=
  let arg i := nth_error argv i in
  match arg 0%nat with
  | None => Val (1%Z, None)
  | Some qs =>
      match query_init qs with
      | inr _ => Val (1%Z, None)
      | inl q =>
          match arg 1%nat with
          | None => Val (1%Z, None)
          | Some a =>
              match parse_in 0 4294967295 a with
              | None => Val (1%Z, None)
              | Some age =>
                  match send_addr pton (arg 2%nat) (arg 3%nat) (mk_result None None age) with
                  | None => Val (1%Z, None)
                  | Some r =>
                      match send_addr pton (arg 4%nat) (arg 5%nat) r with
                      | None => Val (1%Z, None)
                      | Some r =>
                          mdo p <- mdns_result_encode 0 q r suffix;;
                          match p with None => Val (1%Z, None) | Some p => Val (0%Z, Some p) end
                      end
                  end
              end
          end
      end
  end.

(** ** The network *)
(** [n_id]: next_packet_id (mslookup_client_mdns.c:42), 16 bit; [n_air]: what was sent so far *)
Record nst := mk_nst { n_cl : cst; n_id : N; n_air : list (list N) }.
Definition n_init (id : N) : nst := mk_nst c_init id [].

(** Whether an event of the client makes it call mdns_method_request(): at the end of osmo_mslookup_client_request (mslookup_client.c:291-297,
    [request_add]), for this query *)
Definition asked (s : cst) (e : cev) : option query :=
  match e, c_stack s with
  | CRequest q _ _, _ =>
      if negb (service_valid (lq_service q)) || negb (id_valid (lq_type q) (lq_id q)) then None
      else match find (fun r => q_handle r =? (if c_next s =? 0 then 1 else c_next s)) (c_reqs s) with Some _ => None | None => Some q end
  | CReturn, f :: _ => match f_after f with ARequest r => Some (q_query r) | _ => None end
  | _, _ => None
  end.

(** size of the buffers at mslookup_client_mdns.c:77 and mslookup_server_mdns.c:36 *)
Definition RX_BUF : nat := 1024.
Inductive nev :=
| NClient (e : cev)                                                            (* the user, timers and time; no results *)
| NRecv (k : nat)                                                              (* the client reads the packet *)
| NServe (k : nat) (y : msrv) (now : Z) (c : list pent) (f : sched) (d : db)   (* an HLR in this state reads it *)
| NSend (pton : string -> option (bool * list N)) (argv : list string).        (* the tool with --send *)
Definition put_air (s : nst) (p : option (list N)) : nst :=
  match p with Some p => mk_nst (n_cl s) (n_id s) (n_air s ++ [p]) | None => s end.
Definition nstep (suffix : string) (s : nst) (e : nev) : mres nst :=
  match e with
  | NClient (CAnswer _ _) | NClient (CResult _ _ _) => Val s
  | NClient e =>
      mdo c <- cstep (n_cl s) e;;
      match asked (n_cl s) e with
      | None => Val (mk_nst c (n_id s) (n_air s))
      | Some q =>
          (* mdns_method_request, mslookup_client_mdns.c:97-125 *)
          mdo p <- mdns_query_encode (n_id s) q suffix;;
          Val (put_air (mk_nst c ((n_id s + 1) mod 65536) (n_air s)) p)
      end
  | NRecv k =>
      (* mdns_method_recv, mslookup_client_mdns.c:70-95 *)
      match nth_error (n_air s) k, c_stack (n_cl s) with
      | Some p, [] =>
          mdo r <- mdns_result_decode (firstn RX_BUF p) suffix;;
          match r with
          | None => Val s
          | Some (_, q, x) => mdo c <- cstep (n_cl s) (CAnswer q x);; Val (mk_nst c (n_id s) (n_air s))
          end
      | _, _ => Val s
      end
  | NServe k y now c f d =>
      match nth_error (n_air s) k with
      | Some p =>
          match run_out (mdns_server_rx y now c suffix (firstn RX_BUF p)) f d with
          | Fin (_, p') => Val (put_air s p')
          | Crashed => Val s
          | Ub => Bad
          end
      | None => Val s
      end
  | NSend pton argv => mdo r <- do_send pton suffix argv;; Val (put_air s (snd r))
  end.
Fixpoint nrun (suffix : string) (s : nst) (l : list nev) : mres nst :=
  match l with [] => Val s | e :: r => mdo s' <- nstep suffix s e;; nrun suffix s' r end.
