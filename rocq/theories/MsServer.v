(** Lookup server: /repo/src/mslookup_server.c, and the configuration commands of /repo/src/dgsm_vty.c *)
From Verif Require Import Base PeerId Db MsLookup Mdns Proxy.

(** ** Services *)
(** struct mslookup_service_host (mslookup_server.h:35-40) and mslookup_server_msc_cfg (49-53) *)
Record svc := mk_svc { sv_name : string; sv_v4 : sa; sv_v6 : sa }.
Record msc := mk_msc { m_name : ipa_name; m_svcs : list svc }.
Definition SERVICE_MAXLEN : nat := 64.
(** OSMO_MSLOOKUP_SERVICE_HLR_GSUP, mslookup_server.h:29 *)
Definition HLR_GSUP : string := "gsup.hlr".

(** mslookup_server_msc_get, mslookup_server.c:71-93: with [create] *)
Definition is_msc (n : ipa_name) (m : msc) : bool := ipa_cmp (m_name m) n =? 0.
Definition msc_get (c : list msc) (n : ipa_name) : option msc := find (is_msc n) c.
Definition msc_create (c : list msc) (n : ipa_name) : list msc :=
  match msc_get c n with Some _ => c | None => c ++ [mk_msc n []] end.
(** what is done through the pointer that msc_get returned: the first MSC of that name is replaced *)
Fixpoint msc_edit (c : list msc) (n : ipa_name) (f : list svc -> list svc) : list msc :=
  match c with
  | [] => []
  | m :: r => if is_msc n m then mk_msc (m_name m) (f (m_svcs m)) :: r else m :: msc_edit r n f
  end.
(** mslookup_server_msc_service_get, mslookup_server.c:95-115 *)
Definition svc_get (l : list svc) (s : string) : option svc := find (fun e => (sv_name e =? s)%string) l.
(** mslookup_server_service_get, mslookup_server.c:117-123 *)
Definition service_get (c : list msc) (n : ipa_name) (s : string) : option svc :=
  match msc_get c n with Some m => svc_get (m_svcs m) s | None => None end.
(** the assignments at mslookup_server.c:138-149 to the entry found or created *)
Definition svc_assign (e : svc) (a : sa) : svc :=
  match a with
  | Sa4 _ _ => mk_svc (sv_name e) a (sv_v6 e)
  | Sa6 _ _ => mk_svc (sv_name e) (sv_v4 e) a
  | SaNone => e
  end.
Fixpoint svc_put (l : list svc) (s : string) (a : sa) : list svc :=
  match l with
  | [] => [svc_assign (mk_svc s SaNone SaNone) a]
  | e :: r => if (sv_name e =? s)%string then svc_assign e a :: r else e :: svc_put r s a
  end.
(** mslookup_server_msc_service_set, mslookup_server.c:125-151, on an existing MSC *)
Definition service_set (c : list msc) (n : ipa_name) (s : string) (a : sa) : Z * list msc :=
  if (s =? "")%string || (SERVICE_MAXLEN <? String.length s)%nat || negb (sa_nonzero a) then (- EINVAL, c)
  else (0, msc_edit c n (fun l => svc_put l s a)).
(** mslookup_server_msc_service_del, mslookup_server.c:153-187: what becomes of an entry ([None]: deleted) *)
Definition svc_del1 (s : option string) (a : option sa) (e : svc) : option svc :=
  if match s with Some x => negb (x =? sv_name e)%string | None => false end then Some e
  else match a with
       | None => None
       | Some a =>
           if sa_eqb a (sv_v4 e) then
             if sa_nonzero (sv_v6 e) then Some (mk_svc (sv_name e) SaNone (sv_v6 e)) else None
           else if sa_eqb a (sv_v6 e) then
             if sa_nonzero (sv_v4 e) then Some (mk_svc (sv_name e) (sv_v4 e) SaNone) else None
           else Some e
       end.
Definition svc_del (s : option string) (a : option sa) (l : list svc) : list svc :=
  flat_map (fun e => match svc_del1 s a e with Some e' => [e'] | None => [] end) l.
Definition service_del (c : list msc) (n : ipa_name) (s : option string) (a : option sa) : Z * list msc :=
  match msc_get c n with
  | None => (- ENOENT, c)
  | Some m => (Z.of_nat (length (filter (fun e => negb (is_some (svc_del1 s a e))) (m_svcs m))),
               msc_edit c n (svc_del s a))
  end.

(** ** Commands *)
(** Node of the VTY: [None] the server node (wildcard), else the MSC whose node was entered. *)
Inductive vcmd :=
| VMsc (name : string)                                        (* msc ipa-name NAME, dgsm_vty.c:197-216 *)
| VSet (node : option string) (s : string) (a : sa)           (* service NAME at IP PORT, dgsm_vty.c:234-266 *)
| VNo (node : option string) (s : string)                     (* no service NAME, dgsm_vty.c:270-291 *)
| VNoAt (node : option string) (s : string) (a : sa).         (* no service NAME at IP PORT, dgsm_vty.c:293-324 *)
(** osmo_ipa_name_set_str() of the name given (dgsm_vty.c:206); [None]: it is a format with conversions. The buffer is not
    initialised, bytes after the end of the name do not matter. *)
Definition node_name (n : option string) : option ipa_name :=
  match n with None => Some ipa_empty | Some s => ipa_set_str ipa_empty (Some s) end.
(** true: CMD_SUCCESS. An address that is not parsed is [SaNone]. The MSC of a node exists since the node was entered (the
    command "msc ipa-name" is repeated here), the wildcard is created by msc_from_node, dgsm_vty.c:221-232. *)
Definition vcmd_run (c : list msc) (x : vcmd) : mres (bool * list msc) :=
  let at_node n f := match node_name n with None => Bad | Some m => Val (f (msc_create c m) m) end in
  match x with
  | VMsc s => at_node (Some s) (fun c m => (true, c))
  | VSet n s a =>
      at_node n (fun c m => if negb (sa_nonzero a) then (false, c)
                            else let '(rc, c') := service_set c m s a in (rc =? 0, c'))
  | VNo n s => at_node n (fun c m => let '(rc, c') := service_del c m (Some s) None in (negb (rc <? 1), c'))
  | VNoAt n s a =>
      at_node n (fun c m => if negb (sa_nonzero a) then (false, c)
                            else let '(rc, c') := service_del c m (Some s) (Some a) in (negb (rc <? 1), c'))
  end.
Fixpoint vcmds (c : list msc) (l : list vcmd) : mres (list msc) :=
  match l with [] => Val c | x :: r => mdo y <- vcmd_run c x;; vcmds (snd y) r end.

(** ** Answers *)
(** [y_static]: the static variable gsup_bind of mslookup_server.c:54; [y_bind]: g_hlr->gsup_bind_addr, parsed with the
    GSUP port; [y_max]: local_attach_max_age (dgsm.c:171) *)
Record msrv := mk_msrv { y_cfg : list msc; y_bind : sa; y_static : sa * sa; y_tz : Z; y_max : Z }.
Inductive answer := NotFound | Found (v4 v6 : sa) (age : Z).

(** set_result, mslookup_server.c:37-50 *)
Definition set_result (v4 v6 : sa) (age : Z) : answer :=
  if negb (sa_nonzero v4) && negb (sa_nonzero v6) then NotFound else Found v4 v6 age.

(** mslookup_server_get_local_gsup_addr, mslookup_server.c:52-69: the addresses and the new value of the static variable *)
Definition local_gsup_addr (y : msrv) : (sa * sa) * (sa * sa) :=
  match service_get (y_cfg y) ipa_empty HLR_GSUP with
  | Some e => ((sv_v4 e, sv_v6 e), y_static y)
  | None => let st := match y_bind y with Sa6 i p => (SaNone, Sa6 i p) | a => (a, snd (y_static y)) end in (st, st)
  end.
Definition with_static (y : msrv) (s : sa * sa) : msrv := mk_msrv (y_cfg y) (y_bind y) s (y_tz y) (y_max y).

(** mslookup_server_rx_hlr_gsup, mslookup_server.c:190-228 *)
Definition rx_hlr_gsup (y : msrv) (q : query) : prog (msrv * answer) :=
  let go (p : prog Z) :=
    do rc <- p;;
    if negb (rc =? 0) then Ret (y, NotFound)
    else let '((v4, v6), st) := local_gsup_addr y in Ret (with_static y st, set_result v4 v6 0) in
  match lq_type q with
  | IdNone => Ret (y, NotFound)
  | IdImsi => go (db_subscr_exists_by_imsi (lq_id q))
  | IdMsisdn => go (db_subscr_exists_by_msisdn (lq_id q))
  end.

(** subscriber_has_done_lu_here_hlr, mslookup_server.c:232-296: age and MSC name *)
Definition lu_here_hlr (y : msrv) (now : Z) (q : query) : prog (option (Z * ipa_name)) :=
  let go (p : prog (Z * option subscriber)) :=
    do x <- p;;
    match x with
    | (_, None) => Ret None
    | (_, Some h) =>
        if (h_vlr h =? "")%string then Ret None
        else if negb (in_len (h_vlr_proxy h) =? 0)%nat then Ret None
        else match timestamp_age (timestamp_now (y_tz y) now) (h_lu_cs h) with
             | Bad => Undef
             | Val None => Ret None
             | Val (Some age) =>
                 if y_max y <? age then Ret None
                 else match ipa_set_str ipa_empty (Some (h_vlr h)) with None => Undef | Some n => Ret (Some (age, n)) end
             end
    end in
  match lq_type q with
  | IdNone => Ret None
  | IdImsi => go (db_subscr_get_by_imsi (y_tz y) (lq_id q))
  | IdMsisdn => go (db_subscr_get_by_msisdn (y_tz y) (lq_id q))
  end.

(** subscriber_has_done_lu_here_proxy, mslookup_server.c:302-361 *)
Definition lu_here_proxy (y : msrv) (now : Z) (c : list pent) (q : query) : mres (option (Z * ipa_name)) :=
  let go (s : option psub) :=
    match s with
    | None => Val None
    | Some s =>
        mdo a <- timestamp_age (timestamp_now (y_tz y) now) (pd_lu (ps_cs s));;
        match a with
        | None => Val None
        | Some age => if y_max y <? age then Val None
                      else if negb (in_len (pd_via (ps_cs s)) =? 0)%nat then Val None
                      else Val (Some (age, pd_name (ps_cs s)))
        end
    end in
  match lq_type q with
  | IdNone => Val None
  | IdImsi => go (cache_by_imsi c (lq_id q))
  | IdMsisdn => go (cache_by_msisdn c (lq_id q))
  end.

(** subscriber_has_done_lu_here, mslookup_server.c:363-417 *)
Definition lu_here (y : msrv) (now : Z) (c : list pent) (q : query) : prog (option (Z * ipa_name)) :=
  do h <- lu_here_hlr y now q;;
  match lu_here_proxy y now c q with
  | Bad => Undef
  | Val p =>
      let x := match p, h with
               | Some (a, n), Some (b, _) => if a <? b then p else h
               | Some _, None => p
               | None, _ => h
               end in
      Ret (match x with Some (_, n) => if (in_len n =? 0)%nat then None else x | None => None end)
  end.

(** mslookup_server_rx, mslookup_server.c:420-459 *)
Definition mslookup_server_rx (y : msrv) (now : Z) (c : list pent) (q : query) : prog (msrv * answer) :=
  if (lq_service q =? HLR_GSUP)%string then rx_hlr_gsup y q
  else
    do x <- lu_here y now c q;;
    Ret (y, match x with
            | None => NotFound
            | Some (age, n) =>
                match (match service_get (y_cfg y) n (lq_service q) with
                       | Some e => Some e
                       | None => service_get (y_cfg y) ipa_empty (lq_service q)
                       end) with
                | None => NotFound
                | Some e => set_result (sv_v4 e) (sv_v6 e) age
                end
            end).

(** ** mDNS *)
Definition host_of (a : sa) : option (list N * N) := match a with SaNone => None | Sa4 ip p | Sa6 ip p => Some (ip, p) end.
(** osmo_mslookup_server_mdns_rx, mslookup_server_mdns.c:30-89: the packet sent in return, if any. [packet] is what read() stored, at
    most 1024 octets. *)
Definition mdns_server_rx (y : msrv) (now : Z) (c : list pent) (suffix : string) (packet : list N) : prog (msrv * option (list N)) :=
  match mdns_query_decode packet suffix with
  | Bad => Undef
  | Val None => Ret (y, None)
  | Val (Some (id, q)) =>
      do x <- mslookup_server_rx y now c q;;
      match x with
      | (y', NotFound) => Ret (y', None)
      | (y', Found v4 v6 age) =>
          match mdns_result_encode id q (mk_result (host_of v4) (host_of v6) (Z.to_N age)) suffix with
          | Bad => Undef
          | Val p => Ret (y', p)
          end
      end
  end.
