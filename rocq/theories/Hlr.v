(** The HLR proper: message handlers of /repo/src/hlr.c, lu_fsm.c, hlr_ussd.c, hlr_sms.c and the
    commands of hlr_vty_subscr.c that talk to GSUP peers. D-GSM (mslookup client and gateway proxy) is
    switched off here. *)
From Verif Require Import Base PeerId Db Auth Gsup Router.

(** ** Configuration and state *)

(** enum hlr_subscr_create_on_demand mode, hlr.h:42-47, with rand_msisdn_len *)
Inductive cod_mode := CodOff | CodNoMsisdn | CodRand (len : nat) | CodFromImsi.

(** Internal USSD handlers, hlr_ussd.c:427-440 *)
Inductive iuse := OwnMsisdn | OwnImsi | TestIdle.
(** struct hlr_ussd_route, hlr_ussd.h:12-21 *)
Inductive ussd_target := TInt (i : iuse) | TExt (euse : string).

(** struct ss_request as filled by gsm0480_parse_facility_ie() (libosmocore) *)
Record ss_req := mk_ss_req { r_op : Z; r_invoke : Z; r_dcs : Z; r_data : list N }.

(** struct hlr, hlr.h:49-137, the parts that do not change while running, plus what libosmocore is
    assumed to do: [k_enc] osmo_gsup_encode succeeds, [k_msisdn_enc] gsm48_encode_bcd_number succeeds,
    [k_facility] gsm0480_parse_facility_ie, [k_7bit] gsm_7bit_decode_n_ussd; [k_tz] is the time zone. *)
Record cfg := mk_cfg {
  k_reject : Z; k_cod : cod_mode; k_cod_flags : N; k_store_imei : bool; k_pdp : option (list Z);
  k_serno : string; k_tz : Z;
  k_ussd : list (string * ussd_target); k_euses : list string; k_euse_default : option string; k_guard : Z;
  k_smscs : list string; k_smsc_routes : list (string * string); k_smsc_default : option string;
  k_enc : gsup -> bool; k_msisdn_enc : string -> bool;
  k_facility : list N -> option ss_req; k_7bit : list N -> string }.

(** What the outside provides while one event is handled: crypto and random source of the AuC, random octets of
    osmo_get_rand_id() for attempt [i], try [j], and the clock. *)
Record world := mk_world { w_crypto : crypto; w_rnd : nat -> nat -> option (nat -> N); w_now : option Z }.

(** struct lu, lu_fsm.c:44-60, in state WAIT_INSERT_DATA_RESULT (the only state in which it outlives
    the handling of a message). *)
Record lu := mk_lu { l_req : req; l_ps : bool; l_sub : subscriber }.

(** struct ss_session, hlr_ussd.c:180-211. is_external and the union: nobody, internal handler, external
    handler, or the pointer to an EUSE stored while is_external is false (hlr_ussd.c:634). *)
Inductive handler := HNone | HInt (i : iuse) | HExt (euse : string) | HOrig (euse : string).
Record session := mk_ss {
  z_imsi : string; z_sid : Z; z_state : Z; z_hdl : handler; z_vlr : ipa_name;
  z_ms : option req; z_euse : option req }.

(** g_hlr->gs, g_all_lu (newest first), hlr->ss_sessions, next request number *)
Record hst := mk_hst { t_srv : server; t_lus : list lu; t_ss : list session; t_nr : nat }.
Definition hst0 : hst := mk_hst server0 [] [] 0.
Definition with_srv (s : hst) (v : server) : hst := mk_hst v (t_lus s) (t_ss s) (t_nr s).
Definition with_lus (s : hst) (l : list lu) : hst := mk_hst (t_srv s) l (t_ss s) (t_nr s).
Definition with_ss (s : hst) (l : list session) : hst := mk_hst (t_srv s) (t_lus s) l (t_nr s).

(** the response callback of every request, gsup_server.c:123 *)
Definition tx (k : cfg) (s : hst) : sender := srv_tx (k_enc k) (t_srv s).

(** ** Creation on demand *)

(** hlr.c:175-179: up to ten tries *)
Fixpoint rand_try (f : nat -> option (nat -> N)) (n j : nat) : option (nat -> N) :=
  match n with
  | O => None
  | S n' => match f j with Some b => Some b | None => rand_try f n' (S j) end
  end.
(** hlr.c:186-189 *)
Definition rand_digits (b : nat -> N) (len : nat) : string :=
  str_of (map (fun j => ascii_of_N (48 + b j mod 10)) (seq 0 len)).

(** generate_new_msisdn, hlr.c:165-201 *)
Fixpoint generate_new_msisdn (w : world) (len n i : nat) : prog (option string) :=
  match n with
  | O => Ret None
  | S n' =>
      match rand_try (w_rnd w i) 10 0 with
      | None => Ret None
      | Some b =>
          let m := rand_digits b len in
          do rc <- db_subscr_exists_by_msisdn m;;
          if rc =? - ENOENT then Ret (Some m) else generate_new_msisdn w len n' (S i)
      end
  end.

(** subscr_create_on_demand, hlr.c:203-246 *)
Definition create_on_demand (k : cfg) (w : world) (imsi : string) : prog Z :=
  do rc <- db_subscr_exists_by_imsi imsi;;
  if rc =? 0 then Ret (-1)
  else
    do m <- (match k_cod k with
             | CodFromImsi => Ret (Some (str_take 15 imsi))
             | CodRand len => generate_new_msisdn w len 10 0
             | CodNoMsisdn => Ret (Some "")
             | CodOff => Ret None
             end);;
    match m with
    | None => Ret (-1)
    | Some m =>
        do rc <- db_subscr_create imsi (k_cod_flags k);;
        if negb (rc =? 0) then Ret rc
        else if (m =? "")%string then Ret 0
        else db_subscr_update_msisdn_by_imsi imsi (Some m)
    end.

(** ** Authentication data *)

(** number of vectors, hlr.c:300, 311-313 *)
Definition num_vectors (g : gsup) : nat :=
  if (0 <? x_nvec (g_x g)) && (x_nvec (g_x g) <=? Z.of_nat MAX_AUTH_INFO) then Z.to_nat (x_nvec (g_x g)) else MAX_AUTH_INFO.

(** rx_send_auth_info, hlr.c:293-347 *)
Definition rx_send_auth_info (k : cfg) (w : world) (s : hst) (q : req) : prog (list out) :=
  let g := q_gsup q in
  let err c := respond_err (tx k s) q c in
  do _ <- create_on_demand k w (g_imsi g);;
  do (rc, i) <- db_ind (q_src q);;
  let ind := if rc =? 0 then i else 0%N in
  do (rc, vs) <- db_get_auc (w_crypto w) (g_imsi g) ind (num_vectors g) (x_rand (g_x g)) (x_auts (g_x g))
                            (x_rat (g_x g) =? RAT_EUTRAN_SGS);;
  Ret (if rc <=? 0 then
         err (if (rc =? 0) || (rc =? - ENOKEY) then CAUSE_IMSI_UNKNOWN
              else if rc =? - ENOENT then k_reject k
              else CAUSE_NET_FAIL)
       else
         snd (respond (tx k s) q
                (with_ext (msg0 MSGT_SEND_AUTH_INFO_RESULT)
                   (mk_ext None None rc 0 (firstn (Z.to_nat rc) vs) None false None [] PlNone None None None []))
                false true)).

(** ** Location update *)

(** osmo_gsup_create_insert_subscriber_data_msg, gsup_server.c:453-493. [None]: MSISDN cannot be
    encoded. PDP info -1 stands for the wildcard APN. *)
Definition isd_msg (k : cfg) (imsi msisdn : string) (ps : bool) : option gsup :=
  if k_msisdn_enc k msisdn then
    Some (mk_gsup MSGT_INSERT_DATA_REQUEST imsi 0 0 [] [] None 0 SS_NONE (if ps then CN_PS else CN_CS)
            (mk_ext None None 0 0 [] None false (Some msisdn)
               (if ps then match k_pdp k with Some l => l | None => [-1] end else []) PlNone None None None []))
  else None.

Definition is_ipa (p : peer_id) : bool := match p_type p with PT_IPA => true | PT_EMPTY => false end.

(** lu_start, lu_fsm.c:107-201, with lu_failure (88-95) and lu_fsm_wait_insert_data_result_onenter (238-255) *)
Definition lu_start (k : cfg) (w : world) (s : hst) (q : req) : prog (hst * list out) :=
  let g := q_gsup q in
  let ps := negb (g_cn g =? CN_CS) in
  let fail c := Ret (s, respond_err (tx k s) q c) in
  if peer_is_empty (q_src q) then fail CAUSE_NET_FAIL
  else
    do (rc, sub) <- db_subscr_get_by_imsi (k_tz k) (g_imsi g);;
    if rc <? 0 then fail (k_reject k)
    else match sub with
    | None => Undef
    | Some h =>
        if negb ps && negb (h_nam_cs h) then fail CAUSE_PLMN_NOTALLOWED
        else if ps && negb (h_nam_ps h) then fail CAUSE_GPRS_NOTALLOWED
        else if negb (is_ipa (q_src q)) || (negb (peer_is_empty (q_via q)) && negb (is_ipa (q_via q)))
        then fail CAUSE_PROTO_ERR_UNSPEC
        else
          do rc <- db_subscr_lu (h_id h) (p_ipa (q_src q)) ps
                     (if peer_is_empty (q_via q) then None else Some (p_ipa (q_via q))) (w_now w);;
          if negb (rc =? 0) then fail CAUSE_NET_FAIL
          else match isd_msg k (h_imsi h) (h_msisdn h) ps with
          | None => fail CAUSE_NET_FAIL
          | Some isd =>
              let '(rc, o) := respond (tx k s) q isd false false in
              if negb (rc =? 0) then Ret (s, o ++ respond_err (tx k s) q CAUSE_NET_FAIL)
              else Ret (with_lus s (mk_lu q ps h :: t_lus s), o)
          end
    end.

Definition lu_del (s : hst) (nr : nat) : hst :=
  with_lus s (filter (fun l => negb (q_nr (l_req l) =? nr)%nat) (t_lus s)).

(** lu_rx_gsup, lu_fsm.c:203-220, for a message that is no Update Location Request, with
    lu_fsm_wait_insert_data_result (257-285) and lu_success (78-86) *)
Definition lu_rx (k : cfg) (s : hst) (q : req) : hst * list out :=
  match find (fun l => (h_imsi (l_sub l) =? g_imsi (q_gsup q))%string) (t_lus s) with
  | None => (s, respond_err (tx k s) q CAUSE_MSGT_INCOMP_P_STATE)
  | Some l =>
      if g_type (q_gsup q) =? MSGT_INSERT_DATA_RESULT then
        (lu_del s (q_nr (l_req l)),
         OFree (q_nr q) :: snd (respond_msgt (tx k s) (l_req l) MSGT_UPDATE_LOCATION_RESULT true))
      else if g_type (q_gsup q) =? MSGT_INSERT_DATA_ERROR then
        (lu_del s (q_nr (l_req l)), respond_err (tx k s) (l_req l) CAUSE_NET_FAIL ++ [OFree (q_nr q)])
      else (s, respond_err (tx k s) q CAUSE_MSGT_INCOMP_P_STATE)
  end.

(** lu_fsm_timer_cb, lu_fsm.c:222-227: timer of the update whose request has number [nr] *)
Definition lu_timeout (k : cfg) (s : hst) (nr : nat) : hst * list out :=
  match find (fun l => (q_nr (l_req l) =? nr)%nat) (t_lus s) with
  | None => (s, [])
  | Some l => (lu_del s nr, respond_err (tx k s) (l_req l) CAUSE_NET_FAIL)
  end.

(** rx_upd_loc_req, hlr.c:350-370 *)
Definition rx_upd_loc_req (k : cfg) (w : world) (s : hst) (q : req) : prog (hst * list out) :=
  let cs := g_cn (q_gsup q) =? CN_CS in
  let v := set_conn (t_srv s) (q_conn q)
             (fun c => mk_conn (c_id c) (c_name c) (c_ccm c) (if cs then true else c_cs c) (if cs then c_ps c else true)) in
  do _ <- create_on_demand k w (g_imsi (q_gsup q));;
  lu_start k w (with_srv s v) q.

(** ** Purge, IMEI check *)

(** rx_purge_ms_req, hlr.c:372-392 *)
Definition rx_purge_ms_req (k : cfg) (s : hst) (q : req) : prog (list out) :=
  let ps := negb (g_cn (q_gsup q) =? CN_CS) in
  do rc <- db_subscr_purge (g_imsi (q_gsup q)) true ps;;
  Ret (if rc =? 0 then snd (respond_msgt (tx k s) q MSGT_PURGE_MS_RESULT true)
       else respond_err (tx k s) q (if rc =? - ENOENT then CAUSE_IMSI_UNKNOWN else CAUSE_NET_FAIL)).

(** rx_check_imei_req, hlr.c:394-449 *)
Definition rx_check_imei_req (k : cfg) (w : world) (s : hst) (q : req) : prog (list out) :=
  let g := q_gsup q in
  let err := respond_err (tx k s) q CAUSE_INV_MAND_INFO in
  match x_imei (g_x g) with
  | None => Ret err
  | Some e =>
      match bcd_decode 14 e with
      | None => Ret err
      | Some imei =>
          if negb (imei_valid14 imei) then Ret err
          else
            do _ <- create_on_demand k w (g_imsi g);;
            do rc <- (if k_store_imei k then db_subscr_update_imei_by_imsi (g_imsi g) (Some imei)
                      else do (rc, _) <- db_subscr_get_by_imsi (k_tz k) (g_imsi g);; Ret rc);;
            Ret (if rc <? 0 then err
                 else snd (respond (tx k s) q
                        (with_ext (msg0 MSGT_CHECK_IMEI_RESULT)
                           (mk_ext None None 0 0 [] None true None [] PlNone None None None [])) false true))
      end
  end.

(** ** Unstructured supplementary services *)

(** libosmocore gsm_04_80.h: operation and error codes *)
Definition OP_PROCESS_USS_DATA : Z := 19.
Definition OP_PROCESS_USS_REQ : Z := 59.
Definition OP_USS_REQUEST : Z := 60.
Definition OP_USS_NOTIFY : Z := 61.
Definition ERR_UNKNOWN_SUBSCRIBER : Z := 1.
Definition ERR_SS_NOT_AVAILABLE : Z := 18.
Definition ERR_FACILITY_NOT_SUPPORTED : Z := 21.
Definition ERR_SYSTEM_FAILURE : Z := 34.

(** ss_op_is_ussd, hlr_ussd.c:459-470 *)
Definition op_is_ussd (op : Z) : bool :=
  (op =? OP_PROCESS_USS_DATA) || (op =? OP_PROCESS_USS_REQ) || (op =? OP_USS_REQUEST) || (op =? OP_USS_NOTIFY).

(** peer_name_is_euse, hlr_ussd.c:473-480 *)
Definition peer_is_euse (p : peer_id) : bool :=
  is_ipa p && (5 <? in_len (p_ipa p))%nat && bytes_eqb (firstn 5 (in_val (p_ipa p))) (bytes_of "EUSE-").

(** euse_find (hlr_ussd.c:43-53) with the name after "EUSE-", euse_by_name, hlr_ussd.c:482-491. Outer [None]:
    the name buffer is over-read. *)
Definition euse_by_name (k : cfg) (p : peer_id) : option (option string) :=
  if peer_is_euse p then
    match cstr (skipn 5 (in_val (p_ipa p))) with
    | None => None
    | Some n => Some (find (String.eqb n) (k_euses k))
    end
  else Some None.

(** ussd_route_lookup_for_req, hlr_ussd.c:124-171: first route whose prefix the code starts with *)
Definition ussd_lookup (k : cfg) (r : ss_req) : option ussd_target :=
  if r_dcs r / 16 =? 0 then
    match find (fun rt => String.prefix (fst rt) (k_7bit k (r_data r))) (k_ussd k) with
    | Some (_, t) => Some t
    | None => None
    end
  else None.

(** ss_session_find, hlr_ussd.c:214-222 *)
Definition ss_is (imsi : string) (sid : Z) (z : session) : bool := (z_imsi z =? imsi)%string && (z_sid z =? sid).
Definition ss_find (s : hst) (imsi : string) (sid : Z) : option session := find (ss_is imsi sid) (t_ss s).
Definition ss_put (s : hst) (z : session) : hst :=
  with_ss s (map (fun y => if ss_is (z_imsi z) (z_sid z) y then z else y) (t_ss s)).
Definition free_req (o : option req) : list out := match o with Some q => [OFree (q_nr q)] | None => [] end.
(** ss_session_free, hlr_ussd.c:224-233 *)
Definition ss_free (s : hst) (z : session) : hst * list out :=
  (with_ss s (filter (fun y => negb (ss_is (z_imsi z) (z_sid z) y)) (t_ss s)), free_req (z_ms z) ++ free_req (z_euse z)).
(** ss_session_timeout, hlr_ussd.c:235-242 *)
Definition ss_timeout (s : hst) (imsi : string) (sid : Z) : hst * list out :=
  match ss_find s imsi sid with Some z => ss_free s z | None => (s, []) end.

Definition z_with_state (z : session) (st : Z) : session :=
  mk_ss (z_imsi z) (z_sid z) st (z_hdl z) (z_vlr z) (z_ms z) (z_euse z).
Definition z_with_vlr (z : session) (n : ipa_name) : session :=
  mk_ss (z_imsi z) (z_sid z) (z_state z) (z_hdl z) n (z_ms z) (z_euse z).

(** ss_gsup_send_to_ms, hlr_ussd.c:270-310: the session (its VLR name may have been looked up) and
    what is sent; the return code is used by nobody. *)
Definition ss_send_to_ms (k : cfg) (s : hst) (z : session) (g : gsup) : prog (session * list out) :=
  match z_ms z with
  | Some q => Ret (z, snd (respond (tx k s) q g false false))
  | None =>
      if negb (k_enc k g) then Ret (z, [])
      else
        do zo <- (if (in_len (z_vlr z) =? 0)%nat then
                   do (rc, sub) <- db_subscr_get_by_imsi (k_tz k) (z_imsi z);;
                   if rc <? 0 then Ret None
                   else match sub with
                        | None => Undef
                        | Some h => match ipa_set_str (z_vlr z) (Some (h_vlr h)) with
                                    | None => Undef
                                    | Some n => Ret (Some (z_with_vlr z n))
                                    end
                        end
                 else Ret (Some z));;
        match zo with
        | None => Ret (z, [])
        | Some z =>
            if (in_len (z_vlr z) <=? 1)%nat then Ret (z, [])
            else match send_to (t_srv s) (z_vlr z) g with
                 | None => Undef
                 | Some (_, o) => Ret (z, o)
                 end
        end
  end.

(** ss_tx_to_ms, hlr_ussd.c:312-336 *)
Definition ss_tx_to_ms (k : cfg) (s : hst) (z : session) (pl : ss_payload) : prog (session * list out) :=
  ss_send_to_ms k s z
    (mk_gsup MSGT_PROC_SS_RESULT (z_imsi z) 0 0 [] [] None (z_sid z) (z_state z) 0
       (mk_ext None None 0 0 [] None false None [] pl None None None [])).
(** ss_tx_to_ms_error, hlr_ussd.c:351-358 *)
Definition ss_tx_error (k : cfg) (s : hst) (z : session) (invoke code : Z) : prog (session * list out) :=
  ss_tx_to_ms k s (z_with_state z SS_END) (PlErr invoke code).
(** ss_tx_to_ms_ussd_7bit, hlr_ussd.c:360-366 *)
Definition ss_tx_text (k : cfg) (s : hst) (z : session) (invoke : Z) (t : string) : prog (session * list out) :=
  ss_tx_to_ms k s z (PlText invoke t).

(** decimal notation of %u *)
Fixpoint dec_digits (fuel : nat) (n : N) : string :=
  match fuel with
  | O => ""
  | S f => let c := String (ascii_of_N (48 + n mod 10)) "" in
           if (n <? 10)%N then c else (dec_digits f (n / 10) ++ c)%string
  end.

(** handle_ussd_own_msisdn, handle_ussd_own_imsi, handle_ussd_test_idle, hlr_ussd.c:374-424 *)
Definition run_iuse (k : cfg) (s : hst) (z : session) (i : iuse) (invoke : Z) : prog (session * list out) :=
  match i with
  | OwnMsisdn =>
      let z := z_with_state z SS_END in
      do (rc, sub) <- db_subscr_get_by_imsi (k_tz k) (z_imsi z);;
      match rc, sub with
      | 0, Some h => ss_tx_text k s z invoke (if (h_msisdn h =? "")%string then "You have no MSISDN!"
                                              else ("Your extension is " ++ h_msisdn h)%string)
      | _, _ => ss_tx_error k s z invoke (if rc =? - ENOENT then ERR_UNKNOWN_SUBSCRIBER else ERR_SYSTEM_FAILURE)
      end
  | OwnImsi => ss_tx_text k s (z_with_state z SS_END) invoke ("Your IMSI is " ++ z_imsi z)%string
  | TestIdle => ss_tx_text k s (z_with_state z SS_CONTINUE) invoke
                  ("Keeping your session idle, it will expire at most in " ++ dec_digits 10 (Z.to_N (k_guard k)) ++ " seconds.")%string
  end.

(** osmo_ipa_name_set_str(&euse_name, "EUSE-%s", name), hlr_ussd.c:539: cut at 127 characters *)
Definition euse_addr (name : string) : list ascii := bytes_of (str_take 127 ("EUSE-" ++ name)) ++ [nul].

(** handle_ussd, hlr_ussd.c:512-560. The session is returned unless it has been freed. The result of osmo_gsup_encode
    (line 545) is ignored by the code; here a message that was decoded can be encoded again. *)
Definition handle_ussd (k : cfg) (s : hst) (z : session) (from_euse : bool) (g : gsup) (r : ss_req)
  : prog (hst * bool * list out) :=
  let keep (x : session * list out) := Ret (ss_put s (fst x), false, snd x) in
  match z_hdl z with
  | HNone => do x <- ss_tx_error k s z (r_invoke r) ERR_SS_NOT_AVAILABLE;; keep x
  | h =>
      if from_euse then do x <- ss_send_to_ms k s z g;; keep x
      else match h with
      | HExt name =>
          match route_find (v_routes (t_srv s)) (euse_addr name) with
          | None => do x <- ss_tx_error k s z (r_invoke r) ERR_SYSTEM_FAILURE;; keep x
          | Some c => Ret (s, false, [OTx c g])
          end
      | HInt i =>
          do x <- run_iuse k s z i (r_invoke r);;
          if z_state (fst x) =? SS_END
          then let '(s', o) := ss_free s (fst x) in Ret (s', true, snd x ++ o)
          else keep x
      | _ => Undef    (* a struct hlr_euse is used as struct hlr_iuse *)
      end
  end.

(** handle_ss, hlr_ussd.c:493-509 *)
Definition handle_ss (k : cfg) (s : hst) (z : session) (r : ss_req) : prog (hst * bool * list out) :=
  do x <- ss_tx_error k s z (r_invoke r) ERR_FACILITY_NOT_SUPPORTED;;
  Ret (ss_put s (fst x), false, snd x).

Definition ss_dispatch (k : cfg) (s : hst) (z : session) (from_euse : bool) (g : gsup) (r : ss_req)
  : prog (hst * bool * list out) :=
  if op_is_ussd (r_op r) then handle_ussd k s z from_euse g r else handle_ss k s z r.

(** who handles a new session, hlr_ussd.c:631-655; [None]: undefined behaviour *)
Definition ss_handler (k : cfg) (q : req) (from_euse : bool) (r : ss_req) : option handler :=
  if negb (op_is_ussd (r_op r)) then Some HNone
  else if from_euse then
    match euse_by_name k (q_src q) with
    | None => None
    | Some (Some n) => Some (HOrig n)
    | Some None => Some HNone
    end
  else match ussd_lookup k r with
       | Some (TExt n) => Some (HExt n)
       | Some (TInt i) => Some (HInt i)
       | None => Some (match k_euse_default k with Some n => HExt n | None => HNone end)
       end.

Definition pl_octets (p : ss_payload) : list N := match p with PlRaw l => l | _ => [] end.

(** rx_proc_ss_req, hlr_ussd.c:565-713 *)
Definition rx_proc_ss_req (k : cfg) (s : hst) (q : req) : prog (hst * list out) :=
  let g := q_gsup q in
  let from_euse := peer_is_euse (q_src q) in
  let err c := Ret (s, respond_err (tx k s) q c) in
  let pl := pl_octets (x_ss (g_x g)) in
  if negb (is_ipa (q_src q)) then err CAUSE_PROTO_ERR_UNSPEC
  else
    match (match pl with
           | [] => if g_ss g =? SS_END then Some (mk_ss_req 0 0 0 []) else None
           | l => k_facility k l
           end) with
    | None => err CAUSE_INV_MAND_INFO
    | Some r =>
        if g_ss g =? SS_BEGIN then
          match ss_find s (g_imsi g) (g_sid g) with
          | Some _ => err CAUSE_INV_MAND_INFO
          | None =>
              match ss_handler k q from_euse r with
              | None => Undef
              | Some h =>
                  let z := if from_euse then mk_ss (g_imsi g) (g_sid g) SS_NONE h ipa_empty None (Some q)
                           else mk_ss (g_imsi g) (g_sid g) SS_NONE h (p_ipa (q_src q)) (Some q) None in
                  let s := with_ss s (t_ss s ++ [z]) in
                  do x <- ss_dispatch k s z from_euse g r;;
                  Ret (fst (fst x), snd x)
              end
          end
        else if g_ss g =? SS_CONTINUE then
          match ss_find s (g_imsi g) (g_sid g) with
          | None => err CAUSE_MSGT_INCOMP_P_STATE
          | Some z =>
              do x <- ss_dispatch k s z from_euse g r;;
              Ret (fst (fst x), snd x ++ [OFree (q_nr q)])
          end
        else if g_ss g =? SS_END then
          match ss_find s (g_imsi g) (g_sid g) with
          | None => err CAUSE_MSGT_INCOMP_P_STATE
          | Some z =>
              do x <- (match pl with [] => Ret (s, false, []) | _ => ss_dispatch k s z from_euse g r end);;
              if snd (fst x) then Undef    (* the session has already been freed *)
              else let '(s', o) := ss_free (fst (fst x)) z in
                   Ret (s', snd x ++ o ++ [OFree (q_nr q)])
          end
        else Ret (s, [OFree (q_nr q)])
    end.

(** ** Short messages *)

(** libosmocore gsm_04_11.h: RP causes; gsup_sms.h: OSMO_GSUP_SMS_SM_RP_ODA_SMSC_ADDR *)
Definition RP_MO_NUM_UNASSIGNED : Z := 1.
Definition RP_SEMANT_INC_MSG : Z := 95.
Definition ODA_SMSC_ADDR : Z := 3.

(** respond_with_sm_rp_cause, hlr_sms.c:121-128 *)
Definition respond_rp_cause (k : cfg) (s : hst) (q : req) (c : Z) : list out :=
  snd (respond (tx k s) q
         (with_ext (msg0 0) (mk_ext None None 0 0 [] None false None [] PlNone None None (Some c) [])) true true).

(** find_smsc_route, hlr_sms.c:111-120 *)
Definition find_smsc (k : cfg) (addr : string) : option string :=
  match find (fun rt => (fst rt =? addr)%string) (k_smsc_routes k) with
  | Some (_, n) => Some n
  | None => k_smsc_default k
  end.

(** Forwarding to the peer with a given name (C string), hlr_sms.c:188-191, 216-219. A name that does not
    fit leaves dest_peer uninitialised. *)
Definition forward_to_name (k : cfg) (s : hst) (name : string) (q : req) : prog (list out) :=
  let '(rc, dest) := peer_set peer_zero (Some (bytes_of name ++ [nul])) in
  if negb (rc =? 0) then Undef
  else match forward_to_local_peer (k_enc k) (t_srv s) dest q with
       | None => Undef
       | Some o => Ret o
       end.

(** forward_mo_sms, hlr_sms.c:131-192 *)
Definition forward_mo_sms (k : cfg) (s : hst) (q : req) : prog (list out) :=
  let inv := Ret (respond_err (tx k s) q CAUSE_INV_MAND_INFO) in
  match x_da (g_x (q_gsup q)) with
  | None | Some (_, []) => inv
  | Some (t, o0 :: da) =>
      if negb (t =? ODA_SMSC_ADDR) then inv
      else if (length da <? 1)%nat || (10 <? length da)%nat || (o0 <? 128)%N
      then Ret (respond_rp_cause k s q RP_SEMANT_INC_MSG)
      else
        match find_smsc k (opt_default "" (bcd_decode 20 (N.of_nat (length da) :: da))) with
        | None => Ret (respond_rp_cause k s q RP_MO_NUM_UNASSIGNED)
        | Some name => forward_to_name k s name q
        end
  end.

(** forward_mt_sms, hlr_sms.c:198-220 *)
Definition forward_mt_sms (k : cfg) (s : hst) (q : req) : prog (list out) :=
  do (rc, sub) <- db_subscr_get_by_imsi (k_tz k) (g_imsi (q_gsup q));;
  if rc <? 0 then Ret (respond_err (tx k s) q CAUSE_IMSI_UNKNOWN)
  else match sub with
  | None => Undef
  | Some h => if (h_vlr h =? "")%string then Ret (respond_err (tx k s) q CAUSE_IMPL_DETACHED)
              else forward_to_name k s (h_vlr h) q
  end.

(** forward_req_copy_to_smsc, hlr_sms.c:245-263, for all of [names] *)
Fixpoint copy_to_smscs (k : cfg) (s : hst) (g : gsup) (names : list string) : option (list out) :=
  match names with
  | [] => Some []
  | n :: names' =>
      let '(rc, dest) := ipa_set ipa_empty (Some (bytes_of n ++ [nul])) in
      if negb (rc =? 0) then None
      else match enc_send_to (k_enc k) (t_srv s) dest (with_src g (bytes_of (k_serno k) ++ [nul])),
                 copy_to_smscs k s g names' with
           | Some (_, o), Some o' => Some (o ++ o')
           | _, _ => None
           end
  end.

(** rx_ready_for_sm_req, hlr_sms.c:265-276 *)
Definition rx_ready_for_sm_req (k : cfg) (s : hst) (q : req) : prog (list out) :=
  match copy_to_smscs k s (q_gsup q) (k_smscs k) with
  | None => Undef
  | Some o => Ret (o ++ snd (respond_msgt (tx k s) q MSGT_READY_FOR_SM_RESULT true))
  end.

(** ** Changes of subscription *)

Fixpoint until_nul (l : list ascii) : string :=
  match l with
  | [] => ""
  | c :: l' => if (c =? nul)%char then "" else String c (until_nul l')
  end.

(** osmo_hlr_subscriber_update_notify, hlr.c:73-163. The result of the encoding is ignored. *)
Definition notify_conn (k : cfg) (v : server) (h : subscriber) (c : conn) : list out :=
  if negb (c_ps c) && negb (c_cs c) then []
  else
    match c_ccm c with
    | None => []
    | Some peer =>
        if negb (until_nul peer =? (if c_ps c then h_sgsn h else h_vlr h))%string then []
        else match isd_msg k (h_imsi h) (h_msisdn h) (c_ps c) with
             | None => []
             | Some g => match route_find (v_routes v) peer with Some c' => [OTx c' g] | None => [] end
             end
    end.
Definition update_notify (k : cfg) (v : server) (h : subscriber) : list out :=
  flat_map (notify_conn k v h) (v_conns v).

(** one of the two transmissions at hlr.c:281-284 *)
Definition send_delete (k : cfg) (v : server) (imsi number : string) : option (list out) :=
  if (number =? "")%string then Some []
  else match ipa_set_str ipa_empty (Some number) with
       | None => None
       | Some n =>
           match enc_send_to (k_enc k) v n (mk_gsup MSGT_DELETE_DATA_REQUEST imsi 0 0 [] [] None 0 SS_NONE 0 ext0) with
           | Some (_, o) => Some o
           | None => None
           end
       end.

(** hlr_subscr_nam, hlr.c:256-286; ENOEXEC is 8. *)
Definition hlr_subscr_nam (k : cfg) (v : server) (h : subscriber) (val ps : bool) : prog (Z * list out) :=
  if Bool.eqb (if ps then h_nam_ps h else h_nam_cs h) val then Ret (8, [])
  else
    do rc <- db_subscr_nam (h_imsi h) val ps;;
    if negb (rc =? 0) then Ret (if 0 <? rc then - rc else rc, [])
    else if val then Ret (0, [])
    else match send_delete k v (h_imsi h) (h_vlr h), send_delete k v (h_imsi h) (h_sgsn h) with
         | Some o, Some o' => Ret (0, o ++ o')
         | _, _ => Undef
         end.

(** get_subscr_by_argv, hlr_vty_subscr.c:190-215 *)
Inductive selector := ByImsi (x : string) | ByMsisdn (x : string) | ById (i : Z) | ByImei (x : string).
Definition get_by (k : cfg) (x : selector) : prog (Z * option subscriber) :=
  match x with
  | ByImsi i => db_subscr_get_by_imsi (k_tz k) i
  | ByMsisdn m => db_subscr_get_by_msisdn (k_tz k) m
  | ById i => db_subscr_get_by_id (k_tz k) i
  | ByImei m => db_subscr_get_by_imei (k_tz k) m
  end.

(** subscriber_msisdn, hlr_vty_subscr.c:403-453; [None] is "none". The maximum length is 15. *)
Definition vty_msisdn (k : cfg) (s : hst) (x : selector) (m : option string) : prog (list out) :=
  if match m with Some m => (15 <? String.length m)%nat || negb (msisdn_valid m) | None => false end then Ret []
  else
    do (rc, sub) <- get_by k x;;
    match rc, sub with
    | 0, Some h =>
        do rc <- db_subscr_update_msisdn_by_imsi (h_imsi h) m;;
        if negb (rc =? 0) then Ret []
        else match m with
             | Some m =>
                 do (rc, sub) <- db_subscr_get_by_msisdn (k_tz k) m;;
                 match rc, sub with
                 | 0, Some h => Ret (update_notify k (t_srv s) h)
                 | _, _ => Ret []
                 end
             | None => Ret (update_notify k (t_srv s) h)
             end
    | _, _ => Ret []
    end.

(** subscriber_nam, hlr_vty_subscr.c:778-803 *)
Definition vty_nam (k : cfg) (s : hst) (x : selector) (cs ps : bool) : prog (list out) :=
  do (rc, sub) <- get_by k x;;
  match rc, sub with
  | 0, Some h =>
      do a <- (if Bool.eqb cs (h_nam_cs h) then Ret [] else do r <- hlr_subscr_nam k (t_srv s) h cs false;; Ret (snd r));;
      do b <- (if Bool.eqb ps (h_nam_ps h) then Ret [] else do r <- hlr_subscr_nam k (t_srv s) h ps true;; Ret (snd r));;
      Ret (a ++ b)
  | _, _ => Ret []
  end.

(** ** Reception *)

(** read_cb_forward, hlr.c:461-506. The destination name has been checked to fit by the caller. *)
Definition read_cb_forward (k : cfg) (s : hst) (dest : ipa_name) (q : req) : prog (list out) :=
  let g := q_gsup q in
  let routing_error := snd (respond (tx k s) q (with_src (msg0 MSGT_ROUTING_ERROR) (g_dst g)) true true) in
  match g_src g with
  | [] => Ret routing_error
  | _ => match send_to (t_srv s) dest g with
         | None => Undef
         | Some (rc, o) => Ret (if rc =? 0 then o ++ [OFree (q_nr q)] else routing_error)
         end
  end.

Definition same (s : hst) (p : prog (list out)) : prog (hst * list out) := do o <- p;; Ret (s, o).

(** dispatch by message type, hlr.c:535-586 *)
Definition dispatch (k : cfg) (w : world) (s : hst) (q : req) : prog (hst * list out) :=
  let t := g_type (q_gsup q) in
  if t =? MSGT_SEND_AUTH_INFO_REQUEST then same s (rx_send_auth_info k w s q)
  else if t =? MSGT_UPDATE_LOCATION_REQUEST then rx_upd_loc_req k w s q
  else if t =? MSGT_PURGE_MS_REQUEST then same s (rx_purge_ms_req k s q)
  else if (t =? MSGT_DELETE_DATA_ERROR) || (t =? MSGT_DELETE_DATA_RESULT) then Ret (s, [OFree (q_nr q)])
  else if (t =? MSGT_PROC_SS_REQUEST) || (t =? MSGT_PROC_SS_RESULT) then rx_proc_ss_req k s q
  else if t =? MSGT_PROC_SS_ERROR then Ret (s, [OFree (q_nr q)])
  else if (t =? MSGT_INSERT_DATA_ERROR) || (t =? MSGT_INSERT_DATA_RESULT)
          || (t =? MSGT_LOCATION_CANCEL_ERROR) || (t =? MSGT_LOCATION_CANCEL_RESULT) then Ret (lu_rx k s q)
  else if t =? MSGT_CHECK_IMEI_REQUEST then same s (rx_check_imei_req k w s q)
  else if t =? MSGT_MO_FORWARD_SM_REQUEST then same s (forward_mo_sms k s q)
  else if t =? MSGT_MT_FORWARD_SM_REQUEST then same s (forward_mt_sms k s q)
  else if t =? MSGT_READY_FOR_SM_REQUEST then same s (rx_ready_for_sm_req k s q)
  else Ret (s, [OFree (q_nr q)]).

(** read_cb, hlr.c:508-535, for the message [g] received on connection [cid] *)
Definition read_msg (k : cfg) (w : world) (s : hst) (cid : nat) (g : gsup) : prog (hst * list out) :=
  let '(v, r) := conn_rx (k_enc k) (t_srv s) (t_nr s) cid g in
  let s := mk_hst v (t_lus s) (t_ss s) (S (t_nr s)) in
  match r with
  | inr o => Ret (s, o)
  | inl q =>
      match g_dst g with
      | [] => dispatch k w s q
      | d =>
          match ipa_set_str ipa_empty (Some (k_serno k)) with
          | None => Undef
          | Some my_name =>
              let '(rc, dest) := ipa_set ipa_empty (Some d) in
              if (rc =? 0) && negb (ipa_cmp dest my_name =? 0) then same s (read_cb_forward k s dest q)
              else dispatch k w s q
          end
      end
  end.

Definition read_cb (k : cfg) (w : world) (s : hst) (cid : nat) (g : gsup) : prog (hst * list out) :=
  do x <- read_msg k w s cid g;; Ret (fst x, ORx (t_nr s) cid g :: snd x).

(** ** Events *)

(** What happens to the process from outside: TCP connections come, identify themselves and go,
    messages arrive, timers expire, commands are given on the VTY, and [EApi] stands for any other
    single database access (CTRL interface, other VTY commands). *)
Inductive event :=
| EAccept
| EIdent (c : nat) (tag : option (list ascii))
| EClose (c : nat)
| ERx (c : nat) (g : gsup)
| ELuTimer (nr : nat)
| ESsTimer (imsi : string) (sid : Z)
| EVtyMsisdn (x : selector) (m : option string)
| EVtyNam (x : selector) (cs ps : bool)
| EApi (a : api).

Definition handle (k : cfg) (w : world) (s : hst) (e : event) : prog (hst * list out) :=
  match e with
  | EAccept => Ret (with_srv s (srv_accept (t_srv s)), [])
  | EIdent c tag => Ret (with_srv s (srv_ident (t_srv s) c tag), [])
  | EClose c => Ret (with_srv s (srv_close (t_srv s) c), [])
  | ERx c g => match find_conn (t_srv s) c with Some _ => read_cb k w s c g | None => Ret (s, []) end
  | ELuTimer nr => Ret (lu_timeout k s nr)
  | ESsTimer imsi sid => Ret (ss_timeout s imsi sid)
  | EVtyMsisdn x m => same s (vty_msisdn k s x m)
  | EVtyNam x cs ps => same s (vty_nam k s x cs ps)
  | EApi a => do _ <- api_prog a;; Ret (s, [])
  end.

(** The restarted process: no connections, nothing in progress. The numbers given to
    connections and requests go on (they are names in the model only). *)
Definition restart (s : hst) : hst := mk_hst (mk_server [] [] (v_next (t_srv s))) [] [] (t_nr s).

(** One event with its world and fault schedule. [None]: undefined behaviour. What a handler sent
    before a crash is not logged (only vty_nam accesses the database after sending). *)
Definition step (k : cfg) (x : hst * db) (e : world * event * sched) : option (hst * db * list out) :=
  let '(w, e, c) := e in
  match run (handle k w (fst x) e) c (snd x) with
  | (Fin (s, o), d, _) => Some (s, d, o)
  | (Crashed, d, _) => Some (restart (fst x), d, [])
  | (Ub, _, _) => None
  end.

(** A history and what was sent during it, oldest first. *)
Fixpoint hist (k : cfg) (x : hst * db) (es : list (world * event * sched)) : option (hst * db * list out) :=
  match es with
  | [] => Some (x, [])
  | e :: es' =>
      match step k x e with
      | None => None
      | Some (x', o) => match hist k x' es' with
                        | None => None
                        | Some (y, o') => Some (y, o ++ o')
                        end
      end
  end.
