(** Properties C24-C26, C49: requests, routes and forwarding. *)
From Verif Require Import Base PeerId Db DbSpec Auth Gsup Router Hlr HlrSpec HlrThms RouterThms RouterThms2 HlrThms2 HlrThms3 RouterThms3 RouterThms4 HlrExamples AuthProperties.

(** ** C24 *)

(** every response repeats the data of a message received earlier *)
Theorem C24_repeats_partial : forall k d es s d' l1 nr r fin c l2,
  hist k (hst0, d) es = Some (s, d', l1 ++ OResp nr r fin c :: l2) ->
  exists c' g, In (ORx nr c' g) l1 /\ repeats g r.
Proof. exact c24_repeats. Qed.
Print Assumptions C24_repeats_partial.

(** the last response ends the session of the message, others leave it open; without a session there is none in the responses *)
Theorem C24_session : forall k d es s d' l1 nr r fin c l2,
  hist k (hst0, d) es = Some (s, d', l1 ++ OResp nr r fin c :: l2) ->
  exists c' g, In (ORx nr c' g) l1 /\ if fin then closes g r else leaves g r.
Proof. exact c24_state. Qed.
Print Assumptions C24_session.

(** numbers identify messages *)
Theorem C24_numbers_fresh : forall k d es s d' l1 nr c g l2,
  hist k (hst0, d) es = Some (s, d', l1 ++ ORx nr c g :: l2) ->
  forall nr' c' g', In (ORx nr' c' g') (l1 ++ l2) -> nr' <> nr.
Proof. exact c24_number. Qed.
Print Assumptions C24_numbers_fresh.

(** closed means closed *)
Theorem C24_closed : forall k d es s d' l1 x l2 nr,
  hist k (hst0, d) es = Some (s, d', l1 ++ x :: l2) -> ends nr x -> forall y, In y l2 -> ~ about nr y.
Proof. exact c24_closed. Qed.
Print Assumptions C24_closed.

(** a message is held until a final response or its end without answer, and not longer *)
Theorem C24_open : forall k d es s d' o nr c g,
  hist k (hst0, d) es = Some (s, d', o) -> (forall w e f, In (w, e, f) es -> no_crash f) ->
  In (ORx nr c g) o -> pending s nr \/ exists x, In x o /\ ends nr x.
Proof. exact c24_open. Qed.
Print Assumptions C24_open.
Theorem C24_pending_not_ended : forall k d es s d' o nr,
  hist k (hst0, d) es = Some (s, d', o) -> pending s nr -> forall x, In x o -> ~ ends nr x.
Proof. exact c24_pending. Qed.
Print Assumptions C24_pending_not_ended.

Definition ex_two_updates : list (world * event * sched) :=
  ex_peer_up 0 "MSC-1" ++ ex_peer_up 1 "SGSN-1" ++
  [ev (ERx 0 (ex_lu_req ex_imsi CN_CS)); ev (ERx 1 (ex_lu_req "901700000001" CN_PS));
   ev (ERx 0 (ex_msg MSGT_INSERT_DATA_RESULT ex_imsi)); ev (ELuTimer 1)].
Example C24_case : ex_short ex_two_updates =
  Some [BRx 0 0 4; BResp 0 16 0 false (Some 0%nat); BRx 1 1 4; BResp 1 16 0 false (Some 1%nat);
        BRx 2 0 18; BFree 2; BResp 0 6 0 true (Some 0%nat); BResp 1 5 17 true (Some 1%nat)].
Proof. vm_compute. reflexivity. Qed.

(** a location update in a session: still open while it lasts, ended with the error *)
Definition ex_states (es : list (world * event * sched)) :=
  option_map (flat_map (fun y => match y with OResp _ r f _ => [(g_type r, g_ss r, f)] | _ => [] end)) (ex_log es).
Example C24_session_case : ex_states (ex_peer_up 0 "MSC-1" ++
    [ev (ERx 0 (mk_gsup MSGT_UPDATE_LOCATION_REQUEST ex_imsi 0 1 [] [] None 7 SS_BEGIN CN_CS ext0)); ev (ELuTimer 0)])
  = Some [(16, SS_CONTINUE, false); (5, SS_END, true)].
Proof. vm_compute. reflexivity. Qed.

(** an answer of an external USSD entity that names the HLR as its destination reaches the mobile's
    node with that destination *)
Theorem C24_destination_refuted : exists es s d' o nr c g r fin c',
  hist ex_cfg (hst0, ex_db2) es = Some (s, d', o) /\ In (ORx nr c g) o /\ In (OResp nr r fin (Some c')) o /\
  g_dst r <> g_src g.
Proof.
  exists (ex_peer_up 0 "MSC-1" ++ ex_peer_up 1 "EUSE-app" ++
    [ev (ERx 0 (ex_ussd MSGT_PROC_SS_REQUEST 7 SS_BEGIN "*21"));
     ev (ERx 1 (ex_from_to [] (nm "HLR") (ex_ussd MSGT_PROC_SS_RESULT 7 SS_CONTINUE "hello")))]).
  do 3 eexists. exists 0%nat, 0%nat. do 4 eexists. split; [vm_compute; reflexivity|].
  split; [left; reflexivity|]. split; [do 3 right; left; reflexivity|]. vm_compute. discriminate.
Qed.
Print Assumptions C24_destination_refuted.

(** ** C25 *)
Theorem C25_integrity : forall k d es s d' o, hist k (hst0, d) es = Some (s, d', o) ->
  one_route_per_name (t_srv s) /\ routes_open (t_srv s).
Proof. exact c25_integrity. Qed.
Print Assumptions C25_integrity.

Theorem C25_reachable_partial : forall k d es s d1 o c tag w f s2 d2 o2 es' s3 d3 o3,
  hist k (hst0, d) es = Some (s, d1, o) -> open_conn (t_srv s) c ->
  tag <> [] -> (length tag <= 128)%nat -> (forall c', leads (t_srv s) tag c' -> c' = c) ->
  no_crash f -> step k (s, d1) (w, EIdent c (Some tag), f) = Some (s2, d2, o2) ->
  quiet c es' -> hist k (s2, d2) es' = Some (s3, d3, o3) -> leads (t_srv s3) tag c.
Proof. exact c25_reachable. Qed.
Print Assumptions C25_reachable_partial.

Theorem C25_disconnect : forall k d es s d1 o c w f s2 d2 o2,
  hist k (hst0, d) es = Some (s, d1, o) -> no_crash f -> step k (s, d1) (w, EClose c, f) = Some (s2, d2, o2) ->
  forall a c', leads (t_srv s2) a c' <-> leads (t_srv s) a c' /\ c' <> c.
Proof. exact c25_disconnect. Qed.
Print Assumptions C25_disconnect.

Definition ex_proxied : list (world * event * sched) :=
  ex_peer_up 0 "MSC-1" ++ ex_peer_up 1 "HLR-2" ++ ex_peer_up 2 "MSC-1" ++
  [ev (ERx 1 (ex_from_to (nm "MSC-9") [] (ex_lu_req ex_imsi CN_CS)))].
Example C25_case : option_map (fun x => map (fun r => (str_of (rt_addr r), rt_conn r)) (v_routes (t_srv (fst (fst x))))) (ex_run ex_proxied) =
  Some [(str_of (nm "MSC-1"), 0%nat); (str_of (nm "HLR-2"), 1%nat); (str_of (nm "MSC-9"), 1%nat)] /\
  option_map (fun x => map rt_conn (v_routes (t_srv (fst (fst x))))) (ex_run (ex_proxied ++ [ev (EClose 1)])) = Some [0%nat].
Proof. split; vm_compute; reflexivity. Qed.

(** a peer whose name is longer than 128 bytes is not reachable under it *)
Theorem C25_long_name_refuted : exists tag s d o s2 d2 o2,
  hist ex_cfg (hst0, ex_db2) [ev EAccept] = Some (s, d, o) /\ open_conn (t_srv s) 0 /\ tag <> [] /\
  (forall c', ~ leads (t_srv s) tag c') /\
  step ex_cfg (s, d) (ev (EIdent 0 (Some tag))) = Some (s2, d2, o2) /\ open_conn (t_srv s2) 0 /\ ~ leads (t_srv s2) tag 0.
Proof.
  exists (repeat "x"%char 129). do 6 eexists. split; [vm_compute; reflexivity|].
  split; [eexists; split; [left; reflexivity|reflexivity]|]. split; [discriminate|]. split; [intros c' []|].
  split; [vm_compute; reflexivity|]. split; [eexists; split; [left; reflexivity|reflexivity]|].
  intros [H|[]]. vm_compute in H. discriminate.
Qed.
Print Assumptions C25_long_name_refuted.

(** no peer is ever reachable under such a name *)
Theorem C25_no_long_name : forall k d es s d' o, hist k (hst0, d) es = Some (s, d', o) ->
  forall a c, leads (t_srv s) a c -> (length a <= 128)%nat.
Proof. exact c25_no_long_name. Qed.
Print Assumptions C25_no_long_name.

(** Instead the peer is entered once more under the name it had before, unless another peer is; all
    other names stay as they were. *)
Theorem C25_long_name_kept : forall k d es s d1 o c x tag w f s2 d2 o2,
  hist k (hst0, d) es = Some (s, d1, o) -> find_conn (t_srv s) c = Some x -> (128 < length tag)%nat ->
  no_crash f -> step k (s, d1) (w, EIdent c (Some tag), f) = Some (s2, d2, o2) ->
  exists c', leads (t_srv s2) (ipa_bytes (c_name x)) c' /\ ((forall i, leads (t_srv s) (ipa_bytes (c_name x)) i -> i = c) -> c' = c) /\
    forall a i, leads (t_srv s2) a i <-> leads (t_srv s) a i \/ (a = ipa_bytes (c_name x) /\ i = c /\ forall j, leads (t_srv s) a j -> j = c).
Proof. exact c25_long_name_kept. Qed.
Print Assumptions C25_long_name_kept.

(** A peer that never said another name gets the empty name. All peers that have not said a name yet
    have that one, too: what they ask is answered to it. *)
Definition ex_nameless : list (world * event * sched) :=
  [ev EAccept; ev (EIdent 0 (Some (repeat "x"%char 129))); ev EAccept; ev (ERx 1 (ex_msg MSGT_PURGE_MS_REQUEST ex_imsi))].
Example C25_long_name_case :
  option_map (fun x => map (fun r => (str_of (rt_addr r), rt_conn r)) (v_routes (t_srv (fst (fst x))))) (ex_run ex_nameless) = Some [(""%string, 0%nat)] /\
  ex_short ex_nameless = Some [BRx 0 1 12; BResp 0 14 0 true (Some 0%nat)].
Proof. split; vm_compute; reflexivity. Qed.

(** ** C26 *)
(** Proved for a peer that is itself reachable under its name, whose message has a valid IMSI (or no foreign
    source name), as long as it stays connected. *)
Theorem C26_same_connection_partial : forall k d es s d1 o w c g f s2 d2 o2 es' s3 d3 o3 nr,
  hist k (hst0, d) es = Some (s, d1, o) ->
  step k (s, d1) (w, ERx c g, f) = Some (s2, d2, o2) -> In (ORx nr c g) o2 ->
  identified (t_srv s) c -> imsi_valid (g_imsi g) = true \/ (forall c', leads (t_srv s) (g_src g) c' -> c' = c) ->
  quiet c es' -> hist k (s2, d2) es' = Some (s3, d3, o3) ->
  forall r fin c', In (OResp nr r fin (Some c')) (o2 ++ o3) -> c' = c.
Proof. exact c26_same_connection. Qed.
Print Assumptions C26_same_connection_partial.

Example C26_case : ex_short (ex_proxied ++ [ev (ERx 1 (ex_msg MSGT_INSERT_DATA_RESULT ex_imsi))]) =
  Some [BRx 0 1 4; BResp 0 16 0 false (Some 1%nat); BRx 1 1 18; BFree 1; BResp 0 6 0 true (Some 1%nat)].
Proof. vm_compute. reflexivity. Qed.

(** in all cases the connection is found by a name: the source name in the request or the name its connection had when it came; it leads to
    the connection at the time of the response *)
Theorem C26_by_name : forall k d es s d1 o w e f s2 d2 o2, hist k (hst0, d) es = Some (s, d1, o) -> step k (s, d1) (w, e, f) = Some (s2, d2, o2) ->
  forall nr r fin c', In (OResp nr r fin (Some c')) o2 ->
  exists a, (exists es1 w1 c g f1 es2 s3 d3 o3 s4 d4 o4 x, es ++ [(w, e, f)] = es1 ++ (w1, ERx c g, f1) :: es2 /\
      hist k (hst0, d) es1 = Some (s3, d3, o3) /\ step k (s3, d3) (w1, ERx c g, f1) = Some (s4, d4, o4) /\ In (ORx nr c g) o4 /\
      In x (v_conns (t_srv s3)) /\ c_id x = c /\ (a = g_src g \/ a = ipa_bytes (c_name x))) /\
    leads (t_srv s2) a c'.
Proof. exact c26_by_name. Qed.
Print Assumptions C26_by_name.
(** the name taken over: the update begun by connection 0 is answered to connection 1 *)
Example C26_by_name_case : ex_short (ex_peer_up 0 "MSC-1" ++ [ev (ERx 0 (ex_lu_req ex_imsi CN_CS)); ev (EClose 0)] ++ ex_peer_up 1 "MSC-1" ++ [ev (ELuTimer 0)]) =
  Some [BRx 0 0 4; BResp 0 16 0 false (Some 0%nat); BResp 0 5 17 true (Some 1%nat)].
Proof. vm_compute. reflexivity. Qed.

(** two peers of the same name: the second one's request is answered to the first *)
Theorem C26_same_name_refuted : exists es s d o nr g r fin,
  hist ex_cfg (hst0, ex_db2) es = Some (s, d, o) /\ In (ORx nr 1 g) o /\ In (OResp nr r fin (Some 0%nat)) o.
Proof.
  exists (ex_peer_up 0 "MSC-1" ++ ex_peer_up 1 "MSC-1" ++ [ev (ERx 1 (ex_msg MSGT_PURGE_MS_REQUEST ex_imsi))]).
  do 3 eexists. exists 0%nat. do 3 eexists. split; [vm_compute; reflexivity|]. split; [left; reflexivity|right; left; reflexivity].
Qed.
Print Assumptions C26_same_name_refuted.
(** so it is always: all answers to the requests of a peer that states no source name go to the peer its name leads to, as long as that one
    is connected; *)
Theorem C26_elsewhere_refuted : forall k d es s d1 o w c x c' g f s2 d2 o2 es' s3 d3 o3 nr,
  hist k (hst0, d) es = Some (s, d1, o) -> In x (v_conns (t_srv s)) -> c_id x = c -> leads (t_srv s) (ipa_bytes (c_name x)) c' -> g_src g = [] ->
  step k (s, d1) (w, ERx c g, f) = Some (s2, d2, o2) -> In (ORx nr c g) o2 ->
  quiet c' es' -> hist k (s2, d2) es' = Some (s3, d3, o3) ->
  forall r fin dst, In (OResp nr r fin (Some dst)) (o2 ++ o3) -> dst = c'.
Proof. exact c26_elsewhere. Qed.
Print Assumptions C26_elsewhere_refuted.
(** if its name leads nowhere, as before it has told one, nobody is sent the answer. *)
Theorem C26_nowhere_refuted : forall k d es s d1 o w c x g f s2 d2 o2 nr,
  hist k (hst0, d) es = Some (s, d1, o) -> In x (v_conns (t_srv s)) -> c_id x = c -> (forall c', ~ leads (t_srv s) (ipa_bytes (c_name x)) c') -> g_src g = [] ->
  step k (s, d1) (w, ERx c g, f) = Some (s2, d2, o2) -> In (ORx nr c g) o2 ->
  forall r fin dst, In (OResp nr r fin dst) o2 -> dst = None.
Proof. exact c26_nowhere. Qed.
Print Assumptions C26_nowhere_refuted.
Example C26_elsewhere_case :
  ex_short (ex_peer_up 0 "MSC-1" ++ ex_peer_up 1 "MSC-1" ++ [ev (ERx 1 (ex_lu_req ex_imsi CN_CS)); ev (ELuTimer 0)]) =
    Some [BRx 0 1 4; BResp 0 16 0 false (Some 0%nat); BResp 0 5 17 true (Some 0%nat)] /\
  ex_short [ev EAccept; ev (ERx 0 (ex_msg MSGT_PURGE_MS_REQUEST ex_imsi))] = Some [BRx 0 0 12; BResp 0 14 0 true None].
Proof. split; vm_compute; reflexivity. Qed.

(** a peer that has not said its name gets its answers sent to any peer it names *)
Theorem C26_unidentified_refuted : exists es s d o nr g r fin,
  hist ex_cfg (hst0, ex_db2) es = Some (s, d, o) /\ In (ORx nr 1 g) o /\ In (OResp nr r fin (Some 0%nat)) o.
Proof.
  exists (ex_peer_up 0 "MSC-1" ++ [ev EAccept; ev (ERx 1 (ex_from_to (nm "MSC-1") [] (ex_msg MSGT_PURGE_MS_REQUEST ex_imsi)))]).
  do 3 eexists. exists 0%nat. do 3 eexists. split; [vm_compute; reflexivity|]. split; [left; reflexivity|right; left; reflexivity].
Qed.
Print Assumptions C26_unidentified_refuted.

(** the error about a malformed IMSI goes to the peer named as source, whoever sent the message *)
Theorem C26_invalid_imsi_refuted : exists es s d o nr g r fin,
  hist ex_cfg (hst0, ex_db2) es = Some (s, d, o) /\ In (ORx nr 1 g) o /\ In (OResp nr r fin (Some 0%nat)) o.
Proof.
  exists (ex_peer_up 0 "MSC-1" ++ ex_peer_up 1 "MSC-2" ++ [ev (ERx 1 (ex_from_to (nm "MSC-1") [] (ex_msg MSGT_PURGE_MS_REQUEST "12x")))]).
  do 3 eexists. exists 0%nat. do 3 eexists. split; [vm_compute; reflexivity|]. split; [left; reflexivity|right; left; reflexivity].
Qed.
Print Assumptions C26_invalid_imsi_refuted.
(** so it is for every such message: the answer goes to whom the stated source name leads *)
Theorem C26_invalid_elsewhere_refuted : forall k d es s d1 o w c x c' g f s2 d2 o2 nr,
  hist k (hst0, d) es = Some (s, d1, o) -> In x (v_conns (t_srv s)) -> c_id x = c -> g_src g <> [] -> leads (t_srv s) (g_src g) c' -> imsi_valid (g_imsi g) = false ->
  step k (s, d1) (w, ERx c g, f) = Some (s2, d2, o2) -> In (ORx nr c g) o2 ->
  forall r fin dst, In (OResp nr r fin (Some dst)) o2 -> dst = c'.
Proof. exact c26_invalid. Qed.
Print Assumptions C26_invalid_elsewhere_refuted.
Example C26_invalid_case :
  ex_short (ex_peer_up 0 "MSC-1" ++ ex_peer_up 1 "MSC-2" ++ [ev (ERx 1 (ex_from_to (nm "MSC-1") [] (ex_msg MSGT_PURGE_MS_REQUEST "12x")))]) =
    Some [BRx 0 1 12; BResp 0 13 96 true (Some 0%nat)].
Proof. vm_compute. reflexivity. Qed.

(** a peer that takes the name of one that has gone gets the answer meant for it *)
Theorem C26_name_reused_refuted : exists es s d o nr g r fin,
  hist ex_cfg (hst0, ex_db2) es = Some (s, d, o) /\ In (ORx nr 0 g) o /\ In (OResp nr r fin (Some 1%nat)) o.
Proof.
  exists (ex_peer_up 0 "MSC-1" ++ [ev (ERx 0 (ex_lu_req ex_imsi CN_CS)); ev (EClose 0)] ++ ex_peer_up 1 "MSC-1" ++ [ev (ELuTimer 0)]).
  do 3 eexists. exists 0%nat. do 3 eexists. split; [vm_compute; reflexivity|]. split; [left; reflexivity|do 2 right; left; reflexivity].
Qed.
Print Assumptions C26_name_reused_refuted.

(** ** C49 *)
Theorem C49_forwarding_partial : forall k d0 es s d o0 w c g f s' d' o x,
  hist k (hst0, d0) es = Some (s, d, o0) ->
  find_conn (t_srv s) c = Some x -> ipa_bytes (c_name x) <> [] -> imsi_valid (g_imsi g) = true ->
  g_dst g <> [] -> (length (g_dst g) <= 128)%nat -> g_dst g <> own_name k ->
  step k (s, d) (w, ERx c g, f) = Some (s', d', o) ->
  d' = d /\ t_lus s' = t_lus s /\ t_ss s' = t_ss s /\
  exists rest, o = ORx (t_nr s) c g :: rest /\ c49_outcome g (t_nr s) c s' rest.
Proof. intros k d0 es s d o0 w c g f s' d' o x H. exact (c49_forward k s d w c g f s' d' o x (proj1 (hist_ltr _ _ _ _ _ _ _ inv0 H))). Qed.
Print Assumptions C49_forwarding_partial.

Example C49_case : ex_short (ex_peer_up 0 "MSC-1" ++ ex_peer_up 1 "SMSC-1" ++
    [ev (ERx 0 (ex_from_to (nm "MSC-1") (nm "SMSC-1") (ex_msg MSGT_PURGE_MS_REQUEST ex_imsi)));
     ev (ERx 0 (ex_from_to (nm "MSC-1") (nm "SMSC-2") (ex_msg MSGT_PURGE_MS_REQUEST ex_imsi)));
     ev (ERx 0 (ex_from_to [] (nm "SMSC-1") (ex_msg MSGT_PURGE_MS_REQUEST ex_imsi)))]) =
  Some [BRx 0 0 12; BTx 1 12; BFree 0; BRx 1 0 12; BResp 1 78 0 true (Some 0%nat); BRx 2 0 12; BResp 2 78 0 true (Some 0%nat)].
Proof. vm_compute. reflexivity. Qed.

(** a message for a name longer than 128 bytes is handled by the HLR itself *)
Theorem C49_long_destination_refuted : exists g s d o s2 d2 o2,
  hist ex_cfg (hst0, ex_db2) (ex_peer_up 0 "MSC-1") = Some (s, d, o) /\ g_dst g <> [] /\ g_dst g <> own_name ex_cfg /\
  step ex_cfg (s, d) (ev (ERx 0 g)) = Some (s2, d2, o2) /\ d2 <> d.
Proof.
  exists (ex_from_to (nm "MSC-1") (repeat "x"%char 129) (ex_msg MSGT_PURGE_MS_REQUEST ex_imsi)). do 6 eexists.
  split; [vm_compute; reflexivity|]. split; [discriminate|]. split; [vm_compute; discriminate|]. split; [vm_compute; reflexivity|].
  intros H. vm_compute in H. discriminate.
Qed.
Print Assumptions C49_long_destination_refuted.

(** before a peer has said its name it can send under the name of another *)
Theorem C49_source_refuted : exists g s d o s2 d2 o2,
  hist ex_cfg (hst0, ex_db2) (ex_peer_up 0 "MSC-1" ++ ex_peer_up 1 "SMSC-1" ++ [ev EAccept]) = Some (s, d, o) /\
  leads (t_srv s) (g_src g) 0 /\
  step ex_cfg (s, d) (ev (ERx 2 g)) = Some (s2, d2, o2) /\ In (OTx 1 g) o2.
Proof.
  exists (ex_from_to (nm "MSC-1") (nm "SMSC-1") (ex_msg MSGT_PURGE_MS_REQUEST ex_imsi)). do 6 eexists.
  split; [vm_compute; reflexivity|]. split; [left; reflexivity|]. split; [vm_compute; reflexivity|]. right. left. reflexivity.
Qed.
Print Assumptions C49_source_refuted.
