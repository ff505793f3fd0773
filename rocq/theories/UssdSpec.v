(** Vocabulary for USSD (C29, C30). *)
From Coq Require Import Sorted.
From Verif Require Import Base PeerId Db DbSpec Auth AuthSpec Gsup Router Hlr UssdCfg PeerSpec HlrSpec.

(** ** Choice of the service *)
Definition starts (p code : string) : Prop := exists r, code = (p ++ r)%string.
(** [t] belongs to the first entry of [l] whose prefix the code starts with *)
Definition first_match (l : list (string * ussd_target)) (code : string) (t : ussd_target) : Prop :=
  exists l1 p l2, l = l1 ++ (p, t) :: l2 /\ starts p code /\ forall q u, In (q, u) l1 -> ~ starts q code.
Definition no_match (l : list (string * ussd_target)) (code : string) : Prop := forall q u, In (q, u) l -> ~ starts q code.
(** the code can be read: coding group 0, the GSM alphabet *)
Definition readable (r : ss_req) : Prop := 0 <= r_dcs r < 16.
Inductive chosen (k : cfg) (r : ss_req) : option ussd_target -> Prop :=
| ch_route t : readable r -> first_match (k_ussd k) (k_7bit k (r_data r)) t -> chosen k r (Some t)
| ch_default n : (readable r -> no_match (k_ussd k) (k_7bit k (r_data r))) -> k_euse_default k = Some n -> chosen k r (Some (TExt n))
| ch_nobody : (readable r -> no_match (k_ussd k) (k_7bit k (r_data r))) -> k_euse_default k = None -> chosen k r None.

(** ** Requests *)
Definition ussd_op (op : Z) : Prop := op = 19 \/ op = 59 \/ op = 60 \/ op = 61.
(** the name of an external entity: "EUSE-" and at least one more octet *)
Definition entity_name (a : list ascii) : Prop := exists ch l, a = bytes_of "EUSE-" ++ ch :: l.
(** [g] opens a session for a mobile with the unstructured request [r] *)
Record opens_ussd (k : cfg) (s : hst) (c : nat) (g : gsup) (r : ss_req) : Prop := {
  ou_us : for_us k (t_srv s) c g;
  ou_type : g_type g = MSGT_PROC_SS_REQUEST;
  ou_begin : g_ss g = SS_BEGIN;
  ou_mobile : forall a, sends_as (t_srv s) c g a -> ~ entity_name a;
  ou_new : forall z, In z (t_ss s) -> ~ (z_imsi z = g_imsi g /\ z_sid z = g_sid g);
  ou_pl : exists l, x_ss (g_x g) = PlRaw l /\ l <> [] /\ k_facility k l = Some r;
  ou_dcs : 0 <= r_dcs r;
  ou_op : ussd_op (r_op r) }.

(** what an internal service answers, with the state of the session that the answer tells *)
Inductive own_answer (k : cfg) (d : db) (fault : Prop) (imsi : string) (inv : Z) : iuse -> Z -> ss_payload -> Prop :=
| oa_imsi : own_answer k d fault imsi inv OwnImsi SS_END (PlText inv ("Your IMSI is " ++ imsi))
| oa_idle t : own_answer k d fault imsi inv TestIdle SS_CONTINUE (PlText inv t)
| oa_number row m : In row (d_sub d) -> s_imsi row = imsi -> s_msisdn row = Some m ->
    own_answer k d fault imsi inv OwnMsisdn SS_END (PlText inv ("Your extension is " ++ m))
| oa_no_number row : In row (d_sub d) -> s_imsi row = imsi -> s_msisdn row = None ->
    own_answer k d fault imsi inv OwnMsisdn SS_END (PlText inv "You have no MSISDN!")
| oa_unknown : ~ has_imsi d imsi -> own_answer k d fault imsi inv OwnMsisdn SS_END (PlErr inv 1)
| oa_fault : fault -> own_answer k d fault imsi inv OwnMsisdn SS_END (PlErr inv 34).

(** request [nr] for [g] is answered with session state [st] and content [pl], and stays open *)
Definition ss_answer (nr : nat) (g : gsup) (st : Z) (pl : ss_payload) (o : out) : Prop :=
  exists r co, o = OResp nr r false co /\ g_type r = MSGT_PROC_SS_RESULT /\ g_imsi r = g_imsi g /\ g_sid r = g_sid g /\
    g_ss r = st /\ x_ss (g_x r) = pl /\ g_dst r = g_src g.

(** ** Configuration commands *)
Definition increasing (l : list nat) : Prop := StronglySorted lt l.
(** command number [i] of [h] asked for an entry for prefix [p] with aim [a] when there was none for [p], and no later
    command takes it away *)
Definition made_by (h : list ucmd) (i : nat) (p : string) (a : aim) : Prop :=
  (match a with
   | AInt x => nth_error h i = Some (CRouteInt p x)
   | AExt nr => exists n e, nth_error h i = Some (CRouteExt p n) /\ In e (u_euses (ucmds_run ucfg0 (firstn i h))) /\ e_name e = n /\ e_nr e = nr
   end) /\
  ~ In p (map fst (u_routes (ucmds_run ucfg0 (firstn i h)))) /\
  forall j, (i < j)%nat -> nth_error h j <> Some (CNoRoute p).

(** the name under which entity [n] is reached, cut to the 127 characters that fit *)
Definition entity_addr (n : string) : list ascii := bytes_of (str_take 127 ("EUSE-" ++ n)) ++ [nul].
(** what becomes of a request for the chosen service; [v] is the state of the connections *)
Definition ussd_outcome (k : cfg) (v : server) (d : db) (fault : Prop) (nr : nat) (g : gsup) (r : ss_req) (t : option ussd_target) (o : list out) : Prop :=
  match t with
  | Some (TExt n) =>
      (exists c, leads v (entity_addr n) c /\ o = [OTx c g]) \/
      ((forall c, ~ leads v (entity_addr n) c) /\ exists y, o = [y] /\ ss_answer nr g SS_END (PlErr (r_invoke r) 34) y)
  | Some (TInt i) =>
      exists y st pl, ss_answer nr g st pl y /\ own_answer k d fault (g_imsi g) (r_invoke r) i st pl /\
        o = if st =? SS_END then [y; OFree nr] else [y]
  | None => exists y, o = [y] /\ ss_answer nr g SS_END (PlErr (r_invoke r) 18) y
  end.

(** ** Sessions *)
(** at most one session per IMSI and session id *)
Definition one_session_per_id (s : hst) : Prop :=
  forall i j z z', nth_error (t_ss s) i = Some z -> nth_error (t_ss s) j = Some z' ->
    z_imsi z = z_imsi z' -> z_sid z = z_sid z' -> i = j.
(** [z'] is the session [z] with the same parties; the name of the mobile's node may have been looked up meanwhile *)
Record same_parties (z z' : session) : Prop := {
  sp_imsi : z_imsi z' = z_imsi z;
  sp_sid : z_sid z' = z_sid z;
  sp_hdl : z_hdl z' = z_hdl z;
  sp_ms : z_ms z' = z_ms z;
  sp_euse : z_euse z' = z_euse z;
  sp_vlr : z_vlr z' = z_vlr z \/ (z_ms z = None /\ ipa_bytes (z_vlr z) = []) }.
Definition request_of (nr : nat) (g : gsup) (a : list ascii) (o : option req) : Prop :=
  exists q, o = Some q /\ q_nr q = nr /\ q_gsup q = g /\ ipa_bytes (p_ipa (q_src q)) = a.
(** the service is the one chosen for the request that message [g] carries *)
Definition chosen_for (k : cfg) (g : gsup) (t : ussd_target) : Prop :=
  exists l r, x_ss (g_x g) = PlRaw l /\ k_facility k l = Some r /\ (0 <= r_dcs r -> chosen k r (Some t)).
(** [z] is a session that message [g], number [nr], of the peer named [a] opens *)
Record new_session (k : cfg) (nr : nat) (g : gsup) (a : list ascii) (z : session) : Prop := {
  ns_begin : g_ss g = SS_BEGIN;
  ns_imsi : z_imsi z = g_imsi g;
  ns_sid : z_sid z = g_sid g;
  ns_mobile : ~ entity_name a -> request_of nr g a (z_ms z) /\ z_euse z = None /\ ipa_bytes (z_vlr z) = a /\
    match z_hdl z with
    | HNone => True
    | HExt n => chosen_for k g (TExt n)
    | HInt i => chosen_for k g (TInt i)
    | HOrig _ => False
    end;
  ns_entity : entity_name a -> request_of nr g a (z_euse z) /\ z_ms z = None /\
    match z_hdl z with
    | HNone => True
    | HOrig n => In n (k_euses k) /\ forall m, ~ In nul m -> a = bytes_of "EUSE-" ++ m ++ [nul] -> m = bytes_of n
    | _ => False
    end }.
(** Log entry [y] is delivered, while [g] is handled, to a party of session [z]: to the mobile, by answering the request that opened
    the session or by sending to the node that serves the subscriber; or to the entity the session was opened with. Or a request
    of the session is dropped. *)
Inductive to_party (v : server) (d : db) (z : session) (g : gsup) : out -> Prop :=
| tp_ms q r co : z_ms z = Some q -> to_party v d z g (OResp (q_nr q) r false co)
| tp_entity n c : z_hdl z = HExt n -> leads v (entity_addr n) c -> to_party v d z g (OTx c g)
| tp_node m c : z_ms z = None -> ipa_bytes (z_vlr z) <> [] -> leads v (addr_of (ipa_bytes (z_vlr z))) c -> to_party v d z g (OTx c m)
| tp_serving m c row : z_ms z = None -> ipa_bytes (z_vlr z) = [] -> In row (d_sub d) -> s_imsi row = z_imsi z ->
    leads v (bytes_of (str_take 31 (match serving CS row with Some n => n | None => "" end)) ++ [nul]) c -> to_party v d z g (OTx c m)
| tp_drop q : z_ms z = Some q \/ z_euse z = Some q -> to_party v d z g (OFree (q_nr q)).
(** the content of the message, if any, can be decoded *)
Definition ss_decodable (k : cfg) (g : gsup) : Prop := forall l, x_ss (g_x g) = PlRaw l -> l <> [] -> k_facility k l <> None.
(** a message of supplementary services, addressed to nobody else *)
Definition ss_type (t : Z) : Prop := t = MSGT_PROC_SS_REQUEST \/ t = MSGT_PROC_SS_RESULT.
Definition addressed_here (k : cfg) (g : gsup) : Prop := g_dst g = [] \/ g_dst g = own_name k.
(** the names of the nodes in the subscriber record contain no percent sign *)
Definition plain_nodes (d : db) (imsi : string) : Prop := forall row, In row (d_sub d) -> s_imsi row = imsi -> forall t,
  s_vlr row = Some t \/ s_vlr_proxy row = Some t \/ s_sgsn_proxy row = Some t -> plain_text t.
