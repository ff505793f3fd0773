(** Vocabulary for the properties of the running HLR. *)
From Verif Require Import Base PeerId Db DbSpec DbThms Auth AuthSpec Gsup Router Hlr.

(** ** Requests in a log *)

(** The log entry answers or drops request [nr]. *)
Definition about (nr : nat) (o : out) : Prop :=
  match o with OResp n _ _ _ => n = nr | OFree n => n = nr | _ => False end.
(** The log entry ends request [nr]. *)
Definition ends (nr : nat) (o : out) : Prop :=
  match o with OResp n _ true _ => n = nr | OFree n => n = nr | _ => False end.

(** Kinds of messages by number (3GPP TS 29.002 style triples: request, error, result) *)
Definition request_type (t : Z) : Prop := exists i, t = 4 * i.
Definition error_type (t : Z) : Prop := exists i, t = 4 * i + 1.
Definition ss_type (t : Z) : Prop := 32 <= t <= 34.

(** What a response [r] repeats of the message [g] it answers. *)
Record repeats (g r : gsup) : Prop := {
  rp_imsi : g_imsi r = g_imsi g;
  rp_class : g_class r = g_class g;
  rp_sid : g_sid r = g_sid g;
  rp_mr : forall m, g_mr g = Some m -> g_mr r = Some m;
  rp_dst : g_dst r = g_src g \/ (ss_type (g_type r) /\ g_dst r <> []);
  rp_err : error_type (g_type r) -> request_type (g_type g) }.
(** The last response [r] to the message [g] of a session ends the session, unless it is itself a message of a USSD session (32, 34). A message outside of
    sessions gets responses outside of sessions. *)
Definition closes (g r : gsup) : Prop := g_type r <> 32 -> g_type r <> 34 -> g_ss r = if g_ss g =? SS_NONE then SS_NONE else SS_END.
(** any other leaves it open, unless the message [g] ended it *)
Definition leaves (g r : gsup) : Prop := g_type r <> 32 -> g_type r <> 34 ->
  g_ss r = if g_ss g =? SS_NONE then SS_NONE else if g_ss g =? SS_END then SS_END else SS_CONTINUE.

(** ** Routes *)

(** Where a message for the exact name [a] goes. *)
Definition leads (v : server) (a : list ascii) (c : nat) : Prop := In (mk_route a c) (v_routes v).
Definition open_conn (v : server) (c : nat) : Prop := exists x, In x (v_conns v) /\ c_id x = c.

Definition one_route_per_name (v : server) : Prop :=
  forall i j r r', nth_error (v_routes v) i = Some r -> nth_error (v_routes v) j = Some r' ->
    rt_addr r = rt_addr r' -> i = j.
Definition routes_open (v : server) : Prop := forall a c, leads v a c -> open_conn v c.

(** The event does not end connection [c] (an identification without name ends it). *)
Definition stays (c : nat) (e : event) : Prop :=
  match e with
  | EClose c' => c' <> c
  | EIdent c' (Some (_ :: _)) => True
  | EIdent c' _ => c' <> c
  | _ => True
  end.
Definition no_crash (c : sched) : Prop := ~ In EvCrash c.
Definition quiet (c : nat) (es : list (world * event * sched)) : Prop :=
  forall w e f, In (w, e, f) es -> stays c e /\ no_crash f.

(** ** Requests still held by the process *)
Definition opt_list {A} (o : option A) : list A := match o with Some x => [x] | None => [] end.
Definition z_reqs (z : session) : list req := opt_list (z_ms z) ++ opt_list (z_euse z).
Definition opens (s : hst) : list req := map l_req (t_lus s) ++ flat_map z_reqs (t_ss s).
Definition pending (s : hst) (nr : nat) : Prop := exists q, In q (opens s) /\ q_nr q = nr.

(** The connection has told its name and is the one reachable under it. *)
Definition identified (v : server) (c : nat) : Prop :=
  exists x, In x (v_conns v) /\ c_id x = c /\ ipa_bytes (c_name x) <> [] /\ leads v (ipa_bytes (c_name x)) c.

(** The address a destination name stands for: names end with NUL. *)
Definition addr_of (d : list ascii) : list ascii := if (last d "a"%char =? nul)%char then d else d ++ [nul].
(** the name of the HLR, a C string of at most 127 characters *)
Definition own_name (k : cfg) : list ascii := bytes_of (str_take 127 (k_serno k)) ++ [nul].

(** The name the sender of [g] on connection [c] goes by: the source name given, else the name of the connection. *)
Definition sends_as (v : server) (c : nat) (g : gsup) (a : list ascii) : Prop :=
  (g_src g <> [] /\ a = g_src g) \/
  (g_src g = [] /\ exists x, In x (v_conns v) /\ c_id x = c /\ a = ipa_bytes (c_name x)).
(** The message is handled by the HLR itself: it comes on an open connection, with a well-formed IMSI, is addressed to
    nobody else, and its source name, if any, does not belong to another connection. *)
Record for_us (k : cfg) (v : server) (c : nat) (g : gsup) : Prop := {
  fu_conn : open_conn v c;
  fu_imsi : is_imsi (g_imsi g);
  fu_dst : g_dst g = [] \/ g_dst g = own_name k;
  fu_src : g_src g <> [] -> (length (g_src g) <= 128)%nat /\ forall c', leads v (g_src g) c' -> c' = c }.

(** ** Creation on demand *)

(** The number drawn in attempt [i]: digits from the random octets of the first of ten tries that gives any. *)
Definition drawn (w : world) (len i : nat) (m : string) : Prop :=
  exists j b, (j < 10)%nat /\ w_rnd w i j = Some b /\ (forall j', (j' < j)%nat -> w_rnd w i j' = None) /\
    String.length m = len /\
    forall n, (n < len)%nat -> exists ch, String.get n m = Some ch /\ N_of_ascii ch = (48 + b n mod 10)%N.
(** MSISDN of a subscriber created on demand in database [d] *)
Definition cod_number (k : cfg) (w : world) (d : db) (imsi : string) (m : option string) : Prop :=
  match k_cod k with
  | CodRand len => exists i x, (i < 10)%nat /\ drawn w len i x /\ ~ has_msisdn d x /\ m = Some x
  | CodFromImsi => (m = Some imsi /\ ~ has_msisdn d imsi) \/ (m = None /\ has_msisdn d imsi)
  | CodNoMsisdn => m = None
  | CodOff => False
  end.
(** a number can be found: one of the ten drawn is free, and no earlier drawing fails *)
Definition cod_able (k : cfg) (w : world) (d : db) : Prop :=
  match k_cod k with
  | CodRand len => (1 <= len <= 15)%nat /\ exists i m, (i < 10)%nat /\ drawn w len i m /\ ~ has_msisdn d m /\
                     forall i', (i' < i)%nat -> exists m', drawn w len i' m'
  | CodOff => False
  | _ => True
  end.
Definition cod_row (k : cfg) (imsi : string) (m : option string) (id : Z) : sub_row :=
  {| s_id := id; s_imsi := imsi; s_msisdn := m; s_imei := None; s_vlr := None; s_sgsn := None;
     s_nam_cs := N.testbit (k_cod_flags k) 1; s_nam_ps := N.testbit (k_cod_flags k) 2;
     s_purged_cs := false; s_purged_ps := false; s_lu_cs := None; s_lu_ps := None;
     s_vlr_proxy := None; s_sgsn_proxy := None |}.

(** ** Authentication data *)

(** Making vector number [j] fails: no random number, or an algorithm reports an error. *)
Definition round_fails (cr : crypto) (j : nat) : Prop :=
  match c_rand cr j with
  | None => True
  | Some rnd => (exists u, fst (c_gen3 cr u rnd) = None) \/ (exists u a r, fst (c_auts cr u a r rnd) = None) \/
                (exists g, c_gen2 cr g rnd = None)
  end.
(** stored keys that are in use (algorithm not NONE) *)
Definition uses_2g (d : db) (id : Z) : Prop := exists a, key2 d id a /\ a2_algo a <> 0.
Definition uses_3g (d : db) (id : Z) : Prop := exists a, key3 d id a /\ a3_algo a <> 0.
(** The request cannot be served with the stored keys: only one of RAND and AUTS is given, or both but there is no
    3G key, or no stored key is in use. *)
Definition unservable (d : db) (id : Z) (g : gsup) : Prop :=
  (is_some (x_rand (g_x g)) <> is_some (x_auts (g_x g))) \/
  (is_some (x_rand (g_x g)) = true /\ ~ uses_3g d id) \/
  (~ uses_2g d id /\ ~ uses_3g d id).
(** number of vectors that may be handed out *)
Definition vectors_allowed (g : gsup) (n : nat) : Prop :=
  (1 <= n <= 5)%nat /\ (1 <= x_nvec (g_x g) <= 5 -> Z.of_nat n <= x_nvec (g_x g)).

(** The answer [r] to a request [g] for authentication data, database [d] after the request. *)
Inductive sai_answer (k : cfg) (cr : crypto) (d : db) (faults : Prop) (g r : gsup) : Prop :=
| sai_vectors id :
    g_type r = MSGT_SEND_AUTH_INFO_RESULT -> vectors_allowed g (length (x_vecs (g_x r))) ->
    is_subscriber d (g_imsi g) id -> uses_2g d id \/ uses_3g d id -> sai_answer k cr d faults g r
| sai_unknown :
    g_type r = 9 -> x_vecs (g_x r) = [] -> ~ has_imsi d (g_imsi g) -> g_cause r = k_reject k -> sai_answer k cr d faults g r
| sai_no_keys id :
    g_type r = 9 -> x_vecs (g_x r) = [] -> is_subscriber d (g_imsi g) id -> ~ has_auc2 d id -> ~ has_auc3 d id ->
    g_cause r = CAUSE_IMSI_UNKNOWN -> sai_answer k cr d faults g r
| sai_none_made id :
    g_type r = 9 -> x_vecs (g_x r) = [] -> is_subscriber d (g_imsi g) id -> round_fails cr 0 ->
    g_cause r = CAUSE_IMSI_UNKNOWN -> sai_answer k cr d faults g r
| sai_internal :
    g_type r = 9 -> x_vecs (g_x r) = [] -> faults \/ (exists id, is_subscriber d (g_imsi g) id /\ unservable d id g) ->
    g_cause r = CAUSE_NET_FAIL -> sai_answer k cr d faults g r.

(** The number of vectors asked for: five unless the message says one to five. *)
Definition asked (g : gsup) (n : nat) : Prop :=
  (1 <= x_nvec (g_x g) <= 5 /\ Z.of_nat n = x_nvec (g_x g)) \/ (~ 1 <= x_nvec (g_x g) <= 5 /\ n = 5%nat).
(** [v] was made in round [j]: by the 3G algorithm, by it with the 2G part of the 2G algorithm, or by the 2G
    algorithm, always from the random number of that round. *)
Definition round_gives (cr : crypto) (j : nat) (v : vec) : Prop :=
  exists rnd, c_rand cr j = Some rnd /\
    ((exists g, c_gen2 cr g rnd = Some v) \/
     exists u v3 q, (c_gen3 cr u rnd = (Some v3, q) \/ exists a r, c_auts cr u a r rnd = (Some v3, q)) /\
       (v = v3 \/
        exists g w, c_gen2 cr g rnd = Some w /\
          v_rand v = v_rand v3 /\ v_autn v = v_autn v3 /\ v_ck v = v_ck v3 /\ v_ik v = v_ik v3 /\ v_res v = v_res v3 /\
          v_umts v = v_umts v3 /\ v_kc v = v_kc w /\ v_sres v = v_sres w /\ v_gsm v = true)).
(** What libosmocore's osmo_auth_gen_vec2 and osmo_auth_gen_vec_auts2 fill in on success. *)
Record fill_contract (cr : crypto) : Prop := {
  fc_2g : forall g rnd v, c_gen2 cr g rnd = Some v -> v_rand v = rnd /\ v_gsm v = true;
  fc_3g : forall u rnd v q, c_gen3 cr u rnd = (Some v, q) -> v_rand v = rnd /\ v_umts v = true;
  fc_auts : forall u a r rnd v q, c_auts cr u a r rnd = (Some v, q) -> v_rand v = rnd /\ v_umts v = true }.

(** ** Location update *)

(** the domain a message is about *)
Definition in_domain (g : gsup) (x : domain) : Prop := match x with CS => g_cn g = CN_CS | PS => g_cn g <> CN_CS end.
(** network access, serving node and purge mark of a subscriber in a domain *)
Definition access (x : domain) (r : sub_row) : bool := match x with CS => s_nam_cs r | PS => s_nam_ps r end.
Definition serving (x : domain) (r : sub_row) : option string := match x with CS => s_vlr r | PS => s_sgsn r end.
Definition purged (x : domain) (r : sub_row) : bool := match x with CS => s_purged_cs r | PS => s_purged_ps r end.

(** Database [d1] is [d], or [d] with a subscriber made on demand. *)
Definition created (k : cfg) (w : world) (d : db) (imsi : string) (d1 : db) : Prop :=
  d1 = d \/
  (k_cod k <> CodOff /\ ~ has_imsi d imsi /\
   exists id m, ~ has_id d id /\ d1 = with_sub d (d_sub d ++ [cod_row k imsi m id]) /\ (m = None \/ cod_number k w d imsi m)).

(** [r] is registered at the node that sent [g]; a name is a text with a terminating NUL. *)
Definition registered (v : server) (c : nat) (g : gsup) (x : domain) (r : sub_row) : Prop :=
  exists number, serving x r = Some number /\
    forall t, sends_as v c g (bytes_of t ++ [nul]) -> ~ In nul (bytes_of t) -> number = t.

(** cause sent when access is not allowed in the domain *)
Definition barred_cause (x : domain) : Z := match x with CS => CAUSE_PLMN_NOTALLOWED | PS => CAUSE_GPRS_NOTALLOWED end.

(** The first answer [r] to the location update request [g] of connection [c]; [d1] is the database after creation on
    demand, [d'] at the end; [fin] tells whether the procedure ends with the answer. *)
Inductive lu_answer (k : cfg) (w : world) (v : server) (c : nat) (x : domain) (d1 d' : db) (faults : Prop) (g r : gsup) : bool -> Prop :=
| lu_go row row' :
    In row (d_sub d1) -> s_imsi row = g_imsi g -> access x row = true ->
    In row' (d_sub d') -> s_id row' = s_id row -> s_imsi row' = g_imsi g -> access x row' = true -> registered v c g x row' ->
    only_domain_changed x (fun y => s_id y = s_id row) d1 d' ->
    g_type r = MSGT_INSERT_DATA_REQUEST ->
    x_msisdn (g_x r) = Some (match s_msisdn row with Some m => m | None => "" end) ->
    lu_answer k w v c x d1 d' faults g r false
| lu_unknown :
    ~ has_imsi d1 (g_imsi g) -> d' = d1 -> g_type r = 5 -> g_cause r = k_reject k -> lu_answer k w v c x d1 d' faults g r true
| lu_barred row :
    In row (d_sub d1) -> s_imsi row = g_imsi g -> access x row = false -> d' = d1 ->
    g_type r = 5 -> g_cause r = barred_cause x -> lu_answer k w v c x d1 d' faults g r true
| lu_nameless :
    sends_as v c g [] -> d' = d1 -> g_type r = 5 -> g_cause r = CAUSE_NET_FAIL -> lu_answer k w v c x d1 d' faults g r true
| lu_read_failed :
    faults -> d' = d1 -> g_type r = 5 -> g_cause r = k_reject k -> lu_answer k w v c x d1 d' faults g r true
| lu_store_failed row :
    In row (d_sub d1) -> s_imsi row = g_imsi g -> access x row = true -> only_domain_changed x (fun y => s_id y = s_id row) d1 d' ->
    faults \/ w_now w = None \/ (exists m, k_msisdn_enc k m = false /\ (m = "" \/ s_msisdn row = Some m)) ->
    g_type r = 5 -> g_cause r = CAUSE_NET_FAIL -> lu_answer k w v c x d1 d' faults g r true.

(** No crash of the process during the history. *)
Definition crash_free (es : list (world * event * sched)) : Prop := forall w e f, In (w, e, f) es -> no_crash f.
(** The log holds exactly one end of request [nr], the final response [r]. *)
Definition ended_once (nr : nat) (log : list out) (r : gsup) : Prop :=
  exists co l1 l2, log = l1 ++ OResp nr r true co :: l2 /\ forall y, In y (l1 ++ l2) -> ~ ends nr y.
(** The update of request [nr] waits for the answer of its node. *)
Definition waiting (s : hst) (nr : nat) (imsi : string) : Prop :=
  exists l, In l (t_lus s) /\ q_nr (l_req l) = nr /\ h_imsi (l_sub l) = imsi.

(** ** Purge *)
Definition with_purged (x : domain) (r : sub_row) : sub_row :=
  {| s_id := s_id r; s_imsi := s_imsi r; s_msisdn := s_msisdn r; s_imei := s_imei r; s_vlr := s_vlr r; s_sgsn := s_sgsn r;
     s_nam_cs := s_nam_cs r; s_nam_ps := s_nam_ps r;
     s_purged_cs := match x with CS => true | PS => s_purged_cs r end;
     s_purged_ps := match x with CS => s_purged_ps r | PS => true end;
     s_lu_cs := s_lu_cs r; s_lu_ps := s_lu_ps r; s_vlr_proxy := s_vlr_proxy r; s_sgsn_proxy := s_sgsn_proxy r |}.
(** the rows with the IMSI changed by [f] *)
Definition rows_of (imsi : string) (f : sub_row -> sub_row) (d : db) : db :=
  with_sub d (map (fun r => if (s_imsi r =? imsi)%string then f r else r) (d_sub d)).
Inductive purge_answer (x : domain) (d d' : db) (faults : Prop) (g r : gsup) : Prop :=
| pu_done : has_imsi d (g_imsi g) -> d' = rows_of (g_imsi g) (with_purged x) d -> g_type r = MSGT_PURGE_MS_RESULT -> purge_answer x d d' faults g r
| pu_unknown : ~ has_imsi d (g_imsi g) -> d' = d -> g_type r = 13 -> g_cause r = CAUSE_IMSI_UNKNOWN -> purge_answer x d d' faults g r
| pu_failed : faults -> d' = d -> g_type r = 13 -> g_cause r = CAUSE_NET_FAIL -> purge_answer x d d' faults g r.

(** ** IMEI check *)
Definition is_digit_code (n : N) (c : ascii) : Prop := (n <= 9)%N /\ N_of_ascii c = (48 + n)%N.
(** length octet 7, then two digits per octet, low nibble first *)
Definition encodes_imei (e : list N) (imei : string) : Prop :=
  exists l rest, e = 7%N :: l ++ rest /\ length l = 7%nat /\ String.length imei = 14%nat /\
    forall j o, nth_error l j = Some o ->
      (exists c, String.get (2 * j) imei = Some c /\ is_digit_code (o mod 16) c) /\
      (exists c, String.get (2 * j + 1) imei = Some c /\ is_digit_code (o / 16) c).
Definition reports (g : gsup) (imei : string) : Prop := exists e, x_imei (g_x g) = Some e /\ encodes_imei e imei.
Definition with_imei (imei : string) (r : sub_row) : sub_row :=
  {| s_id := s_id r; s_imsi := s_imsi r; s_msisdn := s_msisdn r; s_imei := Some imei; s_vlr := s_vlr r; s_sgsn := s_sgsn r;
     s_nam_cs := s_nam_cs r; s_nam_ps := s_nam_ps r; s_purged_cs := s_purged_cs r; s_purged_ps := s_purged_ps r;
     s_lu_cs := s_lu_cs r; s_lu_ps := s_lu_ps r; s_vlr_proxy := s_vlr_proxy r; s_sgsn_proxy := s_sgsn_proxy r |}.
(** answer to a device check; [d1]: the database after creation on demand *)
Inductive imei_answer (k : cfg) (w : world) (d d' : db) (faults : Prop) (g r : gsup) : Prop :=
| im_ack d1 imei : reports g imei -> created k w d (g_imsi g) d1 -> has_imsi d1 (g_imsi g) ->
    d' = (if k_store_imei k then rows_of (g_imsi g) (with_imei imei) d1 else d1) ->
    g_type r = MSGT_CHECK_IMEI_RESULT -> x_imei_ack (g_x r) = true -> imei_answer k w d d' faults g r
| im_unknown imei : reports g imei -> created k w d (g_imsi g) d' -> (~ has_imsi d' (g_imsi g) \/ faults) -> g_type r = 49 -> imei_answer k w d d' faults g r
| im_malformed : (forall imei, ~ reports g imei) -> d' = d -> g_type r = 49 -> imei_answer k w d d' faults g r.

(** ** Who a subscriber is *)
Definition who (r : sub_row) : Z * string * option string * bool * bool := (s_id r, s_imsi r, s_msisdn r, s_nam_cs r, s_nam_ps r).
(** The message asks for service: authentication data, location update, or a device check with a well-formed IMEI. *)
Definition asks_service (g : gsup) : Prop :=
  g_type g = MSGT_SEND_AUTH_INFO_REQUEST \/ g_type g = MSGT_UPDATE_LOCATION_REQUEST \/
  (g_type g = MSGT_CHECK_IMEI_REQUEST /\ exists imei, reports g imei).
(** the subscriber [id] made on demand *)
Definition newcomer (k : cfg) (imsi : string) (m : option string) (id : Z) : Z * string * option string * bool * bool :=
  (id, imsi, m, N.testbit (k_cod_flags k) 1, N.testbit (k_cod_flags k) 2).

(** ** Reachable states *)
(** The process in state [s] with database [d] after some history that began with a well-formed database. *)
Definition reached (k : cfg) (s : hst) (d : db) : Prop :=
  exists d0 es o, db_ok d0 /\ keys_wellformed d0 /\ hist k (hst0, d0) es = Some (s, d, o).
