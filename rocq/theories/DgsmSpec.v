(** What D-GSM proxying shall do, without the functions of Dgsm.v *)
From Verif Require Import Base PeerId PeerSpec Db DbSpec Gsup Router Hlr Mdns Proxy Dgsm.

(** [y] can be reached from the start of the process with database [d0] *)
Definition dreached (k : cfg) (y : dstate) : Prop := exists d0 es, dhist k (hst0, dgst0, d0, []) es = Some y.

(** ** C38 *)
(** a run of the HLR alone, seen as one with D-GSM that leaves the state [z] of D-GSM as it is *)
Definition alone (z : dgst) (r : outcome (hst * list out) * db * sched) : outcome (hst * dgst * list dout) * db * sched :=
  let '(r, d, c) := r in
  (match r with Fin (s, o) => Fin (s, z, map DLoc o) | Crashed => Crashed | Ub => Ub end, d, c).

(** ** C39: deferred requests *)
(** numbers of the requests for an IMSI taken over by the proxy, in order of arrival *)
Definition taken (i : string) (l : list dout) : list nat :=
  flat_map (fun o => match o with DTake q => if (g_imsi (q_gsup q) =? i)%string then [q_nr q] else [] | _ => [] end) l.
(** numbers of the requests that the proxy has ended, in order: forwarded, answered with a final answer, or freed *)
Definition ended (l : list dout) : list nat :=
  flat_map (fun o => match o with DFwd nr _ _ | DAns (OResp nr _ true _) | DAns (OFree nr) => [nr] | _ => [] end) l.
(** [l] reduced to the members of [m] *)
Definition among (m l : list nat) : list nat := filter (fun n => existsb (Nat.eqb n) m) l.
(** numbers of the requests for an IMSI that wait *)
Definition held (i : string) (z : dgst) : list nat :=
  map q_nr (filter (fun q => (g_imsi (q_gsup q) =? i)%string) (z_wait z)).

Definition sa_usable (a : sa) : Prop := exists ip p, (a = Sa4 ip p \/ a = Sa6 ip p) /\ p <> 0%N /\ exists o, In o ip /\ o <> 0%N.
(** cached entry of an IMSI *)
Definition cached (z : dgst) (i : string) (p : psub) : Prop := exists t, In (mk_pent p t) (z_cache z) /\ ps_imsi p = i.
(** The request [q] waits for something: for a lookup of its IMSI, or for the link to the home HLR of its IMSI, which calls back when it is up. *)
Definition awaited (z : dgst) (q : req) : Prop :=
  exists p, cached z (g_imsi (q_gsup q)) p /\
    (~ sa_usable (ps_addr p) /\ In (g_imsi (q_gsup q)) (z_look z) \/
     sa_usable (ps_addr p) /\ exists n, In (mk_rem (ps_addr p) false (S n)) (z_rems z)).
(** Events after which deferred requests may wait for nothing: a link goes down while requests wait for it; an entry expires whose requests wait *)
Definition calm (k : cfg) (x : dworld) (z : dgst) (e : devent) : Prop :=
  match e with
  | DDown a => forall q p, In q (z_wait z) -> cached z (g_imsi (q_gsup q)) p -> ps_addr p <> a
  | DClean => forall q e, In q (z_wait z) -> In e (z_cache z) -> ps_imsi (pe_sub e) = g_imsi (q_gsup q) ->
                pe_upd e <= dw_now x - k_tz k <= pe_upd e + 3600
  | _ => True
  end.
(** [y] can be reached by calm events only *)
Inductive calmly (k : cfg) : dstate -> Prop :=
| calm_start d : calmly k (hst0, dgst0, d, [])
| calm_step s z d l x e c y : calmly k (s, z, d, l) -> calm k x z e -> dstep k (s, z, d, l) (x, e, c) = Some y -> calmly k y.
(** not the reception of a message *)
Definition no_rx (e : devent) : Prop := match e with DHlr (ERx _ _) => False | _ => True end.
(** the message sent to the remote HLR: that of the request, with the name of its sender *)
Definition sent_on (q : req) : gsup :=
  let g := q_gsup q in
  mk_gsup (g_type g) (g_imsi g) (g_cause g) (g_class g) (ipa_bytes (p_ipa (q_src q))) (g_dst g) (g_mr g) (g_sid g) (g_ss g) (g_cn g) (g_x g).
(** a request is refused: final error with this cause; what is not a request gets no answer *)
Definition refused (cause : Z) (q : req) (o : out) : Prop :=
  match o with
  | OResp nr r fin _ => nr = q_nr q /\ fin = true /\ g_imsi r = g_imsi (q_gsup q) /\ g_type r = to_error (g_type (q_gsup q)) /\ g_cause r = cause
  | OFree nr => nr = q_nr q /\ is_request (g_type (q_gsup q)) = false
  | _ => False
  end.
(** the IMEI asked for is good *)
Definition imei_passed (q : req) (o : out) : Prop :=
  match o with
  | OResp nr r fin _ => nr = q_nr q /\ fin = true /\ g_imsi r = g_imsi (q_gsup q) /\ g_type r = MSGT_CHECK_IMEI_RESULT /\ x_imei_ack (g_x r) = true
  | _ => False
  end.
(** what a deferred request that cannot be forwarded gets: it is refused with this cause, but a check of the IMEI is passed *)
Definition turned_down (cause : Z) (q : req) (o : out) : Prop :=
  (g_type (q_gsup q) = MSGT_CHECK_IMEI_REQUEST -> imei_passed q o) /\
  (g_type (q_gsup q) <> MSGT_CHECK_IMEI_REQUEST -> refused cause q o).

(** ** C40: registrations *)
Inductive dom := CsDom | PsDom.
Definition cn_of (d : dom) : Z := match d with CsDom => CN_CS | PsDom => CN_PS end.
(** the log entry is a location update for IMSI [i] and domain [d] from the node called [n] *)
Definition updates (o : dout) (i : string) (d : dom) (n : list ascii) : Prop :=
  exists q, o = DTake q /\ g_type (q_gsup q) = MSGT_UPDATE_LOCATION_REQUEST /\ g_imsi (q_gsup q) = i /\ g_cn (q_gsup q) = cn_of d /\
            ipa_bytes (p_ipa (q_src q)) = n.
(** ... is the confirmation of one, passed on to the node called [n] *)
Definition confirms (o : dout) (i : string) (n : list ascii) : Prop :=
  exists a c g, o = DTx a c g /\ g_type g = MSGT_UPDATE_LOCATION_RESULT /\ g_imsi g = i /\ g_dst g = n.
(** [asked h i d n]: in the log [h], latest entry first, the last location update for [i] and [d] came from [n], and has neither been confirmed nor
    forgotten. *)
Inductive asked : list dout -> string -> dom -> list ascii -> Prop :=
| ask_new o h i d n : updates o i d n -> asked (o :: h) i d n
| ask_old o h i d n : asked h i d n -> (forall m, ~ updates o i d m) -> ~ confirms o i n -> o <> DGone i -> asked (o :: h) i d n.
(** [serving h i d n]: [n] is the last node confirmed for [i] and [d] *)
Inductive serving : list dout -> string -> dom -> list ascii -> Prop :=
| srv_new o h i d n : confirms o i n -> asked h i d n -> serving (o :: h) i d n
| srv_old o h i d n : serving h i d n -> (forall m, confirms o i m -> ~ asked h i d m) -> o <> DGone i -> serving (o :: h) i d n.
(** the node registered by the cache, and the one asking *)
Definition pdom_of (d : dom) (p : psub) : pdom := match d with CsDom => ps_cs p | PsDom => ps_ps p end.
Definition registered (z : dgst) (i : string) (d : dom) (n : list ascii) : Prop :=
  exists p, cached z i p /\ ipa_bytes (pd_name (pdom_of d p)) = n.
Definition pending (z : dgst) (i : string) (d : dom) (n : list ascii) : Prop :=
  exists p, cached z i p /\ ipa_bytes (pd_prelim (pdom_of d p)) = n.

(** ** What the proxy tells a remote HLR about a request that it did not pass on *)
Record home_error (g m : gsup) (cause : Z) : Prop := {
  he_type : g_type m = g_type g + 1;
  he_imsi : g_imsi m = g_imsi g;
  he_cause : g_cause m = cause;
  he_class : g_class m = g_class g;
  he_names : g_src m = [] /\ g_dst m = [];
  he_mr : g_mr m = g_mr g;
  he_session : g_ss g <> 0 -> g_sid m = g_sid g /\ g_ss m = 3;
  he_none : g_ss g = 0 -> g_sid m = 0 /\ g_ss m = 0;
  he_else : g_cn m = 0 /\ g_x m = ext0 }.
