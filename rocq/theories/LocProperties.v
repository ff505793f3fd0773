(** C69 where a subscriber is registered, and since when: theorems and cases. *)
From Verif Require Import Base PeerId Db DbSpec DbProofs DbThms DbProperties AuthSpec AuthThms2 AuthProperties PeerSpec PeerThms Auth Gsup Router Hlr HlrSpec RouterThms HlrThms HlrStep
  HlrExamples HlrProperties LocSpec LocThms.

(** One event: the registration of a subscriber stays as it is, in both domains, or the event is a location update request
    for this subscriber and the registration in the domain of the request is what the request and its connection say. *)
Theorem C69_place : forall k s d w e f s' d' o, reached k s d -> no_direct_lu e -> step k (s, d) (w, e, f) = Some (s', d', o) ->
  forall r', In r' (d_sub d') -> row_from w (t_srv s) e d r'.
Proof. exact c69_place. Qed.
Print Assumptions C69_place.

(** Histories: whatever time or node the database holds for a subscriber was there at the start, or a location update request for
    this subscriber and domain came in at that time, or from that node. *)
Definition came (k : cfg) (d : db) (es : list (world * event * sched)) (P : world -> server -> nat -> gsup -> Prop) : Prop :=
  exists es1 w c g f es2 s1 d1 o1, es = es1 ++ (w, ERx c g, f) :: es2 /\ hist k (hst0, d) es1 = Some (s1, d1, o1) /\
    g_type g = MSGT_UPDATE_LOCATION_REQUEST /\ P w (t_srv s1) c g.
Theorem C69_since : forall k x d es s' d' o r' t, db_ok d -> keys_wellformed d -> (forall w e f, In (w, e, f) es -> no_direct_lu e) ->
  hist k (hst0, d) es = Some (s', d', o) -> In r' (d_sub d') -> since x r' = Some t ->
  (exists r, In r (d_sub d) /\ s_id r = s_id r' /\ s_imsi r = s_imsi r' /\ since x r = Some t) \/
  came k d es (fun w _ _ g => in_domain g x /\ g_imsi g = s_imsi r' /\ w_now w = Some t).
Proof.
  intros k x d es s' d' o r' t A B N H I E. assert (R : reached k hst0 d) by (exists d, [], []; auto).
  destruct (proj1 (c69_history k x es hst0 d s' d' o R N H r' I) t E) as [|(es1 & w & c & g & f & es2 & s1 & d1 & o1 & E1 & E2 & E3 & E4)]; [auto|right].
  exists es1, w, c, g, f, es2, s1, d1, o1. auto.
Qed.
Print Assumptions C69_since.
Theorem C69_node : forall k x d es s' d' o r' n, db_ok d -> keys_wellformed d -> (forall w e f, In (w, e, f) es -> no_direct_lu e) ->
  hist k (hst0, d) es = Some (s', d', o) -> In r' (d_sub d') -> serving x r' = Some n ->
  (exists r, In r (d_sub d) /\ s_id r = s_id r' /\ s_imsi r = s_imsi r' /\ serving x r = Some n) \/
  came k d es (fun _ v c g => in_domain g x /\ g_imsi g = s_imsi r' /\ exists a, sends_as v c g a /\ text_of a n).
Proof.
  intros k x d es s' d' o r' t A B N H I E. assert (R : reached k hst0 d) by (exists d, [], []; auto).
  destruct (proj2 (c69_history k x es hst0 d s' d' o R N H r' I) t E) as [|(es1 & w & c & g & f & es2 & s1 & d1 & o1 & E1 & E2 & E3 & E4)]; [auto|right].
  exists es1, w, c, g, f, es2, s1, d1, o1. auto.
Qed.
Print Assumptions C69_node.

(** When the subscriber data are sent to the node, its name, the node in between and the time are stored. *)
Theorem C69_stored : forall k s d w c g x f s' d' o r co, reached k s d -> g_type g = MSGT_UPDATE_LOCATION_REQUEST -> in_domain g x ->
  step k (s, d) (w, ERx c g, f) = Some (s', d', o) -> In (OResp (t_nr s) r false co) o ->
  exists r' a n t, In r' (d_sub d') /\ s_imsi r' = g_imsi g /\ sends_as (t_srv s) c g a /\ text_of a n /\ w_now w = Some t /\
    serving x r' = Some n /\ passed_by (t_srv s) c g (through x r') /\ since x r' = Some t.
Proof. exact c69_stored. Qed.
Print Assumptions C69_stored.

(** registered through a proxy at 1000 in the PS domain, at 2000 by itself in the CS domain; a purge changes neither *)
Definition ex_later (t : Z) (e : event) : world * event * sched := (mk_world (w_crypto ex_world) (w_rnd ex_world) (Some t), e, []).
Definition ex_places (s : hst) (d : db) := map (fun r => ((s_vlr r, s_vlr_proxy r, s_lu_cs r), (s_sgsn r, s_sgsn_proxy r, s_lu_ps r))) (d_sub d).
Definition ex_moves : list (world * event * sched) :=
  ex_up ++ [ev (ERx 0 (ex_from_to (nm "SGSN-7") [] (ex_lu_req ex_imsi CN_PS))); ex_later 2000 (ERx 1 (ex_lu_req ex_imsi CN_CS)); ex_later 3000 (ERx 1 (ex_msg MSGT_PURGE_MS_REQUEST ex_imsi))].
Example C69_case : option_map snd (ex_out ex_cfg ex_places ex_moves) =
  Some [((None, None, None), (None, None, None)); ((Some "MSC-2", None, Some 2000), (Some "SGSN-7", Some "MSC-1", Some 1000))]%string.
Proof. vm_compute. reflexivity. Qed.
Example C69_proper : (forall w e f, In (w, e, f) ex_moves -> no_direct_lu e) /\ db_ok ex_db2 /\ keys_wellformed ex_db2.
Proof.
  split; [intros w e f I; cbn in I; repeat (destruct I as [I|I]; [injection I as _ <- _; exact Logic.I|]); destruct I|].
  exact ex_db2_ok.
Qed.
