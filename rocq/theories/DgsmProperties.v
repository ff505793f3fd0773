(** C38 (local subscribers are not proxied), C39 (deferred requests) and C40 (registrations at the proxy): theorems and cases. *)
From Verif Require Import Base PeerId PeerSpec Db DbSpec DbProperties AuthProperties Gsup Router Hlr HlrSpec HlrExamples Mdns Proxy Dgsm DgsmSpec DgsmThms4 DgsmThms5 DgsmThms6 DgsmThms7.
Local Open Scope string_scope. Local Open Scope list_scope. Local Open Scope Z_scope.

(** ** Concrete runs *)
Definition dgx (now : Z) : dworld := mk_dw ex_world now (fun _ => true).
Definition dev (now : Z) (e : devent) : dworld * devent * sched := (dgx now, e, []).
Definition dg_peer (c : nat) (name : string) : list (dworld * devent * sched) := [dev 0 (DHlr EAccept); dev 0 (DHlr (EIdent c (Some (nm name))))].
Definition dg_start (es : list (dworld * devent * sched)) : option dstate := dhist ex_cfg (hst0, dgst0, ex_db2, []) es.
Definition dg_s (y : dstate) : hst := fst (fst (fst y)).
Definition dg_z (y : dstate) : dgst := snd (fst (fst y)).
Definition dg_d (y : dstate) : db := snd (fst y).
Definition dg_l (y : dstate) : list dout := snd y.
Definition dg_end (es : list (dworld * devent * sched)) : dstate := match dg_start es with Some y => y | None => (hst0, dgst0, ex_db2, []) end.
Lemma dg_reached es : (if dg_start es then true else false) = true ->
  dreached ex_cfg (dg_s (dg_end es), dg_z (dg_end es), dg_d (dg_end es), dg_l (dg_end es)).
Proof.
  unfold dg_end. intros H. exists ex_db2, es. unfold dg_start in *. destruct (dhist _ _ _) as [[[[s z] d] l]|]; [reflexivity|discriminate].
Qed.
(** short form of a log *)
Inductive dbrief :=
| HLoc (b : brief) | HTake (nr : nat) (imsi : string) | HFwd (nr : nat) (a : sa) (src : list ascii) | HAns (b : brief) | HTx (a : sa) (conn : nat) (t : Z) | HErr (a : sa) (t : Z) | HGone (imsi : string).
Definition dshort (o : dout) : dbrief :=
  match o with
  | DLoc o => HLoc (short o) | DTake q => HTake (q_nr q) (g_imsi (q_gsup q)) | DFwd nr a g => HFwd nr a (g_src g) | DAns o => HAns (short o)
  | DTx a c g => HTx a c (g_type g) | DErr a g => HErr a (g_type g) | DGone i => HGone i
  end.
Definition dg_log (es : list (dworld * devent * sched)) : list dbrief := map dshort (dg_l (dg_end es)).
Definition dg_a : sa := Sa4 [10; 0; 0; 7]%N 4222%N.
Definition dg_b : sa := Sa4 [10; 0; 0; 8]%N 4222%N.
Definition roamer : string := "901990000001".
Definition roamer2 : string := "901990000002".
Definition dg_on : dworld * devent * sched := dev 0 (DSet true SaNone CAUSE_NET_FAIL).
Definition lu (c : nat) (i : string) (cn : Z) : dworld * devent * sched := dev 10 (DHlr (ERx c (ex_lu_req i cn))).
Definition lu_result (i : string) (dst : list ascii) : gsup := ex_from_to [] dst (ex_msg MSGT_UPDATE_LOCATION_RESULT i).

Definition no_req : req := mk_req 0 0 (mk_peer PT_EMPTY ipa_empty) (mk_peer PT_EMPTY ipa_empty) (ex_msg 0 "").
Definition taken_reqs (l : list dout) : list req := flat_map (fun o => match o with DTake q => [q] | _ => [] end) l.
Lemma first_taken l : taken_reqs l <> [] -> In (DTake (hd no_req (taken_reqs l))) l.
Proof.
  intros H. assert (I : In (hd no_req (taken_reqs l)) (taken_reqs l)) by (destruct (taken_reqs l); [congruence|left; reflexivity]).
  apply in_flat_map in I. destruct I as (o & I & J). destruct o; try (destruct J as [J|[]]; rewrite <- J; exact I); destruct J.
Qed.
Lemma first_wait (l : list req) : l <> [] -> In (hd no_req l) l.
Proof. destruct l; [congruence|left; reflexivity]. Qed.
Lemma here_in i d : existsb (fun r => (s_imsi r =? i)%string) (d_sub d) = true -> exists r, In r (d_sub d) /\ s_imsi r = i.
Proof. intros H. apply existsb_exists in H. destruct H as (r & I & E). apply String.eqb_eq in E. eauto. Qed.
Definition entry_of (es : list (dworld * devent * sched)) (i : string) : psub :=
  match cache_by_imsi (z_cache (dg_z (dg_end es))) i with Some p => p | None => mk_psub "" "" SaNone pdom0 pdom0 end.
Lemma entry_cached es i : existsb (fun e => (ps_imsi (pe_sub e) =? i)%string) (z_cache (dg_z (dg_end es))) = true -> cached (dg_z (dg_end es)) i (entry_of es i).
Proof.
  unfold entry_of, cache_by_imsi, cached. generalize (z_cache (dg_z (dg_end es))). intros c H. destruct (find _ c) as [[p t]|] eqn:F.
  - apply find_some in F. destruct F as [I E]. apply String.eqb_eq in E. exists t. auto.
  - apply existsb_exists in H. destruct H as (e & I & E). pose proof (find_none _ _ F e I) as X. cbn in X. congruence.
Qed.

(** ** C38 *)
(** The full statement is: for every outcome of the statements. Missing here: a failure of the statement that looks for the subscriber
    (which takes the first of the outcomes, if the proxy is in use). *)
Theorem C38_local_partial : forall k x s z c g d sch, (exists r, In r (d_sub d) /\ s_imsi r = g_imsi g) -> hd EvOk sch = EvOk ->
  exists sch', (sch' = sch \/ sch' = tl sch) /\ run (dhandle k x s z (DHlr (ERx c g))) sch d = alone z (run (handle k (dw_w x) s (ERx c g)) sch' d).
Proof. exact c38_local. Qed.
Print Assumptions C38_local_partial.
Theorem C38_one_entry : forall k s z d l i p p', dreached k (s, z, d, l) -> cached z i p -> cached z i p' -> p = p'.
Proof. exact c38_one. Qed.
Print Assumptions C38_one_entry.
(** messages for others change nothing at home: they are taken over by the proxy (or refused as they would be without it) *)
Theorem C38_foreign : forall k x s z d0 l c g sch d s' z' o d' sch', dreached k (s, z, d0, l) -> (z_active z = true \/ sa_usable (z_gw z)) ->
  ~ (exists r, In r (d_sub d) /\ s_imsi r = g_imsi g) -> g_dst g = [] ->
  run (dhandle k x s z (DHlr (ERx c g))) sch d = (Fin (s', z', o), d', sch') ->
  d' = d /\ t_lus s' = t_lus s /\ t_ss s' = t_ss s /\
  ((exists q, In (DTake q) o /\ q_gsup q = g /\ q_nr q = t_nr s) \/
   (run (dhandle k x s z (DHlr (ERx c g))) sch d = alone z (run (handle k (dw_w x) s (ERx c g)) sch d))).
Proof. exact c38_foreign. Qed.
Print Assumptions C38_foreign.
(** an error of the database while looking for the subscriber: the message of a subscriber that is there goes to the proxy *)
Theorem C38_refuted : exists k s z d l x c g s' z' d' l' q, dreached k (s, z, d, l) /\ (exists r, In r (d_sub d) /\ s_imsi r = g_imsi g) /\
  dstep k (s, z, d, l) (x, DHlr (ERx c g), [EvFail]) = Some (s', z', d', l') /\ In (DTake q) l' /\ q_gsup q = g.
Proof.
  set (es := dg_peer 0 "MSC-1" ++ [dg_on]). set (es2 := es ++ [(dgx 10, DHlr (ERx 0 (ex_lu_req ex_imsi CN_CS)), [EvFail])]).
  exists ex_cfg, (dg_s (dg_end es)), (dg_z (dg_end es)), (dg_d (dg_end es)), (dg_l (dg_end es)), (dgx 10), 0%nat, (ex_lu_req ex_imsi CN_CS).
  exists (dg_s (dg_end es2)), (dg_z (dg_end es2)), (dg_d (dg_end es2)), (dg_l (dg_end es2)).
  exists (hd no_req (taken_reqs (dg_l (dg_end es2)))).
  split; [apply dg_reached; vm_compute; reflexivity|]. split; [apply here_in; vm_compute; reflexivity|]. split; [vm_compute; reflexivity|].
  split; [apply first_taken; vm_compute; discriminate|vm_compute; reflexivity].
Qed.
Print Assumptions C38_refuted.
Definition dg_local : list (dworld * devent * sched) := dg_peer 0 "MSC-1" ++ [dg_on; lu 0 ex_imsi CN_CS; lu 0 roamer CN_CS].
Example C38_case : dg_log dg_local =
  [HLoc (BRx 0 0 MSGT_UPDATE_LOCATION_REQUEST); HLoc (BResp 0 MSGT_INSERT_DATA_REQUEST 0 false (Some 0%nat)); HLoc (BRx 1 0 MSGT_UPDATE_LOCATION_REQUEST); HTake 1 roamer].
Proof. vm_compute. reflexivity. Qed.

(** ** C39 *)
(** each request for an IMSI taken over by the proxy is ended at most once, those that ended did so in order of arrival, and the others wait in this order *)
Theorem C39_order : forall k s z d l i, dreached k (s, z, d, l) -> NoDup (taken i l) /\ taken i l = among (taken i l) (ended l) ++ held i z.
Proof. exact c39_order. Qed.
Print Assumptions C39_order.
(** what is sent to remote HLRs, and how requests are answered *)
Theorem C39_how : forall k s z d l x e c s' z' d' l', dreached k (s, z, d, l) -> dstep k (s, z, d, l) (x, e, c) = Some (s', z', d', l') -> l' = [] \/
  exists o, l' = l ++ o /\
    (forall nr a m, In (DFwd nr a m) o -> exists q p, In (DTake q) l' /\ q_nr q = nr /\ m = sent_on q /\ cached z' (g_imsi (q_gsup q)) p /\ ps_addr p = a /\
       exists r, In r (z_rems z') /\ rm_addr r = a /\ rm_up r = true) /\
    (forall m, In (DAns m) o -> exists q, In (DTake q) l' /\ (turned_down (z_cause z) q m \/ refused CAUSE_NET_FAIL q m)).
Proof. exact c39_outs. Qed.
Print Assumptions C39_how.
(** the lookup finds the home HLR: its address is kept *)
Theorem C39_found : forall k s z d l x i p v4 v6 a, dreached k (s, z, d, l) -> In i (z_look z) -> cached z i p ->
  (sa_usable v4 /\ a = v4 \/ ~ sa_usable v4 /\ sa_usable v6 /\ a = v6) ->
  exists z' o, (forall c, dstep k (s, z, d, l) (x, DLook i (Some (v4, v6)), c) = Some (s, z', d, l ++ o)) /\ exists p', cached z' i p' /\ ps_addr p' = a /\ ps_cs p' = ps_cs p /\ ps_ps p' = ps_ps p.
Proof. exact c39_found. Qed.
Print Assumptions C39_found.
(** it does not: all waiting requests for this IMSI are answered *)
Theorem C39_not_found : forall k s z d l x i r, dreached k (s, z, d, l) -> In i (z_look z) ->
  (forall v4 v6, r = Some (v4, v6) -> ~ sa_usable v4 /\ ~ sa_usable v6) ->
  exists z' o, (forall c, dstep k (s, z, d, l) (x, DLook i r, c) = Some (s, z', d, l ++ o)) /\
    (forall p, ~ cached z' i p) /\
    forall q, In q (z_wait z) -> g_imsi (q_gsup q) = i -> ~ In q (z_wait z') /\ exists m, In (DAns m) o /\ turned_down (z_cause z) q m.
Proof. exact c39_lookup_failed. Qed.
Print Assumptions C39_not_found.
(** the link to a remote HLR comes up: all requests waiting for it are forwarded *)
Theorem C39_up : forall k s z d l x a r, dreached k (s, z, d, l) -> In r (z_rems z) -> rm_addr r = a -> sa_usable a ->
  exists z' o, (forall c, dstep k (s, z, d, l) (x, DUp a, c) = Some (s, z', d, l ++ o)) /\
    forall q p, In q (z_wait z) -> cached z (g_imsi (q_gsup q)) p -> ps_addr p = a ->
      ~ In q (z_wait z') /\
      (In (DFwd (q_nr q) a (sent_on q)) o \/ k_enc k (sent_on q) = false /\ exists m, In (DAns m) o /\ refused CAUSE_NET_FAIL q m).
Proof. exact c39_up. Qed.
Print Assumptions C39_up.
(** The full statement is: every request that waits does so for a lookup or a link. Missing here: links that go down, and cache entries that
    expire, while requests wait. *)
Theorem C39_awaited_partial : forall k s z d l q, calmly k (s, z, d, l) -> In q (z_wait z) -> awaited z q.
Proof. intros k s z d l q H. apply (c39_awaited k (s, z, d, l) H). Qed.
Print Assumptions C39_awaited_partial.
(** The link goes down before it was up: the request waits until the end, whatever happens, unless another message comes. *)
Theorem C39_down_refuted : exists k s z d l q, dreached k (s, z, d, l) /\ In q (z_wait z) /\
  forall es s' z' d' l', Forall (fun e => no_rx (snd (fst e)) /\ no_crash (snd e)) es -> dhist k (s, z, d, l) es = Some (s', z', d', l') -> In q (z_wait z').
Proof.
  set (es := dg_peer 0 "MSC-1" ++ [dg_on; lu 0 roamer CN_CS; dev 11 (DLook roamer (Some (dg_a, SaNone))); dev 12 (DDown dg_a)]).
  assert (R : dreached ex_cfg (dg_s (dg_end es), dg_z (dg_end es), dg_d (dg_end es), dg_l (dg_end es))) by (apply dg_reached; vm_compute; reflexivity).
  exists ex_cfg, (dg_s (dg_end es)), (dg_z (dg_end es)), (dg_d (dg_end es)), (dg_l (dg_end es)), (hd no_req (z_wait (dg_z (dg_end es)))).
  split; [exact R|]. split; [apply first_wait; vm_compute; discriminate|]. intros es2 s' z' d' l' F H. eapply dead_hist; eauto; [|apply first_wait; vm_compute; discriminate].
  split; [vm_compute; reflexivity|left; vm_compute; reflexivity].
Qed.
Print Assumptions C39_down_refuted.
(** the cache entry expires before the link is up *)
Theorem C39_expiry_refuted : exists k s z d l q, dreached k (s, z, d, l) /\ In q (z_wait z) /\
  forall es s' z' d' l', Forall (fun e => no_rx (snd (fst e)) /\ no_crash (snd e)) es -> dhist k (s, z, d, l) es = Some (s', z', d', l') -> In q (z_wait z').
Proof.
  set (es := dg_peer 0 "MSC-1" ++ [dg_on; lu 0 roamer CN_CS; dev 11 (DLook roamer (Some (dg_a, SaNone))); dev 4000 DClean]).
  assert (R : dreached ex_cfg (dg_s (dg_end es), dg_z (dg_end es), dg_d (dg_end es), dg_l (dg_end es))) by (apply dg_reached; vm_compute; reflexivity).
  exists ex_cfg, (dg_s (dg_end es)), (dg_z (dg_end es)), (dg_d (dg_end es)), (dg_l (dg_end es)), (hd no_req (z_wait (dg_z (dg_end es)))).
  split; [exact R|]. split; [apply first_wait; vm_compute; discriminate|]. intros es2 s' z' d' l' F H. eapply dead_hist; eauto; [|apply first_wait; vm_compute; discriminate].
  split; [vm_compute; reflexivity|right; vm_compute; reflexivity].
Qed.
Print Assumptions C39_expiry_refuted.

Definition check_imei (i : string) : gsup := ex_msg MSGT_CHECK_IMEI_REQUEST i.
(** two roamers; the home HLR of one is found, that of the other is not *)
Definition dg_wait : list (dworld * devent * sched) := dg_peer 0 "MSC-1" ++
  [dg_on; lu 0 roamer CN_CS; lu 0 roamer2 CN_CS; dev 10 (DHlr (ERx 0 (check_imei roamer2))); dev 10 (DHlr (ERx 0 (ex_msg MSGT_PURGE_MS_REQUEST roamer)));
   dev 11 (DLook roamer (Some (SaNone, Sa6 [1]%N 4222%N))); dev 11 (DLook roamer2 None)].
Definition dg_go : list (dworld * devent * sched) := dg_wait ++ [dev 12 (DUp (Sa6 [1]%N 4222%N)); dev 13 (DHlr (ERx 0 (ex_msg MSGT_PURGE_MS_REQUEST roamer)))].
Example C39_case : skipn 6 (dg_log dg_wait) = [HLoc (BRx 3 0 MSGT_PURGE_MS_REQUEST); HTake 3 roamer;
     HAns (BResp 1 (to_error MSGT_UPDATE_LOCATION_REQUEST) CAUSE_NET_FAIL true (Some 0%nat)); HAns (BResp 2 MSGT_CHECK_IMEI_RESULT 0 true (Some 0%nat)); HGone roamer2] /\
  held roamer (dg_z (dg_end dg_wait)) = [0; 3]%nat /\
  skipn 11 (dg_log dg_go) = [HFwd 0 (Sa6 [1]%N 4222%N) (nm "MSC-1"); HFwd 3 (Sa6 [1]%N 4222%N) (nm "MSC-1"); HLoc (BRx 4 0 MSGT_PURGE_MS_REQUEST); HTake 4 roamer; HFwd 4 (Sa6 [1]%N 4222%N) (nm "MSC-1")] /\
  taken roamer (dg_l (dg_end dg_go)) = [0; 3; 4]%nat /\ ended (dg_l (dg_end dg_go)) = [1; 2; 0; 3; 4]%nat /\ held roamer (dg_z (dg_end dg_go)) = [].
Proof. vm_compute. repeat split. Qed.

(** ** C40 *)
(** The full statement is: the node registered by the proxy is the one whose location update was confirmed by the home HLR of the subscriber. Missing here:
    that it was the home HLR; results without the name of a node; and results that cannot be encoded. *)
Theorem C40_asked_partial : forall k s z d l i dd n, (forall g, g_type g = MSGT_UPDATE_LOCATION_RESULT -> k_enc k g = true) -> dreached k (s, z, d, l) -> n <> [] ->
  (pending z i dd n <-> asked (rev l) i dd n).
Proof. exact c40_asked. Qed.
Print Assumptions C40_asked_partial.
Theorem C40_serving_partial : forall k s z d l i dd n, (forall g, g_type g = MSGT_UPDATE_LOCATION_RESULT -> k_enc k g = true) -> dreached k (s, z, d, l) -> n <> [] ->
  (forall a c g, In (DTx a c g) l -> g_dst g <> []) -> (registered z i dd n <-> serving (rev l) i dd n).
Proof. exact c40_serving. Qed.
Print Assumptions C40_serving_partial.
(** confirmations are passed on, on the connection of that node, only to nodes that asked *)
Theorem C40_passed_partial : forall k s z d l x e f s' z' d' o a c g, (forall g, g_type g = MSGT_UPDATE_LOCATION_RESULT -> k_enc k g = true) -> dreached k (s, z, d, l) ->
  dstep k (s, z, d, l) (x, e, f) = Some (s', z', d', l ++ o) -> In (DTx a c g) o ->
  e = DRx a g /\ (exists r, In r (z_rems z) /\ rm_addr r = a) /\ In (mk_route (g_dst g) c) (v_routes (t_srv s)) /\
  (g_type g = MSGT_UPDATE_LOCATION_RESULT -> g_dst g <> [] -> exists dd, asked (rev l) (g_imsi g) dd (g_dst g)).
Proof. exact c40_passed. Qed.
Print Assumptions C40_passed_partial.

(** MSC-1 asks, then MSC-2 asks, then both get a confirmation, then SGSN-1 asks and gets one *)
Definition dg_reg : list (dworld * devent * sched) := dg_peer 0 "MSC-1" ++ dg_peer 1 "MSC-2" ++ dg_peer 2 "SGSN-1" ++
  [dg_on; lu 0 roamer CN_CS; dev 11 (DLook roamer (Some (dg_a, SaNone))); dev 12 (DUp dg_a); lu 1 roamer CN_CS; lu 2 roamer CN_PS;
   dev 13 (DRx dg_a (lu_result roamer (nm "MSC-1"))); dev 14 (DRx dg_a (lu_result roamer (nm "MSC-2")));
   dev 15 (DRx dg_a (lu_result roamer (nm "SGSN-1")))].
Example C40_case : skipn 8 (dg_log dg_reg) = [HFwd 2 dg_a (nm "SGSN-1"); HTx dg_a 1 MSGT_UPDATE_LOCATION_RESULT; HTx dg_a 2 MSGT_UPDATE_LOCATION_RESULT] /\
  map (fun e => (ps_imsi (pe_sub e), ipa_bytes (pd_name (ps_cs (pe_sub e))), ipa_bytes (pd_name (ps_ps (pe_sub e))))) (z_cache (dg_z (dg_end dg_reg))) = [(roamer, nm "MSC-2", nm "SGSN-1")].
Proof. vm_compute. split; reflexivity. Qed.
Lemma reg_named : forall a c g, In (DTx a c g) (dg_l (dg_end dg_reg)) -> g_dst g <> [].
Proof.
  assert (H : forallb (fun o => match o with DTx _ _ g => match g_dst g with [] => false | _ => true end | _ => true end) (dg_l (dg_end dg_reg)) = true) by (vm_compute; reflexivity).
  intros a c g I E. apply (proj1 (forallb_forall _ _) H) in I. rewrite E in I. discriminate.
Qed.
Example C40_case_serving : serving (rev (dg_l (dg_end dg_reg))) roamer CsDom (nm "MSC-2") /\ ~ serving (rev (dg_l (dg_end dg_reg))) roamer CsDom (nm "MSC-1").
Proof.
  assert (R : dreached ex_cfg (dg_s (dg_end dg_reg), dg_z (dg_end dg_reg), dg_d (dg_end dg_reg), dg_l (dg_end dg_reg))) by (apply dg_reached; vm_compute; reflexivity).
  split.
  - apply (C40_serving_partial ex_cfg _ _ _ _ roamer CsDom (nm "MSC-2") (fun _ _ => eq_refl) R ltac:(discriminate) reg_named). eexists. split; [eexists; split; [vm_compute; left; reflexivity|reflexivity]|reflexivity].
  - intros H. apply (C40_serving_partial ex_cfg _ _ _ _ roamer CsDom (nm "MSC-1") (fun _ _ => eq_refl) R ltac:(discriminate) reg_named) in H. destruct H as (p & (t & I & _) & E).
    vm_compute in I. destruct I as [I|[]]. injection I as <- _. vm_compute in E. discriminate.
Qed.

(** What comes of a message of a remote HLR: it is passed on as it is; or, if it is a request, an error goes back that names the IMSI, class and session and says
    whether the IMSI was the reason; or nothing. Never nothing for a request on a link that is up, if the error can be encoded. *)
Theorem C40_told : forall k s z d l x a g f s' z' d' o, dstep k (s, z, d, l) (x, DRx a g, f) = Some (s', z', d', l ++ o) ->
  (o = [] \/ (exists c, imsi_valid (g_imsi g) = true /\ o = [DTx a c g]) \/
   exists m cause, o = [DErr a m] /\ g_type g mod 4 = 0 /\ home_error g m cause /\ cause = if imsi_valid (g_imsi g) then 17 else 96) /\
  ((exists r, In r (z_rems z) /\ rm_addr r = a) -> (forall r, In r (z_rems z) -> rm_addr r = a -> rm_up r = true) -> g_type g mod 4 = 0 -> (forall m, k_enc k m = true) -> o <> []).
Proof. exact c40_told. Qed.
Print Assumptions C40_told.
Definition dg_lost : list (dworld * devent * sched) := dg_reg ++
  [dev 16 (DRx dg_a (mk_gsup 16 "901700000099" 0 1 [] (nm "MSC-1") None 5 1 0 ext0)); dev 17 (DRx dg_a (mk_gsup 20 "" 0 0 [] (nm "MSC-1") (Some 3) 5 0 0 ext0)); dev 18 (DRx dg_a (lu_result roamer (nm "MSC-9")))].
Example C40_told_case : skipn 11 (dg_l (dg_end dg_lost)) =
  [DErr dg_a (mk_gsup 17 "901700000099" 17 1 [] [] None 5 3 0 ext0); DErr dg_a (mk_gsup 21 "" 96 0 [] [] (Some 3) 0 0 0 ext0)].
Proof. vm_compute. reflexivity. Qed.

(** A remote HLR that is not the home HLR confirms, and this is accepted. *)
Theorem C40_home_refuted : exists k s z d l i n p, dreached k (s, z, d, l) /\ registered z i CsDom n /\ n <> [] /\ cached z i p /\
  (exists a c g, In (DTx a c g) l) /\ forall a c g, In (DTx a c g) l -> a <> ps_addr p.
Proof.
  set (es := dg_peer 0 "MSC-1" ++ [dg_on; lu 0 roamer CN_CS; lu 0 roamer2 CN_CS; dev 11 (DLook roamer (Some (dg_a, SaNone))); dev 11 (DLook roamer2 (Some (dg_b, SaNone)));
    dev 12 (DUp dg_a); dev 12 (DUp dg_b); dev 13 (DRx dg_b (lu_result roamer (nm "MSC-1")))]).
  exists ex_cfg, (dg_s (dg_end es)), (dg_z (dg_end es)), (dg_d (dg_end es)), (dg_l (dg_end es)), roamer, (nm "MSC-1"), (entry_of es roamer).
  split; [apply dg_reached; vm_compute; reflexivity|]. split; [exists (entry_of es roamer); split; [apply entry_cached; vm_compute; reflexivity|vm_compute; reflexivity]|].
  split; [discriminate|]. split; [apply entry_cached; vm_compute; reflexivity|]. split.
  - exists dg_b, 0%nat, (lu_result roamer (nm "MSC-1")). vm_compute. tauto.
  - assert (H : forallb (fun o => match o with DTx a _ _ => negb (sa_eqb a (ps_addr (entry_of es roamer))) | _ => true end) (dg_l (dg_end es)) = true) by (vm_compute; reflexivity).
    intros a c g I E. apply (proj1 (forallb_forall _ _) H) in I. rewrite E in I. vm_compute in I. discriminate.
Qed.
Print Assumptions C40_home_refuted.
(** A node of both domains: the confirmation of one location update counts for both. *)
Theorem C40_both_refuted : exists k s z d l i n, dreached k (s, z, d, l) /\ n <> [] /\ registered z i CsDom n /\ registered z i PsDom n /\
  length (filter (fun o => match o with DTx _ _ _ => true | _ => false end) l) = 1%nat.
Proof.
  set (es := dg_peer 0 "MSC-1" ++ [dg_on; lu 0 roamer CN_CS; lu 0 roamer CN_PS; dev 11 (DLook roamer (Some (dg_a, SaNone)));
    dev 12 (DUp dg_a); dev 13 (DRx dg_a (lu_result roamer (nm "MSC-1")))]).
  exists ex_cfg, (dg_s (dg_end es)), (dg_z (dg_end es)), (dg_d (dg_end es)), (dg_l (dg_end es)), roamer, (nm "MSC-1").
  split; [apply dg_reached; vm_compute; reflexivity|]. split; [discriminate|].
  split; [exists (entry_of es roamer); split; [apply entry_cached; vm_compute; reflexivity|vm_compute; reflexivity]|].
  split; [exists (entry_of es roamer); split; [apply entry_cached; vm_compute; reflexivity|vm_compute; reflexivity]|]. vm_compute. reflexivity.
Qed.
Print Assumptions C40_both_refuted.
(** A result without the name of a node takes away a registration, if there is a peer whose own name is too long to be kept. *)
Theorem C40_unnamed_refuted : exists k s z d l x g s' z' d' l' a i n, dreached k (s, z, d, l) /\ n <> [] /\ registered z i CsDom n /\
  dstep k (s, z, d, l) (x, DRx a g, []) = Some (s', z', d', l') /\ g_type g = MSGT_UPDATE_LOCATION_RESULT /\ g_imsi g = i /\ g_dst g = [] /\
  (exists p, cached z' i p) /\ ~ registered z' i CsDom n.
Proof.
  set (es := dg_peer 0 "MSC-1" ++ [dev 0 (DHlr EAccept); dev 0 (DHlr (EIdent 1 (Some (repeat "x"%char 300))))] ++ [dg_on; lu 0 roamer CN_CS; dev 11 (DLook roamer (Some (dg_a, SaNone)));
    dev 12 (DUp dg_a); dev 13 (DRx dg_a (lu_result roamer (nm "MSC-1")))]).
  set (es2 := es ++ [dev 14 (DRx dg_a (lu_result roamer []))]).
  exists ex_cfg, (dg_s (dg_end es)), (dg_z (dg_end es)), (dg_d (dg_end es)), (dg_l (dg_end es)), (dgx 14), (lu_result roamer []).
  exists (dg_s (dg_end es2)), (dg_z (dg_end es2)), (dg_d (dg_end es2)), (dg_l (dg_end es2)), dg_a, roamer, (nm "MSC-1").
  split; [apply dg_reached; vm_compute; reflexivity|]. split; [discriminate|].
  split; [exists (entry_of es roamer); split; [apply entry_cached; vm_compute; reflexivity|vm_compute; reflexivity]|].
  split; [vm_compute; reflexivity|]. split; [reflexivity|]. split; [reflexivity|]. split; [reflexivity|].
  split; [exists (entry_of es2 roamer); apply entry_cached; vm_compute; reflexivity|].
  intros (p & (t & I & _) & E). vm_compute in I. destruct I as [I|[]]. injection I as <- _. vm_compute in E. discriminate.
Qed.
Print Assumptions C40_unnamed_refuted.
(** a location update without domain is forwarded, but its result is dropped *)
Definition dg_nocn : list (dworld * devent * sched) := dg_peer 0 "SGSN-1" ++
  [dg_on; lu 0 roamer 0; dev 11 (DLook roamer (Some (dg_a, SaNone))); dev 12 (DUp dg_a); dev 13 (DRx dg_a (lu_result roamer (nm "SGSN-1")))].
Example C40_case_no_domain : dg_log dg_nocn = [HLoc (BRx 0 0 MSGT_UPDATE_LOCATION_REQUEST); HTake 0 roamer; HFwd 0 dg_a (nm "SGSN-1")].
Proof. vm_compute. reflexivity. Qed.
