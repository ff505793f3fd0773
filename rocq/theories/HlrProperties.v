(** Properties C13, C17 - C23: authentication data, location update, purge, creation on demand, device check. *)
From Verif Require Import Base PeerId Db DbSpec DbProofs DbThms Auth AuthSpec AuthProperties Gsup Router Hlr HlrSpec HlrThms HlrThms3 HlrStep HlrThms4 HlrThms5 HlrThms6 HlrThms7 HlrThms8 HlrThms10 PurgeThms HlrExamples.

Lemma ex_reached es s d o : hist ex_cfg (hst0, ex_db2) es = Some (s, d, o) -> reached ex_cfg s d.
Proof. intros E. exists ex_db2, es, o. split; [apply ex_db2_ok|]. split; [apply ex_db2_ok|exact E]. Qed.
(** outcome of a history: log in short form, and the subscribers *)
Definition ex_out {A} (k : cfg) (f : hst -> db -> A) (es : list (world * event * sched)) : option (list brief * A) :=
  option_map (fun x => (map short (snd x), f (fst (fst x)) (snd (fst x)))) (hist k (hst0, ex_db2) es).
Definition ex_with (g : gsup) (x : gext) : gsup :=
  mk_gsup (g_type g) (g_imsi g) (g_cause g) (g_class g) (g_src g) (g_dst g) (g_mr g) (g_sid g) (g_ss g) (g_cn g) x.
Definition ex_up := ex_peer_up 0 "MSC-1" ++ ex_peer_up 1 "MSC-2".

(** ** C13 *)
Theorem C13_vector_count : forall k s d w c g f s' d' o,
  reached k s d -> for_us k (t_srv s) c g -> g_type g = MSGT_SEND_AUTH_INFO_REQUEST -> no_crash f ->
  step k (s, d) (w, ERx c g, f) = Some (s', d', o) ->
  exists r co, o = [ORx (t_nr s) c g; OResp (t_nr s) r true co] /\
    (g_type r = MSGT_SEND_AUTH_INFO_RESULT \/ (g_type r = 9 /\ x_vecs (g_x r) = [])) /\
    (g_type r = MSGT_SEND_AUTH_INFO_RESULT ->
      vectors_allowed g (length (x_vecs (g_x r))) /\
      (forall j v, nth_error (x_vecs (g_x r)) j = Some v -> round_gives (w_crypto w) j v) /\
      (forall n, asked g n -> length (x_vecs (g_x r)) = n \/
         ((length (x_vecs (g_x r)) < n)%nat /\ round_fails (w_crypto w) (length (x_vecs (g_x r)))))).
Proof. intros k s d w c g f s' d' o R. destruct (reached_fine _ _ _ R) as (H & F & _). apply c13_step; auto. Qed.
Print Assumptions C13_vector_count.

(** nothing in a vector is left out *)
Theorem C13_vectors_filled : forall cr j v, fill_contract cr -> round_gives cr j v ->
  exists rnd, c_rand cr j = Some rnd /\ v_rand v = rnd /\ (v_gsm v = true \/ v_umts v = true).
Proof. exact round_filled. Qed.
Print Assumptions C13_vectors_filled.

Definition ex_sai (n : Z) : gsup := ex_with (ex_msg MSGT_SEND_AUTH_INFO_REQUEST ex_imsi) (mk_ext None None n 0 [] None false None [] PlNone None None None []).
(** a random source that fails in the third round *)
Definition ex_world_short : world :=
  mk_world (mk_crypto (fun i => if (i <? 2)%nat then Some [N.of_nat i] else None) (c_gen2 ex_crypto) (c_gen3 ex_crypto) (c_auts ex_crypto)) (w_rnd ex_world) (w_now ex_world).
Definition ex_vecs (w : world) (n : Z) : option (list (Z * list (list N))) :=
  option_map (fun x => map (fun y => match y with OResp _ r _ _ => (g_type r, map v_rand (x_vecs (g_x r))) | _ => (0, []) end) (snd x))
    (hist ex_cfg (hst0, ex_db2) (ex_up ++ [(w, ERx 0 (ex_sai n), [])])).
Example C13_case :
  ex_vecs ex_world 3 = Some [(0, []); (10, [[0%N]; [1%N]; [2%N]])] /\
  ex_vecs ex_world 17 = Some [(0, []); (10, [[0%N]; [1%N]; [2%N]; [3%N]; [4%N]])] /\
  ex_vecs ex_world_short 3 = Some [(0, []); (10, [[0%N]; [1%N]])].
Proof. split; [|split]; vm_compute; reflexivity. Qed.
Example C13_case_contract : fill_contract ex_crypto.
Proof. split; cbn; [intros ? ? ? [= <-]; auto|intros ? ? ? ? [= <- <-]; auto|discriminate]. Qed.

(** ** C17 *)
Theorem C17_answer : forall k s d w c g f s' d' o,
  reached k s d -> for_us k (t_srv s) c g -> g_type g = MSGT_SEND_AUTH_INFO_REQUEST -> no_crash f ->
  step k (s, d) (w, ERx c g, f) = Some (s', d', o) ->
  exists r co, o = [ORx (t_nr s) c g; OResp (t_nr s) r true co] /\ sai_answer k (w_crypto w) d' (In EvFail f) g r /\
    t_lus s' = t_lus s /\ t_ss s' = t_ss s.
Proof.
  intros k s d w c g f s' d' o R U T NC E. destruct (reached_fine _ _ _ R) as (H & F & _).
  destruct (sai_step _ _ _ _ _ _ _ _ _ _ H F U T NC E) as (r & co & A & B & _ & C). exists r, co. auto.
Qed.
Print Assumptions C17_answer.
(** the request is always handled, also when the process dies on the way *)
Theorem C17_always_handled : forall k s d w c g f,
  reached k s d -> for_us k (t_srv s) c g -> g_dst g = [] -> g_type g = MSGT_SEND_AUTH_INFO_REQUEST ->
  step k (s, d) (w, ERx c g, f) <> None.
Proof. exact c17_defined. Qed.
Print Assumptions C17_always_handled.
(** no keys, unknown, half a resynchronisation, storage error *)
Example C17_case :
  ex_out ex_cfg (fun _ _ => tt) (ex_up ++ [ev (EApi (ACreate "901700000008" 6)); ev (ERx 0 (ex_msg MSGT_SEND_AUTH_INFO_REQUEST "901700000008"));
    ev (ERx 0 (ex_msg MSGT_SEND_AUTH_INFO_REQUEST "901700000009"));
    ev (ERx 0 (ex_with (ex_msg MSGT_SEND_AUTH_INFO_REQUEST ex_imsi) (mk_ext (Some [1%N]) None 2 0 [] None false None [] PlNone None None None [])));
    (ex_world, ERx 0 (ex_msg MSGT_SEND_AUTH_INFO_REQUEST ex_imsi), [EvOk; EvOk; EvOk; EvFail])]) =
  Some ([BRx 0 0 8; BResp 0 9 2 true (Some 0%nat); BRx 1 0 8; BResp 1 9 2 true (Some 0%nat);
         BRx 2 0 8; BResp 2 9 17 true (Some 0%nat); BRx 3 0 8; BResp 3 9 17 true (Some 0%nat)], tt).
Proof. vm_compute. reflexivity. Qed.

(** ** C18 *)
Theorem C18_decision : forall k s d w c g x f s' d' o,
  reached k s d -> for_us k (t_srv s) c g -> g_type g = MSGT_UPDATE_LOCATION_REQUEST -> in_domain g x -> no_crash f ->
  step k (s, d) (w, ERx c g, f) = Some (s', d', o) ->
  exists d1 r fin co, created k w d (g_imsi g) d1 /\ o = [ORx (t_nr s) c g; OResp (t_nr s) r fin co] /\
    lu_answer k w (t_srv s) c x d1 d' (In EvFail f) g r fin.
Proof.
  intros k s d w c g x f s' d' o R U T Dm NC E. destruct (reached_fine _ _ _ R) as (H & F & _).
  destruct (lu_step _ _ _ _ _ _ _ _ _ _ _ H F U T Dm NC E) as (d1 & r & fin & co & A & B & C & _). exists d1, r, fin, co. auto.
Qed.
Print Assumptions C18_decision.
(** a rejected update leaves the serving nodes alone, internal errors aside *)
Theorem C18_rejected_unchanged_partial : forall k s d w c g x f s' d' o r co,
  reached k s d -> for_us k (t_srv s) c g -> g_type g = MSGT_UPDATE_LOCATION_REQUEST -> in_domain g x -> no_crash f ->
  step k (s, d) (w, ERx c g, f) = Some (s', d', o) -> In (OResp (t_nr s) r true co) o ->
  ~ In EvFail f -> w_now w <> None -> (forall m, k_msisdn_enc k m = true) ->
  created k w d (g_imsi g) d' /\ forall row, In row (d_sub d) -> In row (d_sub d').
Proof.
  intros k s d w c g x f s' d' o r co R U T Dm NC E I NF NW NE.
  destruct (C18_decision _ _ _ _ _ _ _ _ _ _ _ R U T Dm NC E) as (d1 & r' & fin & co' & Cr & -> & A).
  destruct I as [I|[I|[]]]; [discriminate|]. injection I as <- -> <-.
  assert (Ed : d' = d1).
  { inversion A as [| | | | |row Y1 Y2 Y3 Y4 Y5 Y6 Y7]; subst; auto. destruct Y5 as [Y|[Y|(m & Y & _)]]; [tauto|tauto|]. rewrite NE in Y. discriminate. }
  subst d'. split; auto. intros row Ir. destruct Cr as [->|(_ & _ & id & m & _ & -> & _)]; auto. cbn [d_sub with_sub]. apply in_or_app. auto.
Qed.
Print Assumptions C18_rejected_unchanged_partial.
Definition ex_vlrs (s : hst) (d : db) := map (fun r => (s_vlr r, s_sgsn r)) (d_sub d).
(** accepted for one domain; barred; unknown *)
Example C18_case :
  ex_out ex_cfg ex_vlrs (ex_up ++ [ev (EVtyNam (ByImsi ex_imsi) false true); ev (ERx 0 (ex_lu_req ex_imsi CN_CS));
     ev (ERx 1 (ex_lu_req ex_imsi CN_PS)); ev (ERx 1 (ex_lu_req "901700000009" CN_PS))]) =
  Some ([BRx 0 0 4; BResp 0 5 11 true (Some 0%nat); BRx 1 1 4; BResp 1 16 0 false (Some 1%nat); BRx 2 1 4; BResp 2 5 2 true (Some 1%nat)],
        [(None, None); (None, Some "MSC-2"%string)]).
Proof. vm_compute. reflexivity. Qed.
(** the clock fails after the serving node was stored: rejected, but the node is registered *)
Theorem C18_internal_error_refuted : exists s d o g w s' d' r co,
  hist ex_cfg (hst0, ex_db2) ex_up = Some (s, d, o) /\ for_us ex_cfg (t_srv s) 0 g /\ g_type g = MSGT_UPDATE_LOCATION_REQUEST /\
  step ex_cfg (s, d) (w, ERx 0 g, []) = Some (s', d', [ORx (t_nr s) 0 g; OResp (t_nr s) r true co]) /\ g_type r = 5 /\
  map s_vlr (d_sub d') <> map s_vlr (d_sub d).
Proof.
  do 3 eexists. exists (ex_lu_req ex_imsi CN_CS), (mk_world ex_crypto (w_rnd ex_world) None). do 4 eexists.
  split; [vm_compute; reflexivity|]. split.
  { split; [eexists; split; [left; reflexivity|reflexivity]|apply imsi_valid_spec; reflexivity|left; reflexivity|intros X; destruct (X eq_refl)]. }
  split; [reflexivity|]. split; [vm_compute; reflexivity|]. split; [reflexivity|]. vm_compute. discriminate.
Qed.
Print Assumptions C18_internal_error_refuted.

(** ** C19 *)
Theorem C19_one_final_answer : forall k d es s d1 o w c g x f s2 d2 o2 es' s3 d3 o3,
  db_ok d -> keys_wellformed d ->
  hist k (hst0, d) es = Some (s, d1, o) -> for_us k (t_srv s) c g -> g_type g = MSGT_UPDATE_LOCATION_REQUEST ->
  in_domain g x -> no_crash f -> step k (s, d1) (w, ERx c g, f) = Some (s2, d2, o2) ->
  crash_free es' -> hist k (s2, d2) es' = Some (s3, d3, o3) ->
  (waiting s3 (t_nr s) (g_imsi g) /\ (forall y, In y (o2 ++ o3) -> ~ ends (t_nr s) y) /\
   forall w' f', ~ In (w', ELuTimer (t_nr s), f') es') \/
  (~ pending s3 (t_nr s) /\ exists r, ended_once (t_nr s) (o2 ++ o3) r /\
     (g_type r = 5 \/
      (g_type r = 6 /\
       (exists row, In row (d_sub d2) /\ s_imsi row = g_imsi g /\ access x row = true /\ registered (t_srv s) c g x row) /\
       exists es1 w' c' g' f' es2 sm dm om, es' = es1 ++ (w', ERx c' g', f') :: es2 /\ hist k (s2, d2) es1 = Some (sm, dm, om) /\
         waiting sm (t_nr s) (g_imsi g) /\ (forall y, In y (o2 ++ om) -> ~ ends (t_nr s) y) /\
         g_type g' = MSGT_INSERT_DATA_RESULT /\ g_imsi g' = g_imsi g))).
Proof. exact c19_one. Qed.
Print Assumptions C19_one_final_answer.
Theorem C19_timer_ends : forall k d es s d1 o w nr imsi f s2 d2 o2,
  hist k (hst0, d) es = Some (s, d1, o) -> waiting s nr imsi -> no_crash f -> step k (s, d1) (w, ELuTimer nr, f) = Some (s2, d2, o2) ->
  d2 = d1 /\ exists r co, o2 = [OResp nr r true co] /\ g_type r = 5 /\ ~ pending s2 nr.
Proof. exact c19_timer. Qed.
Print Assumptions C19_timer_ends.
(** two updates at once, a stray error, a timeout and a late result *)
Example C19_case :
  ex_out ex_cfg (fun s _ => map (fun l => q_nr (l_req l)) (t_lus s)) (ex_up ++
    [ev (ERx 0 (ex_lu_req ex_imsi CN_CS)); ev (ERx 1 (ex_lu_req "901700000001" CN_CS)); ev (ERx 0 (ex_msg MSGT_INSERT_DATA_ERROR "901700000009"));
     ev (ERx 0 (ex_msg MSGT_INSERT_DATA_RESULT ex_imsi)); ev (ERx 0 (ex_msg MSGT_INSERT_DATA_RESULT ex_imsi)); ev (ELuTimer 0);
     ev (ELuTimer 1); ev (ERx 1 (ex_msg MSGT_INSERT_DATA_RESULT "901700000001")); ev (ERx 1 (ex_lu_req "901700000001" CN_CS))]) =
  Some ([BRx 0 0 4; BResp 0 16 0 false (Some 0%nat); BRx 1 1 4; BResp 1 16 0 false (Some 1%nat); BRx 2 0 17; BFree 2;
         BRx 3 0 18; BFree 3; BResp 0 6 0 true (Some 0%nat); BRx 4 0 18; BFree 4; BResp 1 5 17 true (Some 1%nat);
         BRx 5 1 18; BFree 5; BRx 6 1 4; BResp 6 16 0 false (Some 1%nat)], [6%nat]).
Proof. vm_compute. reflexivity. Qed.

(** ** C20 *)
(** Full claim (refuted below): the update that is ended is the one of the peer that sent the result. *)
Theorem C20_at_most_one_partial : forall k d es s d1 o w c g f s2 d2 o2,
  hist k (hst0, d) es = Some (s, d1, o) -> for_us k (t_srv s) c g ->
  g_type g = MSGT_INSERT_DATA_RESULT -> no_crash f -> step k (s, d1) (w, ERx c g, f) = Some (s2, d2, o2) ->
  (o2 = [ORx (t_nr s) c g; OFree (t_nr s)] /\ (forall n i, waiting s2 n i <-> waiting s n i) /\ forall n, ~ waiting s n (g_imsi g)) \/
  exists nr r co, waiting s nr (g_imsi g) /\ o2 = [ORx (t_nr s) c g; OFree (t_nr s); OResp nr r true co] /\ g_type r = 6 /\
    forall n i, waiting s2 n i <-> waiting s n i /\ n <> nr.
Proof. exact c20_at_most. Qed.
Print Assumptions C20_at_most_one_partial.
Theorem C20_sole_update_partial : forall k d es s d1 o w c g nr f s2 d2 o2,
  hist k (hst0, d) es = Some (s, d1, o) -> for_us k (t_srv s) c g -> g_type g = MSGT_INSERT_DATA_RESULT -> no_crash f ->
  waiting s nr (g_imsi g) -> (forall n, waiting s n (g_imsi g) -> n = nr) ->
  step k (s, d1) (w, ERx c g, f) = Some (s2, d2, o2) ->
  d2 = d1 /\ (exists r co, o2 = [ORx (t_nr s) c g; OFree (t_nr s); OResp nr r true co] /\ g_type r = MSGT_UPDATE_LOCATION_RESULT) /\
  forall n i, waiting s2 n i <-> waiting s n i /\ n <> nr.
Proof. exact c20_sole. Qed.
Print Assumptions C20_sole_update_partial.
(** Exactly what an answer to inserted data does, whoever sent it: the newest update of the subscriber is
    answered and ended, all others keep waiting; without an update of the subscriber nothing happens. So
    when two peers update one subscriber, the answer of the first always ends the update of the second. *)
Theorem C20_newest_is_ended : forall k d es s d1 o w c g f s2 d2 o2,
  hist k (hst0, d) es = Some (s, d1, o) -> for_us k (t_srv s) c g ->
  g_type g = MSGT_INSERT_DATA_RESULT \/ g_type g = MSGT_INSERT_DATA_ERROR -> no_crash f ->
  step k (s, d1) (w, ERx c g, f) = Some (s2, d2, o2) ->
  d2 = d1 /\
  (((forall n, ~ waiting s n (g_imsi g)) /\ o2 = [ORx (t_nr s) c g; OFree (t_nr s)] /\
    forall n i, waiting s2 n i <-> waiting s n i) \/
   exists nr r co, newest s nr (g_imsi g) /\
    (g_type g = MSGT_INSERT_DATA_RESULT /\ g_type r = MSGT_UPDATE_LOCATION_RESULT /\
       o2 = [ORx (t_nr s) c g; OFree (t_nr s); OResp nr r true co] \/
     g_type g = MSGT_INSERT_DATA_ERROR /\ g_type r = to_error MSGT_UPDATE_LOCATION_REQUEST /\ g_cause r = CAUSE_NET_FAIL /\
       o2 = [ORx (t_nr s) c g; OResp nr r true co; OFree (t_nr s)]) /\
    forall n i, waiting s2 n i <-> waiting s n i /\ n <> nr).
Proof. exact c20_newest. Qed.
Print Assumptions C20_newest_is_ended.
(** three updates of one subscriber: the errors and results of the first peer end them from the newest on *)
Example C20_newest_case :
  ex_out ex_cfg (fun s _ => map (fun l => q_nr (l_req l)) (t_lus s)) (ex_up ++
    [ev (ERx 0 (ex_lu_req ex_imsi CN_CS)); ev (ERx 1 (ex_lu_req ex_imsi CN_CS)); ev (ERx 0 (ex_lu_req ex_imsi CN_PS));
     ev (ERx 0 (ex_msg MSGT_INSERT_DATA_ERROR ex_imsi)); ev (ERx 0 (ex_msg MSGT_INSERT_DATA_RESULT ex_imsi))]) =
  Some ([BRx 0 0 4; BResp 0 16 0 false (Some 0%nat); BRx 1 1 4; BResp 1 16 0 false (Some 1%nat); BRx 2 0 4; BResp 2 16 0 false (Some 0%nat);
         BRx 3 0 17; BResp 2 5 17 true (Some 0%nat); BFree 3; BRx 4 0 18; BFree 4; BResp 1 6 0 true (Some 1%nat)], [0%nat]).
Proof. vm_compute. reflexivity. Qed.
(** MSC-1 and MSC-2 update the same subscriber; MSC-1's result ends the update of MSC-2 *)
Theorem C20_other_peer_completed_refuted : exists es s d o s2 d2 r co,
  hist ex_cfg (hst0, ex_db2) (ex_up ++ es) = Some (s, d, o) /\
  In (ORx 0 0 (ex_lu_req ex_imsi CN_CS)) o /\ In (ORx 1 1 (ex_lu_req ex_imsi CN_CS)) o /\ waiting s 0 ex_imsi /\ waiting s 1 ex_imsi /\
  step ex_cfg (s, d) (ev (ERx 0 (ex_msg MSGT_INSERT_DATA_RESULT ex_imsi))) =
    Some (s2, d2, [ORx 2 0 (ex_msg MSGT_INSERT_DATA_RESULT ex_imsi); OFree 2; OResp 1 r true co]) /\ g_type r = MSGT_UPDATE_LOCATION_RESULT.
Proof.
  exists [ev (ERx 0 (ex_lu_req ex_imsi CN_CS)); ev (ERx 1 (ex_lu_req ex_imsi CN_CS))]. do 7 eexists. split; [vm_compute; reflexivity|].
  split; [left; reflexivity|]. split; [do 2 right; left; reflexivity|].
  split; [eexists; split; [right; left; reflexivity|split; reflexivity]|]. split; [eexists; split; [left; reflexivity|split; reflexivity]|].
  split; [vm_compute; reflexivity|reflexivity].
Qed.
Print Assumptions C20_other_peer_completed_refuted.
Example C20_case :
  ex_out ex_cfg (fun s _ => map (fun l => q_nr (l_req l)) (t_lus s)) (ex_up ++
    [ev (ERx 0 (ex_lu_req ex_imsi CN_CS)); ev (ERx 1 (ex_lu_req "901700000001" CN_CS)); ev (ERx 0 (ex_msg MSGT_INSERT_DATA_RESULT ex_imsi))]) =
  Some ([BRx 0 0 4; BResp 0 16 0 false (Some 0%nat); BRx 1 1 4; BResp 1 16 0 false (Some 1%nat); BRx 2 0 18; BFree 2; BResp 0 6 0 true (Some 0%nat)], [1%nat]).
Proof. vm_compute. reflexivity. Qed.

(** ** C21 *)
(** Full claim (refuted below): moreover a location update clears the mark, and only the serving node may purge. *)
Theorem C21_purge_partial : forall k s d w c g x f s' d' o,
  reached k s d -> for_us k (t_srv s) c g -> g_type g = MSGT_PURGE_MS_REQUEST -> in_domain g x -> no_crash f ->
  step k (s, d) (w, ERx c g, f) = Some (s', d', o) ->
  exists r co, o = [ORx (t_nr s) c g; OResp (t_nr s) r true co] /\ purge_answer x d d' (In EvFail f) g r /\
    t_lus s' = t_lus s /\ t_ss s' = t_ss s.
Proof. intros k s d w c g x f s' d' o R U T Dm NC E. destruct (reached_fine _ _ _ R) as (H & F & _). eapply purge_step; eauto. apply F. Qed.
Print Assumptions C21_purge_partial.
Definition ex_purge (cn : Z) : gsup := mk_gsup MSGT_PURGE_MS_REQUEST ex_imsi 0 0 [] [] None 0 SS_NONE cn ext0.
Definition ex_purged (s : hst) (d : db) := map (fun r => (s_purged_cs r, s_purged_ps r, s_vlr r)) (d_sub d).
Example C21_case :
  ex_out ex_cfg ex_purged (ex_up ++ [ev (ERx 0 (ex_purge CN_CS)); ev (ERx 0 (ex_msg MSGT_PURGE_MS_REQUEST "901700000009"))]) =
  Some ([BRx 0 0 12; BResp 0 14 0 true (Some 0%nat); BRx 1 0 12; BResp 1 13 2 true (Some 0%nat)], [(false, false, None); (true, false, None)]).
Proof. vm_compute. reflexivity. Qed.
(** still purged after a successful location update *)
Theorem C21_not_lifted_refuted : exists es s d o nr r co row,
  hist ex_cfg (hst0, ex_db2) (ex_up ++ [ev (ERx 0 (ex_purge CN_CS))] ++ es) = Some (s, d, o) /\
  In (ORx nr 0 (ex_lu_req ex_imsi CN_CS)) o /\ In (OResp nr r true co) o /\ g_type r = MSGT_UPDATE_LOCATION_RESULT /\
  In row (d_sub d) /\ s_imsi row = ex_imsi /\ s_vlr row = Some "MSC-1"%string /\ s_purged_cs row = true.
Proof.
  exists [ev (ERx 0 (ex_lu_req ex_imsi CN_CS)); ev (ERx 0 (ex_msg MSGT_INSERT_DATA_RESULT ex_imsi))]. do 3 eexists. exists 1%nat. do 3 eexists.
  split; [vm_compute; reflexivity|]. split; [do 2 right; left; reflexivity|]. split; [do 6 right; left; reflexivity|]. split; [reflexivity|].
  split; [right; left; reflexivity|]. repeat split.
Qed.
Print Assumptions C21_not_lifted_refuted.
(** MSC-2 purges a subscriber that is registered at MSC-1 *)
Theorem C21_foreign_purge_refuted : exists s d o s2 d2 r co row row2,
  hist ex_cfg (hst0, ex_db2) (ex_up ++ [ev (ERx 0 (ex_lu_req ex_imsi CN_CS)); ev (ERx 0 (ex_msg MSGT_INSERT_DATA_RESULT ex_imsi))]) = Some (s, d, o) /\
  In row (d_sub d) /\ s_imsi row = ex_imsi /\ s_vlr row = Some "MSC-1"%string /\ s_purged_cs row = false /\
  step ex_cfg (s, d) (ev (ERx 1 (ex_purge CN_CS))) = Some (s2, d2, [ORx 2 1 (ex_purge CN_CS); OResp 2 r true co]) /\
  g_type r = MSGT_PURGE_MS_RESULT /\ In row2 (d_sub d2) /\ s_imsi row2 = ex_imsi /\ s_purged_cs row2 = true.
Proof.
  do 9 eexists. split; [vm_compute; reflexivity|]. split; [right; left; reflexivity|]. do 3 (split; [reflexivity|]). split; [vm_compute; reflexivity|].
  split; [reflexivity|]. split; [right; left; reflexivity|]. split; reflexivity.
Qed.
Print Assumptions C21_foreign_purge_refuted.
(** Nothing ever lifts the mark: from whatever state, in whatever history of events and faults, location updates included, a subscriber
    that is marked stays so until it is removed. (The function that could lift it is called with true only.) *)
Theorem C21_never_lifted_refuted : forall k es s d s' d' o x row, hist k (s, d) es = Some (s', d', o) ->
  (forall w i f, ~ In (w, EApi (ADelete i), f) es) -> (forall w i p f, ~ In (w, EApi (APurge i false p), f) es) ->
  In row (d_sub d) -> purged x row = true ->
  exists row', In row' (d_sub d') /\ s_id row' = s_id row /\ s_imsi row' = s_imsi row /\ purged x row' = true.
Proof.
  intros k es s d s' d' o x row H N1 N2 I P. apply (hist_marked k x row es s d s' d' o); auto; [|exists row; auto].
  intros w e f J. destruct e; cbn; auto. destruct a; cbn; auto; [destruct (N1 _ _ _ J)|]. destruct v; auto. destruct (N2 _ _ _ _ J).
Qed.
Print Assumptions C21_never_lifted_refuted.


(** ** C22 *)
(** whatever message comes and whatever fails: nobody's identity, number or access changes, and at most one subscriber is made *)
Theorem C22_at_most_one_made : forall k s d w c g f s' d' o, step k (s, d) (w, ERx c g, f) = Some (s', d', o) ->
  map who (d_sub d') = map who (d_sub d) \/
  (k_cod k <> CodOff /\ asks_service g /\ ~ has_imsi d (g_imsi g) /\
   exists m id, ~ has_id d id /\ (m = None \/ cod_number k w d (g_imsi g) m) /\
     map who (d_sub d') = map who (d_sub d) ++ [newcomer k (g_imsi g) m id]).
Proof. exact c22_who. Qed.
Print Assumptions C22_at_most_one_made.
Theorem C22_disabled : forall k s d w c g f s' d' o,
  k_cod k = CodOff -> step k (s, d) (w, ERx c g, f) = Some (s', d', o) -> map who (d_sub d') = map who (d_sub d).
Proof. exact c22_off. Qed.
Print Assumptions C22_disabled.
Theorem C22_made : forall k s d w c g f s' d' o,
  reached k s d -> for_us k (t_srv s) c g -> asks_service g -> no_fault f ->
  ~ has_imsi d (g_imsi g) -> cod_able k w d -> step k (s, d) (w, ERx c g, f) = Some (s', d', o) ->
  exists m id, ~ has_id d id /\ cod_number k w d (g_imsi g) m /\ map who (d_sub d') = map who (d_sub d) ++ [newcomer k (g_imsi g) m id].
Proof. intros k s d w c g f s' d' o R. destruct (reached_fine _ _ _ R) as (H & _). apply c22_joins; auto. Qed.
Print Assumptions C22_made.
Definition ex_cfg_cod (m : cod_mode) (flags : N) : cfg := mk_cfg 2 m flags true None "HLR" 0
  (k_ussd ex_cfg) (k_euses ex_cfg) (k_euse_default ex_cfg) 30 (k_smscs ex_cfg) (k_smsc_routes ex_cfg) (k_smsc_default ex_cfg)
  (fun _ => true) (fun _ => true) ex_facility ex_7bit.
(** random octets: the first two attempts give the numbers 1001 and 1002, which are taken *)
Definition ex_world_rnd : world := mk_world ex_crypto
  (fun i j => match i with
    | 0%nat => if (j <? 3)%nat then None else Some (fun n => nth n [11; 0; 20; 1] 0)%N
    | 1%nat => Some (fun n => nth n [1; 0; 0; 2] 0)%N
    | _ => Some (fun n => nth n [7; 18; 29; 30] 0)%N end) (Some 1000).
Example C22_case :
  ex_out (ex_cfg_cod (CodRand 4) 4) (fun _ d => map who (d_sub d))
    (ex_up ++ [(ex_world_rnd, ERx 0 (ex_lu_req "901700000009" CN_CS), []); (ex_world_rnd, ERx 0 (ex_lu_req "901700000009" CN_PS), []);
               (ex_world_rnd, ERx 0 (ex_lu_req ex_imsi CN_PS), [])]) =
  Some ([BRx 0 0 4; BResp 0 5 11 true (Some 0%nat); BRx 1 0 4; BResp 1 16 0 false (Some 0%nat); BRx 2 0 4; BResp 2 16 0 false (Some 0%nat)],
        [(1, "901700000001"%string, Some "1001"%string, true, true); (2, "901700000002"%string, Some "1002"%string, true, true);
         (3, "901700000009"%string, Some "7890"%string, false, true)]).
Proof. vm_compute. reflexivity. Qed.
Example C22_case_disabled :
  ex_out ex_cfg (fun _ d => length (d_sub d)) (ex_up ++ [ev (ERx 0 (ex_lu_req "901700000009" CN_CS)); ev (ERx 0 (ex_msg MSGT_SEND_AUTH_INFO_REQUEST "901700000009"))]) =
  Some ([BRx 0 0 4; BResp 0 5 2 true (Some 0%nat); BRx 1 0 8; BResp 1 9 2 true (Some 0%nat)], 2%nat).
Proof. vm_compute. reflexivity. Qed.

(** ** C23 *)
Theorem C23_device_check : forall k s d w c g f s' d' o,
  reached k s d -> for_us k (t_srv s) c g -> g_type g = MSGT_CHECK_IMEI_REQUEST -> no_crash f ->
  step k (s, d) (w, ERx c g, f) = Some (s', d', o) ->
  exists r co, o = [ORx (t_nr s) c g; OResp (t_nr s) r true co] /\ imei_answer k w d d' (In EvFail f) g r /\
    t_lus s' = t_lus s /\ t_ss s' = t_ss s.
Proof. intros k s d w c g f s' d' o R. destruct (reached_fine _ _ _ R) as (H & F & _). intros. eapply imei_step; eauto. Qed.
Print Assumptions C23_device_check.
(** an octet string stands for at most one IMEI *)
Theorem C23_imei_unique : forall g i j, reports g i -> reports g j -> i = j.
Proof.
  intros g i j (e & Xe & E) (e' & Xe' & E'). assert (e' = e) by congruence. subst. apply imei_encodes in E as [E _], E' as [E' _]. congruence.
Qed.
Print Assumptions C23_imei_unique.
Definition ex_check (imsi : string) (e : list N) : gsup := ex_with (ex_msg MSGT_CHECK_IMEI_REQUEST imsi)
  (mk_ext None None 0 0 [] (Some e) false None [] PlNone None None None []).
Definition ex_e : list N := [7; 16; 50; 84; 118; 152; 16; 50]%N.
Example C23_case_reports : reports (ex_check ex_imsi ex_e) "01234567890123".
Proof. exists ex_e. split; [reflexivity|]. apply imei_encodes. split; vm_compute; reflexivity. Qed.
(** known, unknown, malformed (a nibble that is no digit; a wrong length) *)
Example C23_case :
  ex_out ex_cfg (fun _ d => map s_imei (d_sub d)) (ex_up ++ [ev (ERx 0 (ex_check ex_imsi ex_e)); ev (ERx 0 (ex_check "901700000009" ex_e));
     ev (ERx 0 (ex_check "901700000001" [7; 16; 50; 84; 118; 152; 16; 162]%N)); ev (ERx 0 (ex_check "901700000001" [8; 16; 50; 84; 118; 152; 16; 50; 245]%N))]) =
  Some ([BRx 0 0 48; BResp 0 50 0 true (Some 0%nat); BRx 1 0 48; BResp 1 49 96 true (Some 0%nat);
         BRx 2 0 48; BResp 2 49 96 true (Some 0%nat); BRx 3 0 48; BResp 3 49 96 true (Some 0%nat)],
        [None; Some "01234567890123"%string]).
Proof. vm_compute. reflexivity. Qed.
