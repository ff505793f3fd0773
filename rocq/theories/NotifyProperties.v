(** C28 subscription changes are pushed to the right nodes: theorems and cases. *)
From Verif Require Import Base PeerId Db DbSpec DbProofs DbThms DbThms2 DbThms3 DbProperties AuthProperties Auth AuthSpec Gsup Router Hlr HlrSpec HlrSpec2 RouterThms HlrThms8 HlrThms9 NotifyThms HlrExamples HlrProperties.

(** Full statement: when access for one domain is switched off exactly the node serving that domain is told to delete the
    subscriber, and when access or MSISDN changes the connected serving nodes are told the new data.
    Missing, and refuted below: the node of the other domain is told too; switching access on tells nobody; taking a number
    away sends the old number; a peer that serves both domains is not told about subscribers it serves in CS only; changes
    on the control interface are not told. Proved: when access is switched off by the VTY, the told are exactly the connected
    serving nodes (of both domains), and the database is changed as asked. *)
Theorem C28_delete_partial : forall k s d w x row cs ps f s' d' o,
  reached k s d -> selects d x row -> no_fault f -> (forall g, k_enc k g = true) ->
  step k (s, d) (w, EVtyNam x cs ps, f) = Some (s', d', o) ->
  d' = rows_of (s_imsi row) (fun r => with_access PS ps (with_access CS cs r)) d /\
  (forall z c, access z row = true -> (if is_ps z then ps else cs) = false -> node z row <> ""%string -> leads (t_srv s) (name_of (node z row)) c ->
     exists y, In y o /\ tells_delete (s_imsi row) c y) /\
  (forall y, In y o -> exists z c, node z row <> ""%string /\ leads (t_srv s) (name_of (node z row)) c /\ tells_delete (s_imsi row) c y) /\
  ((forall z, access z row = true -> (if is_ps z then ps else cs) = true) -> o = []).
Proof.
  intros k s d w x row cs ps f s' d' o R Se NF En E. destruct (c28_nam _ _ _ _ _ _ _ _ _ _ _ _ R Se NF En E) as [D O]. split; [exact D|]. split; [|split].
  - intros z c A V Nn L. exists (OTx c (del_msg (s_imsi row))). split; [|eexists; split; [reflexivity|split; reflexivity]].
    apply O. split; [destruct z; cbn in V; auto|]. exists z, c. auto.
  - intros y I. apply O in I as (_ & z & c & Nn & L & ->). exists z, c. split; [auto|]. split; [auto|]. eexists; split; [reflexivity|split; reflexivity].
  - intros H. destruct o as [|y o]; auto. exfalso. destruct (proj1 (O y) (or_introl eq_refl)) as ([[A V]|[A V]] & _); apply H in A; cbn in A; congruence.
Qed.
Print Assumptions C28_delete_partial.

(** A new number: the database is changed, every connected peer that is named as the node serving the subscriber in the domain
    in which the peer serves is told the new number, and nobody else is told anything. *)
Theorem C28_msisdn_partial : forall k s d w x row m f s' d' o,
  reached k s d -> selects d x row -> no_fault f -> (forall m, k_msisdn_enc k m = true) ->
  is_msisdn m -> (forall r, In r (d_sub d) -> s_msisdn r = Some m -> r = row) ->
  step k (s, d) (w, EVtyMsisdn x (Some m), f) = Some (s', d', o) ->
  d' = rows_of (s_imsi row) (with_msisdn (Some m)) d /\
  (forall cn z c, In cn (v_conns (t_srv s)) -> serves z cn -> is_named cn (node z row) -> ~ In nul (bytes_of (node z row)) ->
     leads (t_srv s) (name_of (node z row)) c -> exists y, In y o /\ tells_number (s_imsi row) m z c y) /\
  (forall y, In y o -> exists cn z p c, In cn (v_conns (t_srv s)) /\ serves z cn /\ c_ccm cn = Some p /\ until_nul p = node z row /\
     leads (t_srv s) p c /\ tells_number (s_imsi row) m z c y).
Proof.
  intros k s d w x row m f s' d' o R Se NF Me Im Fr E. destruct (c28_msisdn _ _ _ _ _ _ _ _ _ _ _ R Se NF Me Im Fr E) as [D O]. split; [exact D|].
  assert (T : forall z c, tells_number (s_imsi row) m z c (OTx c (isd k (s_imsi row) m z))).
  { intros z c. eexists. split; [reflexivity|]. split; [reflexivity|]. split; [reflexivity|]. split; [reflexivity|]. destruct z; reflexivity. }
  split.
  - intros cn z c I Sv Nm Nn L. exists (OTx c (isd k (s_imsi row) m z)). split; [|apply T].
    apply O. exists cn, z, (name_of (node z row)), c. rewrite until_nul_name by auto. auto 10.
  - intros y I. apply O in I as (cn & z & p & c & I & Sv & Cc & Un & L & ->). exists cn, z, p, c. auto 10.
Qed.
Print Assumptions C28_msisdn_partial.

(** ** Cases *)
(** a location update of the example subscriber on connection [c] in domain [cn] *)
Definition ex_lu (c : nat) (cn : Z) := [ev (ERx c (ex_lu_req ex_imsi cn)); ev (ERx c (ex_msg MSGT_INSERT_DATA_RESULT ex_imsi))].
(** MSC-1 serves in CS, SGSN-1 in PS, MSC-3 is connected but serves nobody *)
Definition ex_served := ex_peer_up 0 "MSC-1" ++ ex_peer_up 1 "SGSN-1" ++ ex_peer_up 2 "MSC-3" ++ ex_lu 0 CN_CS ++ ex_lu 1 CN_PS.
Definition ex_after {A} (f : hst -> db -> A) (pre : list (world * event * sched)) (e : event) : option (list (nat * Z * option string) * A) :=
  match ex_run pre with
  | Some (s, d, _) => match step ex_cfg (s, d) (ev e) with
      | Some (s', d', o) => Some (flat_map (fun y => match y with OTx c g => [(c, g_type g, x_msisdn (g_x g))] | _ => [] end) o, f s' d')
      | None => None end
  | None => None
  end.
Definition ex_state (s : hst) (d : db) := map (fun r => (s_msisdn r, s_nam_cs r, s_nam_ps r)) (filter (fun r => (s_imsi r =? ex_imsi)%string) (d_sub d)).
Example C28_case_msisdn :
  ex_after ex_state ex_served (EVtyMsisdn (ByImsi ex_imsi) (Some "4711"%string)) =
  Some ([(0%nat, MSGT_INSERT_DATA_REQUEST, Some "4711"%string); (1%nat, MSGT_INSERT_DATA_REQUEST, Some "4711"%string)], [(Some "4711"%string, true, true)]).
Proof. vm_compute. reflexivity. Qed.
(** a number that another subscriber has: refused, nobody told *)
Example C28_case_taken : ex_after ex_state ex_served (EVtyMsisdn (ByImsi ex_imsi) (Some "1001"%string)) = Some ([], [(Some "1002"%string, true, true)]).
Proof. vm_compute. reflexivity. Qed.
Example C28_case_nam :
  ex_after ex_state (ex_peer_up 0 "MSC-1" ++ ex_peer_up 1 "SGSN-1" ++ ex_lu 0 CN_CS) (EVtyNam (ByMsisdn "1002") false true) =
  Some ([(0%nat, MSGT_DELETE_DATA_REQUEST, None)], [(Some "1002"%string, false, true)]).
Proof. vm_compute. reflexivity. Qed.
Example C28_case_gone :
  ex_after ex_state (ex_served ++ [ev (EClose 0)]) (EVtyNam (ById 2) false false) =
  Some ([(1%nat, MSGT_DELETE_DATA_REQUEST, None); (1%nat, MSGT_DELETE_DATA_REQUEST, None)], [(Some "1002"%string, false, false)]).
Proof. vm_compute. reflexivity. Qed.

(** ** What does not hold *)
Definition ex_end (es : list (world * event * sched)) : hst * db := match ex_run es with Some (s, d, _) => (s, d) | None => (hst0, ex_db2) end.
Definition ex_row (es : list (world * event * sched)) : sub_row := nth 1 (d_sub (snd (ex_end es))) (new_row 0 "" true true).
Definition ex_fine (es : list (world * event * sched)) : bool :=
  match ex_run es with
  | Some (_, d, _) => match d_sub d with [a; b] => negb (s_imsi a =? ex_imsi)%string && (s_imsi b =? ex_imsi)%string | _ => false end
  | None => false
  end.
Lemma ex_fine_ok es : ex_fine es = true -> reached ex_cfg (fst (ex_end es)) (snd (ex_end es)) /\ selects (snd (ex_end es)) (ByImsi ex_imsi) (ex_row es).
Proof.
  unfold ex_fine, ex_row, ex_end. destruct (ex_run es) as [[[s d] o]|] eqn:E; [|discriminate]. cbn [fst snd]. intros F. split; [eapply ex_reached; exact E|].
  unfold selects. destruct (d_sub d) as [|a [|b [|]]]; try discriminate. apply andb_true_iff in F as [Fa Fb]. apply String.eqb_eq in Fb. apply negb_true_iff, String.eqb_neq in Fa.
  cbn [nth]. split; [right; left; reflexivity|]. split; [exact Fb|]. intros r [<-|[<-|[]]] M; [contradiction|reflexivity].
Qed.
Lemma leads_no v a c : route_find (v_routes v) a <> Some c -> NoDup (map rt_addr (v_routes v)) -> ~ leads v a c.
Proof. intros H N L. apply H, (route_find_iff _ _ _ N), L. Qed.
Lemma leads_yes v a c : route_find (v_routes v) a = Some c -> leads v a c.
Proof. apply route_find_some. Qed.

(** CS is switched off; the connection that leads to SGSN-1, not to MSC-1, is told to delete *)
Theorem C28_other_domain_refuted : exists s d row s' d' o c y,
  reached ex_cfg s d /\ selects d (ByImsi ex_imsi) row /\ access CS row = true /\ access PS row = true /\
  step ex_cfg (s, d) (ev (EVtyNam (ByImsi ex_imsi) false true)) = Some (s', d', o) /\
  In y o /\ tells_delete ex_imsi c y /\ node CS row = "MSC-1"%string /\ ~ leads (t_srv s) (name_of "MSC-1") c.
Proof.
  destruct (ex_fine_ok ex_served) as [R Se]; [vm_compute; reflexivity|].
  destruct (reached_fine _ _ _ R) as ([_ SV] & _).
  exists (fst (ex_end ex_served)), (snd (ex_end ex_served)), (ex_row ex_served). do 5 eexists. split; [exact R|]. split; [exact Se|].
  split; [vm_compute; reflexivity|]. split; [vm_compute; reflexivity|]. split; [vm_compute; reflexivity|]. split; [right; left; reflexivity|]. split; [|split; [vm_compute; reflexivity|]].
  - eexists. split; [reflexivity|split; reflexivity].
  - apply leads_no; [vm_compute; discriminate|apply (si_addr _ SV)].
Qed.
Print Assumptions C28_other_domain_refuted.
(** CS is switched on again; both serving nodes are connected and nobody is told anything *)
Theorem C28_enabling_refuted : exists s d row s' d' c,
  reached ex_cfg s d /\ selects d (ByImsi ex_imsi) row /\ access CS row = false /\ node CS row = "MSC-1"%string /\ leads (t_srv s) (name_of "MSC-1") c /\
  step ex_cfg (s, d) (ev (EVtyNam (ByImsi ex_imsi) true true)) = Some (s', d', []) /\ d' = rows_of ex_imsi (with_access CS true) d.
Proof.
  set (es := ex_served ++ [ev (EVtyNam (ByImsi ex_imsi) false true)]).
  destruct (ex_fine_ok es) as [R Se]; [vm_compute; reflexivity|].
  exists (fst (ex_end es)), (snd (ex_end es)), (ex_row es). do 2 eexists. exists 0%nat. split; [exact R|]. split; [exact Se|].
  split; [vm_compute; reflexivity|]. split; [vm_compute; reflexivity|]. split; [apply leads_yes; vm_compute; reflexivity|]. split; vm_compute; reflexivity.
Qed.
Print Assumptions C28_enabling_refuted.
(** the number is taken away; the database has none, the MSC is told the old one *)
Theorem C28_no_number_refuted : exists s d row s' d' o c y,
  reached ex_cfg s d /\ selects d (ByImsi ex_imsi) row /\ s_msisdn row = Some "1002"%string /\
  step ex_cfg (s, d) (ev (EVtyMsisdn (ByImsi ex_imsi) None)) = Some (s', d', o) /\
  d' = rows_of ex_imsi (with_msisdn None) d /\ In y o /\ tells_number ex_imsi "1002" CS c y.
Proof.
  destruct (ex_fine_ok ex_served) as [R Se]; [vm_compute; reflexivity|].
  exists (fst (ex_end ex_served)), (snd (ex_end ex_served)), (ex_row ex_served). do 5 eexists. split; [exact R|]. split; [exact Se|].
  split; [vm_compute; reflexivity|]. split; [vm_compute; reflexivity|]. split; [vm_compute; reflexivity|]. split; [left; reflexivity|].
  eexists. do 4 (split; [reflexivity|]). reflexivity.
Qed.
Print Assumptions C28_no_number_refuted.
(** MSC-1 serves our subscriber in CS, and another subscriber in PS: our subscriber's new number is told to nobody *)
Theorem C28_both_domains_refuted : exists s d row s' d' cn c,
  reached ex_cfg s d /\ selects d (ByImsi ex_imsi) row /\ In cn (v_conns (t_srv s)) /\ c_cs cn = true /\ node CS row = "MSC-1"%string /\
  is_named cn "MSC-1" /\ leads (t_srv s) (name_of "MSC-1") c /\
  step ex_cfg (s, d) (ev (EVtyMsisdn (ByImsi ex_imsi) (Some "4711"%string))) = Some (s', d', []) /\ d' = rows_of ex_imsi (with_msisdn (Some "4711"%string)) d.
Proof.
  set (es := ex_peer_up 0 "MSC-1" ++ ex_lu 0 CN_CS ++ [ev (ERx 0 (ex_lu_req "901700000001" CN_PS)); ev (ERx 0 (ex_msg MSGT_INSERT_DATA_RESULT "901700000001"))]).
  destruct (ex_fine_ok es) as [R Se]; [vm_compute; reflexivity|].
  exists (fst (ex_end es)), (snd (ex_end es)), (ex_row es). do 2 eexists. exists (nth 0 (v_conns (t_srv (fst (ex_end es)))) (mk_conn 9 ipa_empty None false false)), 0%nat.
  split; [exact R|]. split; [exact Se|]. split; [apply nth_In; vm_compute; constructor|].
  do 3 (split; [vm_compute; reflexivity|]). split; [apply leads_yes; vm_compute; reflexivity|]. split; vm_compute; reflexivity.
Qed.
Print Assumptions C28_both_domains_refuted.
(** the control interface switches CS off or sets a number: nobody is told *)
Theorem C28_control_refuted : exists s d row c,
  reached ex_cfg s d /\ selects d (ByImsi ex_imsi) row /\ access CS row = true /\ node CS row = "MSC-1"%string /\ leads (t_srv s) (name_of "MSC-1") c /\
  (exists s' d', step ex_cfg (s, d) (ev (EApi (ANam ex_imsi false false))) = Some (s', d', []) /\ d' = rows_of ex_imsi (with_access CS false) d) /\
  (exists s' d', step ex_cfg (s, d) (ev (EApi (AMsisdn ex_imsi (Some "4711"%string)))) = Some (s', d', []) /\ d' = rows_of ex_imsi (with_msisdn (Some "4711"%string)) d).
Proof.
  destruct (ex_fine_ok ex_served) as [R Se]; [vm_compute; reflexivity|].
  exists (fst (ex_end ex_served)), (snd (ex_end ex_served)), (ex_row ex_served), 0%nat. split; [exact R|]. split; [exact Se|].
  do 2 (split; [vm_compute; reflexivity|]). split; [apply leads_yes; vm_compute; reflexivity|]. split; do 2 eexists; (split; vm_compute; reflexivity).
Qed.
Print Assumptions C28_control_refuted.

(** ** Under storage faults, and who serves where *)
(** Whatever statements fail: a node is told to delete a subscriber only by a command that meant this subscriber and that took the
    access away in a domain in which it was granted, and the database says so then; the node is one that serves the subscriber. *)
Theorem C28_delete_any_faults : forall k s d w x cs ps f s' d' o,
  reached k s d -> step k (s, d) (w, EVtyNam x cs ps, f) = Some (s', d', o) ->
  forall y, In y o -> exists row row' z, In row (d_sub d) /\ means x row /\ In row' (d_sub d') /\ s_id row' = s_id row /\ s_imsi row' = s_imsi row /\
    access z row = true /\ (if is_ps z then ps else cs) = false /\ access z row' = false /\ told (t_srv s) row y.
Proof. exact c28_delete_any. Qed.
Print Assumptions C28_delete_any_faults.
(** CS and PS are switched off and the first or the second UPDATE fails (the SELECT comes before): the deletions of the other are sent *)
Definition ex_nam_fault (f : sched) : option (nat * list (string * bool * bool)) :=
  match ex_run ex_served with
  | Some (s, d, _) => match step ex_cfg (s, d) (fst (ev (EVtyNam (ByImsi ex_imsi) false false)), f) with
      | Some (_, d', o) => Some (length o, map (fun r => (s_imsi r, s_nam_cs r, s_nam_ps r)) (d_sub d'))
      | None => None end
  | None => None
  end.
Example C28_delete_any_faults_case :
  ex_nam_fault [EvOk; EvFail; EvOk] = Some (2%nat, [("901700000001"%string, true, true); (ex_imsi, true, false)]) /\
  ex_nam_fault [EvOk; EvOk; EvFail] = Some (2%nat, [("901700000001"%string, true, true); (ex_imsi, false, true)]) /\
  ex_nam_fault [EvOk; EvFail; EvFail] = Some (0%nat, [("901700000001"%string, true, true); (ex_imsi, true, true)]) /\
  ex_nam_fault [EvFail] = Some (0%nat, [("901700000001"%string, true, true); (ex_imsi, true, true)]).
Proof. vm_compute. repeat split. Qed.

(** A peer is known to serve in a domain exactly by its own location updates for that domain: a new connection serves nowhere, nothing
    else that happens changes what is known of it, *)
Theorem C28_domains : forall k s d w e f s' d' o, reached k s d -> step k (s, d) (w, e, f) = Some (s', d', o) ->
  forall cn', In cn' (v_conns (t_srv s')) ->
    (e = EAccept /\ forall x, flag x cn' = false) \/
    (exists cn, In cn (v_conns (t_srv s)) /\ c_id cn = c_id cn' /\ forall x,
       (flag x cn = true -> flag x cn' = true) /\
       (flag x cn' = true -> flag x cn = true \/ exists g, e = ERx (c_id cn) g /\ updates_in x g) /\
       (forall g, e = ERx (c_id cn) g -> updates_in x g -> g_src g = [] -> g_dst g = [] -> is_imsi (g_imsi g) -> flag x cn' = true)).
Proof.
  intros k s d w e f s' d' o Re E cn' I. destruct (c28_domains _ _ _ _ _ _ _ _ _ Re E cn' I) as [A|(cn & J & Q & Z)]; [auto|]. right. exists cn. split; auto. split; auto.
  intros x. split; [intros; apply Z; auto|]. split.
  - intros H. apply Z in H as [H|(g & G & U & _)]; eauto.
  - intros g G U S D V. apply Z. right. exists g. split; auto. split; auto. apply taken_up_plain; auto. apply in_map. exact J.
Qed.
Print Assumptions C28_domains.
(** and in a whole history every domain known of a connection comes from a location update received on it. *)
Theorem C28_history : forall k d0 es s d o, db_ok d0 -> keys_wellformed d0 -> hist k (hst0, d0) es = Some (s, d, o) ->
  forall cn x, In cn (v_conns (t_srv s)) -> flag x cn = true -> exists w g f, In (w, ERx (c_id cn) g, f) es /\ updates_in x g.
Proof.
  intros k d0 es s d o A B H cn x I Fl. assert (Re : reached k hst0 d0) by (exists d0, [], []; auto).
  destruct (c28_history k es _ _ _ _ _ Re H cn x I Fl) as [(cn0 & [] & _)|X]. exact X.
Qed.
Print Assumptions C28_history.
(** the second identification of a peer changes its name, not its domains *)
Example C28_domains_case :
  match ex_run (ex_served ++ [ev (EIdent 0 (Some (name_of "MSC-9")))]) with
  | Some (s, _, _) => map (fun c => (c_id c, c_cs c, c_ps c)) (v_conns (t_srv s)) | None => [] end =
  [(0%nat, true, false); (1%nat, false, true); (2%nat, false, false)].
Proof. vm_compute. reflexivity. Qed.
