(** Notifications under storage faults, and the domains of the peers (C28). *)
From Verif Require Import Base PeerId Db DbSpec DbProofs DbThms DbThms2 DbThms3 Auth AuthSpec AuthThms AuthThms2 AuthThms3 Gsup Router Hlr PeerSpec PeerThms HlrSpec HlrSpec2 HlrThms RouterThms HlrThms2 HlrThms3 HlrStep HlrThms4 HlrThms5 HlrThms6 HlrThms7 HlrThms8 HlrThms9.

(** * Deletions *)
Lemma get_by_means k x f d rc sub d' f' h : run (get_by k x) f d = (Fin (rc, sub), d', f') -> sub = Some h ->
  d' = d /\ exists row, In row (d_sub d) /\ means x row /\ sub_of_row (k_tz k) row = Some h.
Proof.
  intros R ->.
  assert (G : forall S cond, (forall r, cond r = true -> means x r) -> (forall d0, exec S d0 = sel cond d0) ->
     run (db_sel (k_tz k) S) f d = (Fin (rc, Some h), d', f') -> d' = d /\ exists row, In row (d_sub d) /\ means x row /\ sub_of_row (k_tz k) row = Some h).
  { intros S cond C E R'. unfold db_sel in R'. apply fin_exec in R' as [(c1 & _ & R')|(c1 & _ & _ & R')]; [|apply fin_ret in R' as ([= _ X] & _); discriminate].
    rewrite E in R'. unfold sel in R'. destruct (find cond (d_sub d)) as [row|] eqn:Fd; cbn [fst snd] in R'.
    - destruct (sub_of_row (k_tz k) row) as [h'|] eqn:Sr; [|discriminate]. apply fin_ret in R' as ([= _ ->] & -> & _).
      apply find_some in Fd as [I Er]. split; auto. exists row. auto.
    - apply fin_ret in R' as ([= _ X] & _). }
  destruct x as [i|m|i|m]; cbn [get_by] in R; [apply (G (SEL_BY_IMSI i) (by_imsi i))|apply (G (SEL_BY_MSISDN m) (by_msisdn m))|apply (G (SEL_BY_ID i) (by_id i))|apply (G (SEL_BY_IMEI m) (by_imei m))]; auto; intros r; cbn [means].
  - apply String.eqb_eq.
  - unfold by_msisdn. destruct (s_msisdn r); cbn; [|discriminate]. intros E. apply String.eqb_eq in E. congruence.
  - apply Z.eqb_eq.
  - unfold by_imei. destruct (s_imei r); cbn; [|discriminate]. intros E. apply String.eqb_eq in E. congruence.
Qed.

Lemma send_delete_only k v imsi n o : sinv v -> (String.length n <= 31)%nat -> send_delete k v imsi n = Some o ->
  forall y, In y o -> n <> ""%string /\ exists c, leads v (name_of n) c /\ tells_delete imsi c y.
Proof.
  intros SV L E y I. unfold send_delete in E. destruct (String.eqb_spec n "") as [->|Nn]; [injection E as <-; destruct I|]. split; auto.
  destruct (ipa_set_str ipa_empty (Some n)) as [nm|] eqn:Es; [|discriminate].
  destruct (ipa_set_str_bytes _ _ _ ipa_empty_wf Es) as (W & B). unfold text_names in B. rewrite str_take_all in B by lia.
  unfold enc_send_to in E. fold (del_msg imsi) in E. destruct (k_enc k (del_msg imsi)); [|injection E as <-; destruct I].
  destruct (send_to_ok v nm (del_msg imsi) SV W) as (rc & o' & Es' & C). { rewrite B. intros X. apply app_eq_nil in X as [_ X]. discriminate. }
  rewrite Es' in E. injection E as <-. assert (Ad : addr_of (ipa_bytes nm) = name_of n).
  { rewrite B. unfold addr_of. rewrite last_last. reflexivity. }
  rewrite Ad in C. destruct C as [(-> & c & -> & Lc)|(_ & -> & _)]; [|destruct I].
  destruct I as [<-|[]]. exists c. split; auto. eexists. split; [reflexivity|]. split; reflexivity.
Qed.

Lemma nam_any k v h row d val x f rc o d' c' : sinv v ->
  h_imsi h = s_imsi row -> h_vlr h = node CS row -> h_sgsn h = node PS row ->
  run (hlr_subscr_nam k v h val (is_ps x)) f d = (Fin (rc, o), d', c') ->
  (d' = d \/ d' = rows_of (s_imsi row) (with_access x val) d) /\
  forall y, In y o -> val = false /\ (if is_ps x then h_nam_ps h else h_nam_cs h) = true /\ d' = rows_of (s_imsi row) (with_access x val) d /\ told v row y.
Proof.
  intros SV Ei Ev Es. unfold hlr_subscr_nam. destruct (Bool.eqb _ val) eqn:Eb.
  { intros R. apply fin_ret in R as ([= _ ->] & -> & _). split; auto. intros y []. }
  apply Bool.eqb_false_iff in Eb. unfold db_subscr_nam. rewrite Ei, Ev, Es. cbn [bind]. intros R.
  assert (EX : snd (exec (if is_ps x then UPD_NAM_PS_BY_IMSI val (s_imsi row) else UPD_NAM_CS_BY_IMSI val (s_imsi row)) d) = rows_of (s_imsi row) (with_access x val) d)
    by (destruct x; reflexivity).
  apply fin_exec in R as [(c1 & _ & R)|(c1 & _ & _ & R)].
  2:{ cbn in R. apply fin_ret in R as ([= _ ->] & -> & _). split; auto. intros y []. }
  rewrite EX in R. set (rc1 := upd_rc _) in R. cbn [run bind] in R. destruct (negb (rc1 =? 0)).
  { apply fin_ret in R as ([= _ ->] & -> & _). split; auto. intros y []. }
  destruct val. { apply fin_ret in R as ([= _ ->] & -> & _). split; auto. intros y []. }
  destruct (send_delete k v (s_imsi row) (node CS row)) as [o1|] eqn:S1; [|discriminate]. destruct (send_delete k v (s_imsi row) (node PS row)) as [o2|] eqn:S2; [|discriminate].
  apply fin_ret in R as ([= _ ->] & -> & _). split; auto. intros y I. split; auto. split.
  { destruct (is_ps x); [destruct (h_nam_ps h)|destruct (h_nam_cs h)]; congruence. }
  split; auto. apply in_app_iff in I as [I|I].
  - destruct (send_delete_only _ _ _ _ _ SV (str_take_len _ _) S1 y I) as (N & c & Lc & T). exists CS, c. auto.
  - destruct (send_delete_only _ _ _ _ _ SV (str_take_len _ _) S2 y I) as (N & c & Lc & T). exists PS, c. auto.
Qed.

Lemma rows_of_in imsi f d r : In r (d_sub d) -> s_imsi r = imsi -> In (f r) (d_sub (rows_of imsi f d)).
Proof. intros I E. unfold rows_of. cbn [d_sub with_sub]. apply in_map_iff. exists r. rewrite E, String.eqb_refl. auto. Qed.

Lemma c28_delete_any k s d w x cs ps f s' d' o : reached k s d ->
  step k (s, d) (w, EVtyNam x cs ps, f) = Some (s', d', o) ->
  forall y, In y o -> exists row row' z, In row (d_sub d) /\ means x row /\ In row' (d_sub d') /\ s_id row' = s_id row /\ s_imsi row' = s_imsi row /\
    access z row = true /\ (if is_ps z then ps else cs) = false /\ access z row' = false /\ told (t_srv s) row y.
Proof.
  intros Re E y Iy. destruct (reached_fine _ _ _ Re) as ([_ SV] & [Hd _] & _).
  unfold step in E. cbn [fst snd handle] in E. destruct (run (same s (vty_nam k s x cs ps)) f d) as [[[[s2 o2]| |] d2] f2] eqn:R; try discriminate.
  2:{ injection E as <- <- <-. destruct Iy. }
  injection E as <- <- <-. unfold same in R. apply fin_bind in R as (o1 & d1 & f1 & R & R'). apply fin_ret in R' as ([= -> ->] & -> & ->).
  unfold vty_nam in R. apply fin_bind in R as ([rc sub] & d3 & f3 & R & R2).
  assert (Q : exists h, rc = 0 /\ sub = Some h).
  { destruct rc; [destruct sub as [h|]; [eauto|]| |]; apply fin_ret in R2 as (-> & _); destruct Iy. }
  destruct Q as (h & -> & ->). destruct (get_by_means _ _ _ _ _ _ _ _ h R eq_refl) as (-> & row & Ir & Mr & Sr). clear R.
  pose proof (iv_wf _ Hd) as W. rewrite Forall_forall in W. destruct (W row Ir) as [W1 W2]. apply imsi_valid_spec in W1.
  destruct (sub_fields _ _ _ Sr W1) as (_ & Ei & _ & Nc & Np). { intros m Em. apply msisdn_valid_spec. auto. }
  destruct (node_fields _ _ _ Sr) as [Ev Es]. cbn iota in R2.
  apply fin_bind in R2 as (a & da & fa & Ra & R2). apply fin_bind in R2 as (b & d4 & fb & Rb & R2). apply fin_ret in R2 as (-> & -> & _).
  assert (A : (da = d \/ da = rows_of (s_imsi row) (with_access CS cs) d) /\ (In y a -> cs = false /\ s_nam_cs row = true /\ da = rows_of (s_imsi row) (with_access CS cs) d /\ told (t_srv s) row y)).
  { destruct (Bool.eqb cs (h_nam_cs h)).
    - apply fin_ret in Ra as (-> & -> & _). split; [auto|intros []].
    - apply fin_bind in Ra as ([rc a'] & dx & fx & Ra & Rx). apply fin_ret in Rx as (-> & -> & _).
      destruct (nam_any k (t_srv s) h row d cs CS _ _ _ _ _ SV Ei Ev Es Ra) as [D1 D2]. cbn [snd]. split; auto. intros I. destruct (D2 y I) as (? & X & ? & ?). cbn in X. rewrite Nc in X. auto. }
  assert (B : (d4 = da \/ d4 = rows_of (s_imsi row) (with_access PS ps) da) /\ (In y b -> ps = false /\ s_nam_ps row = true /\ d4 = rows_of (s_imsi row) (with_access PS ps) da /\ told (t_srv s) row y)).
  { destruct (Bool.eqb ps (h_nam_ps h)).
    - apply fin_ret in Rb as (-> & -> & _). split; [auto|intros []].
    - apply fin_bind in Rb as ([rc b'] & dx & fx & Rb & Rx). apply fin_ret in Rx as (-> & -> & _).
      destruct (nam_any k (t_srv s) h row da ps PS _ _ _ _ _ SV Ei Ev Es Rb) as [D1 D2]. cbn [snd]. split; auto. intros I. destruct (D2 y I) as (? & X & ? & ?). cbn in X. rewrite Np in X. auto. }
  destruct A as [A1 A2], B as [B1 B2]. apply in_app_iff in Iy as [I|I].
  - destruct (A2 I) as (-> & Ac & -> & T). pose proof (rows_of_in _ (with_access CS false) _ _ Ir eq_refl) as Ia.
    destruct B1 as [->| ->].
    + exists row, (with_access CS false row), CS. auto 10.
    + exists row, (with_access PS ps (with_access CS false row)), CS. split; auto. split; auto. split; [apply rows_of_in; auto|]. auto 10.
  - destruct (B2 I) as (-> & Ac & -> & T). destruct A1 as [->| ->].
    + exists row, (with_access PS false row), PS. split; auto. split; auto. split; [apply rows_of_in; auto|]. auto 10.
    + exists row, (with_access PS false (with_access CS cs row)), PS. split; auto. split; auto. split; [apply rows_of_in; auto; apply rows_of_in; auto|]. auto 10.
Qed.

(** * Domains *)
(** connections [l'] are [l], with the domains that connection [c] gets by message [g] if [r] *)
Definition after_rx (r : bool) (c : nat) (g : gsup) (l l' : list conn) : Prop :=
  l' = map (fun x => if r && (c_id x =? c)%nat then mk_conn (c_id x) (c_name x) (c_ccm x) (if g_cn g =? CN_CS then true else c_cs x) (if g_cn g =? CN_CS then c_ps x else true) else x) l.
Lemma after_no c g l : after_rx false c g l l.
Proof. unfold after_rx. cbn. symmetry. apply map_id. Qed.

Lemma lu_start_conns k w s q : all_rets (fun x => v_conns (t_srv (fst x)) = v_conns (t_srv s)) (lu_start k w s q).
Proof.
  unfold lu_start. destruct (peer_is_empty (q_src q)); [reflexivity|].
  apply all_rets_bind, all_rets_true. intros [rc sub]. destruct (rc <? 0); [reflexivity|].
  destruct sub as [h|]; [|exact I].
  destruct (_ && _); [reflexivity|]. destruct (_ && _); [reflexivity|]. destruct (_ || _); [reflexivity|].
  apply all_rets_bind, all_rets_true. intros rc2. destruct (negb (rc2 =? 0)); [reflexivity|].
  destruct (isd_msg _ _ _ _) as [isd|] eqn:E; [|reflexivity].
  destruct (respond (tx k s) q isd false false) as [rc3 o]. destruct (negb (rc3 =? 0)); reflexivity.
Qed.
Lemma same_conns s p : all_rets (fun x => v_conns (t_srv (fst x)) = v_conns (t_srv s)) (same s p).
Proof. unfold same. apply all_rets_bind, all_rets_true. intros o. reflexivity. Qed.
Lemma dispatch_conns k w s q : all_rets (fun x => after_rx (g_type (q_gsup q) =? MSGT_UPDATE_LOCATION_REQUEST) (q_conn q) (q_gsup q) (v_conns (t_srv s)) (v_conns (t_srv (fst x)))) (dispatch k w s q).
Proof.
  destruct (Z.eqb_spec (g_type (q_gsup q)) MSGT_UPDATE_LOCATION_REQUEST) as [E|N].
  - unfold dispatch. rewrite E. cbn [Z.eqb orb]. change (MSGT_UPDATE_LOCATION_REQUEST =? MSGT_SEND_AUTH_INFO_REQUEST) with false. rewrite Z.eqb_refl.
    unfold rx_upd_loc_req. apply all_rets_bind, all_rets_true. intros _. eapply all_rets_impl; [|apply lu_start_conns]. intros x H. cbv beta in H. rewrite H.
    unfold after_rx. cbn [t_srv with_srv v_conns set_conn with_conns andb]. reflexivity.
  - eapply all_rets_impl with (P := fun x => v_conns (t_srv (fst x)) = v_conns (t_srv s)). { intros x ->. apply after_no. }
    unfold dispatch. destruct (_ =? MSGT_SEND_AUTH_INFO_REQUEST); [apply same_conns|]. apply Z.eqb_neq in N. rewrite N.
    destruct (_ =? MSGT_PURGE_MS_REQUEST); [apply same_conns|]. destruct (_ || _); [reflexivity|].
    destruct (_ || _). { eapply all_rets_impl; [|apply proc_ss_srv]. intros x E. cbv beta in E. rewrite E. reflexivity. }
    destruct (_ =? MSGT_PROC_SS_ERROR); [reflexivity|]. destruct (_ || _). { cbn [all_rets]. rewrite lu_rx_srv. reflexivity. }
    destruct (_ =? MSGT_CHECK_IMEI_REQUEST); [apply same_conns|]. destruct (_ =? MSGT_MO_FORWARD_SM_REQUEST); [apply same_conns|].
    destruct (_ =? MSGT_MT_FORWARD_SM_REQUEST); [apply same_conns|]. destruct (_ =? MSGT_READY_FOR_SM_REQUEST); [apply same_conns|reflexivity].
Qed.
Lemma conn_rx_req enc v nr c g v' q : conn_rx enc v nr c g = (v', inl q) -> q_conn q = c /\ q_gsup q = g.
Proof.
  unfold conn_rx. destruct (find_conn v c) as [cn|]; [|discriminate]. destruct (req_new _ _ _ _ _) as [q'|o] eqn:R; [|discriminate].
  assert (X : q_conn q' = c /\ q_gsup q' = g).
  { unfold req_new in R. destruct (g_src g) as [|b l].
    - destruct (negb (imsi_valid _)); [discriminate|]. injection R as <-. auto.
    - destruct (peer_set _ _) as [rc src]. destruct (negb (rc =? 0)); [discriminate|]. destruct (negb (peer_cmp _ _ =? 0)); destruct (negb (imsi_valid _)); try discriminate; injection R as <-; auto. }
  destruct (negb _); [|intros [= _ <-]; auto]. destruct (route_add _ _ _) as [rc v2]. destruct (negb (rc =? 0)); [discriminate|]. intros [= _ <-]. auto.
Qed.
(** the message is taken up: its source name and IMSI are fine, and it is for this HLR *)
Definition taken_up (k : cfg) (v : server) (nr c : nat) (g : gsup) : bool :=
  match snd (conn_rx (k_enc k) v nr c g) with
  | inr _ => false
  | inl _ => match g_dst g with
             | [] => true
             | d => match ipa_set_str ipa_empty (Some (k_serno k)) with
                    | None => false
                    | Some my => let '(rc, dest) := ipa_set ipa_empty (Some d) in negb ((rc =? 0) && negb (ipa_cmp dest my =? 0))
                    end
             end
  end.
Lemma read_cb_conns k w s c g : sinv (t_srv s) ->
  all_rets (fun x => after_rx (taken_up k (t_srv s) (t_nr s) c g && (g_type g =? MSGT_UPDATE_LOCATION_REQUEST)) c g (v_conns (t_srv s)) (v_conns (t_srv (fst x)))) (read_cb k w s c g).
Proof.
  intros SV. unfold read_cb, read_msg, taken_up. apply all_rets_bind. destruct (conn_rx_srv (k_enc k) (t_srv s) (t_nr s) c g SV) as (_ & Cs & _).
  destruct (conn_rx _ _ _ _ _) as [v r] eqn:Cr. cbn [fst snd] in *.
  set (s1 := mk_hst v (t_lus s) (t_ss s) (S (t_nr s))). rewrite <- Cs. change v with (t_srv s1).
  destruct r as [q|o]; [|cbn; apply after_no]. destruct (conn_rx_req _ _ _ _ _ _ _ Cr) as [<- <-].
  destruct (g_dst (q_gsup q)). { cbn [andb fst]. eapply all_rets_impl; [|apply dispatch_conns]. intros x H; exact H. }
  destruct (ipa_set_str _ _); [|exact I]. destruct (ipa_set _ _) as [rc dest].
  destruct ((rc =? 0) && _); cbn [negb andb fst].
  - eapply all_rets_impl; [|apply same_conns]. intros x H. cbv beta in H. cbn [all_rets fst]. rewrite H. apply after_no.
  - eapply all_rets_impl; [|apply dispatch_conns]. intros x H; exact H.
Qed.
Lemma route_add_conns v c a : v_conns (snd (route_add v c a)) = v_conns v.
Proof. unfold route_add. destruct (route_find _ _); [destruct (_ =? _)%nat; reflexivity|reflexivity]. Qed.

Lemma c28_domains k s d w e f s' d' o : reached k s d -> step k (s, d) (w, e, f) = Some (s', d', o) ->
  forall cn', In cn' (v_conns (t_srv s')) ->
    (e = EAccept /\ forall x, flag x cn' = false) \/
    (exists cn, In cn (v_conns (t_srv s)) /\ c_id cn = c_id cn' /\ forall x,
       (flag x cn' = true <-> flag x cn = true \/ exists g, e = ERx (c_id cn) g /\ updates_in x g /\ taken_up k (t_srv s) (t_nr s) (c_id cn) g = true)).
Proof.
  intros Re E cn' I. destruct (reached_fine _ _ _ Re) as ([_ SV] & _).
  assert (Kp : (forall c g, e <> ERx c g) -> In cn' (v_conns (t_srv s)) -> exists cn, In cn (v_conns (t_srv s)) /\ c_id cn = c_id cn' /\ forall x,
       (flag x cn' = true <-> flag x cn = true \/ exists g, e = ERx (c_id cn) g /\ updates_in x g /\ taken_up k (t_srv s) (t_nr s) (c_id cn) g = true)).
  { intros H J. exists cn'. split; auto. split; auto. intros x. split; auto. intros [|(g & X & _)]; auto. destruct (H _ _ X). }
  unfold step in E. cbn [fst snd] in E. destruct (run (handle k w s e) f d) as [[[[s2 o2]| |] d2] f2] eqn:R; try discriminate.
  2:{ injection E as <- <- <-. destruct I. }
  injection E as <- <- <-. destruct e as [|c tag|c|c g|nr|imsi sid|x m|x cs ps|a]; cbn [handle] in R.
  - apply fin_ret in R as ([= -> ->] & _). cbn [t_srv with_srv srv_accept v_conns] in I. apply in_app_iff in I as [I|[<-|[]]].
    + right. apply Kp; auto. intros; discriminate.
    + left. split; auto. intros []; reflexivity.
  - right. apply fin_ret in R as ([= -> ->] & _). cbn [t_srv with_srv] in I. unfold srv_ident in I. destruct (find_conn (t_srv s) c) as [c0|]; [|apply Kp; auto; intros; discriminate].
    assert (Cl : In cn' (v_conns (srv_close (t_srv s) c)) -> In cn' (v_conns (t_srv s))) by (unfold srv_close; cbn; intros J; apply filter_In in J as [J _]; exact J).
    destruct tag as [[|b l]|]; [apply Kp; auto; intros; discriminate| |apply Kp; auto; intros; discriminate].
    rewrite route_add_conns in I. cbn [set_conn with_conns v_conns] in I. apply in_map_iff in I as (cn & Q & J). exists cn. split; auto.
    destruct (c_id cn =? c)%nat; subst cn'; cbn [c_id]; (split; auto); intros x; (split; [|intros [|(g & X & _)]; [|discriminate]]); destruct x; cbn; auto.
  - right. apply fin_ret in R as ([= -> ->] & _). apply Kp; [intros; discriminate|]. unfold srv_close in I. cbn in I. apply filter_In in I as [J _]; exact J.
  - right. destruct (find_conn (t_srv s) c) as [c0|] eqn:Fc.
    2:{ apply fin_ret in R as ([= -> ->] & _). exists cn'. split; auto. split; auto. intros x. split; auto. intros [|(g' & [= -> ->] & _)]; auto.
        assert (X : In (c_id cn') (map c_id (v_conns (t_srv s)))) by (apply in_map; exact I). apply find_conn_iff in X. contradiction. }
    apply run_outE in R. apply (all_rets_run _ _ (read_cb_conns k w s c g SV)) in R. cbn [fst] in R. rewrite R in I. apply in_map_iff in I as (cn & Q & J).
    exists cn. split; auto. destruct (taken_up k (t_srv s) (t_nr s) c g) eqn:T; cbn [andb] in Q.
    + destruct (Z.eqb_spec (g_type g) MSGT_UPDATE_LOCATION_REQUEST) as [Et|Nt]; cbn [andb] in Q.
      * destruct (Nat.eqb_spec (c_id cn) c) as [<-|Nc]; subst cn'; cbn [c_id]; (split; auto); intros x.
        -- destruct (Z.eqb_spec (g_cn g) CN_CS) as [Ec|Nc], x; cbn [flag c_cs c_ps].
           ++ split; auto. intros _. right. exists g. split; auto. split; auto. split; auto.
           ++ split; auto. intros [|(g' & [= <-] & [_ X] & _)]; auto; contradiction.
           ++ split; auto. intros [|(g' & [= <-] & [_ X] & _)]; auto; contradiction.
           ++ split; auto. intros _. right. exists g. split; auto. split; auto. split; auto.
        -- split; auto. intros [|(g' & [= X _] & _)]; auto; congruence.
      * subst cn'. split; auto. intros x. split; auto. intros [|(g' & [= <- <-] & [X _] & _)]; auto; contradiction.
    + subst cn'. split; auto. intros x. split; auto. intros [|(g' & [= <- <-] & _ & X)]; auto. congruence.
  - right. apply fin_ret in R as (X & _). apply Kp; [intros; discriminate|]. replace (t_srv s) with (t_srv s2); auto. unfold lu_timeout in X. destruct (find _ _); injection X as -> ->; reflexivity.
  - right. apply fin_ret in R as (X & _). apply Kp; [intros; discriminate|]. replace (t_srv s) with (t_srv s2); auto. unfold ss_timeout in X. destruct (ss_find _ _ _); injection X as -> ->; reflexivity.
  - right. apply Kp; [intros; discriminate|]. apply run_outE in R. apply (all_rets_run _ _ (same_conns s _)) in R. cbn [fst] in R. rewrite <- R. exact I.
  - right. apply Kp; [intros; discriminate|]. apply run_outE in R. apply (all_rets_run _ _ (same_conns s _)) in R. cbn [fst] in R. rewrite <- R. exact I.
  - right. apply Kp; [intros; discriminate|]. apply fin_bind in R as (r & d1 & f1 & _ & R). apply fin_ret in R as ([= -> ->] & _). exact I.
Qed.

Lemma taken_up_plain k v nr c g : In c (map c_id (v_conns v)) -> g_src g = [] -> g_dst g = [] -> is_imsi (g_imsi g) -> taken_up k v nr c g = true.
Proof.
  intros I S D V. apply imsi_valid_spec in V. unfold taken_up, conn_rx. apply find_conn_iff in I. destruct (find_conn v c) as [cn|]; [|contradiction].
  unfold req_new. rewrite S, V, D. reflexivity.
Qed.
(** over a history *)
Lemma c28_history k : forall es s0 d0 s d o, reached k s0 d0 -> hist k (s0, d0) es = Some (s, d, o) -> forall cn x, In cn (v_conns (t_srv s)) -> flag x cn = true ->
  (exists cn0, In cn0 (v_conns (t_srv s0)) /\ c_id cn0 = c_id cn /\ flag x cn0 = true) \/ (exists w g f, In (w, ERx (c_id cn) g, f) es /\ updates_in x g).
Proof.
  induction es as [|[[w e] f] es IH]; intros s0 d0 s d o Re H cn x I Fl.
  - injection H as <- <- <-. left. exists cn. auto.
  - cbn [hist] in H. destruct (step k (s0, d0) (w, e, f)) as [[[s1 d1] o1]|] eqn:E; [|discriminate]. destruct (hist k (s1, d1) es) as [[[s2 d2] o2]|] eqn:Hh; [|discriminate].
    injection H as <- <- <-. assert (Re1 : reached k s1 d1).
    { destruct Re as (db0 & es0 & ob & A & B & C). exists db0, (es0 ++ [(w, e, f)]), (ob ++ o1). split; auto. split; auto.
      clear - C E. revert C. generalize hst0 db0 ob. induction es0 as [|e0 es0 IH0]; intros sx dx ox C.
      - injection C as -> -> <-. cbn [app hist]. rewrite E. rewrite app_nil_r. reflexivity.
      - cbn [app hist] in *. destruct (step k (sx, dx) e0) as [[[sy dy] oy]|]; [|discriminate]. destruct (hist k (sy, dy) es0) as [[[sz dz] oz]|] eqn:Hz; [|discriminate].
        injection C as -> -> <-. rewrite (IH0 _ _ _ Hz). rewrite app_assoc. reflexivity. }
    destruct (IH _ _ _ _ _ Re1 Hh cn x I Fl) as [(cn1 & I1 & Q1 & F1)|(w' & g & f' & J & U)].
    + destruct (c28_domains _ _ _ _ _ _ _ _ _ Re E cn1 I1) as [(-> & Z)|(cn0 & I0 & Q0 & Z)].
      * rewrite Z in F1. discriminate.
      * destruct (proj1 (Z x) F1) as [F2|(g & -> & U & _)].
        -- left. exists cn0. split; auto. split; congruence.
        -- right. exists w, g, f. split; [left; rewrite Q0, Q1; auto|auto].
    + right. exists w', g, f'. split; [right; auto|auto].
Qed.
