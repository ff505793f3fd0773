From Verif Require Import Base PeerId Db DbSpec DbProofs DbThms2 Auth AuthThms3 Gsup Router Hlr PeerSpec PeerThms HlrSpec HlrThms RouterThms HlrThms2 HlrThms4 ContentSpec ContentThms SizeSpec.
From Verif Require Frame.

(** what own messages carry *)
Record small (k : cfg) (m : gsup) : Prop := {
  sm_src : g_src m = [] \/ g_x m = bare;
  sm_vec : (length (x_vecs (g_x m)) <= 5)%nat /\ (x_vecs (g_x m) <> [] -> x_msisdn (g_x m) = None /\ x_ss (g_x m) = PlNone);
  sm_num : x_msisdn (g_x m) <> None -> x_ss (g_x m) = PlNone;
  sm_pdp : x_pdp (g_x m) = [] \/ x_msisdn (g_x m) <> None /\ x_pdp (g_x m) = match k_pdp k with Some l => l | None => [-1] end;
  sm_rest : x_rand (g_x m) = None /\ x_auts (g_x m) = None /\ x_rat (g_x m) = 0 /\ x_imei (g_x m) = None /\ x_da (g_x m) = None /\ x_oa (g_x m) = None /\ x_other (g_x m) = [] }.
Definition sk k g (y : out) : Prop := match message y with None => True | Some m => passed_on g m \/ small k m end.
Definition sks k g (o : list out) : Prop := Forall (sk k g) o.
Lemma bare_small k m : g_x m = bare -> small k m.
Proof. intros E. constructor; rewrite ?E; cbn; auto; try congruence. repeat split; auto; lia. auto 10. Qed.

Lemma respond_sks k g tx q m e f : passed_on g m /\ g_type m <> 0 /\ g_imsi m <> "" \/ small k m -> sks k g (snd (respond tx q m e f)).
Proof.
  intros H. unfold respond. destruct (make_response _ _ _ _) as [rc r] eqn:E. destruct (rc =? 0) eqn:E0; cbn [snd].
  2:{ destruct f; repeat constructor. }
  constructor; [|constructor]. unfold sk. cbn [message]. unfold make_response in E. injection E as E <-. destruct H as [(P & T & N)|S]; [left|right].
  - destruct P as (P1 & P2 & P3 & P4). apply Z.eqb_neq in T. apply String.eqb_neq in N. rewrite T, N. repeat split; cbn; auto.
  - destruct S as [S1 S2 S3 S4 S5]. constructor; cbn [g_src g_x]; auto.
Qed.
Lemma respond_b k g tx q m e f : g_x m = bare -> sks k g (snd (respond tx q m e f)).
Proof. intros B. apply respond_sks. right. apply bare_small. exact B. Qed.
Lemma msgt_b k g tx q t f : sks k g (snd (respond_msgt tx q t f)).
Proof. apply respond_b. reflexivity. Qed.
Lemma err_b k g tx q c : sks k g (respond_err tx q c).
Proof. unfold respond_err. destruct (negb _); [repeat constructor|]. apply respond_b. reflexivity. Qed.
Lemma sks_app k g o o' : sks k g o -> sks k g o' -> sks k g (o ++ o').
Proof. intros. apply Forall_app. auto. Qed.
Lemma free_s k g q : sks k g (free_req q).
Proof. destruct q; repeat constructor. Qed.
Lemma one_s k g n : sks k g [OFree n].
Proof. repeat constructor. Qed.
Lemma nil_s k g : sks k g [].
Proof. constructor. Qed.
Local Hint Resolve err_b msgt_b sks_app free_s one_s nil_s : core.
Definition shst k g (x : hst * list out) : Prop := sks k g (snd x).
Lemma same_s k g s p : all_rets (sks k g) p -> all_rets (shst k g) (same s p).
Proof. intros H. unfold same. apply all_rets_bind. eapply all_rets_impl; [|exact H]. auto. Qed.

Lemma auc_rets cr imsi ind n ra au sep : all_rets (fun x : Z * list vec => (length (snd x) <= n)%nat) (db_get_auc cr imsi ind n ra au sep).
Proof.
  unfold db_get_auc. apply all_rets_bind, all_rets_true. intros [z|a]; [cbn; lia|]. destruct (mask_ind _ _); [|exact I]. cbv zeta.
  set (u := match ad_3g a with Some _ => _ | None => _ end). clearbody u.
  assert (R : (length (snd (match auc_compute_vectors cr n (ad_2g a) u ra au with Some (vs, _) => (Z.of_nat (length vs), vs) | None => ((-1)%Z, []) end)) <= n)%nat).
  { destruct (auc_compute_vectors cr n (ad_2g a) u ra au) as [[vs oq]|] eqn:E; [|cbn; lia]. cbn. unfold auc_compute_vectors in E.
    assert (X : exists i g u rs, gen_loop cr n i g u rs = (vs, oq)).
    { destruct (use_2g _), (use_3g _), ra, au; cbn in E; try discriminate E; injection E as E; eauto. }
    destruct X as (i & g & u' & rs & X). pose proof (gen_loop_count cr n i g u' rs) as L. now rewrite X in L. }
  destruct u as [ua|]; [|exact R]. destruct (u_algo ua =? 0); [exact R|].
  apply all_rets_bind, all_rets_true. intros rc. destruct (rc <? 0); [cbn; lia|exact R].
Qed.
Lemma num_le g : (num_vectors g <= 5)%nat.
Proof. unfold num_vectors, MAX_AUTH_INFO. destruct (_ && _) eqn:E; [|lia]. apply Bool.andb_true_iff in E. destruct E as [_ E]. apply Z.leb_le in E. lia. Qed.
Lemma sai_s k w s q : all_rets (sks k (q_gsup q)) (rx_send_auth_info k w s q).
Proof.
  unfold rx_send_auth_info. apply all_rets_bind, all_rets_true; intros _.
  apply all_rets_bind, all_rets_true; intros [rc i]. apply all_rets_bind. eapply all_rets_impl; [|apply auc_rets]. intros [rc2 vs] L. cbn [snd] in L. cbn [all_rets].
  pose proof (num_le (q_gsup q)). destruct (rc2 <=? 0); [apply err_b|]. apply respond_sks. right. constructor; cbn; auto.
  - rewrite firstn_length. split; [lia|auto].
  - auto 10.
Qed.
Lemma isd_small k i n ps m : isd_msg k i n ps = Some m -> small k m.
Proof.
  unfold isd_msg. destruct (k_msisdn_enc _ _); [|discriminate]. intros [= <-]. constructor; cbn; auto; try congruence.
  - split; [lia|congruence].
  - destruct ps; [right; split; [discriminate|reflexivity]|auto].
  - auto 10.
Qed.
Lemma lu_start_s k w s q : all_rets (shst k (q_gsup q)) (lu_start k w s q).
Proof.
  assert (F : forall c, shst k (q_gsup q) (s, respond_err (tx k s) q c)) by (intros; apply err_b).
  unfold lu_start. destruct (peer_is_empty (q_src q)); [apply F|].
  apply all_rets_bind, all_rets_true. intros [rc sub]. destruct (rc <? 0); [apply F|].
  destruct sub as [h|]; [|exact I].
  destruct (_ && _); [apply F|]. destruct (_ && _); [apply F|].
  destruct (_ || _); [apply F|].
  apply all_rets_bind, all_rets_true. intros rc2. destruct (negb (rc2 =? 0)); [apply F|].
  destruct (isd_msg _ _ _ _) as [isd|] eqn:E; [|apply F].
  apply isd_small in E.
  assert (R : sks k (q_gsup q) (snd (respond (tx k s) q isd false false))) by (apply respond_sks; auto).
  destruct (respond (tx k s) q isd false false) as [rc3 o]. cbn [snd] in R.
  destruct (negb (rc3 =? 0)); cbn [all_rets]; [apply sks_app; auto|exact R].
Qed.
Lemma lu_rx_s g k s q : shst k g (lu_rx k s q).
Proof.
  unfold lu_rx, shst. destruct (find _ _) as [l|]; [|apply err_b].
  destruct (_ =? _); [cbn [snd]; constructor; [exact I|apply msgt_b]|].
  destruct (_ =? _); [apply sks_app; auto|apply err_b].
Qed.
Lemma purge_s g k s q : all_rets (sks k g) (rx_purge_ms_req k s q).
Proof. unfold rx_purge_ms_req. apply all_rets_bind, all_rets_true. intros rc. cbn [all_rets]. destruct (rc =? 0); auto. Qed.
Lemma imei_s k w s q : all_rets (sks k (q_gsup q)) (rx_check_imei_req k w s q).
Proof.
  unfold rx_check_imei_req. destruct (x_imei _) as [e|]; [|apply err_b]. destruct (bcd_decode _ _) as [i|]; [|apply err_b].
  destruct (negb _); [apply err_b|]. apply all_rets_bind, all_rets_true. intros _. apply all_rets_bind, all_rets_true. intros rc. cbn [all_rets].
  destruct (rc <? 0); [apply err_b|]. apply respond_sks. right. constructor; cbn; auto; [split; [lia|auto]|auto 10].
Qed.

(** messages sent on *)
Lemma send_to_s k g v n m rc o : passed_on g m \/ small k m -> send_to v n m = Some (rc, o) -> sks k g o.
Proof. intros P E. apply send_to_only in E. destruct E as [->|(c & ->)]; constructor; [exact P|constructor]. Qed.
Lemma enc_send_s k g e v n m rc o : passed_on g m \/ small k m -> enc_send_to e v n m = Some (rc, o) -> sks k g o.
Proof. intros P. unfold enc_send_to. destruct (e m); [apply send_to_s; auto|]. intros [= <- <-]. auto. Qed.
Local Hint Resolve passed_refl passed_src : core.
Lemma fwd_name_s k s n q : all_rets (sks k (q_gsup q)) (forward_to_name k s n q).
Proof.
  unfold forward_to_name. destruct (peer_set _ _) as [rc dst]. destruct (negb _); [exact I|].
  destruct (forward_to_local_peer _ _ _ _) eqn:E; [|exact I]. cbn. unfold forward_to_local_peer in E. destruct (p_type (q_src q)), (p_type dst); try discriminate.
  destruct (enc_send_to _ _ _ _) as [[rc2 o]|] eqn:E2; [|discriminate]. destruct (rc2 =? 0); injection E as <-; auto.
  apply sks_app; auto. eapply enc_send_s; [|exact E2]. auto.
Qed.
Lemma rp_s k s q c : sks k (q_gsup q) (respond_rp_cause k s q c).
Proof. unfold respond_rp_cause. apply respond_sks. right. constructor; cbn; auto; [split; [lia|auto]|auto 10]. Qed.
Lemma mo_s k s q : all_rets (sks k (q_gsup q)) (forward_mo_sms k s q).
Proof.
  unfold forward_mo_sms. destruct (x_da _) as [[t [|o0 da]]|]; try apply err_b.
  destruct (negb _); [apply err_b|]. destruct (_ || _); [apply rp_s; auto|].
  destruct (find_smsc _ _); [apply fwd_name_s|apply rp_s; auto].
Qed.
Lemma mt_s k s q : all_rets (sks k (q_gsup q)) (forward_mt_sms k s q).
Proof.
  unfold forward_mt_sms. apply all_rets_bind, all_rets_true. intros [rc sub].
  destruct (rc <? 0); [apply err_b|]. destruct sub; [|exact I].
  destruct (_ =? _)%string; [apply err_b|apply fwd_name_s].
Qed.
Lemma copy_s k s g ns o : copy_to_smscs k s g ns = Some o -> sks k g o.
Proof.
  revert o. induction ns as [|n ns IH]; cbn [copy_to_smscs]; intros o.
  - intros [= <-]. constructor.
  - destruct (ipa_set _ _) as [rc dst]. destruct (negb _); [discriminate|].
    destruct (enc_send_to _ _ _ _) as [[rc2 o2]|] eqn:E; [|discriminate].
    destruct (copy_to_smscs k s g ns) as [o3|]; [|discriminate]. intros [= <-].
    apply sks_app; auto. eapply enc_send_s; [|exact E]. auto.
Qed.
Lemma ready_s k s q : all_rets (sks k (q_gsup q)) (rx_ready_for_sm_req k s q).
Proof. unfold rx_ready_for_sm_req. destruct (copy_to_smscs _ _ _ _) eqn:E; [|exact I]. cbn [all_rets]. apply sks_app; auto. eapply copy_s; eauto. Qed.
Lemma forward_s k s dst q : all_rets (sks k (q_gsup q)) (read_cb_forward k s dst q).
Proof.
  unfold read_cb_forward. destruct (g_src _); [apply respond_b; reflexivity|]. destruct (send_to _ _ _) as [[rc o]|] eqn:E; [|exact I]. cbn [all_rets].
  destruct (rc =? 0); [|apply respond_b; reflexivity]. apply sks_app; auto. eapply send_to_s; [|exact E]. auto.
Qed.

(** sessions *)
Lemma send_ms_s g k s z m : passed_on g m \/ small k m -> g_type m <> 0 -> g_imsi m <> "" ->
  all_rets (fun x => z_imsi (fst x) = z_imsi z /\ sks k g (snd x)) (ss_send_to_ms k s z m).
Proof.
  intros H T N. unfold ss_send_to_ms. destruct (z_ms z) as [q|].
  - split; [reflexivity|]. apply respond_sks. tauto.
  - destruct (negb _); [cbn; auto|]. apply all_rets_bind.
    eapply all_rets_impl with (P := fun zo => match zo with None => True | Some z' => z_imsi z' = z_imsi z end).
    + intros [z'|]; cbn; [|auto]. intros S1. destruct (in_len _ <=? 1)%nat; [cbn; auto|].
      destruct (send_to _ _ _) as [[rc o]|] eqn:E; cbn; auto. split; auto. eapply send_to_s; eauto.
    + destruct (in_len _ =? 0)%nat; [|cbn; auto].
      apply all_rets_bind, all_rets_true. intros [rc sub]. destruct (rc <? 0); [exact Logic.I|].
      destruct sub as [h|]; [|exact Logic.I]. destruct (ipa_set_str _ _); [|exact Logic.I]. cbn. auto.
Qed.
Definition sss k g i (x : session * list out) : Prop := z_imsi (fst x) = i /\ sks k g (snd x).
Lemma tx_ms_s g k s z pl : g_imsi g <> "" -> z_imsi z = g_imsi g -> all_rets (sss k g (g_imsi g)) (ss_tx_to_ms k s z pl).
Proof.
  intros N Z. unfold ss_tx_to_ms. eapply all_rets_impl; [|apply send_ms_s with (g := g)].
  - intros x [A B]. split; [congruence|exact B].
  - right. constructor; cbn; auto; try congruence; [split; [lia|congruence]|auto 10].
  - discriminate.
  - cbn. congruence.
Qed.
Lemma iuse_s g k s z i inv : g_imsi g <> "" -> z_imsi z = g_imsi g -> all_rets (sss k g (g_imsi g)) (run_iuse k s z i inv).
Proof.
  intros N Z. unfold run_iuse, ss_tx_text, ss_tx_error. destruct i; try (apply tx_ms_s; auto).
  apply all_rets_bind, all_rets_true. intros [rc sub]. destruct rc, sub; apply tx_ms_s; auto.
Qed.
Lemma ss_disp_s k s z fe g r : g_type g <> 0 -> g_imsi g <> "" -> z_imsi z = g_imsi g -> all_rets (fun x => sks k g (snd x)) (ss_dispatch k s z fe g r).
Proof.
  intros T N Z.
  assert (KEEP : forall p, all_rets (sss k g (g_imsi g)) p -> all_rets (fun x : hst * bool * list out => sks k g (snd x)) (do x <- p;; Ret (ss_put s (fst x), false, snd x))).
  { intros p H. apply all_rets_bind. eapply all_rets_impl; [|exact H]. intros x [_ B]. exact B. }
  assert (KERR : forall c, all_rets (fun x : hst * bool * list out => sks k g (snd x)) (do x <- ss_tx_error k s z (r_invoke r) c;; Ret (ss_put s (fst x), false, snd x))).
  { intros c. apply KEEP. apply tx_ms_s; auto. }
  unfold ss_dispatch. destruct (op_is_ussd _); [|apply KERR]. unfold handle_ussd.
  assert (KE : all_rets (fun x : hst * bool * list out => sks k g (snd x)) (do x <- ss_send_to_ms k s z g;; Ret (ss_put s (fst x), false, snd x))).
  { apply KEEP. eapply all_rets_impl; [|apply send_ms_s with (g := g); auto]. intros x [A B]. split; [congruence|exact B]. }
  destruct (z_hdl z); [apply KERR| | |]; destruct fe; auto; try exact Logic.I.
  - apply all_rets_bind. eapply all_rets_impl; [|apply iuse_s; eauto]. intros [z' o] [_ B]. cbn [fst snd] in *.
    destruct (z_state z' =? SS_END); [|exact B]. unfold ss_free. cbn [all_rets snd]. auto.
  - destruct (route_find _ _); [|apply KERR]. cbn [all_rets snd]. constructor; [|constructor]. left. auto.
Qed.
Lemma proc_ss_s k s q : g_type (q_gsup q) <> 0 -> g_imsi (q_gsup q) <> "" -> all_rets (shst k (q_gsup q)) (rx_proc_ss_req k s q).
Proof.
  intros T N. assert (F : forall c, shst k (q_gsup q) (s, respond_err (tx k s) q c)) by (intros; apply err_b).
  unfold rx_proc_ss_req. destruct (negb (is_ipa _)); [apply F|].
  destruct (match pl_octets _ with [] => _ | _ => _ end) as [r|]; [|apply F].
  destruct (g_ss _ =? SS_BEGIN).
  { destruct (ss_find _ _ _) eqn:Ef; [apply F|]. destruct (ss_handler _ _ _ _) as [h|]; [|exact I].
    set (z := if peer_is_euse _ then _ else _). cbv zeta.
    assert (Zi : z_imsi z = g_imsi (q_gsup q)). { unfold z. destruct (peer_is_euse _); reflexivity. }
    apply all_rets_bind. eapply all_rets_impl; [|apply (ss_disp_s k); auto]. intros [[s2 b] o] A. exact A. }
  destruct (g_ss _ =? SS_CONTINUE).
  { destruct (ss_find _ _ _) as [z|] eqn:Ef; [|apply F]. apply ss_find_in in Ef. destruct Ef as (_ & Zi & _).
    apply all_rets_bind. eapply all_rets_impl; [|apply (ss_disp_s k); auto]. intros [[s2 b] o] A. unfold shst. cbn [all_rets snd] in *. auto. }
  destruct (g_ss _ =? SS_END); [|unfold shst; cbn; auto].
  destruct (ss_find _ _ _) as [z|] eqn:Ef; [|apply F]. apply ss_find_in in Ef. destruct Ef as (_ & Zi & _).
  apply all_rets_bind. eapply all_rets_impl with (P := fun x : hst * bool * list out => sks k (q_gsup q) (snd x)).
  - intros [[s2 b] o] A. cbn [fst snd] in *. destruct b; [exact I|]. unfold ss_free, shst. cbn [all_rets snd]. auto.
  - destruct (pl_octets _); [|apply ss_disp_s; auto]. cbn [all_rets snd]. auto.
Qed.
Lemma dispatch_s k w s q : g_imsi (q_gsup q) <> "" -> all_rets (shst k (q_gsup q)) (dispatch k w s q).
Proof.
  intros N. unfold dispatch.
  assert (FREE : shst k (q_gsup q) (s, [OFree (q_nr q)])) by (unfold shst; cbn; auto).
  destruct (_ =? MSGT_SEND_AUTH_INFO_REQUEST); [apply same_s, sai_s; auto|].
  destruct (_ =? MSGT_UPDATE_LOCATION_REQUEST).
  { unfold rx_upd_loc_req. apply all_rets_bind, all_rets_true. intros _. apply (lu_start_s k w (with_srv s _) q). }
  destruct (_ =? MSGT_PURGE_MS_REQUEST); [apply same_s, purge_s|].
  destruct (_ || _); [exact FREE|].
  destruct (_ || _) eqn:E.
  { apply Bool.orb_true_iff in E. rewrite !Z.eqb_eq in E. apply proc_ss_s; auto. destruct E as [E|E]; rewrite E; discriminate. }
  clear E. destruct (_ =? MSGT_PROC_SS_ERROR); [exact FREE|].
  destruct (_ || _); [apply lu_rx_s|].
  destruct (_ =? MSGT_CHECK_IMEI_REQUEST); [apply same_s, imei_s; auto|].
  destruct (_ =? MSGT_MO_FORWARD_SM_REQUEST); [apply same_s, mo_s; auto|].
  destruct (_ =? MSGT_MT_FORWARD_SM_REQUEST); [apply same_s, mt_s|].
  destruct (_ =? MSGT_READY_FOR_SM_REQUEST); [apply same_s, ready_s|exact FREE].
Qed.
Lemma conn_rx_s k enc v nr c g v' o : conn_rx enc v nr c g = (v', inr o) -> sks k g o.
Proof.
  unfold conn_rx. destruct (find_conn v c) as [x|]; [|intros [= <- <-]; auto]. destruct (req_new _ _ _ _ _) as [q|o1] eqn:R.
  - destruct (negb _); [|discriminate]. destruct (route_add _ _ _) as [rc v2]. destruct (negb _); intros [= <- <-]; auto.
  - intros [= <- <-]. unfold req_new in R. destruct (match g_src g with [] => _ | _ => _ end) as [q'|o'] eqn:M.
    + destruct (negb _); [|discriminate]. injection R as <-. auto.
    + injection R as <-. destruct (g_src g); [discriminate|]. destruct (peer_set _ _) as [rc sr]. destruct (negb (rc =? 0)); [injection M as <-; auto|]. destruct (negb _); discriminate.
Qed.
Lemma read_s k w s c g : all_rets (shst k g) (read_cb k w s c g).
Proof.
  unfold read_cb. apply all_rets_bind. unfold read_msg. destruct (conn_rx _ _ _ _ _) as [v r] eqn:E.
  eapply all_rets_impl with (P := shst k g).
  { intros x H. unfold shst in *. cbn [all_rets snd]. constructor; [exact I|exact H]. }
  set (s1 := mk_hst _ _ _ _). destruct r as [q|o]; [|apply (conn_rx_s k) in E; exact E]. apply conn_rx_kind in E. destruct E as (<- & _ & V).
  pose proof (dispatch_s k w s1 q (valid_nonempty _ V)) as D.
  destruct (g_dst (q_gsup q)); auto. destruct (ipa_set_str _ _); [|exact I]. destruct (ipa_set _ _) as [rc dest]. destruct (_ && _); auto.
  apply same_s, forward_s.
Qed.

(** messages without reception *)
Definition ss0 k (o : list out) : Prop := Forall (fun y => match message y with Some m => small k m | None => True end) o.
Lemma bares_ss0 k o : bares o -> ss0 k o.
Proof. apply Forall_impl. intros y. destruct (message y); auto. apply bare_small. Qed.
Lemma notify_s k v h : ss0 k (update_notify k v h).
Proof.
  unfold update_notify. induction (v_conns v) as [|c l IH]; cbn [flat_map]; [constructor|]. apply Forall_app. split; auto.
  unfold notify_conn. destruct (_ && _); [constructor|]. destruct (c_ccm c); [|constructor]. destruct (negb _); [constructor|].
  destruct (isd_msg _ _ _ _) as [m|] eqn:E; [|constructor]. apply isd_small in E. destruct (route_find _ _); constructor; [exact E|constructor].
Qed.
Lemma vty_msisdn_s k s x m : all_rets (ss0 k) (vty_msisdn k s x m).
Proof.
  assert (N : ss0 k []) by constructor.
  unfold vty_msisdn. destruct (match m with Some _ => _ | None => _ end); [exact N|].
  apply all_rets_bind, all_rets_true. intros [rc sub].
  destruct rc; destruct sub; try exact N. apply all_rets_bind, all_rets_true. intros rc. destruct (negb _); [exact N|].
  destruct m; [|apply notify_s]. apply all_rets_bind, all_rets_true. intros [rc2 sub2].
  destruct rc2; destruct sub2; try exact N. apply notify_s.
Qed.
Definition es k (e : event) (o : list out) : Prop := match e with ERx c g => sks k g o | _ => ss0 k o end.
Lemma handle_s k w s e : all_rets (fun x => es k e (snd x)) (handle k w s e).
Proof.
  destruct e; cbn [handle all_rets es snd]; try constructor.
  - destruct (find_conn (t_srv s) c); [apply read_s|constructor].
  - apply bares_ss0. unfold lu_timeout. destruct (find _ _); [apply kinds_bares|constructor].
  - apply bares_ss0. unfold ss_timeout. destruct (ss_find _ _ _) as [z|]; [|constructor]. unfold ss_free. cbn [snd]. apply Forall_app. split; [destruct (z_ms z)|destruct (z_euse z)]; repeat constructor.
  - unfold same. apply all_rets_bind. eapply all_rets_impl; [|apply vty_msisdn_s]. auto.
  - unfold same. apply all_rets_bind. eapply all_rets_impl; [|apply vty_nam_bare]. intros o H. apply bares_ss0. exact H.
  - apply all_rets_bind, all_rets_true. intros _. constructor.
Qed.
Lemma step_s k s d w e f s' d' o y m : step k (s, d) (w, e, f) = Some (s', d', o) -> In y o -> message y = Some m ->
  (exists c g, e = ERx c g /\ passed_on g m) \/ small k m.
Proof.
  intros E Iy M. assert (H : es k e o).
  { destruct (step_inv _ _ _ _ _ _ _ _ _ _ (handle_s k w s e) E) as [H|(_ & -> & _)]; [exact H|]. destruct e; cbn; constructor. }
  assert (B : ss0 k o -> small k m). { intros B. unfold ss0 in B. rewrite Forall_forall in B. specialize (B y Iy). cbn in B. rewrite M in B. exact B. }
  destruct e; cbn [es] in H; auto. unfold sks in H. rewrite Forall_forall in H. specialize (H y Iy). unfold sk in H. rewrite M in H. destruct H; eauto.
Qed.

(** ** Octets *)
Lemma elem_le b n : (elem b n <= 2 + n)%nat. Proof. destruct b; cbn; lia. Qed.
Lemma vec_le v : (length (v_res v) <= 16)%nat -> (vec_octets v <= 108)%nat.
Proof. intros H. unfold vec_octets, elem. destruct (v_umts v); lia. Qed.
Lemma vecs_le l : Forall (fun v => length (v_res v) <= 16)%nat l -> (fold_right (fun v n => vec_octets v + n)%nat O l <= 108 * length l)%nat.
Proof. induction 1 as [|v l H _ IH]; cbn [fold_right length]; [lia|]. pose proof (vec_le v H). lia. Qed.
Lemma small_fits k m ml pl sl : small k m -> (length (g_src m) <= 255)%nat -> (length (g_dst m) <= 255)%nat -> Forall (fun v => length (v_res v) <= 16)%nat (x_vecs (g_x m)) ->
  (forall t, ml t <= 43)%nat -> (forall p, sl p <= 255)%nat -> (x_pdp (g_x m) <> [] -> pl (x_pdp (g_x m)) <= 676)%nat ->
  (octets ml pl sl m <= room)%nat.
Proof.
  intros [S1 [S2 S2'] S3 S4 (R1 & R2 & R3 & R4 & R5 & R6 & R7)] Ls Ld Lv Hm Hs Hp. apply vecs_le in Lv.
  change room with 1024%nat. unfold octets. cbv zeta. rewrite R1, R2, R3, R4, R5, R6, R7.
  pose proof (elem_le (negb (g_cause m =? 0)) 1). pose proof (elem_le (negb (g_class m =? 0)) 1). pose proof (elem_le (is_some (g_mr m)) 1).
  pose proof (elem_le (negb (g_sid m =? 0)) 4). pose proof (elem_le (negb (g_ss m =? 0)) 1). pose proof (elem_le (negb (g_cn m =? 0)) 1).
  pose proof (elem_le (negb (x_nvec (g_x m) =? 0)) 1). pose proof (elem_le (x_imei_ack (g_x m)) 1). pose proof (elem_le (is_some (x_sm_cause (g_x m))) 1).
  pose proof (elem_le (given (g_dst m)) (length (g_dst m))).
  change (elem (negb (0 =? 0)) 1) with O. cbn [is_some length]. change (elem true 8) with 10%nat. change (elem false 16) with O. change (elem false 14) with O.
  assert (Hsrc : g_x m = bare \/ elem (given (g_src m)) (length (g_src m)) = O). { destruct S1 as [->|E]; auto. }
  destruct Hsrc as [E|Hsrc].
  { rewrite E. pose proof (elem_le (given (g_src m)) (length (g_src m))). cbn [bare x_nvec x_imei_ack x_sm_cause x_vecs x_msisdn x_pdp x_ss fold_right given payload]. change (elem false (sl PlNone)) with O.
    rewrite E in *. cbn [bare x_nvec x_imei_ack x_sm_cause] in *. lia. }
  rewrite Hsrc. set (V := fold_right _ _ _) in *.
  assert (HP : (match x_msisdn (g_x m) with Some t => elem true (ml t) | None => 0 end + (if given (x_pdp (g_x m)) then elem true 0 + pl (x_pdp (g_x m)) else 0) + elem (payload (x_ss (g_x m))) (sl (x_ss (g_x m))) + V <= 723)%nat).
  { pose proof (elem_le (payload (x_ss (g_x m))) (sl (x_ss (g_x m)))) as H9. specialize (Hs (x_ss (g_x m))).
    destruct (x_vecs (g_x m)) as [|v l] eqn:Ev.
    - assert (V = O) by reflexivity. destruct (x_msisdn (g_x m)) as [t|] eqn:Em.
      + specialize (Hm t). rewrite S3 by discriminate. change (elem (payload PlNone) (sl PlNone)) with O.
        change (elem true (ml t)) with (2 + ml t)%nat. change (elem true 0) with 2%nat. destruct (x_pdp (g_x m)) as [|z r] eqn:Ep; cbn [given]; [lia|]. specialize (Hp ltac:(discriminate)). lia.
      + destruct S4 as [->|[C _]]; [|congruence]. cbn [given]. lia.
    - destruct (S2' ltac:(discriminate)) as [En Es]. rewrite En, Es. change (elem (payload PlNone) (sl PlNone)) with O.
      destruct S4 as [->|[C _]]; [|congruence]. cbn [given]. lia. }
  lia.
Qed.
