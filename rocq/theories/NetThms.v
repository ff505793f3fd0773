(** Where Update Location Results come from, and what updates in progress stand for *)
From Verif Require Import Base PeerId Db DbSpec DbProofs DbThms DbThms2 DbThms3 Auth AuthSpec AuthThms AuthThms2 AuthThms3 Gsup Router Hlr PeerSpec PeerThms HlrSpec HlrThms RouterThms HlrThms2 HlrThms3 HlrStep HlrThms4 HlrThms5 HlrThms6 ContentSpec ContentThms.

Definition of_lu (ls : list lu) (m : gsup) : Prop := exists l, In l ls /\ g_imsi m = g_imsi (q_gsup (l_req l)) /\ g_dst m = g_src (q_gsup (l_req l)).
Definition six (g : option gsup) (ls : list lu) (y : out) : Prop := forall m, message y = Some m -> g_type m = 6 ->
  (exists g', g = Some g' /\ passed_on g' m) \/ of_lu ls m.
Definition sixes g ls (o : list out) : Prop := Forall (six g ls) o.

Lemma to_error_6 t : to_error t <> 6.
Proof. unfold to_error. pose proof (Z.mod_pos_bound t 4 ltac:(lia)). intros E. assert (X : t = 4 * (t / 4) + t mod 4) by (apply Z_div_mod_eq_full). lia. Qed.
Lemma six_none g ls y : message y = None -> six g ls y. Proof. intros E m M. congruence. Qed.
Lemma six_type g ls y m : message y = Some m -> g_type m <> 6 -> six g ls y. Proof. intros E T m' M. congruence. Qed.
Lemma six_copy g ls y m : message y = Some m -> passed_on g m -> six (Some g) ls y.
Proof. intros E P m' M _. left. exists g. split; auto. congruence. Qed.
Lemma respond_six g ls tx q m e f : g_type m <> 6 -> (g_type m = 0 -> e = true) -> sixes g ls (snd (respond tx q m e f)).
Proof.
  intros T Z. unfold respond. destruct (make_response _ _ _ _) as [rc r] eqn:E. destruct (rc =? 0); cbn [snd].
  - constructor; [|constructor]. eapply six_type; [reflexivity|]. unfold make_response in E. injection E as _ <-. cbn [g_type].
    destruct (g_type m =? 0) eqn:E0; auto. apply Z.eqb_eq in E0. rewrite (Z E0). apply to_error_6.
  - destruct f; (constructor; [apply six_none; reflexivity|constructor]) || constructor.
Qed.
Lemma msgt_six g ls tx q t f : t <> 6 -> t <> 0 -> sixes g ls (snd (respond_msgt tx q t f)).
Proof. intros T N. apply respond_six; cbn; auto; congruence. Qed.
Lemma err_six g ls tx q c : sixes g ls (respond_err tx q c).
Proof. unfold respond_err. destruct (negb _); [constructor; [apply six_none; reflexivity|constructor]|]. apply respond_six; cbn; auto; discriminate. Qed.
Lemma sixes_app g ls o o' : sixes g ls o -> sixes g ls o' -> sixes g ls (o ++ o').
Proof. intros. apply Forall_app. auto. Qed.
Lemma one_free6 g ls n : sixes g ls [OFree n].
Proof. constructor; [apply six_none; reflexivity|constructor]. Qed.
Lemma free6 g ls q : sixes g ls (free_req q).
Proof. destruct q; [apply one_free6|constructor]. Qed.
Lemma nil6 g ls : sixes g ls []. Proof. constructor. Qed.
Local Hint Resolve err_six sixes_app one_free6 free6 nil6 : core.

Definition shst g ls (x : hst * list out) : Prop := sixes g ls (snd x).
Lemma same6 g ls s p : all_rets (sixes g ls) p -> all_rets (shst g ls) (same s p).
Proof. intros H. unfold same. apply all_rets_bind. eapply all_rets_impl; [|exact H]. auto. Qed.
Lemma sai6 g ls k w s q : all_rets (sixes g ls) (rx_send_auth_info k w s q).
Proof.
  unfold rx_send_auth_info. apply all_rets_bind, all_rets_true; intros _.
  apply all_rets_bind, all_rets_true; intros [rc i]. apply all_rets_bind, all_rets_true; intros [rc2 vs]. cbn [all_rets].
  destruct (rc2 <=? 0); [apply err_six|]. apply respond_six; cbn; discriminate.
Qed.
Lemma lu_start6 g ls k w s q : all_rets (shst g ls) (lu_start k w s q).
Proof.
  assert (F : forall c, shst g ls (s, respond_err (tx k s) q c)) by (intros; apply err_six).
  unfold lu_start. destruct (peer_is_empty (q_src q)); [apply F|].
  apply all_rets_bind, all_rets_true. intros [rc sub]. destruct (rc <? 0); [apply F|].
  destruct sub as [h|]; [|exact I].
  destruct (_ && _); [apply F|]. destruct (_ && _); [apply F|].
  destruct (_ || _); [apply F|].
  apply all_rets_bind, all_rets_true. intros rc2. destruct (negb (rc2 =? 0)); [apply F|].
  destruct (isd_msg _ _ _ _) as [isd|] eqn:E; [|apply F].
  apply isd_fields in E. destruct E as (E1 & E2 & l & E3).
  assert (R : sixes g ls (snd (respond (tx k s) q isd false false))) by (apply respond_six; rewrite E1; discriminate).
  destruct (respond (tx k s) q isd false false) as [rc3 o]. cbn [snd] in R.
  destruct (negb (rc3 =? 0)); cbn [all_rets]; [apply sixes_app; auto|exact R].
Qed.
Lemma lu_rx6 g k s q : shst g (t_lus s) (lu_rx k s q).
Proof.
  unfold lu_rx, shst. destruct (find _ _) as [l|] eqn:F; [|apply err_six]. apply find_some in F. destruct F as [Il _].
  destruct (_ =? _); [cbn [snd]; constructor; [apply six_none; reflexivity|]|].
  - unfold respond_msgt, respond. destruct (make_response _ _ _ _) as [rc r] eqn:E. destruct (rc =? 0) eqn:E0; cbn [snd]; [|apply one_free6].
    constructor; [|constructor]. intros m M _. injection M as <-. right. exists l. split; auto. unfold make_response in E. injection E as _ <-. cbn. auto.
  - destruct (_ =? _); [apply sixes_app; auto|apply err_six].
Qed.
Lemma purge6 g ls k s q : all_rets (sixes g ls) (rx_purge_ms_req k s q).
Proof. unfold rx_purge_ms_req. apply all_rets_bind, all_rets_true. intros rc. cbn [all_rets]. destruct (rc =? 0); [apply msgt_six; discriminate|]. destruct (rc =? _); apply err_six. Qed.
Lemma imei6 g ls k w s q : all_rets (sixes g ls) (rx_check_imei_req k w s q).
Proof.
  unfold rx_check_imei_req. destruct (x_imei _) as [e|]; [|apply err_six]. destruct (bcd_decode _ _) as [i|]; [|apply err_six].
  destruct (negb _); [apply err_six|]. apply all_rets_bind, all_rets_true. intros _. apply all_rets_bind, all_rets_true. intros rc. cbn [all_rets].
  destruct (rc <? 0); [apply err_six|]. apply respond_six; cbn; discriminate.
Qed.
Lemma send6 g ls v n m rc o : passed_on g m -> send_to v n m = Some (rc, o) -> sixes (Some g) ls o.
Proof. intros P E. apply send_to_only in E. destruct E as [->|(c & ->)]; auto. constructor; [|constructor]. eapply six_copy; [reflexivity|exact P]. Qed.
Lemma enc_send6 g ls e v n m rc o : passed_on g m -> enc_send_to e v n m = Some (rc, o) -> sixes (Some g) ls o.
Proof. intros P. unfold enc_send_to. destruct (e m); [apply send6; auto|]. intros [= <- <-]. auto. Qed.
Local Hint Resolve passed_refl passed_src : core.
Lemma fwd_name6 ls k s n q : all_rets (sixes (Some (q_gsup q)) ls) (forward_to_name k s n q).
Proof.
  unfold forward_to_name. destruct (peer_set _ _) as [rc dst]. destruct (negb _); [exact I|].
  destruct (forward_to_local_peer _ _ _ _) eqn:E; [|exact I]. cbn. unfold forward_to_local_peer in E. destruct (p_type (q_src q)), (p_type dst); try discriminate.
  destruct (enc_send_to _ _ _ _) as [[rc2 o]|] eqn:E2; [|discriminate]. destruct (rc2 =? 0); injection E as <-; [|apply msgt_six; discriminate].
  apply sixes_app; auto. eapply enc_send6; [|exact E2]. auto.
Qed.
Lemma rp6 g ls k s q c : sixes g ls (respond_rp_cause k s q c).
Proof. unfold respond_rp_cause. apply respond_six; cbn; auto; discriminate. Qed.
Lemma mo6 ls k s q : all_rets (sixes (Some (q_gsup q)) ls) (forward_mo_sms k s q).
Proof.
  unfold forward_mo_sms. destruct (x_da _) as [[t [|o0 da]]|]; try apply err_six.
  destruct (negb _); [apply err_six|]. destruct (_ || _); [apply rp6|].
  destruct (find_smsc _ _); [apply fwd_name6|apply rp6].
Qed.
Lemma mt6 ls k s q : all_rets (sixes (Some (q_gsup q)) ls) (forward_mt_sms k s q).
Proof.
  unfold forward_mt_sms. apply all_rets_bind, all_rets_true. intros [rc sub].
  destruct (rc <? 0); [apply err_six|]. destruct sub; [|exact I].
  destruct (_ =? _)%string; [apply err_six|apply fwd_name6].
Qed.
Lemma copy6 ls k s g ns o : copy_to_smscs k s g ns = Some o -> sixes (Some g) ls o.
Proof.
  revert o. induction ns as [|n ns IH]; cbn [copy_to_smscs]; intros o.
  - intros [= <-]. constructor.
  - destruct (ipa_set _ _) as [rc dst]. destruct (negb _); [discriminate|].
    destruct (enc_send_to _ _ _ _) as [[rc2 o2]|] eqn:E; [|discriminate].
    destruct (copy_to_smscs k s g ns) as [o3|]; [|discriminate]. intros [= <-].
    apply sixes_app; auto. eapply enc_send6; [|exact E]. auto.
Qed.
Lemma ready6 ls k s q : all_rets (sixes (Some (q_gsup q)) ls) (rx_ready_for_sm_req k s q).
Proof. unfold rx_ready_for_sm_req. destruct (copy_to_smscs _ _ _ _) eqn:E; [|exact I]. cbn [all_rets]. apply sixes_app; [eapply copy6; eauto|]. apply msgt_six; discriminate. Qed.
Lemma forward6 ls k s dst q : all_rets (sixes (Some (q_gsup q)) ls) (read_cb_forward k s dst q).
Proof.
  unfold read_cb_forward. destruct (g_src _); [apply respond_six; cbn; discriminate|]. destruct (send_to _ _ _) as [[rc o]|] eqn:E; [|exact I]. cbn [all_rets].
  destruct (rc =? 0); [|apply respond_six; cbn; discriminate]. apply sixes_app; auto. eapply send6; [|exact E]. auto.
Qed.
Lemma send_ms6 g ls k s z m : g_type m = 32 \/ g_type m = 34 -> all_rets (fun x => sixes g ls (snd x)) (ss_send_to_ms k s z m).
Proof.
  intros T. assert (T6 : g_type m <> 6) by (destruct T as [-> | ->]; discriminate). assert (T0 : g_type m = 0 -> false = true) by (destruct T as [-> | ->]; discriminate).
  unfold ss_send_to_ms. destruct (z_ms z) as [q|].
  - cbn [all_rets snd]. apply respond_six; auto.
  - destruct (negb _); [cbn; auto|]. apply all_rets_bind, all_rets_true. intros [z'|]; cbn; [|auto]. destruct (in_len _ <=? 1)%nat; [cbn; auto|].
    destruct (send_to _ _ _) as [[rc o]|] eqn:E; cbn; auto. apply send_to_only in E. destruct E as [->|(c & ->)]; auto. constructor; [|constructor]. eapply six_type; [reflexivity|auto].
Qed.
Lemma ss_disp6 ls k s z fe g r : g_type g = 32 \/ g_type g = 34 -> all_rets (fun x => sixes (Some g) ls (snd x)) (ss_dispatch k s z fe g r).
Proof.
  intros T.
  assert (KEEP : forall p, all_rets (fun x : session * list out => sixes (Some g) ls (snd x)) p -> all_rets (fun x : hst * bool * list out => sixes (Some g) ls (snd x)) (do x <- p;; Ret (ss_put s (fst x), false, snd x))).
  { intros p H. apply all_rets_bind. eapply all_rets_impl; [|exact H]. intros x B. exact B. }
  assert (TX : forall z pl, all_rets (fun x => sixes (Some g) ls (snd x)) (ss_tx_to_ms k s z pl)) by (intros; apply send_ms6; right; reflexivity).
  assert (KERR : forall c, all_rets (fun x : hst * bool * list out => sixes (Some g) ls (snd x)) (do x <- ss_tx_error k s z (r_invoke r) c;; Ret (ss_put s (fst x), false, snd x))).
  { intros c. apply KEEP. apply TX. }
  unfold ss_dispatch. destruct (op_is_ussd _); [|apply KERR]. unfold handle_ussd.
  assert (KE : all_rets (fun x : hst * bool * list out => sixes (Some g) ls (snd x)) (do x <- ss_send_to_ms k s z g;; Ret (ss_put s (fst x), false, snd x))).
  { apply KEEP. apply send_ms6; auto. }
  assert (IU : forall i, all_rets (fun x => sixes (Some g) ls (snd x)) (run_iuse k s z i (r_invoke r))).
  { intros i. unfold run_iuse, ss_tx_text, ss_tx_error. destruct i; try apply TX. apply all_rets_bind, all_rets_true. intros [rc sub]. destruct rc, sub; apply TX. }
  destruct (z_hdl z); [apply KERR| | |]; destruct fe; auto; try exact Logic.I.
  - apply all_rets_bind. eapply all_rets_impl; [|apply IU]. intros [z' o] B. cbn [fst snd] in *.
    destruct (z_state z' =? SS_END); [|exact B]. unfold ss_free. cbn [all_rets snd]. auto.
  - destruct (route_find _ _); [|apply KERR]. cbn [all_rets snd]. constructor; [|constructor]. eapply six_copy; [reflexivity|auto].
Qed.
Lemma proc_ss6 ls k s q : g_type (q_gsup q) = 32 \/ g_type (q_gsup q) = 34 -> all_rets (shst (Some (q_gsup q)) ls) (rx_proc_ss_req k s q).
Proof.
  intros T. assert (F : forall c, shst (Some (q_gsup q)) ls (s, respond_err (tx k s) q c)) by (intros; apply err_six).
  unfold rx_proc_ss_req. destruct (negb (is_ipa _)); [apply F|].
  destruct (match pl_octets _ with [] => _ | _ => _ end) as [r|]; [|apply F].
  destruct (g_ss _ =? SS_BEGIN).
  { destruct (ss_find _ _ _) eqn:Ef; [apply F|]. destruct (ss_handler _ _ _ _) as [h|]; [|exact I].
    set (z := if peer_is_euse _ then _ else _). cbv zeta.
    apply all_rets_bind. eapply all_rets_impl; [|apply (ss_disp6 ls); auto]. intros [[s2 b] o] A. exact A. }
  destruct (g_ss _ =? SS_CONTINUE).
  { destruct (ss_find _ _ _) as [z|] eqn:Ef; [|apply F].
    apply all_rets_bind. eapply all_rets_impl; [|apply (ss_disp6 ls); auto]. intros [[s2 b] o] A. unfold shst. cbn [all_rets snd] in *. auto. }
  destruct (g_ss _ =? SS_END); [|unfold shst; cbn; auto].
  destruct (ss_find _ _ _) as [z|] eqn:Ef; [|apply F].
  apply all_rets_bind. eapply all_rets_impl with (P := fun x : hst * bool * list out => sixes (Some (q_gsup q)) ls (snd x)).
  - intros [[s2 b] o] A. cbn [fst snd] in *. destruct b; [exact I|]. unfold ss_free, shst. cbn [all_rets snd]. auto.
  - destruct (pl_octets _); [|apply ss_disp6; auto]. cbn [all_rets snd]. auto.
Qed.
Lemma dispatch6 k w s q : all_rets (shst (Some (q_gsup q)) (t_lus s)) (dispatch k w s q).
Proof.
  unfold dispatch.
  assert (FREE : shst (Some (q_gsup q)) (t_lus s) (s, [OFree (q_nr q)])) by (unfold shst; cbn; auto).
  destruct (_ =? MSGT_SEND_AUTH_INFO_REQUEST); [apply same6, sai6|].
  destruct (_ =? MSGT_UPDATE_LOCATION_REQUEST).
  { unfold rx_upd_loc_req. apply all_rets_bind, all_rets_true. intros _. apply lu_start6. }
  destruct (_ =? MSGT_PURGE_MS_REQUEST); [apply same6, purge6|].
  destruct (_ || _); [exact FREE|].
  destruct (_ || _) eqn:E.
  { apply Bool.orb_true_iff in E. rewrite !Z.eqb_eq in E. apply proc_ss6; auto. }
  clear E. destruct (_ =? MSGT_PROC_SS_ERROR); [exact FREE|].
  destruct (_ || _); [apply lu_rx6|].
  destruct (_ =? MSGT_CHECK_IMEI_REQUEST); [apply same6, imei6|].
  destruct (_ =? MSGT_MO_FORWARD_SM_REQUEST); [apply same6, mo6|].
  destruct (_ =? MSGT_MT_FORWARD_SM_REQUEST); [apply same6, mt6|].
  destruct (_ =? MSGT_READY_FOR_SM_REQUEST); [apply same6, ready6|exact FREE].
Qed.
Lemma conn_rx6 enc v nr c g v' r ls : conn_rx enc v nr c g = (v', r) -> match r with inl q => q_gsup q = g | inr o => sixes (Some g) ls o end.
Proof.
  intros E. pose proof (conn_rx_kind _ _ _ _ _ _ _ E) as K. destruct r as [q|o]; [apply K|]. clear K.
  assert (RO : forall tx q, sixes (Some g) ls (snd (respond_msgt tx q MSGT_ROUTING_ERROR true))) by (intros; apply msgt_six; discriminate).
  unfold conn_rx in E. destruct (find_conn v c) as [x|]; [|injection E as <- <-; auto]. destruct (req_new _ _ _ _ _) as [q|o'] eqn:R.
  - destruct (negb _); [|discriminate]. destruct (route_add _ _ _) as [rc v2]. destruct (negb _); [injection E as <- <-; auto|discriminate].
  - injection E as <- <-. unfold req_new in R. destruct (match g_src g with [] => _ | _ => _ end) as [q'|o2] eqn:M.
    + destruct (negb _); [|discriminate]. injection R as <-. auto.
    + injection R as <-. destruct (g_src g); [discriminate|]. destruct (peer_set _ _) as [rc sr]. destruct (negb (rc =? 0)); [injection M as <-; auto|]. destruct (negb _); discriminate.
Qed.
Lemma read6 k w s c g : all_rets (shst (Some g) (t_lus s)) (read_cb k w s c g).
Proof.
  unfold read_cb. apply all_rets_bind. unfold read_msg. destruct (conn_rx _ _ _ _ _) as [v r] eqn:E. apply conn_rx6 with (ls := t_lus s) in E.
  eapply all_rets_impl with (P := shst (Some g) (t_lus s)).
  { intros x H. unfold shst in *. cbn [all_rets snd]. constructor; [apply six_none; reflexivity|exact H]. }
  set (s1 := mk_hst _ _ _ _). destruct r as [q|o]; [|exact E]. subst g. pose proof (dispatch6 k w s1 q) as D.
  destruct (g_dst (q_gsup q)); auto. destruct (ipa_set_str _ _); [|exact I]. destruct (ipa_set _ _) as [rc dest]. destruct (_ && _); auto.
  apply same6, forward6.
Qed.
Lemma delete6 k v i n o g ls : send_delete k v i n = Some o -> sixes g ls o.
Proof.
  unfold send_delete. destruct (_ =? _)%string; [intros [= <-]; constructor|]. destruct (ipa_set_str _ _); [|discriminate].
  destruct (enc_send_to _ _ _ _) as [[rc o']|] eqn:E; [|discriminate]. intros [= <-]. unfold enc_send_to in E. destruct (k_enc _ _); [|injection E as <- <-; constructor].
  apply send_to_only in E. destruct E as [->|(c & ->)]; auto. constructor; [|constructor]. eapply six_type; [reflexivity|discriminate].
Qed.
Lemma notify6 g ls k v h : sixes g ls (update_notify k v h).
Proof.
  unfold update_notify. induction (v_conns v) as [|c l IH]; cbn [flat_map]; [constructor|]. apply Forall_app. split; auto.
  unfold notify_conn. destruct (_ && _); [constructor|]. destruct (c_ccm c); [|constructor]. destruct (negb _); [constructor|].
  destruct (isd_msg _ _ _ _) as [m|] eqn:E; [|constructor]. apply isd_fields in E. destruct E as (E1 & _). destruct (route_find _ _); constructor; [|constructor].
  eapply six_type; [reflexivity|rewrite E1; discriminate].
Qed.
Definition rx_of (e : event) : option gsup := match e with ERx _ g => Some g | _ => None end.
Lemma handle6 k w s e : all_rets (shst (rx_of e) (t_lus s)) (handle k w s e).
Proof.
  destruct e; cbn [handle all_rets]; unfold shst; cbn [snd rx_of]; try constructor.
  - destruct (find_conn (t_srv s) c); [apply read6|constructor].
  - unfold lu_timeout. destruct (find _ _); [apply err_six|constructor].
  - unfold ss_timeout. destruct (ss_find _ _ _) as [z|]; [|constructor]. unfold ss_free. cbn [snd]. auto.
  - apply same6. assert (N : sixes None (t_lus s) []) by constructor.
    unfold vty_msisdn. destruct (match m with Some _ => _ | None => _ end); [exact N|].
    apply all_rets_bind, all_rets_true. intros [rc sub].
    destruct rc; destruct sub; try exact N. apply all_rets_bind, all_rets_true. intros rc. destruct (negb _); [exact N|].
    destruct m; [|apply notify6]. apply all_rets_bind, all_rets_true. intros [rc2 sub2]. destruct rc2; destruct sub2; try exact N. apply notify6.
  - apply same6. assert (N : sixes None (t_lus s) []) by constructor.
    unfold vty_nam. apply all_rets_bind, all_rets_true. intros [rc sub]. destruct rc; destruct sub as [h|]; try exact N.
    assert (A : forall (b0 b b' : bool), all_rets (sixes None (t_lus s)) (if b0 then Ret [] else do r <- hlr_subscr_nam k (t_srv s) h b b';; Ret (snd r))).
    { intros [] b b'; [exact N|]. apply all_rets_bind. unfold hlr_subscr_nam. destruct (Bool.eqb _ _); [exact N|]. apply all_rets_bind, all_rets_true. intros rc.
      destruct (negb _); [exact N|]. destruct b; [exact N|]. destruct (send_delete k (t_srv s) (h_imsi h) (h_vlr h)) eqn:E1; [|exact I].
      destruct (send_delete k (t_srv s) (h_imsi h) (h_sgsn h)) eqn:E2; [|exact I]. cbn. apply sixes_app; eapply delete6; eauto. }
    apply all_rets_bind. eapply all_rets_impl; [|apply A]. intros o1 H1. apply all_rets_bind. eapply all_rets_impl; [|apply A]. intros o2 H2. apply sixes_app; auto.
  - apply all_rets_bind, all_rets_true. intros _. constructor.
Qed.
Lemma step6 k s d w e f s' d' o y m : step k (s, d) (w, e, f) = Some (s', d', o) -> In y o -> message y = Some m -> g_type m = 6 ->
  (exists c g, e = ERx c g /\ passed_on g m) \/ of_lu (t_lus s) m.
Proof.
  intros E I M T. destruct (step_inv _ _ _ _ _ _ _ _ _ _ (handle6 k w s e) E) as [H|(_ & -> & _)]; [|destruct I].
  unfold shst, sixes in H. cbn in H. rewrite Forall_forall in H. destruct (H y I m M T) as [(g & G & P)|P]; auto. left. destruct e; try discriminate. injection G as <-. eauto.
Qed.
