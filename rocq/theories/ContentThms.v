From Coq Require Import Permutation.
From Verif Require Import Base PeerId Db DbSpec DbProofs DbThms2 Auth AuthThms3 Gsup Router Hlr PeerSpec PeerThms HlrSpec HlrThms RouterThms HlrThms2 HlrThms4 ContentSpec.

Definition bare : gext := mk_ext None None 0 0 [] None false None [] PlNone None None None [].
(** the kinds of messages sent while the message [g], number [nr], is handled *)
Inductive kind (g : gsup) (nr : nat) : out -> Prop :=
| k_none y : message y = None -> kind g nr y
| k_copy y m : message y = Some m -> passed_on g m -> kind g nr y
| k_bare y m : message y = Some m -> g_x m = bare -> kind g nr y
| k_vec m co n l : g_type g = 8 -> g_type m = 10 -> g_imsi m = g_imsi g -> g_x m = mk_ext None None n 0 l None false None [] PlNone None None None [] ->
    kind g nr (OResp nr m true co)
| k_num m co n l : g_type g = 4 -> g_type m = 16 -> g_imsi m = g_imsi g -> g_x m = mk_ext None None 0 0 [] None false (Some n) l PlNone None None None [] ->
    kind g nr (OResp nr m false co)
| k_imei m co : g_type g = 48 -> g_type m = 50 -> g_imsi m = g_imsi g -> g_x m = mk_ext None None 0 0 [] None true None [] PlNone None None None [] ->
    kind g nr (OResp nr m true co)
| k_ss y m pl : message y = Some m -> g_type g = 32 \/ g_type g = 34 -> g_type m = 34 -> g_imsi m = g_imsi g ->
    g_x m = mk_ext None None 0 0 [] None false None [] pl None None None [] -> kind g nr y
| k_sm m co c : g_type g = 36 -> g_type m = 37 -> g_imsi m = g_imsi g -> g_x m = mk_ext None None 0 0 [] None false None [] PlNone None None (Some c) [] ->
    kind g nr (OResp nr m true co).
Definition kinds g nr (o : list out) : Prop := Forall (kind g nr) o.

Lemma respond_kinds g nr tx q m e f : (forall r co, g_x r = g_x m -> g_cause r = g_cause m -> (g_type m <> 0 -> g_type r = g_type m) -> (g_type m = 0 -> e = true -> g_type r = to_error (g_type (q_gsup q))) ->
    (g_imsi m <> "" -> g_imsi r = g_imsi m) -> g_imsi r = g_imsi (q_gsup q) -> kind g nr (OResp (q_nr q) r f co)) ->
  kinds g nr (snd (respond tx q m e f)).
Proof.
  intros H. unfold respond. destruct (make_response _ _ _ _) as [rc r] eqn:E. destruct (rc =? 0) eqn:E0; cbn [snd].
  2:{ destruct f; repeat constructor. }
  constructor; [|constructor]. apply H; unfold make_response in E; injection E as E <-; cbn [g_x g_cause g_type g_imsi]; auto.
  - intros N. apply Z.eqb_neq in N. rewrite N. auto.
  - intros -> ->. reflexivity.
  - intros N. apply String.eqb_neq in N. rewrite N. auto.
  - apply Z.eqb_eq in E0. set (im := if (g_imsi m =? "")%string then _ else _) in *. destruct (im =? g_imsi (q_gsup q))%string eqn:E1; [apply String.eqb_eq; auto|exfalso].
    repeat match type of E with context [if ?b then _ else _] => destruct b end; destruct (g_mr (q_gsup q)); try destruct (g_mr m); repeat match type of E with context [if ?b then _ else _] => destruct b end; lia.
Qed.
Lemma respond_bare g nr tx q m e f : g_x m = bare -> kinds g nr (snd (respond tx q m e f)).
Proof. intros B. apply respond_kinds. intros r co X _ _ _ _ _. eapply k_bare; [reflexivity|congruence]. Qed.
Lemma msgt_bare g nr tx q t f : kinds g nr (snd (respond_msgt tx q t f)).
Proof. apply respond_bare. reflexivity. Qed.
Lemma err_bare g nr tx q c : kinds g nr (respond_err tx q c).
Proof. unfold respond_err. destruct (negb _); [repeat constructor|]. apply respond_bare. reflexivity. Qed.
Lemma kinds_app g nr o o' : kinds g nr o -> kinds g nr o' -> kinds g nr (o ++ o').
Proof. intros. apply Forall_app. auto. Qed.
Lemma free_kinds g nr q : kinds g nr (free_req q).
Proof. destruct q; repeat constructor. Qed.
Lemma one_free g nr n : kinds g nr [OFree n].
Proof. repeat constructor. Qed.
Lemma nil_kinds g nr : kinds g nr [].
Proof. constructor. Qed.
Local Hint Resolve err_bare msgt_bare kinds_app free_kinds one_free nil_kinds : core.

Definition khst g nr (x : hst * list out) : Prop := kinds g nr (snd x).
Lemma same_kinds g nr s p : all_rets (kinds g nr) p -> all_rets (khst g nr) (same s p).
Proof. intros H. unfold same. apply all_rets_bind. eapply all_rets_impl; [|exact H]. auto. Qed.

Lemma sai_kinds k w s q : g_type (q_gsup q) = MSGT_SEND_AUTH_INFO_REQUEST -> all_rets (kinds (q_gsup q) (q_nr q)) (rx_send_auth_info k w s q).
Proof.
  intros T. unfold rx_send_auth_info. apply all_rets_bind, all_rets_true; intros _.
  apply all_rets_bind, all_rets_true; intros [rc i]. apply all_rets_bind, all_rets_true; intros [rc2 vs]. cbn [all_rets].
  destruct (rc2 <=? 0); [apply err_bare|]. apply respond_kinds. intros r co X _ TY _ _ IM. eapply k_vec; [exact T|apply TY; discriminate|exact IM|exact X].
Qed.
Lemma isd_fields k i n ps m : isd_msg k i n ps = Some m ->
  g_type m = 16 /\ g_imsi m = i /\ exists l, g_x m = mk_ext None None 0 0 [] None false (Some n) l PlNone None None None [].
Proof. unfold isd_msg. destruct (k_msisdn_enc _ _); [|discriminate]. intros [= <-]. repeat split. eexists. reflexivity. Qed.
Lemma lu_start_kinds k w s q : g_type (q_gsup q) = MSGT_UPDATE_LOCATION_REQUEST -> all_rets (khst (q_gsup q) (q_nr q)) (lu_start k w s q).
Proof.
  intros T. assert (F : forall c, khst (q_gsup q) (q_nr q) (s, respond_err (tx k s) q c)) by (intros; apply err_bare).
  unfold lu_start. destruct (peer_is_empty (q_src q)); [apply F|].
  apply all_rets_bind, all_rets_true. intros [rc sub]. destruct (rc <? 0); [apply F|].
  destruct sub as [h|]; [|exact I].
  destruct (_ && _); [apply F|]. destruct (_ && _); [apply F|].
  destruct (_ || _); [apply F|].
  apply all_rets_bind, all_rets_true. intros rc2. destruct (negb (rc2 =? 0)); [apply F|].
  destruct (isd_msg _ _ _ _) as [isd|] eqn:E; [|apply F].
  apply isd_fields in E. destruct E as (E1 & E2 & l & E3).
  assert (R : kinds (q_gsup q) (q_nr q) (snd (respond (tx k s) q isd false false))).
  { apply respond_kinds. intros r co X _ TY _ _ IM. eapply k_num; [exact T|rewrite TY; [exact E1|rewrite E1; discriminate]|exact IM|rewrite X; exact E3]. }
  destruct (respond (tx k s) q isd false false) as [rc3 o]. cbn [snd] in R.
  destruct (negb (rc3 =? 0)); cbn [all_rets]; [apply kinds_app; auto|exact R].
Qed.
Lemma lu_rx_kinds g nr k s q : khst g nr (lu_rx k s q).
Proof.
  unfold lu_rx, khst. destruct (find _ _) as [l|]; [|apply err_bare].
  destruct (_ =? _); [cbn [snd]; constructor; [constructor; reflexivity|apply msgt_bare]|].
  destruct (_ =? _); [apply kinds_app; auto|apply err_bare].
Qed.
Lemma purge_kinds g nr k s q : all_rets (kinds g nr) (rx_purge_ms_req k s q).
Proof. unfold rx_purge_ms_req. apply all_rets_bind, all_rets_true. intros rc. cbn [all_rets]. destruct (rc =? 0); auto. Qed.
Lemma imei_kinds k w s q : g_type (q_gsup q) = MSGT_CHECK_IMEI_REQUEST -> all_rets (kinds (q_gsup q) (q_nr q)) (rx_check_imei_req k w s q).
Proof.
  intros T. unfold rx_check_imei_req. destruct (x_imei _) as [e|]; [|apply err_bare]. destruct (bcd_decode _ _) as [i|]; [|apply err_bare].
  destruct (negb _); [apply err_bare|]. apply all_rets_bind, all_rets_true. intros _. apply all_rets_bind, all_rets_true. intros rc. cbn [all_rets].
  destruct (rc <? 0); [apply err_bare|]. apply respond_kinds. intros r co X _ TY _ _ IM. apply k_imei; [exact T|apply TY; discriminate|exact IM|exact X].
Qed.

(** messages sent on *)
Lemma send_to_kinds g nr v n m rc o : passed_on g m -> send_to v n m = Some (rc, o) -> kinds g nr o.
Proof.
  intros P. assert (A : forall c, kinds g nr [OTx c m]). { intros c. constructor; [|constructor]. eapply k_copy; [reflexivity|exact P]. }
  unfold send_to. destruct (in_len n); [discriminate|]. destruct (_ =? _)%char.
  - destruct (route_find _ _); intros [= <- <-]; auto.
  - destruct (_ <=? _)%nat; [intros [= <- <-]; auto|]. destruct (route_find _ _); intros [= <- <-]; auto.
Qed.
Lemma send_to_bare g nr v n m rc o : g_x m = bare -> send_to v n m = Some (rc, o) -> kinds g nr o.
Proof.
  intros P. assert (A : forall c, kinds g nr [OTx c m]). { intros c. constructor; [|constructor]. eapply k_bare; [reflexivity|exact P]. }
  unfold send_to. destruct (in_len n); [discriminate|]. destruct (_ =? _)%char.
  - destruct (route_find _ _); intros [= <- <-]; auto.
  - destruct (_ <=? _)%nat; [intros [= <- <-]; auto|]. destruct (route_find _ _); intros [= <- <-]; auto.
Qed.
Lemma send_to_only v n m rc o : send_to v n m = Some (rc, o) -> o = [] \/ exists c, o = [OTx c m].
Proof.
  unfold send_to. destruct (in_len n); [discriminate|]. destruct (_ =? _)%char.
  - destruct (route_find _ _); intros [= <- <-]; eauto.
  - destruct (_ <=? _)%nat; [intros [= <- <-]; eauto|]. destruct (route_find _ _); intros [= <- <-]; eauto.
Qed.
Lemma enc_send_kinds g nr e v n m rc o : passed_on g m -> enc_send_to e v n m = Some (rc, o) -> kinds g nr o.
Proof. intros P. unfold enc_send_to. destruct (e m); [apply send_to_kinds; auto|]. intros [= <- <-]. auto. Qed.
Lemma passed_refl g : passed_on g g. Proof. repeat split. Qed.
Lemma passed_src g l : passed_on g (with_src g l). Proof. repeat split. Qed.
Local Hint Resolve passed_refl passed_src : core.
Lemma fwd_name_kinds nr k s n q : all_rets (kinds (q_gsup q) nr) (forward_to_name k s n q).
Proof.
  unfold forward_to_name. destruct (peer_set _ _) as [rc dst]. destruct (negb _); [exact I|].
  destruct (forward_to_local_peer _ _ _ _) eqn:E; [|exact I]. cbn. unfold forward_to_local_peer in E. destruct (p_type (q_src q)), (p_type dst); try discriminate.
  destruct (enc_send_to _ _ _ _) as [[rc2 o]|] eqn:E2; [|discriminate]. destruct (rc2 =? 0); injection E as <-; auto.
  apply kinds_app; auto. eapply enc_send_kinds; [|exact E2]. auto.
Qed.
Lemma rp_kinds k s q c : g_type (q_gsup q) = MSGT_MO_FORWARD_SM_REQUEST -> kinds (q_gsup q) (q_nr q) (respond_rp_cause k s q c).
Proof.
  intros T. unfold respond_rp_cause. apply respond_kinds. intros r co X _ _ TY _ IM. eapply k_sm; [exact T|rewrite TY, T; reflexivity|exact IM|exact X].
Qed.
Lemma mo_kinds k s q : g_type (q_gsup q) = MSGT_MO_FORWARD_SM_REQUEST -> all_rets (kinds (q_gsup q) (q_nr q)) (forward_mo_sms k s q).
Proof.
  intros R. unfold forward_mo_sms. destruct (x_da _) as [[t [|o0 da]]|]; try apply err_bare.
  destruct (negb _); [apply err_bare|]. destruct (_ || _); [apply rp_kinds; auto|].
  destruct (find_smsc _ _); [apply fwd_name_kinds|apply rp_kinds; auto].
Qed.
Lemma mt_kinds nr k s q : all_rets (kinds (q_gsup q) nr) (forward_mt_sms k s q).
Proof.
  unfold forward_mt_sms. apply all_rets_bind, all_rets_true. intros [rc sub].
  destruct (rc <? 0); [apply err_bare|]. destruct sub; [|exact I].
  destruct (_ =? _)%string; [apply err_bare|apply fwd_name_kinds].
Qed.
Lemma copy_kinds nr k s g ns o : copy_to_smscs k s g ns = Some o -> kinds g nr o.
Proof.
  revert o. induction ns as [|n ns IH]; cbn [copy_to_smscs]; intros o.
  - intros [= <-]. constructor.
  - destruct (ipa_set _ _) as [rc dst]. destruct (negb _); [discriminate|].
    destruct (enc_send_to _ _ _ _) as [[rc2 o2]|] eqn:E; [|discriminate].
    destruct (copy_to_smscs k s g ns) as [o3|]; [|discriminate]. intros [= <-].
    apply kinds_app; auto. eapply enc_send_kinds; [|exact E]. auto.
Qed.
Lemma ready_kinds nr k s q : all_rets (kinds (q_gsup q) nr) (rx_ready_for_sm_req k s q).
Proof. unfold rx_ready_for_sm_req. destruct (copy_to_smscs _ _ _ _) eqn:E; [|exact I]. cbn [all_rets]. apply kinds_app; auto. eapply copy_kinds; eauto. Qed.
Lemma forward_kinds nr k s dst q : all_rets (kinds (q_gsup q) nr) (read_cb_forward k s dst q).
Proof.
  unfold read_cb_forward. destruct (g_src _); [apply respond_bare; reflexivity|]. destruct (send_to _ _ _) as [[rc o]|] eqn:E; [|exact I]. cbn [all_rets].
  destruct (rc =? 0); [|apply respond_bare; reflexivity]. apply kinds_app; auto. eapply send_to_kinds; [|exact E]. auto.
Qed.

(** sessions *)
Lemma send_ms_kinds g nr k s z m : (forall y r, message y = Some r -> g_x r = g_x m -> g_cause r = g_cause m -> g_type r = g_type m -> g_imsi r = g_imsi m -> kind g nr y) ->
  g_type m <> 0 -> g_imsi m <> "" -> all_rets (fun x => z_imsi (fst x) = z_imsi z /\ kinds g nr (snd x)) (ss_send_to_ms k s z m).
Proof.
  intros H T N. unfold ss_send_to_ms. destruct (z_ms z) as [q|].
  - split; [reflexivity|]. apply respond_kinds. intros r co X C TY _ IM _. apply (H _ r); auto.
  - destruct (negb _); [cbn; auto|]. apply all_rets_bind.
    eapply all_rets_impl with (P := fun zo => match zo with None => True | Some z' => z_imsi z' = z_imsi z end).
    + intros [z'|]; cbn; [|auto]. intros S1. destruct (in_len _ <=? 1)%nat; [cbn; auto|].
      destruct (send_to _ _ _) as [[rc o]|] eqn:E; cbn; auto. split; auto.
      apply send_to_only in E. destruct E as [->|(c & ->)]; auto. constructor; [|constructor]. apply (H _ m); auto.
    + destruct (in_len _ =? 0)%nat; [|cbn; auto].
      apply all_rets_bind, all_rets_true. intros [rc sub]. destruct (rc <? 0); [exact Logic.I|].
      destruct sub as [h|]; [|exact Logic.I]. destruct (ipa_set_str _ _); [|exact Logic.I]. cbn. auto.
Qed.
Definition kss g nr i (x : session * list out) : Prop := z_imsi (fst x) = i /\ kinds g nr (snd x).
Lemma tx_ms_kinds g nr k s z pl : g_type g = 32 \/ g_type g = 34 -> g_imsi g <> "" -> z_imsi z = g_imsi g ->
  all_rets (kss g nr (g_imsi g)) (ss_tx_to_ms k s z pl).
Proof.
  intros T N Z. unfold ss_tx_to_ms. eapply all_rets_impl; [|apply send_ms_kinds with (g := g) (nr := nr)].
  - intros x [A B]. split; [congruence|exact B].
  - cbn. intros y r E X C TY IM. eapply k_ss; eauto. congruence.
  - discriminate.
  - cbn. congruence.
Qed.
Lemma iuse_kinds g nr k s z i inv : g_type g = 32 \/ g_type g = 34 -> g_imsi g <> "" -> z_imsi z = g_imsi g ->
  all_rets (kss g nr (g_imsi g)) (run_iuse k s z i inv).
Proof.
  intros T N Z. unfold run_iuse, ss_tx_text, ss_tx_error. destruct i; try (apply tx_ms_kinds; auto).
  apply all_rets_bind, all_rets_true. intros [rc sub]. destruct rc, sub; apply tx_ms_kinds; auto.
Qed.
Lemma ss_disp_kinds nr k s z fe g r : g_type g = 32 \/ g_type g = 34 -> g_imsi g <> "" -> z_imsi z = g_imsi g ->
  all_rets (fun x => kinds g nr (snd x)) (ss_dispatch k s z fe g r).
Proof.
  intros T N Z.
  assert (KEEP : forall p, all_rets (kss g nr (g_imsi g)) p -> all_rets (fun x : hst * bool * list out => kinds g nr (snd x)) (do x <- p;; Ret (ss_put s (fst x), false, snd x))).
  { intros p H. apply all_rets_bind. eapply all_rets_impl; [|exact H]. intros x [_ B]. exact B. }
  assert (KERR : forall c, all_rets (fun x : hst * bool * list out => kinds g nr (snd x)) (do x <- ss_tx_error k s z (r_invoke r) c;; Ret (ss_put s (fst x), false, snd x))).
  { intros c. apply KEEP. apply tx_ms_kinds; auto. }
  unfold ss_dispatch. destruct (op_is_ussd _); [|apply KERR]. unfold handle_ussd.
  assert (KE : all_rets (fun x : hst * bool * list out => kinds g nr (snd x)) (do x <- ss_send_to_ms k s z g;; Ret (ss_put s (fst x), false, snd x))).
  { apply KEEP. eapply all_rets_impl; [|apply send_ms_kinds with (g := g) (nr := nr); auto].
    - intros x [A B]. split; [congruence|exact B].
    - intros y m E X C TY IM. eapply k_copy; [exact E|]. repeat split; auto.
    - destruct T as [T|T]; rewrite T; discriminate. }
  destruct (z_hdl z); [apply KERR| | |]; destruct fe; auto; try exact Logic.I.
  - apply all_rets_bind. eapply all_rets_impl; [|apply iuse_kinds; eauto]. intros [z' o] [_ B]. cbn [fst snd] in *.
    destruct (z_state z' =? SS_END); [|exact B]. unfold ss_free. cbn [all_rets snd]. auto.
  - destruct (route_find _ _); [|apply KERR]. cbn [all_rets snd]. constructor; [|constructor]. eapply k_copy; [reflexivity|auto].
Qed.
Lemma proc_ss_kinds nr k s q : g_type (q_gsup q) = 32 \/ g_type (q_gsup q) = 34 -> g_imsi (q_gsup q) <> "" -> all_rets (khst (q_gsup q) nr) (rx_proc_ss_req k s q).
Proof.
  intros T N. assert (F : forall c, khst (q_gsup q) nr (s, respond_err (tx k s) q c)) by (intros; apply err_bare).
  unfold rx_proc_ss_req. destruct (negb (is_ipa _)); [apply F|].
  destruct (match pl_octets _ with [] => _ | _ => _ end) as [r|]; [|apply F].
  destruct (g_ss _ =? SS_BEGIN).
  { destruct (ss_find _ _ _) eqn:Ef; [apply F|]. destruct (ss_handler _ _ _ _) as [h|]; [|exact I].
    set (z := if peer_is_euse _ then _ else _). cbv zeta.
    assert (Zi : z_imsi z = g_imsi (q_gsup q)). { unfold z. destruct (peer_is_euse _); reflexivity. }
    apply all_rets_bind. eapply all_rets_impl; [|apply (ss_disp_kinds nr); auto]. intros [[s2 b] o] A. exact A. }
  destruct (g_ss _ =? SS_CONTINUE).
  { destruct (ss_find _ _ _) as [z|] eqn:Ef; [|apply F]. apply ss_find_in in Ef. destruct Ef as (_ & Zi & _).
    apply all_rets_bind. eapply all_rets_impl; [|apply (ss_disp_kinds nr); auto]. intros [[s2 b] o] A. unfold khst. cbn [all_rets snd] in *. auto. }
  destruct (g_ss _ =? SS_END); [|unfold khst; cbn; auto].
  destruct (ss_find _ _ _) as [z|] eqn:Ef; [|apply F]. apply ss_find_in in Ef. destruct Ef as (_ & Zi & _).
  apply all_rets_bind. eapply all_rets_impl with (P := fun x : hst * bool * list out => kinds (q_gsup q) nr (snd x)).
  - intros [[s2 b] o] A. cbn [fst snd] in *. destruct b; [exact I|]. unfold ss_free, khst. cbn [all_rets snd]. auto.
  - destruct (pl_octets _); [|apply ss_disp_kinds; auto]. cbn [all_rets snd]. auto.
Qed.

Lemma dispatch_kinds k w s q : g_imsi (q_gsup q) <> "" -> all_rets (khst (q_gsup q) (q_nr q)) (dispatch k w s q).
Proof.
  intros N. unfold dispatch.
  assert (FREE : khst (q_gsup q) (q_nr q) (s, [OFree (q_nr q)])) by (unfold khst; cbn; auto).
  destruct (_ =? MSGT_SEND_AUTH_INFO_REQUEST) eqn:E; [apply Z.eqb_eq in E; apply same_kinds, sai_kinds; auto|clear E].
  destruct (_ =? MSGT_UPDATE_LOCATION_REQUEST) eqn:E.
  { apply Z.eqb_eq in E. unfold rx_upd_loc_req. apply all_rets_bind, all_rets_true. intros _. apply (lu_start_kinds k w (with_srv s _) q E). }
  clear E. destruct (_ =? MSGT_PURGE_MS_REQUEST); [apply same_kinds, purge_kinds|].
  destruct (_ || _); [exact FREE|].
  destruct (_ || _) eqn:E.
  { apply Bool.orb_true_iff in E. rewrite !Z.eqb_eq in E. apply proc_ss_kinds; auto. }
  clear E. destruct (_ =? MSGT_PROC_SS_ERROR); [exact FREE|].
  destruct (_ || _); [apply lu_rx_kinds|].
  destruct (_ =? MSGT_CHECK_IMEI_REQUEST) eqn:E; [apply Z.eqb_eq in E; apply same_kinds, imei_kinds; auto|clear E].
  destruct (_ =? MSGT_MO_FORWARD_SM_REQUEST) eqn:E; [apply Z.eqb_eq in E; apply same_kinds, mo_kinds; auto|clear E].
  destruct (_ =? MSGT_MT_FORWARD_SM_REQUEST); [apply same_kinds, mt_kinds|].
  destruct (_ =? MSGT_READY_FOR_SM_REQUEST); [apply same_kinds, ready_kinds|exact FREE].
Qed.

Lemma conn_rx_kind enc v nr c g v' r : conn_rx enc v nr c g = (v', r) ->
  match r with inl q => q_gsup q = g /\ q_nr q = nr /\ imsi_valid (g_imsi g) = true | inr o => kinds g nr o end.
Proof.
  unfold conn_rx. destruct (find_conn v c) as [x|]; [|intros [= <- <-]; auto]. destruct (req_new _ _ _ _ _) as [q|o] eqn:R.
  - assert (A : q_gsup q = g /\ q_nr q = nr /\ imsi_valid (g_imsi g) = true).
    { unfold req_new in R. destruct (match g_src g with [] => _ | _ => _ end) as [q'|] eqn:M; [|discriminate]. destruct (imsi_valid (g_imsi g)) eqn:V; [|discriminate].
      injection R as <-. destruct (g_src g); [injection M as <-; auto|]. destruct (peer_set _ _) as [rc sr]. destruct (negb (rc =? 0)); [discriminate|].
      destruct (negb _); injection M as <-; auto. }
    destruct (negb _); [|intros [= <- <-]; exact A]. destruct (route_add _ _ _) as [rc v2]. destruct (negb _); intros [= <- <-]; auto.
  - intros [= <- <-]. unfold req_new in R. destruct (match g_src g with [] => _ | _ => _ end) as [q'|o'] eqn:M.
    + destruct (negb _); [|discriminate]. injection R as <-. auto.
    + injection R as <-. destruct (g_src g); [discriminate|]. destruct (peer_set _ _) as [rc sr]. destruct (negb (rc =? 0)); [injection M as <-; auto|]. destruct (negb _); discriminate.
Qed.
Lemma valid_nonempty i : imsi_valid i = true -> i <> "".
Proof. intros V ->. discriminate. Qed.
Lemma read_kinds k w s c g : all_rets (khst g (t_nr s)) (read_cb k w s c g).
Proof.
  unfold read_cb. apply all_rets_bind. unfold read_msg. destruct (conn_rx _ _ _ _ _) as [v r] eqn:E. apply conn_rx_kind in E.
  eapply all_rets_impl with (P := khst g (t_nr s)).
  { intros x H. unfold khst in *. cbn [all_rets snd]. constructor; [constructor; reflexivity|exact H]. }
  set (s1 := mk_hst _ _ _ _). destruct r as [q|o]; [|exact E]. destruct E as (<- & <- & V). pose proof (dispatch_kinds k w s1 q (valid_nonempty _ V)) as D.
  destruct (g_dst (q_gsup q)); auto. destruct (ipa_set_str _ _); [|exact I]. destruct (ipa_set _ _) as [rc dest]. destruct (_ && _); auto.
  apply same_kinds, forward_kinds.
Qed.

(** messages without reception: errors and Delete Data are bare, Insert Data of the VTY has the MSISDN *)
Inductive vkind : out -> Prop :=
| v_none y : message y = None -> vkind y
| v_bare y m : message y = Some m -> g_x m = bare -> vkind y
| v_num c m n l : g_type m = 16 -> g_x m = mk_ext None None 0 0 [] None false (Some n) l PlNone None None None [] -> vkind (OTx c m).
Lemma notify_vkinds k v h : Forall vkind (update_notify k v h).
Proof.
  unfold update_notify. induction (v_conns v) as [|c l IH]; cbn [flat_map]; [constructor|]. apply Forall_app. split; auto.
  unfold notify_conn. destruct (_ && _); [constructor|]. destruct (c_ccm c); [|constructor]. destruct (negb _); [constructor|].
  destruct (isd_msg _ _ _ _) as [m|] eqn:E; [|constructor]. apply isd_fields in E. destruct E as (E1 & _ & pl & E3). destruct (route_find _ _); constructor; [|constructor]. eapply v_num; eauto.
Qed.
Definition bares (o : list out) : Prop := Forall (fun y => match message y with Some m => g_x m = bare | None => True end) o.
Lemma send_delete_bare k v i n o : send_delete k v i n = Some o -> bares o.
Proof.
  unfold send_delete. destruct (_ =? _)%string; [intros [= <-]; constructor|]. destruct (ipa_set_str _ _); [|discriminate].
  destruct (enc_send_to _ _ _ _) as [[rc o']|] eqn:E; [|discriminate]. intros [= <-]. unfold enc_send_to in E. destruct (k_enc _ _); [|injection E as <- <-; constructor].
  apply send_to_only in E. destruct E as [->|(c & ->)]; repeat constructor.
Qed.
Lemma nam_bare k v h b ps : all_rets (fun x => bares (snd x)) (hlr_subscr_nam k v h b ps).
Proof.
  unfold hlr_subscr_nam. destruct (Bool.eqb _ _); [constructor|]. apply all_rets_bind, all_rets_true. intros rc.
  destruct (negb _); [constructor|]. destruct b; [constructor|].
  destruct (send_delete k v (h_imsi h) (h_vlr h)) eqn:E1; [|exact I].
  destruct (send_delete k v (h_imsi h) (h_sgsn h)) eqn:E2; [|exact I].
  cbn. apply Forall_app; split; eapply send_delete_bare; eauto.
Qed.
Lemma vty_msisdn_vkinds k s x m : all_rets (Forall vkind) (vty_msisdn k s x m).
Proof.
  assert (N : Forall vkind []) by constructor.
  unfold vty_msisdn. destruct (match m with Some _ => _ | None => _ end); [exact N|].
  apply all_rets_bind, all_rets_true. intros [rc sub].
  destruct rc; destruct sub; try exact N. apply all_rets_bind, all_rets_true. intros rc. destruct (negb _); [exact N|].
  destruct m; [|apply notify_vkinds]. apply all_rets_bind, all_rets_true. intros [rc2 sub2].
  destruct rc2; destruct sub2; try exact N. apply notify_vkinds.
Qed.
Lemma vty_nam_bare k s x cs ps : all_rets bares (vty_nam k s x cs ps).
Proof.
  assert (N : bares []) by constructor.
  unfold vty_nam. apply all_rets_bind, all_rets_true. intros [rc sub]. destruct rc; destruct sub as [h|]; try exact N.
  assert (A : forall (b0 b b' : bool), all_rets bares (if b0 then Ret [] else do r <- hlr_subscr_nam k (t_srv s) h b b';; Ret (snd r))).
  { intros [] b b'; [exact N|]. apply all_rets_bind. eapply all_rets_impl; [|apply nam_bare]. auto. }
  apply all_rets_bind. eapply all_rets_impl; [|apply A]. intros o1 H1.
  apply all_rets_bind. eapply all_rets_impl; [|apply A]. intros o2 H2. apply Forall_app; auto.
Qed.

(** the log of one event *)
Definition ekind (s : hst) (e : event) (o : list out) : Prop :=
  match e with
  | ERx c g => kinds g (t_nr s) o
  | EVtyMsisdn _ _ => Forall vkind o
  | _ => bares o
  end.
Lemma kinds_bares tx q c : bares (respond_err tx q c).
Proof.
  unfold respond_err. destruct (negb _); [repeat constructor|]. unfold respond. destruct (make_response _ _ _ _) as [rc r] eqn:E. destruct (rc =? 0); repeat constructor.
  unfold make_response in E. injection E as _ <-. reflexivity.
Qed.
Lemma handle_kinds k w s e : all_rets (fun x => ekind s e (snd x)) (handle k w s e).
Proof.
  destruct e; cbn [handle all_rets ekind snd]; try constructor.
  - destruct (find_conn (t_srv s) c); [apply read_kinds|constructor].
  - unfold lu_timeout. destruct (find _ _); [apply kinds_bares|constructor].
  - unfold ss_timeout. destruct (ss_find _ _ _) as [z|]; [|constructor]. unfold ss_free. cbn [snd]. apply Forall_app. split; [destruct (z_ms z)|destruct (z_euse z)]; repeat constructor.
  - unfold same. apply all_rets_bind. eapply all_rets_impl; [|apply vty_msisdn_vkinds]. auto.
  - unfold same. apply all_rets_bind. eapply all_rets_impl; [|apply vty_nam_bare]. auto.
  - apply all_rets_bind, all_rets_true. intros _. constructor.
Qed.
Lemma step_kinds k s d w e f s' d' o : step k (s, d) (w, e, f) = Some (s', d', o) -> ekind s e o.
Proof.
  intros E. destruct (step_inv _ _ _ _ _ _ _ _ _ _ (handle_kinds k w s e) E) as [H|(_ & -> & _)]; [exact H|]. destruct e; cbn; constructor.
Qed.

Lemma bare_own m : g_x m = bare -> own_contents m.
Proof. intros E. constructor; rewrite E; cbn; try congruence; intuition congruence. Qed.
Lemma ek_contents s e o y m : ekind s e o -> In y o -> message y = Some m ->
  (exists c g, e = ERx c g /\ passed_on g m) \/ own_contents m.
Proof.
  intros E I M.
  assert (B : bares o -> own_contents m). { intros H. unfold bares in H. rewrite Forall_forall in H. specialize (H y I). cbn in H. rewrite M in H. apply bare_own; auto. }
  destruct e; cbn [ekind] in E; auto.
  - unfold kinds in E. rewrite Forall_forall in E. specialize (E y I). destruct E as [y' N|y' m' M' P|y' m' M' X|m' co n l T T' IM X|m' co n l T T' IM X|m' co T T' IM X|y' m' pl M' T T' IM X|m' co cc T T' IM X]; try congruence;
      try (cbn in M; assert (m' = m) by congruence; subst m').
    + left. exists c, g. auto.
    + right. apply bare_own; auto.
    + right. constructor; rewrite ?X, ?T'; cbn; intuition congruence.
    + right. constructor; rewrite ?X, ?T'; cbn; intuition congruence.
    + right. constructor; rewrite ?X, ?T'; cbn; intuition congruence.
    + right. constructor; rewrite ?X, ?T'; cbn; intuition congruence.
    + right. constructor; rewrite ?X, ?T'; cbn; intuition congruence.
  - rewrite Forall_forall in E. specialize (E y I). right. destruct E as [y' N|y' m' M' X|cc m' n l T X]; try congruence; cbn in M; assert (m' = m) by congruence; subst m'.
    + apply bare_own; auto.
    + constructor; rewrite ?X, ?T; cbn; intuition congruence.
Qed.

(** who is told secrets *)
Lemma ek_vectors s e o y m : ekind s e o -> In y o -> message y = Some m -> x_vecs (g_x m) <> [] ->
  exists c g, e = ERx c g /\ g_imsi m = g_imsi g /\ (passed_on g m \/ g_type g = 8 /\ exists co, y = OResp (t_nr s) m true co).
Proof.
  intros E I M V.
  assert (B : bares o -> False). { intros H. unfold bares in H. rewrite Forall_forall in H. specialize (H y I). cbn in H. rewrite M in H. rewrite H in V. apply V. reflexivity. }
  destruct e; cbn [ekind] in E; try (exfalso; auto; fail).
  - unfold kinds in E. rewrite Forall_forall in E. specialize (E y I). exists c, g. split; [reflexivity|].
    destruct E as [y' N|y' m' M' P|y' m' M' X|m' co n l T T' IM X|m' co n l T T' IM X|m' co T T' IM X|y' m' pl M' T T' IM X|m' co cc T T' IM X]; try congruence;
      try (cbn in M; assert (m' = m) by congruence; subst m'); try (rewrite X in V; cbn in V; congruence).
    + split; [apply P|auto].
    + split; [exact IM|]. right. split; [exact T|eauto].
  - exfalso. rewrite Forall_forall in E. specialize (E y I). destruct E as [y' N|y' m' M' X|cc m' n l T X]; try congruence; cbn in M; assert (m' = m) by congruence; subst m'; rewrite X in V; apply V; reflexivity.
Qed.
Theorem c64_number k s d w e f s' d' o y m : step k (s, d) (w, e, f) = Some (s', d', o) -> In y o -> message y = Some m -> x_msisdn (g_x m) <> None ->
  (exists c g, e = ERx c g /\ g_imsi m = g_imsi g /\ (passed_on g m \/ g_type g = 4 /\ exists co, y = OResp (t_nr s) m false co)) \/
  (exists x v c, e = EVtyMsisdn x v /\ y = OTx c m).
Proof.
  intros E I M V. apply step_kinds in E.
  assert (B : bares o -> False). { intros H. unfold bares in H. rewrite Forall_forall in H. specialize (H y I). cbn in H. rewrite M in H. rewrite H in V. apply V. reflexivity. }
  destruct e; cbn [ekind] in E; try (exfalso; auto; fail).
  - unfold kinds in E. rewrite Forall_forall in E. specialize (E y I). left. exists c, g. split; [reflexivity|].
    destruct E as [y' N|y' m' M' P|y' m' M' X|m' co n l T T' IM X|m' co n l T T' IM X|m' co T T' IM X|y' m' pl M' T T' IM X|m' co cc T T' IM X]; try congruence;
      try (cbn in M; assert (m' = m) by congruence; subst m'); try (rewrite X in V; cbn in V; congruence).
    + split; [apply P|auto].
    + split; [exact IM|]. right. split; [exact T|eauto].
  - rewrite Forall_forall in E. specialize (E y I). right. destruct E as [y' N|y' m' M' X|cc m' n l T X]; try congruence; cbn in M; assert (m' = m) by congruence; subst m'; [rewrite X in V; cbn in V; congruence|].
    exists x, m0, cc. auto.
Qed.
Theorem c64_ussd k s d w e f s' d' o y m : step k (s, d) (w, e, f) = Some (s', d', o) -> In y o -> message y = Some m -> x_ss (g_x m) <> PlNone ->
  exists c g, e = ERx c g /\ g_imsi m = g_imsi g /\ (passed_on g m \/ g_type g = 32 \/ g_type g = 34).
Proof.
  intros E I M V. apply step_kinds in E.
  assert (B : bares o -> False). { intros H. unfold bares in H. rewrite Forall_forall in H. specialize (H y I). cbn in H. rewrite M in H. rewrite H in V. apply V. reflexivity. }
  destruct e; cbn [ekind] in E; try (exfalso; auto; fail).
  - unfold kinds in E. rewrite Forall_forall in E. specialize (E y I). exists c, g. split; [reflexivity|].
    destruct E as [y' N|y' m' M' P|y' m' M' X|m' co n l T T' IM X|m' co n l T T' IM X|m' co T T' IM X|y' m' pl M' T T' IM X|m' co cc T T' IM X]; try congruence;
      try (cbn in M; assert (m' = m) by congruence; subst m'); try (rewrite X in V; cbn in V; congruence).
    + split; [apply P|auto].
    + auto.
  - exfalso. rewrite Forall_forall in E. specialize (E y I). destruct E as [y' N|y' m' M' X|cc m' n l T X]; try congruence; cbn in M; assert (m' = m) by congruence; subst m'; rewrite X in V; apply V; reflexivity.
Qed.
Theorem c64_contents k s d w e f s' d' o y m : step k (s, d) (w, e, f) = Some (s', d', o) -> In y o -> message y = Some m ->
  (exists c g, e = ERx c g /\ passed_on g m) \/ own_contents m.
Proof. intros E. eapply ek_contents, step_kinds, E. Qed.
Theorem c64_vectors k s d w e f s' d' o y m : step k (s, d) (w, e, f) = Some (s', d', o) -> In y o -> message y = Some m -> x_vecs (g_x m) <> [] ->
  exists c g, e = ERx c g /\ g_imsi m = g_imsi g /\ (passed_on g m \/ g_type g = 8 /\ exists co, y = OResp (t_nr s) m true co).
Proof. intros E. eapply ek_vectors, step_kinds, E. Qed.
