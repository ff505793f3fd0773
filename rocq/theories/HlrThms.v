From Coq Require Import Permutation.
From Verif Require Import Base PeerId Db DbSpec DbProofs DbThms2 Auth AuthThms3 Gsup Router Hlr HlrSpec.

(** * Linear use of requests *)

Inductive trans (X : sender) : list req -> list out -> list req -> Prop :=
| tr_nil a b : Permutation a b -> trans X a [] b
| tr_keep a q r o b : In q a -> repeats (q_gsup q) r -> leaves (q_gsup q) r -> trans X a o b -> trans X a (OResp (q_nr q) r false (X q r) :: o) b
| tr_final a a' q r o b : Permutation a (q :: a') -> repeats (q_gsup q) r -> closes (q_gsup q) r -> trans X a' o b ->
    trans X a (OResp (q_nr q) r true (X q r) :: o) b
| tr_free a a' q o b : Permutation a (q :: a') -> trans X a' o b -> trans X a (OFree (q_nr q) :: o) b
| tr_tx a c g o b : trans X a o b -> trans X a (OTx c g :: o) b.

Lemma trans_perm_l X a a' o b : Permutation a a' -> trans X a o b -> trans X a' o b.
Proof.
  intros P T. revert a' P. induction T; intros a2 P.
  - apply tr_nil. rewrite <- P. auto.
  - apply tr_keep; auto. eapply Permutation_in; eauto.
  - eapply tr_final; eauto. rewrite <- P. auto.
  - eapply tr_free; eauto. rewrite <- P. auto.
  - apply tr_tx; auto.
Qed.
Lemma trans_app X a o b o' c : trans X a o b -> trans X b o' c -> trans X a (o ++ o') c.
Proof.
  intros T1 T2. induction T1; cbn.
  - eapply trans_perm_l; [|eauto]. symmetry; auto.
  - apply tr_keep; auto.
  - eapply tr_final; eauto.
  - eapply tr_free; eauto.
  - apply tr_tx; auto.
Qed.
Lemma trans_perm_r X a o b b' : Permutation b b' -> trans X a o b -> trans X a o b'.
Proof.
  intros P T. rewrite <- (app_nil_r o). eapply trans_app; eauto. apply tr_nil; auto.
Qed.
Lemma trans_refl X a : trans X a [] a.
Proof. apply tr_nil. reflexivity. Qed.
Lemma trans_frame X f a o b : trans X a o b -> trans X (f ++ a) o (f ++ b).
Proof.
  intros T. induction T.
  - apply tr_nil. apply Permutation_app_head; auto.
  - apply tr_keep; auto. apply in_or_app; auto.
  - eapply tr_final; eauto. rewrite H. symmetry. apply Permutation_middle.
  - eapply tr_free; eauto. rewrite H. symmetry. apply Permutation_middle.
  - apply tr_tx; auto.
Qed.

Lemma mod4 t : t = 4 * (t / 4) + t mod 4.
Proof. apply Z.div_mod. lia. Qed.
Lemma is_request_iff t : is_request t = true <-> request_type t.
Proof.
  unfold is_request, request_type. rewrite Z.eqb_eq. split.
  - intros H. exists (t / 4). rewrite (mod4 t) at 1. lia.
  - intros [i ->]. rewrite Z.mul_comm, Z.mod_mul; lia.
Qed.
Lemma is_error_iff t : is_error t = true <-> error_type t.
Proof.
  unfold is_error, error_type. rewrite Z.eqb_eq. split.
  - intros H. exists (t / 4). rewrite (mod4 t) at 1. lia.
  - intros [i ->]. rewrite Z.add_comm, Z.mul_comm, Z.mod_add by lia. reflexivity.
Qed.
Lemma to_result_no_error t : ~ error_type (to_result t).
Proof.
  rewrite <- is_error_iff. unfold is_error, to_result.
  replace (t - t mod 4 + 2) with (2 + (t / 4) * 4) by (pose proof (mod4 t); lia).
  rewrite Z.mod_add by lia. discriminate.
Qed.

(** when may a reply be passed to [respond] *)
Definition fit (rx reply : gsup) (error : bool) : Prop :=
  (error_type (g_type reply) -> request_type (g_type rx)) /\
  (g_type reply = 0 -> error = true -> request_type (g_type rx)) /\
  (g_dst reply = [] \/ ss_type (g_type reply)) /\
  (g_ss reply = SS_NONE \/ g_type reply = 32 \/ g_type reply = 34).

Lemma make_response_repeats reply rx error final r :
  make_response reply rx error final = (0, r) -> fit rx reply error -> repeats rx r.
Proof.
  unfold make_response. intros E (F1 & F2 & F3 & _). injection E as E <-.
  set (im := if (g_imsi reply =? "")%string then _ else _) in *.
  set (cl := if g_class reply =? 0 then _ else _) in *.
  set (sd := if g_sid reply =? 0 then _ else _) in *.
  assert (im = g_imsi rx /\ cl = g_class rx /\ sd = g_sid rx /\
          (forall m, g_mr rx = Some m -> match g_mr reply with Some m' => m = m' | None => True end)) as (A & B & C & D).
  { destruct (im =? g_imsi rx)%string eqn:E1; destruct (cl =? g_class rx) eqn:E2; destruct (sd =? g_sid rx) eqn:E3;
      destruct (g_mr rx) as [m|]; destruct (g_mr reply) as [m'|]; try destruct (m =? m') eqn:E4; cbn in E;
      try rewrite Z.eqb_refl in E; try lia; apply String.eqb_eq in E1; apply Z.eqb_eq in E2, E3; try apply Z.eqb_eq in E4;
      repeat split; auto; intros ? [= <-]; auto. }
  split; cbn; auto.
  - intros m Hm. specialize (D m Hm). destruct (g_mr reply); subst; auto.
  - destruct F3 as [F3|F3]; [left; rewrite F3; auto|].
    destruct (g_dst reply) eqn:Ed; auto. right. split; [|discriminate].
    destruct (g_type reply =? 0) eqn:E0; auto. apply Z.eqb_eq in E0. unfold ss_type in F3. lia.
  - destruct (g_type reply =? 0) eqn:E0; auto. apply Z.eqb_eq in E0. destruct error; auto.
    intros H. exfalso. eapply to_result_no_error; eauto.
Qed.

Lemma make_response_state reply rx error final rc r : make_response reply rx error final = (rc, r) -> fit rx reply error ->
  if final then closes rx r else leaves rx r.
Proof.
  unfold make_response. intros E (_ & _ & _ & F). injection E as _ <-.
  set (t := if g_type reply =? 0 then if error then to_error (g_type rx) else to_result (g_type rx) else g_type reply).
  assert (G : t <> 32 -> t <> 34 -> g_ss reply = SS_NONE).
  { subst t. intros A B. destruct F as [F|[F|F]]; [exact F|exfalso; apply A; rewrite F; reflexivity|exfalso; apply B; rewrite F; reflexivity]. }
  destruct final; intros A B; cbn in *; rewrite (G A B); destruct (g_ss rx =? SS_NONE); reflexivity.
Qed.

Lemma respond_keep tx q reply e a : In q a -> fit (q_gsup q) reply e -> trans tx a (snd (respond tx q reply e false)) a.
Proof.
  intros I F. unfold respond. destruct (make_response _ _ _ _) as [rc r] eqn:E. destruct (rc =? 0) eqn:E0; cbn.
  - apply Z.eqb_eq in E0; subst. apply tr_keep; auto; [eapply make_response_repeats; eauto|exact (make_response_state _ _ _ _ _ _ E F)|apply trans_refl].
  - apply trans_refl.
Qed.
Lemma respond_final tx q reply e a : fit (q_gsup q) reply e -> trans tx (q :: a) (snd (respond tx q reply e true)) a.
Proof.
  intros F. unfold respond. destruct (make_response _ _ _ _) as [rc r] eqn:E. destruct (rc =? 0) eqn:E0; cbn.
  - apply Z.eqb_eq in E0; subst. eapply tr_final; [reflexivity|eapply make_response_repeats; eauto|exact (make_response_state _ _ _ _ _ _ E F)|apply trans_refl].
  - eapply tr_free; [reflexivity|apply trans_refl].
Qed.
Lemma trans_free X q a : trans X (q :: a) [OFree (q_nr q)] a.
Proof. eapply tr_free; [reflexivity|apply trans_refl]. Qed.

Lemma fit_msg0 rx t e x : t <> 0 \/ e = false -> ~ error_type t -> fit rx (with_ext (msg0 t) x) e.
Proof. intros H N. repeat split; cbn; auto; try tauto. intros -> ->. destruct H; [tauto|discriminate]. Qed.
Lemma not_error t : is_error t = false -> ~ error_type t.
Proof. rewrite <- is_error_iff. congruence. Qed.

Lemma respond_err_trans tx q c a : trans tx (q :: a) (respond_err tx q c) a.
Proof.
  unfold respond_err. destruct (is_request (g_type (q_gsup q))) eqn:E; cbn [negb].
  - apply respond_final. apply is_request_iff in E. repeat split; cbn; auto.
  - apply trans_free.
Qed.
Lemma respond_msgt_trans tx q t a : t <> 0 -> is_error t = false -> trans tx (q :: a) (snd (respond_msgt tx q t true)) a.
Proof.
  intros N E. unfold respond_msgt. apply respond_final. repeat split; cbn; auto; try tauto.
  intros H. apply is_error_iff in H. congruence.
Qed.

(** * State *)
Definition z_key (z : session) : string * Z := (z_imsi z, z_sid z).
Definition keys_ok (s : hst) : Prop := NoDup (map z_key (t_ss s)).

Record hinv (s : hst) : Prop := {
  hi_nodup : NoDup (map q_nr (opens s));
  hi_lt : Forall (fun q => (q_nr q < t_nr s)%nat) (opens s);
  hi_keys : keys_ok s }.

(** outcome of handling [q] in [s] *)
Definition lin (k : cfg) (s : hst) (q : req) (x : hst * list out) : Prop :=
  t_nr (fst x) = t_nr s /\ keys_ok (fst x) /\ trans (tx k s) (q :: opens s) (snd x) (opens (fst x)).

Lemma lin_same k s q o : keys_ok s -> trans (tx k s) (q :: opens s) o (opens s) -> lin k s q (s, o).
Proof. intros; repeat split; auto. Qed.
Lemma lin_err k s q c : keys_ok s -> lin k s q (s, respond_err (tx k s) q c).
Proof. intros; apply lin_same; auto. apply respond_err_trans. Qed.

Lemma same_lin k s q p : keys_ok s -> all_rets (fun o => trans (tx k s) (q :: opens s) o (opens s)) p -> all_rets (lin k s q) (same s p).
Proof.
  intros K H. unfold same. apply all_rets_bind. eapply all_rets_impl; [|exact H]. cbn. intros. apply lin_same; auto.
Qed.

Ltac rets := repeat first
  [ apply all_rets_bind; apply all_rets_true; intros
  | progress cbn [all_rets]; intros ].

Lemma sai_lin k w s q : all_rets (fun o => trans (tx k s) (q :: opens s) o (opens s)) (rx_send_auth_info k w s q).
Proof.
  unfold rx_send_auth_info. apply all_rets_bind, all_rets_true; intros _.
  apply all_rets_bind, all_rets_true; intros [rc i]. apply all_rets_bind, all_rets_true; intros [rc2 vs]. cbn [all_rets].
  destruct (rc2 <=? 0); [apply respond_err_trans|]. apply respond_final. apply fit_msg0; [left; discriminate|].
  apply not_error. reflexivity.
Qed.

Lemma opens_srv s v : opens (with_srv s v) = opens s.
Proof. reflexivity. Qed.

Lemma lu_start_lin k w s q : keys_ok s -> all_rets (lin k s q) (lu_start k w s q).
Proof.
  intros K. unfold lu_start. destruct (peer_is_empty (q_src q)); [apply lin_err; auto|].
  apply all_rets_bind, all_rets_true. intros [rc sub]. destruct (rc <? 0); [apply lin_err; auto|].
  destruct sub as [h|]; [|exact I].
  destruct (_ && _); [apply lin_err; auto|]. destruct (_ && _); [apply lin_err; auto|].
  destruct (_ || _); [apply lin_err; auto|].
  apply all_rets_bind, all_rets_true. intros rc2. destruct (negb (rc2 =? 0)); [apply lin_err; auto|].
  destruct (isd_msg _ _ _ _) as [isd|] eqn:E; [|apply lin_err; auto].
  assert (F : fit (q_gsup q) isd false).
  { unfold isd_msg in E. destruct (k_msisdn_enc k _); [|discriminate]. injection E as <-.
    repeat split; cbn; auto; try discriminate. intros H. exfalso. revert H. apply not_error. reflexivity. }
  pose proof (respond_keep (tx k s) q isd false (q :: opens s) (or_introl eq_refl) F) as T.
  destruct (respond (tx k s) q isd false false) as [rc3 o]. cbn [snd] in T.
  destruct (negb (rc3 =? 0)); cbn [all_rets].
  - apply lin_same; auto. eapply trans_app; [exact T|]. apply respond_err_trans.
  - repeat split; auto.
Qed.

Lemma upd_loc_lin k w s q : keys_ok s -> all_rets (lin k s q) (rx_upd_loc_req k w s q).
Proof.
  intros K. unfold rx_upd_loc_req. apply all_rets_bind, all_rets_true. intros _.
  set (v := set_conn _ _ _). exact (lu_start_lin k w (with_srv s v) q K).
Qed.

Lemma filter_lu ls l : NoDup (map q_nr (map l_req ls)) -> In l ls ->
  Permutation ls (l :: filter (fun x => negb (q_nr (l_req x) =? q_nr (l_req l))%nat) ls).
Proof.
  intros N I. apply in_split in I. destruct I as (l1 & l2 & ->).
  rewrite map_map, map_app in N. cbn in N.
  assert (A : forall ls', (forall x, In x ls' -> q_nr (l_req x) <> q_nr (l_req l)) ->
     filter (fun x => negb (q_nr (l_req x) =? q_nr (l_req l))%nat) ls' = ls').
  { induction ls' as [|x ls' IH]; cbn; auto. intros H. destruct (Nat.eqb_spec (q_nr (l_req x)) (q_nr (l_req l))).
    - exfalso. apply (H x); auto. - cbn. f_equal. apply IH. auto. }
  apply NoDup_remove_2 in N.
  rewrite filter_app. cbn [filter]. rewrite Nat.eqb_refl. cbn [negb].
  rewrite !A; [symmetry; apply Permutation_middle| |];
    intros x Hx Hn; apply N; rewrite <- Hn; apply in_or_app; [right|left]; apply in_map_iff; eauto.
Qed.

Lemma nodup_app_l {A} (l1 l2 : list A) : NoDup (l1 ++ l2) -> NoDup l1.
Proof. induction l1; cbn; intros H; [constructor|]. inversion H; subst. constructor; auto. intros I; apply H2; apply in_or_app; auto. Qed.

Lemma lu_del_perm s l : hinv s -> In l (t_lus s) ->
  Permutation (opens s) (l_req l :: opens (lu_del s (q_nr (l_req l)))).
Proof.
  intros [N _ _] I. unfold opens at 1 2. cbn [t_lus t_ss lu_del with_lus].
  unfold opens in N. rewrite map_app in N. apply nodup_app_l in N.
  rewrite app_comm_cons. apply Permutation_app_tail.
  rewrite <- map_cons. apply Permutation_map. apply filter_lu; auto.
Qed.
Lemma lu_del_keys s nr : keys_ok s -> keys_ok (lu_del s nr).
Proof. auto. Qed.

Lemma lu_rx_lin k s q : hinv s -> lin k s q (lu_rx k s q).
Proof.
  intros H. unfold lu_rx. destruct (find _ _) as [l|] eqn:E; [|apply lin_err; apply H].
  apply find_some in E. destruct E as [I _].
  pose proof (lu_del_perm s l H I) as P.
  destruct (_ =? MSGT_INSERT_DATA_RESULT).
  { repeat split; auto; [apply H|]. cbn [snd fst]. eapply tr_free; [reflexivity|].
    eapply trans_perm_l; [symmetry; exact P|]. apply respond_msgt_trans; [discriminate|reflexivity]. }
  destruct (_ =? MSGT_INSERT_DATA_ERROR); [|apply lin_err; apply H].
  repeat split; auto; [apply H|]. cbn [snd fst]. eapply trans_app; [|apply trans_free].
  eapply trans_perm_l; [|apply respond_err_trans]. rewrite P. apply perm_swap.
Qed.

Lemma lu_timeout_trans k s nr : hinv s ->
  let x := lu_timeout k s nr in t_nr (fst x) = t_nr s /\ keys_ok (fst x) /\ trans (tx k s) (opens s) (snd x) (opens (fst x)).
Proof.
  intros H. unfold lu_timeout. destruct (find _ _) as [l|] eqn:E; cbn.
  - apply find_some in E. destruct E as [I En]. apply Nat.eqb_eq in En. subst nr.
    repeat split; [apply H|]. eapply trans_perm_l; [symmetry; apply (lu_del_perm s l); auto|]. apply respond_err_trans.
  - repeat split; [apply H|apply trans_refl].
Qed.

Lemma purge_lin k s q : all_rets (fun o => trans (tx k s) (q :: opens s) o (opens s)) (rx_purge_ms_req k s q).
Proof.
  unfold rx_purge_ms_req. apply all_rets_bind, all_rets_true. intros rc. cbn [all_rets].
  destruct (rc =? 0); [apply respond_msgt_trans; [discriminate|reflexivity]|apply respond_err_trans].
Qed.

Lemma imei_lin k w s q : all_rets (fun o => trans (tx k s) (q :: opens s) o (opens s)) (rx_check_imei_req k w s q).
Proof.
  unfold rx_check_imei_req. destruct (x_imei _); [|apply respond_err_trans].
  destruct (bcd_decode 14 l); [|apply respond_err_trans]. destruct (negb _); [apply respond_err_trans|].
  apply all_rets_bind, all_rets_true. intros _. apply all_rets_bind, all_rets_true. intros rc. cbn [all_rets].
  destruct (rc <? 0); [apply respond_err_trans|]. apply respond_final. apply fit_msg0; [left; discriminate|].
  apply not_error. reflexivity.
Qed.

(** * Messages sent on the HLR's own account *)
Definition only_tx (o : list out) : Prop := Forall (fun x => match x with OTx _ _ => True | _ => False end) o.
Lemma only_tx_trans X a o : only_tx o -> trans X a o a.
Proof. induction 1 as [|[] o H _ IH]; try tauto; [apply trans_refl|apply tr_tx; auto]. Qed.
Lemma only_tx_app o o' : only_tx o -> only_tx o' -> only_tx (o ++ o').
Proof. intros; apply Forall_app; split; auto. Qed.
Lemma send_to_tx v n g rc o : send_to v n g = Some (rc, o) -> only_tx o.
Proof.
  unfold send_to. destruct (in_len n); [discriminate|].
  assert (A : forall a rc o, match route_find (v_routes v) a with Some c => (0, [OTx c g]) | None => (- ENODEV, []) end = (rc, o) -> only_tx o).
  { intros a rc' o'. destruct (route_find _ _); intros [= <- <-]; repeat constructor. }
  destruct (nth _ _ _ =? _)%char; [intros [= E]; eapply A; eauto|].
  destruct (IPA_MAX <=? _)%nat; [intros [= <- <-]; constructor|intros [= E]; eapply A; eauto].
Qed.
Lemma enc_send_tx e v n g rc o : enc_send_to e v n g = Some (rc, o) -> only_tx o.
Proof. unfold enc_send_to. destruct (e g); [apply send_to_tx|]. intros [= <- <-]. constructor. Qed.

Lemma forward_local_trans e v t q a o : forward_to_local_peer e v t q = Some o -> trans (srv_tx e v) (q :: a) o a.
Proof.
  unfold forward_to_local_peer. destruct (p_type (q_src q)); [discriminate|]. destruct (p_type t); [discriminate|].
  destruct (enc_send_to _ _ _ _) as [[rc o']|] eqn:E; [|discriminate]. apply enc_send_tx in E.
  destruct (rc =? 0); intros [= <-].
  - eapply trans_app; [apply only_tx_trans; auto|apply trans_free].
  - apply respond_msgt_trans; [discriminate|reflexivity].
Qed.
Lemma forward_name_trans k s n q a : all_rets (fun o => trans (tx k s) (q :: a) o a) (forward_to_name k s n q).
Proof.
  unfold forward_to_name. destruct (peer_set _ _) as [rc dst]. destruct (negb _); [exact I|].
  destruct (forward_to_local_peer _ _ _ _) eqn:E; [|exact I]. cbn. eapply forward_local_trans; eauto.
Qed.
Lemma rp_cause_trans k s q c a : request_type (g_type (q_gsup q)) -> trans (tx k s) (q :: a) (respond_rp_cause k s q c) a.
Proof. intros R. unfold respond_rp_cause. apply respond_final. repeat split; cbn; auto. Qed.
Lemma mo_sms_trans k s q a : request_type (g_type (q_gsup q)) -> all_rets (fun o => trans (tx k s) (q :: a) o a) (forward_mo_sms k s q).
Proof.
  intros R. unfold forward_mo_sms. destruct (x_da _) as [[t [|o0 da]]|]; try apply respond_err_trans.
  destruct (negb _); [apply respond_err_trans|]. destruct (_ || _); [apply rp_cause_trans; auto|].
  destruct (find_smsc _ _); [apply forward_name_trans|apply rp_cause_trans; auto].
Qed.
Lemma mt_sms_trans k s q a : all_rets (fun o => trans (tx k s) (q :: a) o a) (forward_mt_sms k s q).
Proof.
  unfold forward_mt_sms. apply all_rets_bind, all_rets_true. intros [rc sub].
  destruct (rc <? 0); [apply respond_err_trans|]. destruct sub; [|exact I].
  destruct (_ =? _)%string; [apply respond_err_trans|apply forward_name_trans].
Qed.
Lemma copy_tx k s g ns o : copy_to_smscs k s g ns = Some o -> only_tx o.
Proof.
  revert o. induction ns as [|n ns IH]; cbn [copy_to_smscs]; intros o.
  - intros [= <-]. constructor.
  - destruct (ipa_set _ _) as [rc dst]. destruct (negb _); [discriminate|].
    destruct (enc_send_to _ _ _ _) as [[rc2 o2]|] eqn:E; [|discriminate].
    destruct (copy_to_smscs k s g ns) as [o3|]; [|discriminate]. intros [= <-].
    apply only_tx_app; auto. eapply enc_send_tx; eauto.
Qed.
Lemma ready_trans k s q a : all_rets (fun o => trans (tx k s) (q :: a) o a) (rx_ready_for_sm_req k s q).
Proof.
  unfold rx_ready_for_sm_req. destruct (copy_to_smscs _ _ _ _) eqn:E; [|exact I]. cbn [all_rets].
  eapply trans_app; [apply only_tx_trans; eapply copy_tx; eauto|]. apply respond_msgt_trans; [discriminate|reflexivity].
Qed.
Lemma forward_trans k s dst q a : all_rets (fun o => trans (tx k s) (q :: a) o a) (read_cb_forward k s dst q).
Proof.
  unfold read_cb_forward.
  assert (A : trans (tx k s) (q :: a) (snd (respond (tx k s) q (with_src (msg0 MSGT_ROUTING_ERROR) (g_dst (q_gsup q))) true true)) a).
  { apply respond_final. repeat split; cbn; auto; try discriminate. intros H. exfalso. revert H. apply not_error. reflexivity. }
  destruct (g_src _); [exact A|]. destruct (send_to _ _ _) as [[rc o]|] eqn:E; [|exact I]. cbn [all_rets].
  destruct (rc =? 0); auto. eapply trans_app; [|apply trans_free]. apply only_tx_trans. eapply send_to_tx; eauto.
Qed.

(** * Sessions *)
Lemma ss_is_iff z y : ss_is (z_imsi z) (z_sid z) y = true <-> z_key y = z_key z.
Proof.
  unfold ss_is, z_key. rewrite Bool.andb_true_iff, String.eqb_eq, Z.eqb_eq. split; [intros []; congruence|intros [=]; auto].
Qed.
Lemma ss_find_in s i sid z : ss_find s i sid = Some z -> In z (t_ss s) /\ z_imsi z = i /\ z_sid z = sid.
Proof.
  intros E. apply find_some in E. destruct E as [I E]. unfold ss_is in E.
  rewrite Bool.andb_true_iff, String.eqb_eq, Z.eqb_eq in E. tauto.
Qed.
Lemma key_inj (l : list session) y z : NoDup (map z_key l) -> In y l -> In z l -> z_key y = z_key z -> y = z.
Proof.
  induction l as [|x l IH]; cbn; [tauto|]. intros N [->|Iy] [->|Iz] E; inversion N; subst; auto.
  - exfalso. apply H1. rewrite E. apply in_map; auto.
  - exfalso. apply H1. rewrite <- E. apply in_map; auto.
Qed.

Lemma ss_put_same s z z' : keys_ok s -> In z (t_ss s) -> z_key z' = z_key z -> z_reqs z' = z_reqs z ->
  opens (ss_put s z') = opens s /\ map z_key (t_ss (ss_put s z')) = map z_key (t_ss s).
Proof.
  intros K I Ek Er. unfold opens, ss_put. cbn [t_lus t_ss with_ss].
  assert (A : forall l, (forall y, In y l -> In y (t_ss s)) ->
     flat_map z_reqs (map (fun y => if ss_is (z_imsi z') (z_sid z') y then z' else y) l) = flat_map z_reqs l /\
     map z_key (map (fun y => if ss_is (z_imsi z') (z_sid z') y then z' else y) l) = map z_key l).
  { induction l as [|y l IH]; cbn; auto. intros H. destruct IH as [E1 E2]; auto. rewrite E1, E2.
    destruct (ss_is _ _ y) eqn:E; auto. apply ss_is_iff in E.
    assert (y = z) as ->. { apply (key_inj (t_ss s)); auto. congruence. }
    rewrite Er, Ek. auto. }
  destruct (A (t_ss s)) as [E1 E2]; auto. rewrite E1, E2. auto.
Qed.

Lemma ss_free_perm s z y : keys_ok s -> In y (t_ss s) -> z_key z = z_key y ->
  Permutation (opens s) (z_reqs y ++ opens (fst (ss_free s z))).
Proof.
  intros K I Ek. unfold opens. cbn [fst ss_free t_lus t_ss with_ss].
  rewrite app_assoc, (Permutation_app_comm (z_reqs y)), <- app_assoc. apply Permutation_app_head.
  apply in_split in I. destruct I as (l1 & l2 & E). unfold keys_ok in K. rewrite E in *.
  rewrite map_app in K. cbn in K. pose proof (NoDup_remove_2 _ _ _ K) as N.
  assert (A : forall l, (forall x, In x l -> z_key x <> z_key y) -> filter (fun x => negb (ss_is (z_imsi z) (z_sid z) x)) l = l).
  { induction l as [|x l IH]; cbn; auto. intros H. destruct (ss_is _ _ x) eqn:Ex.
    - apply ss_is_iff in Ex. exfalso. apply (H x); auto. congruence.
    - cbn. f_equal. auto. }
  rewrite filter_app. cbn [filter]. replace (ss_is _ _ y) with true by (symmetry; apply ss_is_iff; auto). cbn [negb].
  rewrite !A, !flat_map_app; [|intros x Hx Hn; apply N; rewrite <- Hn; apply in_or_app; auto using in_map..].
  cbn [flat_map]. rewrite !app_assoc. apply Permutation_app_tail. apply Permutation_app_comm.
Qed.
Lemma nodup_filter {A B} (f : A -> B) g l : NoDup (map f l) -> NoDup (map f (filter g l)).
Proof.
  induction l as [|x l IH]; cbn; auto. intros N; inversion N; subst. destruct (g x); cbn; auto. constructor; auto.
  intros I. apply H1. apply in_map_iff in I. destruct I as (y & Ey & Iy). apply filter_In in Iy. rewrite <- Ey. apply in_map. tauto.
Qed.
Lemma ss_free_keys s z : keys_ok s -> keys_ok (fst (ss_free s z)).
Proof. intros K. unfold keys_ok. cbn. apply nodup_filter. auto. Qed.
Lemma free_trans X z a : trans X (z_reqs z ++ a) (free_req (z_ms z) ++ free_req (z_euse z)) a.
Proof.
  unfold z_reqs. destruct (z_ms z); destruct (z_euse z); cbn; repeat (eapply tr_free; [reflexivity|]); apply trans_refl.
Qed.

Definition ssmsg (g : gsup) : Prop := ss_type (g_type g) /\ ~ error_type (g_type g).
Definition z_same (z : session) (z' : session) : Prop := z_key z' = z_key z /\ z_reqs z' = z_reqs z.
Lemma z_same_refl z : z_same z z. Proof. split; auto. Qed.

Lemma send_to_ms_ok k s z g a : ssmsg g -> incl (z_reqs z) a ->
  all_rets (fun x => z_same z (fst x) /\ z_state (fst x) = z_state z /\ trans (tx k s) a (snd x) a) (ss_send_to_ms k s z g).
Proof.
  intros [T N] I. unfold ss_send_to_ms. destruct (z_ms z) as [q|] eqn:Em.
  - cbn [all_rets fst snd]. repeat split; auto. apply respond_keep.
    + apply I. unfold z_reqs. rewrite Em. cbn; auto.
    + assert (T' : g_type g = 32 \/ g_type g = 34).
      { unfold ss_type in T. assert (g_type g <> 33). { intros E. apply N. exists 8. lia. } lia. }
      unfold fit. split; [tauto|]. split; [intros E; rewrite E in T'; destruct T'; discriminate|]. auto.
  - destruct (negb _); [cbn; repeat split; auto using trans_refl|].
    apply all_rets_bind. eapply all_rets_impl with (P := fun zo => match zo with None => True | Some z' => z_same z z' /\ z_state z' = z_state z end).
    + intros [z'|]; cbn; [|repeat split; auto using trans_refl]. intros [S1 S2].
      destruct (in_len _ <=? 1)%nat; [cbn; repeat split; auto using trans_refl; apply S1|].
      destruct (send_to _ _ _) as [[rc o]|] eqn:E; cbn; auto. split; auto. split; auto.
      apply only_tx_trans. eapply send_to_tx; eauto.
    + destruct (in_len _ =? 0)%nat; [|cbn; auto using z_same_refl].
      apply all_rets_bind, all_rets_true. intros [rc sub]. destruct (rc <? 0); [exact Logic.I|].
      destruct sub as [h|]; [|exact Logic.I]. destruct (ipa_set_str _ _); [|exact Logic.I]. cbn. repeat split; auto.
Qed.
Lemma ssmsg_result g : g_type g = MSGT_PROC_SS_RESULT -> ssmsg g.
Proof. intros E. unfold ssmsg. rewrite E. split; [unfold ss_type, MSGT_PROC_SS_RESULT; lia|apply not_error; reflexivity]. Qed.
Lemma ss_tx_ok k s z pl a : incl (z_reqs z) a ->
  all_rets (fun x => z_same z (fst x) /\ z_state (fst x) = z_state z /\ trans (tx k s) a (snd x) a) (ss_tx_to_ms k s z pl).
Proof. intros I. apply send_to_ms_ok; auto. apply ssmsg_result. reflexivity. Qed.
Lemma ss_err_ok k s z i c a : incl (z_reqs z) a ->
  all_rets (fun x => z_same z (fst x) /\ z_state (fst x) = SS_END /\ trans (tx k s) a (snd x) a) (ss_tx_error k s z i c).
Proof. intros I. unfold ss_tx_error. eapply all_rets_impl; [|apply ss_tx_ok; exact I]. intros x (A & B & C). auto. Qed.
Lemma run_iuse_ok k s z i inv a : incl (z_reqs z) a ->
  all_rets (fun x => z_same z (fst x) /\ trans (tx k s) a (snd x) a) (run_iuse k s z i inv).
Proof.
  intros I. unfold run_iuse. destruct i.
  - apply all_rets_bind, all_rets_true. intros [rc sub].
    assert (A : forall c, all_rets (fun x => z_same z (fst x) /\ trans (tx k s) a (snd x) a) (ss_tx_error k s (z_with_state z SS_END) inv c)).
    { intros c. eapply all_rets_impl; [|apply ss_err_ok; exact I]. intros x (A & B & C). auto. }
    assert (B : forall t, all_rets (fun x => z_same z (fst x) /\ trans (tx k s) a (snd x) a) (ss_tx_text k s (z_with_state z SS_END) inv t)).
    { intros t. unfold ss_tx_text. eapply all_rets_impl; [|apply ss_tx_ok; exact I]. intros x (? & ? & ?). auto. }
    destruct rc; destruct sub; auto.
  - unfold ss_tx_text. eapply all_rets_impl; [|apply ss_tx_ok; exact I]. intros x (? & ? & ?). auto.
  - unfold ss_tx_text. eapply all_rets_impl; [|apply ss_tx_ok; exact I]. intros x (? & ? & ?). auto.
Qed.

(** outcome of handling a message in session [z]; [f]: requests not in the state *)
Definition disp (k : cfg) (f : list req) (s : hst) (z : session) (x : hst * bool * list out) : Prop :=
  let s' := fst (fst x) in
  t_nr s' = t_nr s /\ keys_ok s' /\ trans (tx k s) (f ++ opens s) (snd x) (f ++ opens s') /\
  (snd (fst x) = false -> exists z', In z' (t_ss s') /\ z_same z z').

Lemma disp_keep k f s z z' o : keys_ok s -> In z (t_ss s) -> z_same z z' -> trans (tx k s) (f ++ opens s) o (f ++ opens s) ->
  disp k f s z (ss_put s z', false, o).
Proof.
  intros K I [E1 E2] T. destruct (ss_put_same s z z' K I E1 E2) as [O M]. repeat split; cbn [fst snd].
  - unfold keys_ok. rewrite M. auto.
  - rewrite O. auto.
  - intros _. exists z'. split; [|split; auto]. unfold ss_put. cbn. apply in_map_iff. exists z. split; auto.
    replace (ss_is _ _ z) with true; auto. symmetry. apply ss_is_iff. auto.
Qed.
Lemma reqs_incl f s z : In z (t_ss s) -> incl (z_reqs z) (f ++ opens s).
Proof. intros I x Hx. unfold opens. rewrite !in_app_iff. right. right. apply in_flat_map. eauto. Qed.

Lemma dispatch_ss_ok k f s z fe g r : keys_ok s -> In z (t_ss s) -> ssmsg g -> all_rets (disp k f s z) (ss_dispatch k s z fe g r).
Proof.
  intros K I G. pose proof (reqs_incl f s z I) as Inc.
  assert (KEEP : forall p, all_rets (fun x => z_same z (fst x) /\ trans (tx k s) (f ++ opens s) (snd x) (f ++ opens s)) p ->
            all_rets (disp k f s z) (do x <- p;; Ret (ss_put s (fst x), false, snd x))).
  { intros p H. apply all_rets_bind. eapply all_rets_impl; [|exact H]. intros x [A B]. apply disp_keep; auto. }
  assert (KERR : forall c, all_rets (disp k f s z) (do x <- ss_tx_error k s z (r_invoke r) c;; Ret (ss_put s (fst x), false, snd x))).
  { intros c. apply KEEP. eapply all_rets_impl; [|apply ss_err_ok; exact Inc]. intros x (A & B & C). auto. }
  unfold ss_dispatch. destruct (op_is_ussd _); [|apply KERR].
  unfold handle_ussd.
  assert (KE : all_rets (disp k f s z) (do x <- ss_send_to_ms k s z g;; Ret (ss_put s (fst x), false, snd x))).
  { apply KEEP. eapply all_rets_impl; [|apply send_to_ms_ok; [exact G|exact Inc]]. intros x (A & B & C). auto. }
  destruct (z_hdl z); [apply KERR| | |]; destruct fe; auto; try exact Logic.I.
  - apply all_rets_bind. eapply all_rets_impl; [|apply run_iuse_ok; exact Inc]. intros [z' o] [[E1 E2] T]. cbn [fst snd] in *.
    destruct (z_state z' =? SS_END); [|apply disp_keep; auto; split; auto].
    unfold ss_free. cbn [all_rets]. repeat split; cbn [fst snd].
    + apply (ss_free_keys s z'). auto.
    + eapply trans_app; [exact T|]. apply trans_frame.
      eapply trans_perm_l; [symmetry; apply (ss_free_perm s z' z); auto|]. rewrite <- E2. apply free_trans.
    + discriminate.
  - destruct (route_find _ _); [|apply KERR]. cbn [all_rets]. repeat split; auto.
    + apply tr_tx, trans_refl. + intros _. exists z. split; auto using z_same_refl.
Qed.

Lemma proc_ss_lin k s q : keys_ok s -> ssmsg (q_gsup q) -> all_rets (lin k s q) (rx_proc_ss_req k s q).
Proof.
  intros K G. unfold rx_proc_ss_req. destruct (negb (is_ipa _)); [apply lin_err; auto|].
  destruct (match pl_octets _ with [] => _ | _ => _ end) as [r|]; [|apply lin_err; auto].
  assert (FREE : lin k s q (s, [OFree (q_nr q)])). { apply lin_same; auto. apply trans_free. }
  destruct (g_ss _ =? SS_BEGIN).
  { destruct (ss_find _ _ _) eqn:Ef; [apply lin_err; auto|]. destruct (ss_handler _ _ _ _) as [h|]; [|exact I].
    set (z := if peer_is_euse _ then _ else _). cbv zeta.
    assert (Zr : z_reqs z = [q]). { unfold z, z_reqs. destruct (peer_is_euse _); reflexivity. }
    assert (Zk : z_key z = (g_imsi (q_gsup q), g_sid (q_gsup q))). { unfold z, z_key. destruct (peer_is_euse _); reflexivity. }
    set (s1 := with_ss s (t_ss s ++ [z])).
    assert (K1 : keys_ok s1).
    { unfold keys_ok, s1. cbn. rewrite map_app. apply (Permutation_NoDup (l := z_key z :: map z_key (t_ss s))).
      - apply (Permutation_cons_append (map z_key (t_ss s)) (z_key z)).
      - constructor; auto. rewrite Zk. intros Hin. apply in_map_iff in Hin. destruct Hin as (y & Ey & Iy).
        unfold ss_find in Ef. pose proof (find_none _ _ Ef y Iy) as X. unfold ss_is in X. unfold z_key in Ey. injection Ey as E1 E2. rewrite E1, E2 in X.
        rewrite String.eqb_refl, Z.eqb_refl in X. discriminate. }
    assert (I1 : In z (t_ss s1)). { unfold s1. cbn. apply in_or_app. right. left. auto. }
    apply all_rets_bind. eapply all_rets_impl; [|apply (dispatch_ss_ok k [] s1 z); auto].
    intros [[s2 b] o] (A & B & C & D). cbn [fst snd app all_rets] in *. repeat split; auto. cbn [fst snd].
    eapply trans_perm_l; [|exact C]. unfold opens, s1. cbn. rewrite flat_map_app. cbn. rewrite Zr. cbn.
    rewrite app_assoc. symmetry. apply Permutation_cons_append. }
  destruct (g_ss _ =? SS_CONTINUE).
  { destruct (ss_find _ _ _) as [z|] eqn:Ef; [|apply lin_err; auto]. apply ss_find_in in Ef. destruct Ef as (I1 & _).
    apply all_rets_bind. eapply all_rets_impl; [|apply (dispatch_ss_ok k [q] s z); auto].
    intros [[s2 b] o] (A & B & C & D). cbn [fst snd app all_rets] in *. repeat split; auto. cbn [fst snd].
    eapply trans_app; [exact C|]. apply trans_free. }
  destruct (g_ss _ =? SS_END); [|exact FREE].
  destruct (ss_find _ _ _) as [z|] eqn:Ef; [|apply lin_err; auto]. apply ss_find_in in Ef. destruct Ef as (I1 & _).
  apply all_rets_bind. eapply all_rets_impl with (P := disp k [q] s z).
  - intros [[s2 b] o] (A & B & C & D). cbn [fst snd app] in *. destruct b; [exact I|].
    destruct (D eq_refl) as (z' & I2 & S1 & S2). unfold ss_free. cbn [all_rets]. repeat split; auto; cbn [fst snd].
    + apply (ss_free_keys s2 z). auto.
    + eapply trans_app; [exact C|]. eapply trans_app; [|apply trans_free].
      eapply trans_perm_l with (a := z_reqs z ++ q :: opens (fst (ss_free s2 z))); [|apply free_trans].
      rewrite (ss_free_perm s2 z z'); auto. rewrite S2. symmetry. apply Permutation_middle.
  - destruct (pl_octets _); [|apply dispatch_ss_ok; auto]. cbn [all_rets]. repeat split; auto.
    + apply trans_refl. + intros _. exists z. auto using z_same_refl.
Qed.

Lemma dispatch_lin k w s q : hinv s -> all_rets (lin k s q) (dispatch k w s q).
Proof.
  intros H. pose proof (hi_keys s H) as K. unfold dispatch.
  assert (FREE : lin k s q (s, [OFree (q_nr q)])). { apply lin_same; auto. apply trans_free. }
  destruct (_ =? MSGT_SEND_AUTH_INFO_REQUEST); [apply same_lin; auto using sai_lin|].
  destruct (_ =? MSGT_UPDATE_LOCATION_REQUEST); [apply upd_loc_lin; auto|].
  destruct (_ =? MSGT_PURGE_MS_REQUEST); [apply same_lin; auto using purge_lin|].
  destruct (_ || _); [exact FREE|].
  destruct (_ || _) eqn:E.
  { apply proc_ss_lin; auto. apply Bool.orb_true_iff in E. rewrite !Z.eqb_eq in E. destruct E as [E|E].
    - unfold ssmsg. rewrite E. split; [unfold ss_type, MSGT_PROC_SS_REQUEST; lia|apply not_error; reflexivity].
    - apply ssmsg_result; auto. }
  clear E. destruct (_ =? MSGT_PROC_SS_ERROR); [exact FREE|].
  destruct (_ || _); [apply lu_rx_lin; auto|].
  destruct (_ =? MSGT_CHECK_IMEI_REQUEST); [apply same_lin; auto using imei_lin|].
  destruct (_ =? MSGT_MO_FORWARD_SM_REQUEST) eqn:E2.
  { apply same_lin; auto. apply mo_sms_trans. apply Z.eqb_eq in E2. rewrite E2. apply is_request_iff. reflexivity. }
  destruct (_ =? MSGT_MT_FORWARD_SM_REQUEST); [apply same_lin; auto using mt_sms_trans|].
  destruct (_ =? MSGT_READY_FOR_SM_REQUEST); [apply same_lin; auto using ready_trans|exact FREE].
Qed.
