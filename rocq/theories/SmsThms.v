(** Short messages (C31). *)
From Verif Require Import Base PeerId Db DbSpec DbProofs DbThms DbThms2 DbThms3 Auth AuthSpec AuthThms AuthThms2 AuthThms3 Gsup Router Hlr UssdCfg SmsCfg PeerSpec PeerThms HlrSpec UssdSpec SmsSpec HlrThms RouterThms HlrThms2 HlrThms3 HlrStep HlrThms4 HlrThms5 HlrThms6 HlrThms7 HlrThms8 HlrSpec2 HlrThms9 UssdThms UssdThms2.

Lemma half_nibbles l i v : half l i v <-> nth_error (nibbles_of l) i = Some v.
Proof.
  revert i. induction l as [|o l IH]; intros i.
  - split; [intros ([|j] & o & E & _); discriminate|]. destruct i; discriminate.
  - cbn [nibbles_of flat_map app]. split.
    + intros ([|j] & o' & E & H); cbn in E.
      * injection E as <-. destruct H as [[-> ->]|[-> ->]]; reflexivity.
      * assert (X : exists i', i = S (S i') /\ half l i' v). { destruct H as [[-> ->]|[-> ->]]; eexists; (split; [|exists j, o'; split; [exact E|]]); [|left; eauto| |right; eauto]; lia. }
        destruct X as (i' & -> & X). apply IH in X. exact X.
    + destruct i as [|[|i]]; cbn.
      * intros [= <-]. exists 0%nat, o. split; auto.
      * intros [= <-]. exists 0%nat, o. split; auto.
      * intros E. apply IH in E as (j & o' & E & H). exists (S j), o'. split; auto. destruct H as [[-> ->]|[-> ->]]; [left|right]; split; auto; lia.
Qed.
Lemma symbol_char v : (v < 15)%N -> symbol v (bcd_char v).
Proof.
  intros L. assert (In v [0;1;2;3;4;5;6;7;8;9;10;11;12;13;14]%N) as I by (cbn; lia). cbn in I. repeat (destruct I as [<-|I]; [reflexivity|]). destruct I.
Qed.
Lemma text_reads ns : Forall (fun v => (v < 16)%N) ns ->
  (forall i c, String.get i (bcd_text ns) = Some c -> exists v, nth_error ns i = Some v /\ symbol v c) /\
  (String.length (bcd_text ns) = length ns \/ nth_error ns (String.length (bcd_text ns)) = Some 15%N).
Proof.
  induction 1 as [|v ns L F [I1 I2]]; cbn [bcd_text].
  - split; [intros [|i] c; discriminate|]. auto.
  - destruct (N.eqb_spec v 15) as [->|N].
    + split; [intros [|i] c; discriminate|]. right. reflexivity.
    + split.
      * intros [|i] c E; cbn in E; [|apply I1 in E; exact E]. injection E as <-. exists v. split; auto. apply symbol_char. lia.
      * cbn [String.length length nth_error]. destruct I2; auto.
Qed.
Lemma nibbles_16 l : Forall (fun o => (o < 256)%N) l -> Forall (fun v => (v < 16)%N) (nibbles_of l).
Proof.
  induction 1 as [|o l L F IH]; cbn; constructor; [apply N.mod_upper_bound; lia|constructor; auto]. apply N.div_lt_upper_bound; lia.
Qed.
Lemma decode_reads l : Forall (fun o => (o < 256)%N) l -> reads l (bcd_text (nibbles_of l)).
Proof.
  intros F. destruct (text_reads _ (nibbles_16 l F)) as [A B]. rewrite nibbles_len in B. split.
  - intros i c E. apply A in E as (v & E & S1). exists v. split; auto. apply half_nibbles; auto.
  - destruct B as [B|B]; auto. right. apply half_nibbles; auto.
Qed.

Lemma find_smsc_spec k a : centre k a (find_smsc k a).
Proof.
  unfold find_smsc. destruct (find _ _) as [[b n]|] eqn:F.
  - assert (X : exists l1 l2, k_smsc_routes k = l1 ++ (a, n) :: l2 /\ forall m, ~ In (a, m) l1); [|destruct X as (l1 & l2 & E & N); eapply ce_route; eauto].
    revert F. induction (k_smsc_routes k) as [|[x y] l IH]; cbn; [discriminate|]. destruct (String.eqb_spec x a) as [->|N].
    + intros [= <- <-]. exists [], l. split; auto.
    + intros F. destruct (IH F) as (l1 & l2 & -> & H). exists ((x, y) :: l1), l2. split; auto. intros m [[= E _]|I]; [congruence|]. exact (H m I).
  - apply ce_default. intros m I. apply (find_none _ _ F) in I. cbn in I. rewrite String.eqb_refl in I. discriminate.
Qed.
Lemma centre_unique k a t t' : centre k a t -> centre k a t' -> t = t'.
Proof.
  intros [n l1 l2 E N|N] [n' l1' l2' E' N'|N']; auto.
  - rewrite E in E'. clear E. revert l1' E' N'. induction l1 as [|x l1 IH]; intros [|y l1'] E' N'; cbn in E'.
    + injection E' as <- _. auto.
    + injection E' as <- _. destruct (N' n). left; auto.
    + injection E' as -> _. destruct (N n'). left; auto.
    + injection E' as <- E'. apply (IH (fun m I => N m (or_intror I)) l1' E' (fun m I => N' m (or_intror I))).
  - destruct (N' n). rewrite E. apply in_app_iff. right; left; auto.
  - destruct (N n'). rewrite E'. apply in_app_iff. right; left; auto.
Qed.
Lemma symbol_v v c : symbol v c -> (v < 15)%N /\ c = bcd_char v.
Proof.
  unfold symbol. intros H. destruct (N.lt_ge_cases v 15) as [L|G].
  - split; auto. pose proof (symbol_char v L) as E. unfold symbol in E. congruence.
  - exfalso. destruct (N.to_nat v) as [|n] eqn:E; [lia|]. assert (14 <= n)%nat by lia. do 14 (destruct n as [|n]; [lia|]). cbn in H. destruct n; discriminate.
Qed.
Lemma reads_text ns : forall a, (forall i c, String.get i a = Some c -> exists v, nth_error ns i = Some v /\ symbol v c) ->
  (String.length a = length ns \/ nth_error ns (String.length a) = Some 15%N) -> a = bcd_text ns.
Proof.
  induction ns as [|v ns IH]; intros a A B.
  - destruct B as [B|B]; [destruct a; [auto|discriminate B]|]. destruct (String.length a); discriminate B.
  - cbn [bcd_text]. destruct a as [|c a].
    + destruct B as [B|B]; [discriminate B|]. cbn in B. injection B as ->. reflexivity.
    + destruct (A 0%nat c eq_refl) as (v' & [= <-] & S1). apply symbol_v in S1 as [L ->]. destruct (N.eqb_spec v 15); [lia|]. f_equal. apply IH.
      * intros i c E. exact (A (S i) c E).
      * cbn in B. destruct B as [B|B]; auto.
Qed.
Lemma reads_iff l a : Forall (fun o => (o < 256)%N) l -> reads l a <-> a = bcd_text (nibbles_of l).
Proof.
  intros F. split; [|intros ->; apply decode_reads; auto]. intros [A B]. apply reads_text.
  - intros i c E. destruct (A i c E) as (v & H & S1). exists v. split; auto. apply half_nibbles; auto.
  - rewrite nibbles_len. destruct B as [B|B]; auto. right. apply half_nibbles; auto.
Qed.

(** * Forwarding by name *)
Lemma named_addr n : addr_of (named n) = named n.
Proof. unfold addr_of, named. rewrite last_last. reflexivity. Qed.
Lemma send_named k v n g dest : sinv v -> ipa_wf dest -> ipa_bytes dest = named n ->
  exists rc o, enc_send_to (k_enc k) v dest g = Some (rc, o) /\
   ((rc = 0 /\ exists c, leads v (named n) c /\ k_enc k g = true /\ o = [OTx c g]) \/
    (rc <> 0 /\ o = [] /\ ((forall c, ~ leads v (named n) c) \/ k_enc k g = false))).
Proof.
  intros SV W B. unfold enc_send_to. destruct (k_enc k g) eqn:K.
  - destruct (send_to_ok v dest g SV W) as (rc & o & E & H). { rewrite B. unfold named. destruct (bytes_of n); discriminate. }
    exists rc, o. split; auto. rewrite B, named_addr in H. destruct H as [(-> & c & -> & L)|(N & -> & [H|H])].
    + left. split; auto. exists c. auto.
    + right. auto.
    + exfalso. destruct W as [W1 W2]. rewrite <- B in H. unfold ipa_bytes in H. rewrite firstn_length, W1 in H. unfold IPA_MAX in H. lia.
  - do 2 eexists. split; [reflexivity|]. right. split; [discriminate|]. auto.
Qed.
Lemma to_name_run k s q n f d o d' f' : sinv (t_srv s) -> p_type (q_src q) = PT_IPA -> run (forward_to_name k s n q) f d = (Fin o, d', f') ->
  d' = d /\ (String.length n <= 127)%nat /\ passed_on k (t_srv s) (q_nr q) (q_gsup q) (ipa_bytes (p_ipa (q_src q))) n o.
Proof.
  intros SV P. unfold forward_to_name, peer_set. destruct (ipa_set (p_ipa peer_zero) (Some (bytes_of n ++ [nul]))) as [rc dest] eqn:Es.
  destruct (ipa_set_bytes _ _ _ _ ipa_empty_wf Es) as (W & [(-> & B)|(-> & _ & _)]); [|discriminate].
  cbn [negb Z.eqb]. unfold forward_to_local_peer. rewrite P. cbn [p_type p_ipa].
  assert (Ln : (String.length n <= 127)%nat).
  { destruct W as [W1 W2]. pose proof (f_equal (@length ascii) B) as L. unfold ipa_bytes in L. rewrite firstn_length, W1, app_length, bytes_len in L. cbn [length] in L. unfold IPA_MAX in *. lia. }
  destruct (send_named k (t_srv s) n (with_src (q_gsup q) (ipa_bytes (p_ipa (q_src q)))) dest SV W B) as (rc & o1 & -> & [(-> & c & L & K & ->)|(N & -> & H)]).
  - cbn [Z.eqb app]. intros R. apply fin_ret in R as (-> & -> & _). split; auto. split; auto. apply po_sent; auto.
  - destruct (rc =? 0) eqn:Z0; [apply Z.eqb_eq in Z0; tauto|]. intros R. apply fin_ret in R as (-> & -> & _). split; auto. split; auto.
    apply po_error; auto. unfold respond_msgt.
    destruct (respond_plain_out (srv_tx (k_enc k) (t_srv s)) q (msg0 MSGT_ROUTING_ERROR) (is_error MSGT_ROUTING_ERROR) true MSGT_ROUTING_ERROR) as (r & -> & T & C & X); [repeat split|reflexivity|discriminate|].
    exists r. eexists. split; [reflexivity|]. rewrite T, C, X. auto.
Qed.
Lemma err_refused k s q t c : is_request (g_type (q_gsup q)) = true -> to_error (g_type (q_gsup q)) = t -> refused (q_nr q) t c None (respond_err (tx k s) q c).
Proof.
  intros R T. destruct (respond_err_out (tx k s) q c R) as (r & -> & Ty & C & X). exists r. eexists. split; [reflexivity|]. rewrite Ty, C, X, T. auto.
Qed.
Lemma rp_refused k s q t c : to_error (g_type (q_gsup q)) = t -> refused (q_nr q) t 0 (Some c) (respond_rp_cause k s q c).
Proof.
  intros T. unfold respond_rp_cause.
  match goal with |- refused _ _ _ _ (snd (respond ?a ?b ?m ?d ?e)) => destruct (respond_plain a b m d e) as (r & -> & Ty & C & X); [repeat split|] end.
  exists r. eexists. split; [reflexivity|]. rewrite Ty, C, X, <- T. auto.
Qed.

(** * C31 *)
Definition octets (g : gsup) : Prop := forall t l, x_da (g_x g) = Some (t, l) -> Forall (fun o => (o < 256)%N) l.
Lemma mo_run k s q f d o d' f' : sinv (t_srv s) -> p_type (q_src q) = PT_IPA -> g_type (q_gsup q) = MSGT_MO_FORWARD_SM_REQUEST -> octets (q_gsup q) ->
  run (forward_mo_sms k s q) f d = (Fin o, d', f') ->
  d' = d /\ mo_outcome k (t_srv s) (q_nr q) (q_gsup q) (ipa_bytes (p_ipa (q_src q))) o.
Proof.
  intros SV P T Oc. unfold forward_mo_sms.
  assert (RQ : is_request (g_type (q_gsup q)) = true) by (rewrite T; reflexivity).
  assert (TE : to_error (g_type (q_gsup q)) = 37) by (rewrite T; reflexivity).
  destruct (x_da (g_x (q_gsup q))) as [[t [|o0 da]]|] eqn:X.
  1, 3: intros R; apply fin_ret in R as (-> & -> & _); split; auto; apply mo_missing; [|apply err_refused; auto].
  1: intros t' l E; right; congruence.
  1: intros t' l E; congruence.
  destruct (Z.eqb_spec t ODA_SMSC_ADDR) as [->|N]; cbn [negb].
  2: { intros R; apply fin_ret in R as (-> & -> & _); split; auto; apply mo_missing; [|apply err_refused; auto]. intros t' l E. left. unfold ODA_SMSC_ADDR in N. congruence. }
  destruct ((length da <? 1)%nat || (10 <? length da)%nat || (o0 <? 128)%N) eqn:B.
  { intros R; apply fin_ret in R as (-> & -> & _); split; auto. apply (mo_bad _ _ _ _ _ _ o0 da); auto; [|apply rp_refused; auto].
    intros [L1 L2]. rewrite !orb_true_iff, !Nat.ltb_lt, N.ltb_lt in B. lia. }
  rewrite !orb_false_iff, !Nat.ltb_ge, N.ltb_ge in B. destruct B as [[B1 B2] B3].
  assert (D : bcd_decode 20 (N.of_nat (length da) :: da) = Some (bcd_text (nibbles_of da))).
  { unfold bcd_decode. rewrite Nat2N.id, Nat.ltb_irrefl, firstn_all, nibbles_len. destruct (Nat.ltb_spec 20 (2 * length da)); [lia|reflexivity]. }
  rewrite D. cbn [opt_default].
  assert (A : smsc_address (q_gsup q) (bcd_text (nibbles_of da))).
  { exists o0, da. repeat split; auto. apply Oc in X. inversion X. apply decode_reads; auto. apply Oc in X. inversion X. apply decode_reads; auto. }
  pose proof (find_smsc_spec k (bcd_text (nibbles_of da))) as F. destruct (find_smsc _ _) as [n|].
  - intros R. apply to_name_run in R as (-> & _ & PO); auto. split; auto. eapply mo_passed; eauto.
  - intros R; apply fin_ret in R as (-> & -> & _); split; auto. eapply mo_nobody; eauto. apply rp_refused; auto.
Qed.
Lemma str_take_empty n s : str_take (S n) s = "" -> s = "".
Proof. destruct s; [auto|discriminate]. Qed.
Lemma mt_run k s q f d o d' f' : sinv (t_srv s) -> p_type (q_src q) = PT_IPA -> g_type (q_gsup q) = MSGT_MT_FORWARD_SM_REQUEST ->
  run (forward_mt_sms k s q) f d = (Fin o, d', f') ->
  d' = d /\ mt_outcome k (t_srv s) d (In EvFail f) (q_nr q) (q_gsup q) (ipa_bytes (p_ipa (q_src q))) o.
Proof.
  intros SV P T. unfold forward_mt_sms.
  assert (RQ : is_request (g_type (q_gsup q)) = true) by (rewrite T; reflexivity).
  assert (TE : to_error (g_type (q_gsup q)) = 41) by (rewrite T; reflexivity).
  intros R. apply fin_bind in R as ([rc sub] & d1 & f1 & R1 & R2). apply get_imsi_run in R1 as (-> & [(-> & row & h & -> & I & Ei & Hs)|[(-> & N)|(-> & N)]]).
  - cbn [Z.ltb Z.compare] in R2. destruct (node_fields _ _ _ Hs) as [V _]. unfold node in V. destruct (String.eqb_spec (h_vlr h) "") as [E|E].
    + apply fin_ret in R2 as (-> & -> & _). split; auto. eapply mt_detached; eauto; [|apply err_refused; auto].
      rewrite V in E. destruct (serving CS row) as [n|]; auto. right. f_equal. apply str_take_empty in E. auto.
    + apply to_name_run in R2 as (-> & _ & PO); auto. split; auto. rewrite V in *. destruct (serving CS row) as [n|] eqn:Sv; [|destruct E; reflexivity].
      eapply mt_passed; eauto. intros ->. destruct E. reflexivity.
  - apply fin_ret in R2 as (-> & -> & _). split; auto. eapply mt_unknown; [left; auto|apply err_refused; auto].
  - apply fin_ret in R2 as (-> & -> & _). split; auto. eapply mt_unknown; [right; auto|apply err_refused; auto].
Qed.
Lemma copy_run k s g : sinv (t_srv s) -> forall ns o, copy_to_smscs k s g ns = Some o -> exists ls, o = concat ls /\ Forall2 (copy_for k (t_srv s) g) ns ls.
Proof.
  intros SV. induction ns as [|n ns IH]; intros o; cbn [copy_to_smscs].
  - intros [= <-]. exists []. split; auto.
  - destruct (ipa_set ipa_empty (Some (bytes_of n ++ [nul]))) as [rc dest] eqn:Es.
    destruct (ipa_set_bytes _ _ _ _ ipa_empty_wf Es) as (W & [(-> & B)|(-> & _ & _)]); [|discriminate]. cbn [negb Z.eqb].
    destruct (send_named k (t_srv s) n (with_src g (bytes_of (k_serno k) ++ [nul])) dest SV W B) as (rc & o1 & -> & H).
    destruct (copy_to_smscs k s g ns) as [o'|]; [|discriminate]. intros [= <-]. destruct (IH o' eq_refl) as (ls & -> & F). exists (o1 :: ls). split; auto. constructor; auto.
    destruct H as [(_ & c & L & K & ->)|(_ & -> & H)]; [left; exists c; auto|right; auto].
Qed.

Section Step.
  Context (k : cfg) (s : hst) (d : db) (w : world) (c : nat) (g : gsup) (f : sched) (s' : hst) (d' : db) (o : list out).
  Hypothesis H : inv s.
  Hypothesis U : for_us k (t_srv s) c g.
  Hypothesis NC : no_crash f.
  Hypothesis E : step k (s, d) (w, ERx c g, f) = Some (s', d', o).

  Lemma mo_step : g_type g = 36 -> octets g -> exists a o', sends_as (t_srv s) c g a /\ o = ORx (t_nr s) c g :: o' /\ d' = d /\ mo_outcome k (t_srv s') (t_nr s) g a o'.
  Proof.
    intros T Oc. destruct (rx_step _ _ _ _ _ _ _ _ _ _ H U E) as (s1 & q & R & [(o' & f' & -> & Rn)|(_ & _ & C & _)]); [|destruct (NC C)].
    pose proof (rr_gsup _ _ _ _ _ _ R) as Eg.
    assert (Rn' : run (same s1 (forward_mo_sms k s1 q)) f d = (Fin (s', o'), d', f')) by (rewrite <- Rn; unfold dispatch; rewrite Eg, T; reflexivity).
    unfold same in Rn'. apply fin_bind in Rn' as (o1 & d1 & f1 & R1 & R2). apply fin_ret in R2 as ([= -> ->] & -> & ->).
    apply mo_run in R1 as (-> & M); [|apply (rr_sinv _ _ _ _ _ _ R)|apply (rr_ipa _ _ _ _ _ _ R)|rewrite Eg; auto|rewrite Eg; auto].
    rewrite Eg, (rr_nr _ _ _ _ _ _ R) in M. exists (ipa_bytes (p_ipa (q_src q))), o1. split; [apply (rr_name _ _ _ _ _ _ R)|auto].
  Qed.
  Lemma mt_step : g_type g = 40 -> exists a o', sends_as (t_srv s) c g a /\ o = ORx (t_nr s) c g :: o' /\ d' = d /\ mt_outcome k (t_srv s') d (In EvFail f) (t_nr s) g a o'.
  Proof.
    intros T. destruct (rx_step _ _ _ _ _ _ _ _ _ _ H U E) as (s1 & q & R & [(o' & f' & -> & Rn)|(_ & _ & C & _)]); [|destruct (NC C)].
    pose proof (rr_gsup _ _ _ _ _ _ R) as Eg.
    assert (Rn' : run (same s1 (forward_mt_sms k s1 q)) f d = (Fin (s', o'), d', f')) by (rewrite <- Rn; unfold dispatch; rewrite Eg, T; reflexivity).
    unfold same in Rn'. apply fin_bind in Rn' as (o1 & d1 & f1 & R1 & R2). apply fin_ret in R2 as ([= -> ->] & -> & ->).
    apply mt_run in R1 as (-> & M); [|apply (rr_sinv _ _ _ _ _ _ R)|apply (rr_ipa _ _ _ _ _ _ R)|rewrite Eg; auto].
    rewrite Eg, (rr_nr _ _ _ _ _ _ R) in M. exists (ipa_bytes (p_ipa (q_src q))), o1. split; [apply (rr_name _ _ _ _ _ _ R)|auto].
  Qed.
  Lemma ready_step : g_type g = 44 -> exists ls r co, o = ORx (t_nr s) c g :: concat ls ++ [OResp (t_nr s) r true co] /\ d' = d /\
    Forall2 (copy_for k (t_srv s') g) (k_smscs k) ls /\ g_type r = 46 /\ g_cause r = 0.
  Proof.
    intros T. destruct (rx_step _ _ _ _ _ _ _ _ _ _ H U E) as (s1 & q & R & [(o' & f' & -> & Rn)|(_ & _ & C & _)]); [|destruct (NC C)].
    pose proof (rr_gsup _ _ _ _ _ _ R) as Eg.
    assert (Rn' : run (same s1 (rx_ready_for_sm_req k s1 q)) f d = (Fin (s', o'), d', f')) by (rewrite <- Rn; unfold dispatch; rewrite Eg, T; reflexivity).
    unfold same in Rn'. apply fin_bind in Rn' as (o1 & d1 & f1 & R1 & R2). apply fin_ret in R2 as ([= -> ->] & -> & ->).
    unfold rx_ready_for_sm_req in R1. destruct (copy_to_smscs _ _ _ _) as [o2|] eqn:Cp; [|discriminate]. apply fin_ret in R1 as (-> & -> & _).
    apply copy_run in Cp as (ls & -> & F); [|apply (rr_sinv _ _ _ _ _ _ R)]. rewrite Eg in F. unfold respond_msgt.
    destruct (respond_plain_out (tx k s1) q (msg0 MSGT_READY_FOR_SM_RESULT) (is_error MSGT_READY_FOR_SM_RESULT) true MSGT_READY_FOR_SM_RESULT) as (r & -> & Ty & C & X); [repeat split|reflexivity|discriminate|].
    exists ls, r. eexists. rewrite (rr_nr _ _ _ _ _ _ R). split; [reflexivity|]. rewrite Ty, C. auto.
  Qed.
End Step.

(** * Definedness *)
Lemma to_name_safe k s n q d : sinv (t_srv s) -> p_type (q_src q) = PT_IPA -> (String.length n <= 127)%nat -> safe (forward_to_name k s n q) d.
Proof.
  intros SV P L. unfold forward_to_name, peer_set. destruct (ipa_set (p_ipa peer_zero) (Some (bytes_of n ++ [nul]))) as [rc dest] eqn:Es.
  destruct (ipa_set_bytes _ _ _ _ ipa_empty_wf Es) as (W & [(-> & B)|(-> & _ & B)]); [|rewrite app_length, bytes_len in B; unfold IPA_MAX in B; cbn in B; lia].
  cbn [negb Z.eqb]. unfold forward_to_local_peer. rewrite P. cbn [p_type p_ipa].
  destruct (send_named k (t_srv s) n (with_src (q_gsup q) (ipa_bytes (p_ipa (q_src q)))) dest SV W B) as (rc & o1 & -> & _). destruct (rc =? 0); apply safe_ret.
Qed.
Lemma mo_safe k s q d : sinv (t_srv s) -> p_type (q_src q) = PT_IPA -> short_names k -> safe (forward_mo_sms k s q) d.
Proof.
  intros SV P (_ & S2 & S3). unfold forward_mo_sms. destruct (x_da _) as [[t [|o0 da]]|]; try apply safe_ret.
  destruct (negb _); [apply safe_ret|]. destruct (_ || _); [apply safe_ret|]. unfold find_smsc. destruct (find _ _) as [[a n]|] eqn:F.
  - apply find_some in F as [I _]. apply to_name_safe; eauto.
  - destruct (k_smsc_default k); [|apply safe_ret]. apply to_name_safe; auto.
Qed.
Lemma mt_safe k s q d : sinv (t_srv s) -> p_type (q_src q) = PT_IPA -> plain_nodes d (g_imsi (q_gsup q)) -> safe (forward_mt_sms k s q) d.
Proof.
  intros SV P Pn. unfold forward_mt_sms. apply safe_bind; [apply get_safe; auto|]. intros [rc sub] d1 f f1 R.
  apply get_imsi_run in R as (-> & [(-> & row & h & -> & I & E & H)|[(-> & _)|(-> & _)]]); try apply safe_ret. cbn [Z.ltb Z.compare].
  destruct (_ =? _)%string; [apply safe_ret|]. apply to_name_safe; auto. destruct (node_fields _ _ _ H) as [-> _]. unfold node.
  etransitivity; [apply str_take_len|]. lia.
Qed.
Lemma ready_safe k s q d : sinv (t_srv s) -> short_names k -> safe (rx_ready_for_sm_req k s q) d.
Proof.
  intros SV (S1 & _). unfold rx_ready_for_sm_req.
  assert (X : exists o, copy_to_smscs k s (q_gsup q) (k_smscs k) = Some o); [|destruct X as [o ->]; apply safe_ret].
  revert S1. induction (k_smscs k) as [|n ns IH]; intros S1; cbn [copy_to_smscs]; [eauto|].
  destruct (ipa_set ipa_empty (Some (bytes_of n ++ [nul]))) as [rc dest] eqn:Es. pose proof (S1 n (or_introl eq_refl)).
  destruct (ipa_set_bytes _ _ _ _ ipa_empty_wf Es) as (W & [(-> & B)|(-> & _ & B)]); [|rewrite app_length, bytes_len in B; unfold IPA_MAX in B; cbn in B; lia].
  cbn [negb Z.eqb]. destruct (send_named k (t_srv s) n (with_src (q_gsup q) (bytes_of (k_serno k) ++ [nul])) dest SV W B) as (rc & o1 & -> & _).
  destruct IH as [o' ->]; [intros m I; apply S1; right; auto|]. eauto.
Qed.
Lemma same_safe {A} (s : hst) (p : prog A) d : safe p d -> safe (bind p (fun o => Ret (s, o))) d.
Proof. intros S1. apply safe_bind; auto. intros. apply safe_ret. Qed.
Lemma c31_defined k s d w c g f : reached k s d -> sms_type (g_type g) -> g_dst g = [] -> short_names k -> plain_nodes d (g_imsi g) ->
  step k (s, d) (w, ERx c g, f) <> None.
Proof.
  intros Rc T Ds Sh P E. destruct (reached_fine _ _ _ Rc) as (H & _). destruct (H) as [HI SV].
  unfold step in E. cbn [fst snd handle] in E. destruct (find_conn (t_srv s) c); [|discriminate]. unfold read_cb in E. rewrite run_bind in E.
  destruct (run (read_msg k w s c g) f d) as [[[x| |] d2] f2] eqn:R; try discriminate. clear E. revert R.
  destruct (read_msg_kind k w s c g SV) as [v o' Sv O|N|v dest q N|v q Sv Q1 Q2 Q3 Q4 Q5]; intros R.
  - discriminate.
  - contradiction.
  - apply N. left. auto.
  - assert (X : safe (dispatch k w (mk_hst v (t_lus s) (t_ss s) (S (t_nr s))) q) d); [|exact (X _ _ _ _ R eq_refl)].
    unfold dispatch. rewrite Q2. destruct T as [->|[->| ->]]; cbn -[forward_mo_sms forward_mt_sms rx_ready_for_sm_req].
    + apply same_safe, mo_safe; auto.
    + apply same_safe, mt_safe; auto. rewrite Q2. auto.
    + apply same_safe, ready_safe; auto.
Qed.

(** * Configuration *)
Lemma Forall2_imp {A B} (P Q : A -> B -> Prop) (X : forall a b, P a b -> Q a b) l m : Forall2 P l m -> Forall2 Q l m.
Proof. induction 1; constructor; auto. Qed.
Lemma nth_as h i x : nth_error (map as_ucmd h) i = Some x -> exists y, nth_error h i = Some y /\ as_ucmd y = x.
Proof. rewrite nth_error_map. destruct (nth_error h i) as [y|]; [|discriminate]. intros [= <-]. eauto. Qed.
Lemma as_first i h : map as_ucmd (firstn i h) = firstn i (map as_ucmd h).
Proof. symmetry. apply firstn_map. Qed.
Lemma c31_table h : NoDup (map fst (u_routes (scmds_run h))) /\
  exists is, increasing is /\ Forall2 (entry_of h) is (u_routes (scmds_run h)).
Proof.
  destruct (c29_table (map as_ucmd h)) as (N & is & I & F). split; auto. exists is. split; auto. unfold scmds_run. revert F. apply Forall2_imp.
  intros i [p a] (M & Nw & L). cbn [fst snd] in *. destruct a as [x|nr].
  - apply nth_as in M as ([] & _ & M); discriminate.
  - destruct M as (n & e & M & I1 & En & Er). apply nth_as in M as ([] & E & M); try discriminate. injection M as -> ->. exists n, nr. cbn [fst snd]. split; auto.
    split; auto. split; [|split].
    + unfold scmds_run. rewrite as_first. destruct e. cbn in *. subst. auto.
    + unfold scmds_run. rewrite as_first. auto.
    + intros j J E'. apply (L j J). rewrite nth_error_map, E'. reflexivity.
Qed.
Lemma c31_complete h i a n e : nth_error h i = Some (SRoute a n) -> In e (u_euses (scmds_run (firstn i h))) -> e_name e = n ->
  (forall j, (i < j)%nat -> nth_error h j <> Some (SNoRoute a)) -> In a (map fst (u_routes (scmds_run h))).
Proof.
  intros E I En L. unfold scmds_run in *. rewrite as_first in I. eapply (c29_complete _ i).
  - right. exists n, e. rewrite nth_error_map, E. auto.
  - intros j J E'. apply nth_as in E' as ([] & E' & X); try discriminate. injection X as ->. exact (L j J E').
Qed.
Lemma c31_pointers h : (forall n, ~ In (SNoEntity n) h) -> exists l, smsc_table (scmds_run h) = Some l /\ map fst l = map fst (u_routes (scmds_run h)).
Proof.
  intros N. destruct (c31_table h) as (_ & is & _ & F).
  assert (P : forall p nr, In (p, AExt nr) (u_routes (scmds_run h)) -> euse_name (scmds_run h) nr <> None).
  { apply c29_pointers. intros n I. apply in_map_iff in I as ([] & X & I); try discriminate. exact (N _ I). }
  unfold smsc_table. set (c := scmds_run h) in *. revert is F P. induction (u_routes c) as [|r l IH]; intros is F P; cbn [map all_some]; [eauto|].
  inversion F as [|i r' is' l' Hd Tl Ei Er]. subst. destruct Hd as (n & nr & _ & Sr & _). destruct r as [p a]. cbn [fst snd] in *. subst a.
  pose proof (P p nr (or_introl eq_refl)) as X. destruct (euse_name c nr) as [m|]; [|tauto]. destruct (IH is' Tl) as (l2 & -> & El); [intros; apply (P p0); right; auto|].
  eexists. split; [reflexivity|]. cbn. rewrite El. auto.
Qed.
