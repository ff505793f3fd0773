(** USSD: choice of the service and configuration commands (C29). *)
From Coq Require Import Sorted.
From Verif Require Import Base PeerId Db DbSpec DbProofs DbThms DbThms2 DbThms3 Auth AuthSpec AuthThms AuthThms2 AuthThms3 Gsup Router Hlr UssdCfg PeerSpec PeerThms HlrSpec UssdSpec HlrThms RouterThms HlrThms2 HlrThms3 HlrStep HlrThms4 HlrThms5 HlrThms6 HlrThms7 HlrThms8.

Lemma prefix_starts p c : String.prefix p c = true <-> starts p c.
Proof.
  unfold starts. revert c. induction p as [|a p IH]; intros c; cbn.
  - split; [exists c; auto|]. intros _. destruct c; auto.
  - destruct c as [|b c]; cbn.
    + split; [discriminate|]. intros [r H]. discriminate.
    + destruct (Ascii.ascii_dec a b) as [->|N]; [rewrite IH|]; (split; [|intros [r H]; cbn in H; injection H; intros; subst; eauto; try contradiction]).
      * intros [r ->]. exists r. auto.
      * discriminate.
Qed.

Lemma lookup_spec k r : 0 <= r_dcs r ->
  chosen k r (match ussd_lookup k r with Some t => Some t | None => match k_euse_default k with Some n => Some (TExt n) | None => None end end).
Proof.
  intros D. unfold ussd_lookup. assert (R : r_dcs r / 16 = 0 <-> readable r).
  { unfold readable. pose proof (Z.div_small_iff (r_dcs r) 16). lia. }
  set (code := k_7bit k (r_data r)).
  assert (N : (readable r -> no_match (k_ussd k) code) -> chosen k r (match k_euse_default k with Some n => Some (TExt n) | None => None end)).
  { intros H. destruct (k_euse_default k) eqn:E; [apply ch_default|apply ch_nobody]; auto. }
  destruct (Z.eqb_spec (r_dcs r / 16) 0) as [E|E]; [|apply N; tauto]. apply R in E.
  destruct (find (fun rt => String.prefix (fst rt) code) (k_ussd k)) as [[p t]|] eqn:F.
  - apply ch_route; auto. fold code. clear N. revert F. induction (k_ussd k) as [|[q u] l IH]; cbn; [discriminate|].
    destruct (String.prefix q code) eqn:Q.
    + intros [= -> ->]. exists [], p, l. split; auto. split; [apply prefix_starts; auto|]. intros ? ? [].
    + intros H. destruct (IH H) as (l1 & p' & l2 & -> & Sp & No). exists ((q, u) :: l1), p', l2. split; auto. split; auto.
      intros q' u' [[= <- <-]|I]; [|eauto]. intros X. apply prefix_starts in X. congruence.
  - apply N. intros _ q u I X. apply (find_none _ _ F) in I. cbn in I. apply prefix_starts in X. congruence.
Qed.

(** at most one answer to "who is it" *)
Lemma chosen_unique k r t t' : chosen k r t -> chosen k r t' -> t = t'.
Proof.
  assert (FM : forall l code a b, first_match l code a -> first_match l code b -> a = b).
  { intros l code a b (l1 & p & l2 & -> & Sp & No) (l1' & p' & l2' & E & Sp' & No'). revert l1' E No'. induction l1 as [|x l1 IH]; intros [|y l1'] E No'; cbn in E.
    - congruence.
    - injection E as <- _. destruct (No' p a); auto. left; auto.
    - injection E as -> _. destruct (No p' b); auto. left; auto.
    - injection E as <- E. apply (IH (fun q u I => No q u (or_intror I)) l1' E (fun q u I => No' q u (or_intror I))). }
  assert (FN : forall l code a, first_match l code a -> no_match l code -> False).
  { intros l code a (l1 & p & l2 & -> & Sp & No) N. apply (N p a); auto. apply in_app_iff. right; left; auto. }
  intros [t1 R1 M1|n1 N1 D1|N1 D1] [t2 R2 M2|n2 N2 D2|N2 D2]; try congruence; try (exfalso; eauto; fail).
  f_equal. eauto.
Qed.

(** ** A session is opened *)
Lemma sends_unique v c g a b : sinv v -> sends_as v c g a -> sends_as v c g b -> a = b.
Proof.
  intros SV [[N ->]|[N (x & I & E & ->)]] [[N' ->]|[N' (y & I' & E' & ->)]]; try congruence.
  f_equal. f_equal. eapply NoDup_key_inj; [apply (si_ids _ SV)| | |]; eauto. congruence.
Qed.

Lemma is_entity p : p_type p = PT_IPA -> ipa_wf (p_ipa p) -> (peer_is_euse p = true <-> entity_name (ipa_bytes (p_ipa p))).
Proof.
  intros T W. unfold peer_is_euse, is_ipa, entity_name, ipa_bytes. rewrite T. cbn [andb].
  pose proof W as (W1 & W2). set (l := in_val (p_ipa p)) in *. set (n := in_len (p_ipa p)) in *. split.
  - intros H. apply andb_true_iff in H as [L H]. apply Nat.ltb_lt in L. apply bytes_eqb_iff in H.
    destruct (skipn 5 (firstn n l)) as [|ch r] eqn:E.
    + apply (f_equal (@length _)) in E. rewrite skipn_length, firstn_length in E. cbn [length] in E. lia.
    + exists ch, r. rewrite <- E, <- H. rewrite <- (firstn_skipn 5 (firstn n l)) at 1. f_equal. rewrite firstn_firstn. f_equal. lia.
  - intros (ch & r & E). apply andb_true_iff. assert (L : (5 < n)%nat).
    { apply (f_equal (@length _)) in E. rewrite firstn_length, app_length in E. cbn [length bytes_of list_ascii_of_string] in E. lia. }
    split; [apply Nat.ltb_lt; auto|]. apply bytes_eqb_iff. transitivity (firstn 5 (firstn n l)); [rewrite firstn_firstn; f_equal; lia|]. rewrite E. reflexivity.
Qed.

Lemma ss_find_new s imsi sid : (forall z, In z (t_ss s) -> ~ (z_imsi z = imsi /\ z_sid z = sid)) -> ss_find s imsi sid = None.
Proof.
  intros H. unfold ss_find. destruct (find _ _) as [z|] eqn:E; auto. apply find_some in E as [I E]. unfold ss_is in E. apply andb_true_iff in E as [E1 E2].
  apply String.eqb_eq in E1. apply Z.eqb_eq in E2. exfalso. eapply H; eauto.
Qed.
Lemma ss_put_app s l z : (forall y, In y l -> ss_is (z_imsi z) (z_sid z) y = false) -> forall y, ss_is (z_imsi z) (z_sid z) y = true ->
  ss_put (with_ss s (l ++ [y])) z = with_ss s (l ++ [z]).
Proof.
  intros H y Y. unfold ss_put, with_ss. cbn [t_ss t_srv t_lus t_nr]. f_equal. rewrite map_app. cbn [map]. rewrite Y. f_equal.
  rewrite <- (map_id l) at 2. apply map_ext_in. intros a I. rewrite (H a I). auto.
Qed.

(** what is sent on behalf of a session that a mobile opened *)
Lemma to_ms_run k s z q st pl : z_ms z = Some q -> z_imsi z = g_imsi (q_gsup q) -> z_sid z = g_sid (q_gsup q) -> z_state z = st ->
  st <> SS_NONE ->
  exists o, ss_tx_to_ms k s z pl = Ret (z, [o]) /\ ss_answer (q_nr q) (q_gsup q) st pl o.
Proof.
  intros M I Si St Nn. unfold ss_tx_to_ms, ss_send_to_ms. rewrite M. unfold respond, make_response. cbn [g_type g_imsi g_class g_dst g_mr g_sid g_ss g_cause g_src g_cn g_x].
  rewrite I, Si, St. eexists. split.
  - replace (_ + _ + _ + _) with 0.
    + reflexivity.
    + destruct (String.eqb_spec (g_imsi (q_gsup q)) ""); rewrite String.eqb_refl; destruct (Z.eqb_spec (g_sid (q_gsup q)) 0); cbn [Z.eqb]; rewrite !Z.eqb_refl;
        destruct (g_mr (q_gsup q)); cbn; rewrite ?Z.eqb_refl; reflexivity.
  - do 2 eexists. split; [reflexivity|]. cbn [g_type g_imsi g_sid g_ss g_x x_ss g_dst]. split; [reflexivity|].
    split; [destruct (String.eqb_spec (g_imsi (q_gsup q)) ""); auto|]. split; [destruct (Z.eqb_spec (g_sid (q_gsup q)) 0); auto|].
    split; [|auto]. apply Z.eqb_neq in Nn. rewrite Nn, andb_false_r. auto.
Qed.

Lemma op_is_ussd_iff op : op_is_ussd op = true <-> ussd_op op.
Proof.
  unfold op_is_ussd, ussd_op, OP_PROCESS_USS_DATA, OP_PROCESS_USS_REQ, OP_USS_REQUEST, OP_USS_NOTIFY.
  rewrite !orb_true_iff, !Z.eqb_eq. tauto.
Qed.

Lemma iuse_run k s z q i inv f d z' o d' f' : db_inv d -> z_ms z = Some q -> z_imsi z = g_imsi (q_gsup q) -> z_sid z = g_sid (q_gsup q) ->
  run (run_iuse k s z i inv) f d = (Fin (z', o), d', f') ->
  exists y pl, d' = d /\ o = [y] /\ z' = z_with_state z (z_state z') /\ ss_answer (q_nr q) (q_gsup q) (z_state z') pl y /\
    own_answer k d (In EvFail f) (g_imsi (q_gsup q)) inv i (z_state z') pl.
Proof.
  intros Hd M I Si R.
  assert (TX : forall st pl z' o d' f' f0, st <> SS_NONE -> run (ss_tx_to_ms k s (z_with_state z st) pl) f0 d = (Fin (z', o), d', f') ->
    exists y, d' = d /\ o = [y] /\ z' = z_with_state z st /\ ss_answer (q_nr q) (q_gsup q) st pl y).
  { clear R. intros st pl z2 o2 d2 f2 f0 Ns R. destruct (to_ms_run k s (z_with_state z st) q st pl) as (y & E & A); auto. rewrite E in R.
    apply fin_ret in R as ([= -> ->] & -> & _). eauto. }
  destruct i; cbn [run_iuse] in R.
  - apply fin_bind in R as ([rc sub] & d1 & f1 & R1 & R). cbn [z_imsi z_with_state] in R1.
    apply get_imsi_run in R1 as (-> & [(-> & row & h & -> & Ir & Er & Sr)|[(-> & Nh)|(-> & F)]]).
    + cbn iota in R. pose proof (iv_wf _ Hd) as W. rewrite Forall_forall in W. destruct (W row Ir) as [W1 W2]. apply imsi_valid_spec in W1.
      destruct (sub_fields _ _ _ Sr W1) as (_ & _ & Em & _). { intros m Q. apply msisdn_valid_spec. auto. }
      apply TX in R as (y & -> & -> & -> & A); [|discriminate]. exists y. eexists. cbn [z_state z_with_state]. do 3 (split; [reflexivity|]). split; [exact A|].
      rewrite Em. destruct (s_msisdn row) as [m|] eqn:Mr.
      * assert (m <> "") by (intros ->; specialize (W2 "" eq_refl); discriminate). apply String.eqb_neq in H. rewrite H.
        apply oa_number with row; congruence.
      * cbn. apply oa_no_number with row; congruence.
    + cbn [ENOENT Z.opp] in R. unfold ss_tx_error in R. cbn [Z.eqb] in R. 
      apply (TX SS_END) in R as (y & -> & -> & -> & A); [|discriminate]. exists y. eexists. do 3 (split; [reflexivity|]). split; [exact A|]. apply oa_unknown. congruence.
    + cbn [EIO Z.opp] in R. unfold ss_tx_error in R. cbn [Z.eqb] in R. 
      apply (TX SS_END) in R as (y & -> & -> & -> & A); [|discriminate]. exists y. eexists. do 3 (split; [reflexivity|]). split; [exact A|]. apply oa_fault. auto.
  - apply (TX SS_END) in R as (y & -> & -> & -> & A); [|discriminate]. exists y. eexists. do 3 (split; [reflexivity|]). split; [exact A|]. cbn [z_imsi z_with_state]. rewrite I. constructor.
  - apply (TX SS_CONTINUE) in R as (y & -> & -> & -> & A); [|discriminate]. exists y. eexists. do 3 (split; [reflexivity|]). split; [exact A|]. constructor.
Qed.

Lemma c29_open k s d w c g r f s' d' o : reached k s d -> opens_ussd k s c g r -> no_crash f ->
  step k (s, d) (w, ERx c g, f) = Some (s', d', o) ->
  d' = d /\ exists t o', chosen k r t /\ o = ORx (t_nr s) c g :: o' /\ ussd_outcome k (t_srv s') d (In EvFail f) (t_nr s) g r t o'.
Proof.
  intros Re [U T B Mo New (l & Xl & Nl & Fl) Dc Op] NC E. destruct (reached_fine _ _ _ Re) as ([HI SV] & [Hd _] & _).
  destruct (rx_step _ _ _ _ _ _ _ _ _ _ (conj HI SV) U E) as (s1 & q & Rq & [(o' & f' & -> & R)|(_ & _ & C & _)]); [|destruct (NC C)].
  pose proof (rr_sinv _ _ _ _ _ _ Rq) as SV1. pose proof (rr_gsup _ _ _ _ _ _ Rq) as Qg. pose proof (rr_nr _ _ _ _ _ _ Rq) as Qn. pose proof (rr_ss _ _ _ _ _ _ Rq) as Qs.
  unfold dispatch in R. rewrite Qg, T in R. cbn [Z.eqb Pos.eqb MSGT_PROC_SS_REQUEST] in R. change (MSGT_PROC_SS_REQUEST =? _) with false in R.
  assert (R' : run (rx_proc_ss_req k s1 q) f d = (Fin (s', o'), d', f')) by (revert R; vm_compute (MSGT_PROC_SS_REQUEST =? _); auto). clear R.
  unfold rx_proc_ss_req in R'. rewrite Qg in R'. unfold is_ipa in R'. rewrite (rr_ipa _ _ _ _ _ _ Rq) in R'. cbn [negb] in R'.
  rewrite Xl in R'. cbn [pl_octets] in R'. destruct l as [|b l]; [tauto|]. rewrite Fl, B in R'. cbn [Z.eqb SS_BEGIN Pos.eqb] in R'.
  rewrite ss_find_new in R' by (rewrite Qs; exact New).
  assert (Ne : peer_is_euse (q_src q) = false).
  { apply not_true_is_false. intros X. apply (is_entity _ (rr_ipa _ _ _ _ _ _ Rq) (rr_wf _ _ _ _ _ _ Rq)) in X. eapply Mo; [apply (rr_name _ _ _ _ _ _ Rq)|exact X]. }
  rewrite Ne in R'. unfold ss_handler, ss_dispatch in R'. pose proof (proj2 (op_is_ussd_iff _) Op) as Ou. rewrite Ou in R'. cbn [negb] in R'.
  pose proof (lookup_spec k r Dc) as Ch.
  set (mk h := mk_ss (g_imsi g) (g_sid g) SS_NONE h (p_ipa (q_src q)) (Some q) None) in *.
  assert (New1 : forall y, In y (t_ss s1) -> ss_is (g_imsi g) (g_sid g) y = false).
  { intros y I. rewrite Qs in I. unfold ss_is. destruct (String.eqb_spec (z_imsi y) (g_imsi g)); cbn; auto. apply Z.eqb_neq. intros X. apply (New y I); auto. }
  set (S1 h := with_ss s1 (t_ss s1 ++ [mk h])) in *.
  assert (ER : forall h code, run (do x <- (do x <- ss_tx_error k (S1 h) (mk h) (r_invoke r) code;; Ret (ss_put (S1 h) (fst x), false, snd x));; Ret (fst (fst x), snd x)) f d = (Fin (s', o'), d', f') ->
     d' = d /\ t_srv s' = t_srv s1 /\ exists y, o' = [y] /\ ss_answer (t_nr s) g SS_END (PlErr (r_invoke r) code) y).
  { intros h code X. unfold ss_tx_error in X. destruct (to_ms_run k (S1 h) (z_with_state (mk h) SS_END) q SS_END (PlErr (r_invoke r) code)) as (y & Ey & A); try reflexivity; try (cbn; congruence); [discriminate|].
    rewrite Ey in X. cbn [bind run fst snd] in X. injection X as <- <- <- <-. split; [auto|]. split; [reflexivity|]. exists y. rewrite Qg, Qn in A. auto. }
  assert (EXT : forall n, run (do x <- handle_ussd k (S1 (HExt n)) (mk (HExt n)) false g r;; Ret (fst (fst x), snd x)) f d = (Fin (s', o'), d', f') ->
     d' = d /\ ussd_outcome k (t_srv s') d (In EvFail f) (t_nr s) g r (Some (TExt n)) o').
  { intros n X. unfold handle_ussd in X. cbn [z_hdl mk] in X. change (euse_addr n) with (entity_addr n) in X. change (v_routes (t_srv (S1 (HExt n)))) with (v_routes (t_srv s1)) in X.
    destruct (route_find (v_routes (t_srv s1)) (entity_addr n)) as [c'|] eqn:Rf.
    - cbn in X. injection X as <- <- <- <-. split; auto. left. exists c'. split; auto. apply route_find_some in Rf. exact Rf.
    - apply ER in X as (-> & Es & y & -> & A). split; auto. right. split; [|eauto]. rewrite Es. intros c'. unfold leads. intros L. apply (route_find_iff _ _ _ (si_addr _ SV1)) in L. congruence. }
  destruct (ussd_lookup k r) as [[i|n]|] eqn:Lk.
  - fold (mk (HInt i)) in R'. fold (S1 (HInt i)) in R'. unfold handle_ussd in R'. cbn [z_hdl mk] in R'. fold (mk (HInt i)) in R'.
    apply fin_bind in R' as ([[s2 b2] o2] & d2 & f2 & R' & X). apply fin_ret in X as ([= -> ->] & -> & _). cbn [fst snd].
    apply fin_bind in R' as ([z3 o3] & d3 & f3 & R' & X).
    destruct (iuse_run k (S1 (HInt i)) (mk (HInt i)) q i (r_invoke r) f d z3 o3 d3 f3 Hd) as (y & pl & -> & -> & Z3 & A & Ow); auto; try (cbn; congruence).
    rewrite Qg, Qn in A. rewrite Qg in Ow. cbn [fst snd] in X.
    assert (D2 : d2 = d /\ o2 = if z_state z3 =? SS_END then [y; OFree (t_nr s)] else [y]).
    { destruct (z_state z3 =? SS_END).
      - cbn [ss_free] in X. apply fin_ret in X as ([= -> -> ->] & -> & _). split; auto. rewrite Z3. cbn. rewrite Qn. reflexivity.
      - apply fin_ret in X as ([= -> -> ->] & -> & _). auto. }
    destruct D2 as [-> ->]. split; [auto|]. exists (Some (TInt i)). eexists. split; [exact Ch|]. split; [reflexivity|]. exists y, (z_state z3), pl. auto.
  - apply (EXT n) in R' as [-> Ou']. split; [auto|]. exists (Some (TExt n)). eexists. split; [exact Ch|]. split; [reflexivity|exact Ou'].
  - destruct (k_euse_default k) as [n|] eqn:Df.
    + apply (EXT n) in R' as [-> Ou']. split; [auto|]. exists (Some (TExt n)). eexists. split; [exact Ch|]. split; [reflexivity|exact Ou'].
    + apply ER in R' as (-> & _ & y & -> & A). split; [auto|]. exists None. eexists. split; [exact Ch|]. split; [reflexivity|]. exists y. auto.
Qed.

Lemma c29_other k s d w c g r l f s' d' o : reached k s d -> for_us k (t_srv s) c g -> g_type g = MSGT_PROC_SS_REQUEST -> g_ss g = SS_BEGIN ->
  (forall a, sends_as (t_srv s) c g a -> ~ entity_name a) -> (forall z, In z (t_ss s) -> ~ (z_imsi z = g_imsi g /\ z_sid z = g_sid g)) ->
  x_ss (g_x g) = PlRaw l -> l <> [] -> k_facility k l = Some r -> ~ ussd_op (r_op r) -> no_crash f ->
  step k (s, d) (w, ERx c g, f) = Some (s', d', o) ->
  d' = d /\ exists y, o = [ORx (t_nr s) c g; y] /\ ss_answer (t_nr s) g SS_END (PlErr (r_invoke r) 21) y.
Proof.
  intros Re U T B Mo New Xl Nl Fl Op NC E. destruct (reached_fine _ _ _ Re) as ([HI SV] & [Hd _] & _).
  destruct (rx_step _ _ _ _ _ _ _ _ _ _ (conj HI SV) U E) as (s1 & q & Rq & [(o' & f' & -> & R)|(_ & _ & C & _)]); [|destruct (NC C)].
  pose proof (rr_gsup _ _ _ _ _ _ Rq) as Qg. pose proof (rr_nr _ _ _ _ _ _ Rq) as Qn. pose proof (rr_ss _ _ _ _ _ _ Rq) as Qs.
  unfold dispatch in R. rewrite Qg, T in R. cbn [Z.eqb Pos.eqb MSGT_PROC_SS_REQUEST] in R. change (MSGT_PROC_SS_REQUEST =? _) with false in R.
  assert (R' : run (rx_proc_ss_req k s1 q) f d = (Fin (s', o'), d', f')) by (revert R; vm_compute (MSGT_PROC_SS_REQUEST =? _); auto). clear R.
  unfold rx_proc_ss_req in R'. rewrite Qg in R'. unfold is_ipa in R'. rewrite (rr_ipa _ _ _ _ _ _ Rq) in R'. cbn [negb] in R'.
  rewrite Xl in R'. cbn [pl_octets] in R'. destruct l as [|b l]; [tauto|]. rewrite Fl, B in R'. cbn [Z.eqb SS_BEGIN Pos.eqb] in R'.
  rewrite ss_find_new in R' by (rewrite Qs; exact New).
  assert (Ne : peer_is_euse (q_src q) = false).
  { apply not_true_is_false. intros X. apply (is_entity _ (rr_ipa _ _ _ _ _ _ Rq) (rr_wf _ _ _ _ _ _ Rq)) in X. eapply Mo; [apply (rr_name _ _ _ _ _ _ Rq)|exact X]. }
  assert (Ou : op_is_ussd (r_op r) = false) by (apply not_true_is_false; intros X; apply Op, op_is_ussd_iff, X).
  rewrite Ne in R'. unfold ss_handler, ss_dispatch in R'. rewrite Ou in R'. cbn [negb] in R'.
  set (z := mk_ss (g_imsi g) (g_sid g) SS_NONE HNone (p_ipa (q_src q)) (Some q) None) in *. set (S1 := with_ss s1 (t_ss s1 ++ [z])) in *.
  unfold handle_ss, ss_tx_error in R'. destruct (to_ms_run k S1 (z_with_state z SS_END) q SS_END (PlErr (r_invoke r) ERR_FACILITY_NOT_SUPPORTED)) as (y & Ey & A); try reflexivity; try (cbn; congruence); [discriminate|].
  rewrite Ey in R'. cbn [bind run fst snd] in R'. injection R' as <- <- <- <-. split; [auto|]. exists y. rewrite Qg, Qn in A. auto.
Qed.

(** ** Configuration commands *)
Lemma nth_app_old {A} (h : list A) x i y : nth_error h i = Some y -> nth_error (h ++ [x]) i = Some y.
Proof. intros H. rewrite nth_error_app1; auto. apply nth_error_Some. congruence. Qed.
Lemma nth_app_inv {A} (h : list A) x i y : nth_error (h ++ [x]) i = Some y -> nth_error h i = Some y \/ (i = length h /\ y = x).
Proof.
  intros H. destruct (Nat.lt_ge_cases i (length h)) as [L|L]; [rewrite nth_error_app1 in H; auto|]. rewrite nth_error_app2 in H by auto.
  destruct (i - length h)%nat as [|n] eqn:E; cbn in H; [injection H as <-; right; split; [lia|auto]|]. destruct n; discriminate.
Qed.
Lemma made_index h i p a : made_by h i p a -> (i < length h)%nat.
Proof. intros [H _]. apply nth_error_Some. destruct a; [|destruct H as (n & e & H & _)]; congruence. Qed.
Lemma made_later h i p a x : made_by h i p a -> x <> CNoRoute p -> made_by (h ++ [x]) i p a.
Proof.
  intros H N. pose proof (made_index _ _ _ _ H) as L. destruct H as (H1 & H2 & H3). unfold made_by.
  replace (firstn i (h ++ [x])) with (firstn i h) by (rewrite firstn_app; replace (i - length h)%nat with 0%nat by lia; rewrite app_nil_r; auto).
  split; [|split; [exact H2|]].
  - destruct a; [apply nth_app_old; auto|]. destruct H1 as (n & e & H1 & ?). exists n, e. split; auto. apply nth_app_old; auto.
  - intros j Lj X. apply nth_app_inv in X as [X|[_ X]]; [eapply H3; eauto|congruence].
Qed.
Lemma ucmds_last c h x : ucmds_run c (h ++ [x]) = ucmd_run (ucmds_run c h) x.
Proof. unfold ucmds_run. rewrite fold_left_app. auto. Qed.
Lemma find_prefix_none c p : find_prefix c p = None <-> ~ In p (map fst (u_routes c)).
Proof.
  unfold find_prefix. split.
  - intros F I. apply in_map_iff in I as (r & <- & I). apply (find_none _ _ F) in I. rewrite String.eqb_refl in I. discriminate.
  - intros N. destruct (find _ _) as [r|] eqn:F; auto. apply find_some in F as [I E]. apply String.eqb_eq in E. subst. destruct N. apply in_map; auto.
Qed.
Lemma del_first_in p l r : In r (del_first p l) -> In r l.
Proof. induction l as [|x l IH]; cbn; auto. destruct (fst x =? p)%string; cbn; tauto. Qed.
Lemma del_first_other p l r : fst r <> p -> In r l -> In r (del_first p l).
Proof. intros N. induction l as [|x l IH]; cbn; auto. destruct (String.eqb_spec (fst x) p); cbn; intros [->|I]; auto. contradiction. Qed.
Lemma del_first_keys p l : NoDup (map fst l) -> NoDup (map fst (del_first p l)) /\ ~ In p (map fst (del_first p l)).
Proof.
  induction l as [|x l IH]; cbn; intros N; [split; [constructor|tauto]|]. apply NoDup_cons_iff in N as [N1 N2]. destruct (String.eqb_spec (fst x) p) as [<-|Q].
  - auto.
  - destruct (IH N2) as [A B]. cbn. split; [|tauto]. constructor; auto. intros I. apply N1. apply in_map_iff in I as (r & E & I). apply del_first_in in I. rewrite <- E. apply in_map; auto.
Qed.
Lemma del_first_idx (P Q : nat -> string * aim -> Prop) p is l : NoDup (map fst l) -> increasing is -> Forall2 P is l -> (forall i r, P i r -> fst r <> p -> Q i r) ->
  exists js, increasing js /\ (forall j, In j js -> In j is) /\ Forall2 Q js (del_first p l).
Proof.
  intros N St F H. revert N St. induction F as [|i r is l Pi F IH]; cbn; intros N St; [exists []; repeat split; auto; constructor|].
  apply NoDup_cons_iff in N as [N1 N2]. apply StronglySorted_inv in St as [St1 St2]. destruct (String.eqb_spec (fst r) p) as [E|E].
  - exists is. split; auto. split; auto. clear IH St1 St2. assert (NI : ~ In p (map fst l)) by congruence. clear N1 N2. induction F; constructor.
    + apply H; auto. intros X. apply NI. left; auto.
    + apply IHF. intros X. apply NI. right; auto.
  - destruct (IH N2 St1) as (js & S1 & S2 & S3). exists (i :: js). split; [|split].
    + constructor; auto. rewrite Forall_forall in *. auto.
    + intros j [<-|I]; auto.
    + constructor; auto.
Qed.
Lemma increasing_snoc is n : increasing is -> (forall i, In i is -> (i < n)%nat) -> increasing (is ++ [n]).
Proof.
  intros S L. induction is as [|i is IH]; cbn; [repeat constructor|]. apply StronglySorted_inv in S as [S1 S2]. constructor; [apply IH; auto; intros; apply L; right; auto|].
  rewrite Forall_forall in *. intros x I. apply in_app_iff in I as [I|[<-|[]]]; auto. apply L. left; auto.
Qed.

Lemma c29_table h : NoDup (map fst (u_routes (ucmds_run ucfg0 h))) /\
  exists is, increasing is /\ Forall2 (fun i r => made_by h i (fst r) (snd r)) is (u_routes (ucmds_run ucfg0 h)).
Proof.
  induction h as [|x h (N & is & Si & F)] using rev_ind.
  - cbn. split; [constructor|]. exists []. split; constructor.
  - rewrite ucmds_last. set (c := ucmds_run ucfg0 h) in *.
    assert (Same : u_routes (ucmd_run c x) = u_routes c -> (forall p, x = CNoRoute p -> ~ In p (map fst (u_routes c))) ->
      NoDup (map fst (u_routes (ucmd_run c x))) /\ exists is, increasing is /\ Forall2 (fun i r => made_by (h ++ [x]) i (fst r) (snd r)) is (u_routes (ucmd_run c x))).
    { intros -> Nr. split; auto. exists is. split; auto. clear Si N. induction F as [|i r is l Pi F IH]; constructor.
      - apply made_later; auto. intros X. apply (Nr (fst r)); auto. left; auto.
      - apply IH. intros p E I. apply (Nr p E). right; auto. }
    assert (L : forall i, In i is -> (i < length h)%nat).
    { intros i I. clear - F I. induction F as [|i' r is l Pi F IH]; [destruct I|]. destruct I as [<-|I]; auto. eapply made_index; eauto. }
    assert (Add : forall p a, ~ In p (map fst (u_routes c)) -> (forall q, x <> CNoRoute q) -> u_routes (ucmd_run c x) = u_routes c ++ [(p, a)] ->
      made_by (h ++ [x]) (length h) p a ->
      NoDup (map fst (u_routes (ucmd_run c x))) /\ exists is, increasing is /\ Forall2 (fun i r => made_by (h ++ [x]) i (fst r) (snd r)) is (u_routes (ucmd_run c x))).
    { intros p a Np Nx -> Mk. split.
      - rewrite map_app. cbn. apply NoDup_snoc; auto.
      - exists (is ++ [length h]). split; [apply increasing_snoc; auto|]. apply Forall2_app.
        + clear - F Nx. induction F; constructor; auto. apply made_later; auto.
        + repeat constructor; auto; apply Mk. }
    assert (Last : forall y, nth_error (h ++ [y]) (length h) = Some y) by (intros y; rewrite nth_error_app2, Nat.sub_diag; auto).
    assert (Pre : firstn (length h) (h ++ [x]) = h) by (rewrite firstn_app, Nat.sub_diag, firstn_all, app_nil_r; auto).
    assert (Late : forall p j, (length h < j)%nat -> nth_error (h ++ [x]) j <> Some (CNoRoute p)).
    { intros p j Lj X. assert (nth_error (h ++ [x]) j <> None) by congruence. apply nth_error_Some in H. rewrite app_length in H. cbn in H. lia. }
    destruct x as [p i|p n|p|n| |n|n]; cbn [ucmd_run] in *.
    + destruct (find_prefix c p) eqn:Fp; [apply Same; auto; discriminate|]. apply find_prefix_none in Fp. apply (Add p (AInt i)); auto; [discriminate|].
      unfold made_by. rewrite Pre. split; auto.
    + destruct (find_prefix c p) eqn:Fp; [apply Same; auto; discriminate|]. destruct (euse_find c n) as [e|] eqn:Fe; [|apply Same; auto; discriminate].
      apply find_prefix_none in Fp. apply (Add p (AExt (e_nr e))); auto; [discriminate|]. unfold made_by. rewrite Pre. split; auto.
      unfold euse_find in Fe. apply find_some in Fe as [I E]. apply String.eqb_eq in E. exists n, e. auto.
    + destruct (find_prefix c p) eqn:Fp.
      * cbn [set_routes u_routes]. split; [apply del_first_keys; auto|]. destruct (del_first_idx _ (fun i r => made_by (h ++ [CNoRoute p]) i (fst r) (snd r)) p is (u_routes c) N Si F) as (js & S1 & _ & S3).
        { intros i r M Ne. apply made_later; auto. congruence. }
        exists js. auto.
      * apply find_prefix_none in Fp. apply Same; auto. intros q [= <-]. auto.
    + apply Same; [|discriminate]. destruct (euse_find c n); auto.
    + apply Same; auto. discriminate.
    + apply Same; [|discriminate]. destruct (euse_find c n); auto.
    + apply Same; [|discriminate]. destruct (euse_find c n); auto. destruct (match u_default c with Some x => _ | None => _ end); auto.
Qed.

(** nothing asked for is missing *)
Lemma c29_complete h i p : (exists x, nth_error h i = Some (CRouteInt p x)) \/
    (exists n e, nth_error h i = Some (CRouteExt p n) /\ In e (u_euses (ucmds_run ucfg0 (firstn i h))) /\ e_name e = n) ->
  (forall j, (i < j)%nat -> nth_error h j <> Some (CNoRoute p)) -> In p (map fst (u_routes (ucmds_run ucfg0 h))).
Proof.
  induction h as [|x h IH] using rev_ind; intros H Nl; [destruct H as [[x H]|(n & e & H & _)]; destruct i; discriminate|].
  rewrite ucmds_last. set (c := ucmds_run ucfg0 h) in *.
  assert (Lt : (i < length h)%nat \/ i = length h).
  { assert (nth_error (h ++ [x]) i <> None) by (destruct H as [[y H]|(n & e & H & _)]; congruence). apply nth_error_Some in H0. rewrite app_length in H0. cbn in H0. lia. }
  destruct Lt as [L| ->].
  - assert (I : In p (map fst (u_routes c))).
    { apply IH.
      - rewrite firstn_app in H. replace (i - length h)%nat with 0%nat in H by lia. cbn [firstn] in H. rewrite app_nil_r in H. rewrite nth_error_app1 in H by auto. auto.
      - intros j Lj X. apply (Nl j Lj). apply nth_app_old. auto. }
    assert (Nx : x <> CNoRoute p). { intros ->. apply (Nl (length h) L). rewrite nth_error_app2, Nat.sub_diag; auto. }
    destruct x as [q y|q n|q|n| |n|n]; cbn [ucmd_run]; auto.
    + destruct (find_prefix c q); auto. cbn. rewrite map_app. apply in_app_iff. auto.
    + destruct (find_prefix c q), (euse_find c n); auto. cbn. rewrite map_app. apply in_app_iff. auto.
    + destruct (find_prefix c q); auto. cbn. apply in_map_iff in I as (r & E & I). rewrite <- E. apply in_map. apply del_first_other; auto. congruence.
    + destruct (euse_find c n); auto.
    + destruct (euse_find c n); auto.
    + destruct (euse_find c n); auto. destruct (match u_default c with Some x => _ | None => _ end); auto.
  - rewrite firstn_app, Nat.sub_diag, firstn_all, app_nil_r in H. rewrite nth_error_app2, Nat.sub_diag in H by auto. cbn [nth_error] in H.
    assert (Y : forall l a, In p (map fst (l ++ [(p, a : aim)]))) by (intros; rewrite map_app; apply in_app_iff; right; left; auto).
    assert (Z : forall r, find_prefix c p = Some r -> In p (map fst (u_routes c))).
    { unfold find_prefix. intros r F. apply find_some in F as [I E]. apply String.eqb_eq in E. rewrite <- E. apply in_map; auto. }
    destruct H as [[y [= ->]]|(n & e & [= ->] & Ie & En)]; cbn [ucmd_run].
    + destruct (find_prefix c p) eqn:F; [eauto|]. apply Y.
    + destruct (find_prefix c p) eqn:F; [eauto|]. destruct (euse_find c n) as [e'|] eqn:Fe; [apply Y|].
      exfalso. unfold euse_find in Fe. apply (find_none _ _ Fe) in Ie. rewrite En, String.eqb_refl in Ie. discriminate.
Qed.

(** pointers to entities are good unless an entity is removed *)
Lemma euse_name_iff c nr : euse_name c nr <> None <-> In nr (map e_nr (u_euses c)).
Proof.
  unfold euse_name. split.
  - destruct (find _ _) as [e|] eqn:F; [|congruence]. intros _. apply find_some in F as [I E]. apply Nat.eqb_eq in E. subst. apply in_map; auto.
  - intros I. apply in_map_iff in I as (e & <- & I). destruct (find _ _) eqn:F; [congruence|]. apply (find_none _ _ F) in I. rewrite Nat.eqb_refl in I. discriminate.
Qed.
Definition u_wf (c : ucfg) : Prop := NoDup (map e_nr (u_euses c)) /\ NoDup (map e_name (u_euses c)) /\ (forall e, In e (u_euses c) -> (e_nr e < u_next c)%nat) /\
  (forall nr, u_default c = Some nr -> In nr (map e_nr (u_euses c))).
Lemma del_euse_in n l e : In e (del_euse n l) -> In e l.
Proof. induction l as [|x l IH]; cbn; auto. destruct (e_name x =? n)%string; cbn; tauto. Qed.
Lemma del_euse_keep n l e : e_name e <> n -> In e l -> In e (del_euse n l).
Proof. intros N. induction l as [|x l IH]; cbn; auto. destruct (String.eqb_spec (e_name x) n); cbn; intros [->|I]; auto. contradiction. Qed.
Lemma del_euse_nodup {B} (f : euse -> B) n l : NoDup (map f l) -> NoDup (map f (del_euse n l)).
Proof.
  induction l as [|x l IH]; cbn; auto. intros N. apply NoDup_cons_iff in N as [N1 N2]. destruct (e_name x =? n)%string; auto. cbn. constructor; auto.
  intros I. apply N1. apply in_map_iff in I as (e & E & I). apply del_euse_in in I. rewrite <- E. apply in_map; auto.
Qed.
Lemma u_wf_run c x : u_wf c -> u_wf (ucmd_run c x).
Proof.
  intros (A & B & C & D). destruct x as [p i|p n|p|n| |n|n]; cbn [ucmd_run].
  - destruct (find_prefix c p); repeat split; auto.
  - destruct (find_prefix c p), (euse_find c n); repeat split; auto.
  - destruct (find_prefix c p); repeat split; auto.
  - destruct (euse_find c n) as [e|] eqn:F; repeat split; auto. cbn. intros nr [= <-]. apply find_some in F as [I _]. apply in_map; auto.
  - repeat split; auto. discriminate.
  - destruct (euse_find c n) as [e|] eqn:F; [repeat split; auto|]. unfold u_wf. cbn. rewrite !map_app. cbn. repeat split.
    + apply NoDup_snoc; auto. intros I. apply in_map_iff in I as (e & E & I). apply C in I. lia.
    + apply NoDup_snoc; auto. intros I. apply in_map_iff in I as (e & E & I). apply (find_none _ _ F) in I. rewrite E, String.eqb_refl in I. discriminate.
    + intros e I. apply in_app_iff in I as [I|[<-|[]]]; [apply C in I; lia|cbn; lia].
    + intros nr E. apply in_app_iff. left. auto.
  - destruct (euse_find c n) as [e|] eqn:F; [|repeat split; auto]. destruct (match u_default c with Some x => _ | None => _ end) eqn:Df; [repeat split; auto|].
    unfold u_wf. cbn. repeat split; try (apply del_euse_nodup; auto).
    + intros e' I. apply del_euse_in in I. auto.
    + intros nr E. rewrite E in Df. apply Nat.eqb_neq in Df. pose proof (D nr E) as I. apply in_map_iff in I as (e' & E' & I). rewrite <- E'. apply in_map.
      apply del_euse_keep; auto. intros X. unfold euse_find in F. apply find_some in F as [If Ef]. apply String.eqb_eq in Ef.
      assert (e' = e) by (eapply NoDup_key_inj; [exact B| | |]; auto; congruence). congruence.
Qed.
Lemma u_wf_all h : u_wf (ucmds_run ucfg0 h).
Proof.
  induction h as [|x h IH] using rev_ind; [cbn; repeat split; cbn; try constructor; try tauto; discriminate|]. rewrite ucmds_last. apply u_wf_run. auto.
Qed.
Lemma c29_default h nr : u_default (ucmds_run ucfg0 h) = Some nr -> euse_name (ucmds_run ucfg0 h) nr <> None.
Proof. intros E. apply euse_name_iff. apply (u_wf_all h). auto. Qed.

Lemma c29_pointers h : (forall n, ~ In (CNoEuse n) h) -> forall p nr, In (p, AExt nr) (u_routes (ucmds_run ucfg0 h)) -> euse_name (ucmds_run ucfg0 h) nr <> None.
Proof.
  induction h as [|x h IH] using rev_ind; [cbn; tauto|]. intros N p nr. rewrite ucmds_last. set (c := ucmds_run ucfg0 h) in *.
  assert (N' : forall n, ~ In (CNoEuse n) h) by (intros n I; apply (N n); apply in_app_iff; auto). specialize (IH N').
  assert (Nx : forall n, x <> CNoEuse n) by (intros n ->; apply (N n); apply in_app_iff; right; left; auto).
  rewrite euse_name_iff. destruct x as [q i|q n|q|n| |n|n]; cbn [ucmd_run].
  - destruct (find_prefix c q); [intros I; apply euse_name_iff; eauto|]. cbn. rewrite in_app_iff. intros [I|[[=]|[]]]. apply euse_name_iff; eauto.
  - destruct (find_prefix c q); [intros I; apply euse_name_iff; eauto|]. destruct (euse_find c n) as [e|] eqn:F; [|intros I; apply euse_name_iff; eauto].
    cbn. rewrite in_app_iff. intros [I|[[= -> <-]|[]]]; [apply euse_name_iff; eauto|]. apply find_some in F as [I _]. apply in_map; auto.
  - destruct (find_prefix c q); [|intros I; apply euse_name_iff; eauto]. cbn. intros I. apply del_first_in in I. apply euse_name_iff; eauto.
  - destruct (euse_find c n); intros I; apply euse_name_iff; eapply IH; eauto.
  - intros I; apply euse_name_iff; eapply IH; eauto.
  - destruct (euse_find c n); [intros I; apply euse_name_iff; eauto|]. cbn. intros I. rewrite map_app, in_app_iff. left. apply euse_name_iff. eauto.
  - destruct (Nx n eq_refl).
Qed.
