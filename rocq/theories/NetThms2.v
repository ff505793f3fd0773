(** What one HLR says of its own accord, one event *)
From Verif Require Import Base PeerId Db DbSpec DbProofs DbThms DbThms2 DbThms3 Auth AuthSpec AuthThms AuthThms2 AuthThms3 Gsup Router Hlr PeerSpec PeerThms HlrSpec HlrThms RouterThms HlrThms2 HlrThms3 HlrStep HlrThms4 HlrThms5 HlrThms6 ContentSpec ContentThms NetThms.

(** ** Reception: handled by the HLR itself, or passed on or refused *)
Record received (s : hst) (c : nat) (g : gsup) (s1 : hst) (q : req) : Prop := {
  rc_nr : q_nr q = t_nr s; rc_gsup : q_gsup q = g; rc_conn : q_conn q = c; rc_ipa : p_type (q_src q) = PT_IPA; rc_wf : ipa_wf (p_ipa (q_src q));
  rc_via : peer_is_empty (q_via q) = true \/ p_type (q_via q) = PT_IPA; rc_imsi : is_imsi (g_imsi g);
  rc_name : sends_as (t_srv s) c g (ipa_bytes (p_ipa (q_src q))); rc_lus : t_lus s1 = t_lus s }.
Lemma conn_rx_received k s c g v q : sinv (t_srv s) -> conn_rx (k_enc k) (t_srv s) (t_nr s) c g = (v, inl q) -> received s c g (mk_hst v (t_lus s) (t_ss s) (S (t_nr s))) q.
Proof.
  intros S E. unfold conn_rx in E. destruct (find_conn (t_srv s) c) as [cn|] eqn:F; [|discriminate].
  unfold find_conn in F. apply find_some in F as [Ic Ec]. apply Nat.eqb_eq in Ec.
  assert (W : ipa_wf (c_name cn)). { apply (si_wf _ S). apply in_map. auto. }
  assert (G : forall tx q', req_new tx (t_nr s) c (mk_peer PT_IPA (c_name cn)) g = inl q' -> received s c g (mk_hst v (t_lus s) (t_ss s) (Datatypes.S (t_nr s))) q').
  { intros tx q' R. unfold req_new in R. destruct (g_src g) as [|y l] eqn:Eg.
    - destruct (imsi_valid (g_imsi g)) eqn:Im; [|discriminate]. injection R as <-. apply imsi_valid_spec in Im. split; auto. right. split; auto. exists cn. auto.
    - unfold peer_set in R. cbn [p_ipa] in R. destruct (ipa_set (c_name cn) (Some (y :: l))) as [rc src] eqn:Es.
      destruct (ipa_set_bytes _ _ _ _ W Es) as (W2 & B). destruct (Z.eqb_spec rc 0); cbn [negb] in R; [|discriminate].
      assert (B' : ipa_bytes src = y :: l) by (destruct B as [[_ B]|[B _]]; [exact B|unfold ENOSPC in B; lia]).
      destruct (negb (peer_cmp _ _ =? 0)); destruct (imsi_valid (g_imsi g)) eqn:Im; try discriminate; injection R as <-; apply imsi_valid_spec in Im; split; auto;
        left; rewrite Eg; (split; [discriminate|exact B']). }
  destruct (req_new _ _ _ _ _) as [q'|o] eqn:R; [|discriminate]. pose proof (G _ _ R) as FR. destruct (negb _).
  - destruct (route_add _ _ _) as [rc v']. destruct (negb _); [discriminate|]. injection E as <- <-. auto.
  - injection E as <- <-. auto.
Qed.
Lemma bares_kinds_inr enc v nr c g v' o : conn_rx enc v nr c g = (v', inr o) -> bares o.
Proof.
  intros E. assert (RO : forall tx q, bares (snd (respond_msgt tx q MSGT_ROUTING_ERROR true))).
  { intros. unfold respond_msgt, respond. destruct (make_response _ _ _ _) as [rc r] eqn:M. destruct (rc =? 0); cbn [snd]; (constructor; [|constructor]); cbn; auto.
    unfold make_response in M. injection M as _ <-. reflexivity. }
  unfold conn_rx in E. destruct (find_conn v c) as [x|]; [|injection E as <- <-; constructor]. destruct (req_new _ _ _ _ _) as [q|o'] eqn:R.
  - destruct (negb _); [|discriminate]. destruct (route_add _ _ _) as [rc v2]. destruct (negb _); [injection E as <- <-; auto|discriminate].
  - injection E as <- <-. unfold req_new in R. destruct (match g_src g with [] => _ | _ => _ end) as [q'|o2] eqn:M.
    + destruct (negb _); [|discriminate]. injection R as <-. apply kinds_bares.
    + injection R as <-. destruct (g_src g); [discriminate|]. destruct (peer_set _ _) as [rc sr]. destruct (negb (rc =? 0)); [injection M as <-; auto|]. destruct (negb _); discriminate.
Qed.
Definition plain (g : gsup) (y : out) : Prop := forall m, message y = Some m -> passed_on g m \/ g_x m = bare.
Lemma fwd_plain k s dst q : all_rets (Forall (plain (q_gsup q))) (read_cb_forward k s dst q).
Proof.
  assert (RB : forall m e f, g_x m = bare -> Forall (plain (q_gsup q)) (snd (respond (tx k s) q m e f))).
  { intros m e f B. unfold respond. destruct (make_response _ _ _ _) as [rc r] eqn:M. unfold make_response in M. injection M as _ <-. destruct (rc =? 0), f; cbn [snd]; repeat first [apply Forall_nil|apply Forall_cons]; intros m' E; cbn in E; try discriminate; injection E as <-; right; exact B. }
  assert (FR : plain (q_gsup q) (OFree (q_nr q))) by (intros m; discriminate).
  unfold read_cb_forward. destruct (g_src _); [apply RB; reflexivity|]. destruct (send_to _ _ _) as [[rc o]|] eqn:E; [|exact I]. cbn [all_rets].
  destruct (rc =? 0); [|apply RB; reflexivity]. apply Forall_app. split; [|constructor; [exact FR|constructor]].
  apply send_to_only in E. destruct E as [->|(c & ->)]; [constructor|]. constructor; [|constructor]. intros m' E. cbn in E. injection E as <-. left. unfold passed_on; auto.
Qed.
Lemma rx_cases k w s c g f d s' o d' f' : inv s -> run (handle k w s (ERx c g)) f d = (Fin (s', o), d', f') ->
  (exists s1 q o', received s c g s1 q /\ o = ORx (t_nr s) c g :: o' /\ run (dispatch k w s1 q) f d = (Fin (s', o'), d', f')) \/
  (d' = d /\ t_lus s' = t_lus s /\ Forall (plain g) o).
Proof.
  intros [H SV] R. cbn [handle] in R. destruct (find_conn (t_srv s) c) eqn:Fc; [|apply fin_ret in R as ([= -> ->] & -> & _); right; auto].
  unfold read_cb in R. apply fin_bind in R as (x & d1 & f1 & R1 & R). apply fin_ret in R as (Ex & -> & ->). injection Ex as -> ->.
  unfold read_msg in R1. destruct (conn_rx _ _ _ _ _) as [v r] eqn:E. set (s1 := mk_hst v (t_lus s) (t_ss s) (S (t_nr s))) in R1.
  assert (RX : plain g (ORx (t_nr s) c g)) by (intros m; discriminate).
  destruct r as [q|o].
  - pose proof (conn_rx_received _ _ _ _ _ _ SV E) as RC.
    assert (D : run (dispatch k w s1 q) f d = (Fin x, d1, f1) -> exists s1 q o', received s c g s1 q /\ ORx (t_nr s) c g :: snd x = ORx (t_nr s) c g :: o' /\ run (dispatch k w s1 q) f d = (Fin (fst x, o'), d1, f1)).
    { intros Rd. exists s1, q, (snd x). split; auto. split; auto. rewrite Rd. destruct x; reflexivity. }
    destruct (g_dst g) as [|y l]; auto. destruct (ipa_set_str _ _); [|discriminate]. destruct (ipa_set _ _) as [rc dest]. destruct (_ && _); auto.
    right. unfold same in R1. apply fin_bind in R1 as (o & d2 & f2 & Rf & R1). apply fin_ret in R1 as (-> & -> & _). cbn [fst snd].
    assert (D2 : d2 = d). { unfold read_cb_forward in Rf. destruct (g_src _); [apply fin_ret in Rf; tauto|]. destruct (send_to _ _ _) as [[rc2 o2]|]; [|discriminate]. apply fin_ret in Rf; tauto. }
    apply run_outE in Rf. apply (all_rets_run _ _ (fwd_plain k s1 dest q)) in Rf. rewrite (rc_gsup _ _ _ _ _ RC) in Rf. split; [exact D2|]. split; [reflexivity|]. constructor; auto.
  - right. apply fin_ret in R1 as (-> & -> & _). cbn [fst snd]. split; [reflexivity|]. split; [reflexivity|]. constructor; auto.
    apply bares_kinds_inr in E. eapply Forall_impl; [|exact E]. cbn. intros y B m M. rewrite M in B. auto.
Qed.

Lemma flen {A} (p : A -> bool) l : (length (filter p l) <= length l)%nat.
Proof. induction l as [|a l IH]; cbn; [lia|]. destruct (p a); cbn; lia. Qed.
(** ** Updates that are taken up *)
Definition accepted (v : server) (d' : db) (c : nat) (g : gsup) : Prop :=
  g_type g = 4 /\ exists x r, in_domain g x /\ In r (d_sub d') /\ s_imsi r = g_imsi g /\ access x r = true /\ registered v c g x r.
Lemma domain_of g : exists x, in_domain g x.
Proof. destruct (Z.eq_dec (g_cn g) CN_CS) as [E|E]; [exists CS|exists PS]; cbn; auto. Qed.
Lemma ulr_run k w s s1 c g q f d s' o d' f' : inv s -> fine d -> received s c g s1 q -> g_type g = 4 ->
  run (dispatch k w s1 q) f d = (Fin (s', o), d', f') ->
  exists x d1 r fin co f1, in_domain g x /\ created k w d (g_imsi g) d1 /\ o = [OResp (t_nr s) r fin co] /\ lu_answer k w (t_srv s) c x d1 d' (In EvFail f1) g r fin /\
    if fin then t_lus s' = t_lus s else exists h, t_lus s' = mk_lu q (is_ps x) h :: t_lus s.
Proof.
  intros H F RC T Rn. destruct (domain_of g) as (x & Dm). pose proof (rc_gsup _ _ _ _ _ RC) as Eg.
  assert (Rn' : run (rx_upd_loc_req k w s1 q) f d = (Fin (s', o), d', f')).
  { rewrite <- Rn. unfold dispatch. rewrite Eg, T. reflexivity. }
  unfold rx_upd_loc_req in Rn'. set (v := set_conn _ _ _) in Rn'. apply fin_bind in Rn' as (u & d1 & f1 & R1 & R2).
  assert (F1 : fine d1) by (rewrite <- (run_dbE _ _ _ _ _ _ R1); apply cod_fine; auto).
  apply created_run in R1. rewrite Eg in R1.
  destruct (lu_start_run k w (with_srv s1 v) q x f1 d1 s' o d' f') as (r & fin & -> & St & A); auto; try rewrite Eg; auto; try apply RC.
  exists x, d1, r, fin, (tx k (with_srv s1 v) q r), f1. split; auto. split; auto. rewrite (rc_nr _ _ _ _ _ RC) in *. split; auto. rewrite Eg in A. split.
  - apply A; [intros a <-; apply (rc_name _ _ _ _ _ RC)|]. intros a a'. apply sends_as_unique. apply H.
  - destruct fin.
    + subst s'. cbn. apply (rc_lus _ _ _ _ _ RC).
    + destruct St as (h & -> & Hh). exists h. cbn. rewrite (rc_lus _ _ _ _ _ RC). reflexivity.
Qed.
Lemma new_lu k s d w e f s' d' o f' l : inv s -> fine d -> Forall lu_ok (t_lus s) -> run (handle k w s e) f d = (Fin (s', o), d', f') -> In l (t_lus s') ->
  In l (t_lus s) \/ exists c g, e = ERx c g /\ q_gsup (l_req l) = g /\ accepted (t_srv s) d' c g.
Proof.
  intros H F LO R Il. assert (E : step k (s, d) (w, e, f) = Some (s', d', o)) by (unfold step; cbn [fst snd]; rewrite R; reflexivity).
  destruct (step_eff _ _ _ _ _ _ _ _ _ H LO E) as [[(l0 & A & B & _)|(l1 & _ & _ & _ & _ & _ & B & _)]|(-> & _)]; cbn [fst] in *.
  - rewrite A in Il. apply in_app_or in Il as [Il|Il]; auto. rewrite Forall_forall in B. destruct (B l Il) as [Bn [Bt _]].
    assert (RX : exists c g, e = ERx c g).
    { destruct e; eauto; exfalso; cbn [handle] in R; unfold same in R;
      repeat (apply fin_bind in R as (? & ? & ? & _ & R)); try (apply fin_ret in R as ([= -> ->] & _); cbn [t_lus with_srv fst] in A; apply (f_equal (@length _)) in A; rewrite app_length in A; destruct l0; [destruct Il|cbn in A; lia]).
      - apply fin_ret in R as (X & _). unfold lu_timeout in X. destruct (find _ _).
        + injection X as -> _. cbn [t_lus lu_del with_lus] in A. apply (f_equal (@length _)) in A. rewrite app_length in A. match type of A with length (filter ?p ?x) = _ => pose proof (flen p x) end. destruct l0; [destruct Il|cbn in A; lia].
        + injection X as -> _. apply (f_equal (@length _)) in A. rewrite app_length in A. destruct l0; [destruct Il|cbn in A; lia].
      - apply fin_ret in R as (X & _). unfold ss_timeout in X. destruct (ss_find _ _ _); injection X as -> _; cbn in A; apply (f_equal (@length _)) in A; rewrite app_length in A; (destruct l0; [destruct Il|cbn in A; lia]). }
    right. destruct RX as (c & g & ->). exists c, g. split; auto.
    destruct (rx_cases _ _ _ _ _ _ _ _ _ _ _ H R) as [(s1 & q & o' & RC & -> & Rd)|(_ & L & _)].
    2:{ rewrite L in A. apply (f_equal (@length _)) in A. rewrite app_length in A. destruct l0; [destruct Il|cbn in A; lia]. }
    assert (Eq : q_gsup (l_req l) = g /\ g_type g = 4).
    { assert (Fc : find_conn (t_srv s) c <> None). { intros N. cbn [handle] in R. rewrite N in R. apply fin_ret in R as ([=] & _). }
      cbn [handle] in R. destruct (find_conn (t_srv s) c) eqn:Fc0; [|tauto]. rewrite <- Fc0 in Fc. unfold read_cb in R. apply fin_bind in R as (x & d2 & f2 & R1 & R). apply fin_ret in R as ([= -> ->] & -> & ->).
      destruct (read_msg_eff _ _ _ _ _ _ _ _ _ _ H Fc LO R1) as (q2 & Q1 & Q2 & [(l2 & A2 & B2 & _)|(l1 & _ & _ & _ & _ & _ & B2 & _)]).
      - rewrite A in A2. apply app_inv_tail in A2. subst l2. rewrite Forall_forall in B2. destruct (B2 l Il) as [B3 B4]. rewrite B3, Q2 in *. auto.
      - rewrite A in B2. apply (f_equal (@length _)) in B2. rewrite app_length in B2. match type of B2 with _ = length (filter ?p ?x) => pose proof (flen p x) end. destruct l0; [destruct Il|cbn in B2; lia]. }
    destruct Eq as [Eq T4]. split; auto. split; auto.
    destruct (ulr_run _ _ _ _ _ _ _ _ _ _ _ _ _ H F RC T4 Rd) as (x & d1 & r & fin & co & f1 & Dm & Cr & -> & An & St). exists x.
    destruct An as [row row' I1 I2 I3 I4 I5 I6 I7 I8 I9 J1 J2| | | | |];
      try (rewrite St in A; apply (f_equal (@length _)) in A; rewrite app_length in A; destruct l0; [destruct Il|cbn in A; lia]).
    exists row'. auto.
  - rewrite B in Il. apply filter_In in Il as [Il _]. auto.
  - destruct Il.
Qed.

(** ** Vectors and numbers *)
Lemma own_vectors k s d w e f s' d' o f' y m : inv s -> fine d -> run (handle k w s e) f d = (Fin (s', o), d', f') -> In y o -> message y = Some m -> x_vecs (g_x m) <> [] ->
  exists c g, e = ERx c g /\ (passed_on g m \/ g_type g = 8 /\ g_imsi g = g_imsi m /\ exists id, is_subscriber d' (g_imsi m) id /\ (uses_2g d' id \/ uses_3g d' id)).
Proof.
  intros H F R Iy M V. assert (E : step k (s, d) (w, e, f) = Some (s', d', o)) by (unfold step; cbn [fst snd]; rewrite R; reflexivity).
  destruct (c64_vectors _ _ _ _ _ _ _ _ _ _ _ E Iy M V) as (c & g & -> & Im & C). exists c, g. split; auto. destruct C as [C|(T & co & ->)]; auto.
  destruct (rx_cases _ _ _ _ _ _ _ _ _ _ _ H R) as [(s1 & q & o' & RC & -> & Rd)|(_ & _ & L)].
  - destruct Iy as [Iy|Iy]; [discriminate|]. assert (T8 : g_type (q_gsup q) = MSGT_SEND_AUTH_INFO_REQUEST) by (rewrite (rc_gsup _ _ _ _ _ RC); exact T).
    destruct (sai_run _ _ _ _ _ _ _ _ _ _ F T8 Rd) as (_ & _ & r & -> & A & _). destruct Iy as [Iy|[]]. cbn in M. assert (r = m) by congruence. subst r. rewrite (rc_gsup _ _ _ _ _ RC) in A.
    right. split; auto. split; auto. destruct A as [id A1 A2 A3 A4|A1 A2|? A1 A2|? A1 A2|A1 A2]; try congruence. exists id. rewrite Im. auto.
  - rewrite Forall_forall in L. destruct (L _ Iy m M) as [P|X]; auto. rewrite X in V; cbn in V; congruence.
Qed.
Lemma get_by_any k x f d rc sub d' f' : run (get_by k x) f d = (Fin (rc, sub), d', f') ->
  d' = d /\ (rc = 0 -> exists row h, sub = Some h /\ In row (d_sub d) /\ (forall m, x = ByMsisdn m -> s_msisdn row = Some m) /\ sub_of_row (k_tz k) row = Some h).
Proof.
  assert (G : forall cond sel0, (forall d, exec sel0 d = sel cond d) -> (forall r m, cond r = true -> x = ByMsisdn m -> s_msisdn r = Some m) ->
     run (db_sel (k_tz k) sel0) f d = (Fin (rc, sub), d', f') -> d' = d /\ (rc = 0 -> exists row h, sub = Some h /\ In row (d_sub d) /\ (forall m, x = ByMsisdn m -> s_msisdn row = Some m) /\ sub_of_row (k_tz k) row = Some h)).
  { intros cond sel0 X C R. unfold db_sel in R. apply fin_exec in R as [(c1 & _ & R)|(c1 & _ & _ & R)].
    - rewrite X in R. unfold sel in R. destruct (find cond (d_sub d)) as [row|] eqn:E; cbn [fst snd] in R.
      + apply find_some in E as [I E]. destruct (sub_of_row (k_tz k) row) as [h|] eqn:Hs; [|discriminate R].
        apply fin_ret in R as ([= -> ->] & -> & _). split; auto. intros _. exists row, h. eauto.
      + apply fin_ret in R as ([= -> ->] & -> & _). split; auto. intros Z. unfold ENOENT in Z. lia.
    - apply fin_ret in R as ([= -> ->] & -> & _). split; auto. intros Z. unfold EIO in Z. lia. }
  destruct x as [i|m|i|m]; cbn [get_by]; [apply (G (by_imsi i))|apply (G (by_msisdn m))|apply (G (by_id i))|apply (G (by_imei m))]; auto; try discriminate.
  intros r m' C [= <-]. unfold by_msisdn, str_opt_is in C. destruct (s_msisdn r); [|discriminate]. apply String.eqb_eq in C. congruence.
Qed.
Lemma notify_number k v h y m : In y (update_notify k v h) -> message y = Some m -> g_imsi m = h_imsi h /\ x_msisdn (g_x m) = Some (h_msisdn h).
Proof.
  intros I M. unfold update_notify in I. apply in_flat_map in I as (c & _ & I). unfold notify_conn in I. destruct (_ && _); [destruct I|]. destruct (c_ccm c); [|destruct I]. destruct (negb _); [destruct I|].
  destruct (isd_msg _ _ _ _) as [g|] eqn:E; [|destruct I]. destruct (route_find _ _); [|destruct I]. destruct I as [<-|[]]. cbn in M. injection M as <-. apply isd_fields in E as (_ & Ei & l9 & ->). auto.
Qed.
(** the subscriber with this number is in [d] *)
Definition has_number (d : db) (imsi number : string) : Prop := exists r, In r (d_sub d) /\ s_imsi r = imsi /\ number = match s_msisdn r with Some n => n | None => "" end.
Lemma row_number d row tz h : fine d -> In row (d_sub d) -> sub_of_row tz row = Some h -> h_imsi h = s_imsi row /\ h_msisdn h = (match s_msisdn row with Some n => n | None => "" end).
Proof. intros F I H. destruct (inv_wellformed _ (proj1 F) row I) as [Wi Wm]. destruct (sub_fields _ _ _ H Wi Wm) as (_ & A & B & _). auto. Qed.
Lemma vty_number k s d (w : world) x v f o d' f' y m n : fine d -> run (vty_msisdn k s x v) f d = (Fin o, d', f') -> In y o -> message y = Some m -> x_msisdn (g_x m) = Some n ->
  match v with Some n' => n = n' /\ has_number d' (g_imsi m) n | None => has_number d (g_imsi m) n end.
Proof.
  intros F R I M X. assert (DN : fine d' \/ v = None).
  { destruct v as [v|]; auto. left. pose proof (step_fine k s d w (EVtyMsisdn x (Some v)) f s d' o F) as S. apply S. unfold step. cbn [fst snd handle]. unfold same. rewrite run_bind, R. reflexivity. }
  unfold vty_msisdn in R. destruct (match v with Some _ => _ | None => _ end); [apply fin_ret in R as (-> & _); destruct I|].
  apply fin_bind in R as ([rc sub] & d1 & f1 & R1 & R). apply get_by_any in R1 as (-> & G).
  destruct rc; try (destruct sub; apply fin_ret in R as (-> & _); destruct I). destruct (G eq_refl) as (row & h & -> & Ir & _ & Hs). clear G.
  apply fin_bind in R as (rc & d2 & f2 & R2 & R). destruct (negb _); [apply fin_ret in R as (-> & _); destruct I|].
  destruct v as [v|].
  - apply fin_bind in R as ([rc2 sub2] & d3 & f3 & R3 & R). apply (get_by_any k (ByMsisdn v)) in R3 as (-> & G).
    destruct rc2; try (destruct sub2; apply fin_ret in R as (-> & _); destruct I). destruct (G eq_refl) as (row2 & h2 & -> & Ir2 & Mv & Hs2). specialize (Mv v eq_refl).
    apply fin_ret in R as (-> & -> & _). destruct DN as [DN|]; [|discriminate]. destruct (row_number _ _ _ _ DN Ir2 Hs2) as [E1 E2]. destruct (notify_number _ _ _ _ _ I M) as [A B].
    rewrite Mv in E2. split; [congruence|]. exists row2. rewrite Mv. repeat split; congruence.
  - apply fin_ret in R as (-> & -> & _). destruct (row_number _ _ _ _ F Ir Hs) as [E1 E2]. destruct (notify_number _ _ _ _ _ I M) as [A B].
    exists row. repeat split; congruence.
Qed.
Lemma not_ps_number a b : not_ps a = not_ps b -> s_imsi a = s_imsi b /\ s_msisdn a = s_msisdn b.
Proof. unfold not_ps. intros E. injection E. auto. Qed.
Lemma not_cs_number a b : not_cs a = not_cs b -> s_imsi a = s_imsi b /\ s_msisdn a = s_msisdn b.
Proof. unfold not_cs. intros E. injection E. auto. Qed.
Lemma only_domain_number x t d d' imsi n : only_domain_changed x t d d' -> has_number d imsi n -> has_number d' imsi n.
Proof.
  intros (A & _) (r & I & Ei & En). assert (X : exists r', In r' (d_sub d') /\ same_other_domain x r r').
  { clear Ei En. induction A as [|a b la lb [S _] A IH]; [destruct I|]. destruct I as [->|I]; [exists b; cbn; auto|]. destruct (IH I) as (r' & Ir & S'). exists r'. cbn. auto. }
  destruct X as (r' & I' & S). exists r'. split; auto. assert (Q : s_imsi r = s_imsi r' /\ s_msisdn r = s_msisdn r') by (destruct x; cbn in S; [apply not_cs_number|apply not_ps_number]; exact S).
  destruct Q as [Q1 Q2]. rewrite <- Q1, <- Q2. auto.
Qed.
Lemma own_number k s d w e f s' d' o f' y m n : inv s -> fine d -> run (handle k w s e) f d = (Fin (s', o), d', f') -> In y o -> message y = Some m -> x_msisdn (g_x m) = Some n ->
  (exists c g, e = ERx c g /\ passed_on g m) \/
  (exists c g, e = ERx c g /\ g_type g = 4 /\ g_imsi g = g_imsi m /\ has_number d' (g_imsi m) n) \/
  (exists x v, e = EVtyMsisdn x v /\ match v with Some n' => n = n' /\ has_number d' (g_imsi m) n | None => has_number d (g_imsi m) n end).
Proof.
  intros H F R Iy M V. assert (E : step k (s, d) (w, e, f) = Some (s', d', o)) by (unfold step; cbn [fst snd]; rewrite R; reflexivity).
  destruct (c64_number _ _ _ _ _ _ _ _ _ _ _ E Iy M ltac:(congruence)) as [(c & g & -> & Im & C)|(x & v & c & -> & ->)].
  - destruct C as [C|(T & co & ->)]; [left; eauto|].
    destruct (rx_cases _ _ _ _ _ _ _ _ _ _ _ H R) as [(s1 & q & o' & RC & -> & Rd)|(_ & _ & L)].
    + destruct Iy as [Iy|Iy]; [discriminate|]. destruct (ulr_run _ _ _ _ _ _ _ _ _ _ _ _ _ H F RC T Rd) as (x & d1 & r & fin & co' & f1 & Dm & Cr & -> & An & St).
      destruct Iy as [Iy|[]]. cbn in M. assert (r = m /\ fin = false) as [-> ->] by (split; congruence). right. left. exists c, g. split; auto. split; auto. split; auto.
      inversion An as [row row' I1 I2 I3 I4 I5 I6 I7 I8 I9 J1 J2| | | | |]; subst. eapply only_domain_number; [exact I9|]. exists row. split; auto. split; [congruence|]. congruence.
    + rewrite Forall_forall in L. destruct (L _ Iy m M) as [P|X]; [left; eauto|]. rewrite X in V; cbn in V; congruence.
  - right. right. exists x, v. split; auto. cbn [handle] in R. unfold same in R. apply fin_bind in R as (o2 & d2 & f2 & R1 & R). apply fin_ret in R as ([= -> ->] & -> & _).
    eapply vty_number; eauto.
Qed.
