From Coq Require Import Permutation.
From Verif Require Import Base PeerId Db DbSpec DbProofs DbThms2 Auth AuthThms3 Gsup Router Hlr PeerSpec PeerThms HlrSpec HlrThms RouterThms.

(** * C24 over histories *)

Lemma notify_tx k v h : only_tx (update_notify k v h).
Proof.
  unfold update_notify. induction (v_conns v) as [|c l IH]; cbn [flat_map]; [constructor|]. apply only_tx_app; auto.
  unfold notify_conn. destruct (_ && _); [constructor|]. destruct (c_ccm c); [|constructor]. destruct (negb _); [constructor|].
  destruct (isd_msg _ _ _ _); [|constructor]. destruct (route_find _ _); repeat constructor.
Qed.
Lemma send_delete_tx k v i n o : send_delete k v i n = Some o -> only_tx o.
Proof.
  unfold send_delete. destruct (_ =? _)%string; [intros [= <-]; constructor|]. destruct (ipa_set_str _ _); [|discriminate].
  destruct (enc_send_to _ _ _ _) as [[rc o']|] eqn:E; [|discriminate]. intros [= <-]. eapply enc_send_tx; eauto.
Qed.
Lemma nam_tx k v h b ps : all_rets (fun x => only_tx (snd x)) (hlr_subscr_nam k v h b ps).
Proof.
  unfold hlr_subscr_nam. destruct (Bool.eqb _ _); [constructor|]. apply all_rets_bind, all_rets_true. intros rc.
  destruct (negb _); [constructor|]. destruct b; [constructor|].
  destruct (send_delete k v (h_imsi h) (h_vlr h)) eqn:E1; [|exact I].
  destruct (send_delete k v (h_imsi h) (h_sgsn h)) eqn:E2; [|exact I].
  cbn. apply only_tx_app; eapply send_delete_tx; eauto.
Qed.
Lemma vty_msisdn_tx k s x m : all_rets only_tx (vty_msisdn k s x m).
Proof.
  assert (N : only_tx []) by constructor.
  unfold vty_msisdn. destruct (match m with Some _ => _ | None => _ end); [exact N|].
  apply all_rets_bind, all_rets_true. intros [rc sub].
  destruct rc; destruct sub; try exact N. apply all_rets_bind, all_rets_true. intros rc. destruct (negb _); [exact N|].
  destruct m; [|apply notify_tx]. apply all_rets_bind, all_rets_true. intros [rc2 sub2].
  destruct rc2; destruct sub2; try exact N. apply notify_tx.
Qed.
Lemma vty_nam_tx k s x cs ps : all_rets only_tx (vty_nam k s x cs ps).
Proof.
  assert (N : only_tx []) by constructor.
  unfold vty_nam. apply all_rets_bind, all_rets_true. intros [rc sub]. destruct rc; destruct sub as [h|]; try exact N.
  assert (A : forall (b0 b b' : bool), all_rets only_tx (if b0 then Ret [] else do r <- hlr_subscr_nam k (t_srv s) h b b';; Ret (snd r))).
  { intros [] b b'; [exact N|]. apply all_rets_bind. eapply all_rets_impl; [|apply nam_tx]. auto. }
  apply all_rets_bind. eapply all_rets_impl; [|apply A]. intros o1 H1.
  apply all_rets_bind. eapply all_rets_impl; [|apply A]. intros o2 H2. apply only_tx_app; auto.
Qed.

(** handling of a received message: the request made of it, and where its responses go *)
Definition homes (v : server) (q : req) (c : nat) : Prop :=
  leads v (ipa_bytes (p_ipa (q_src q))) c /\ (peer_is_empty (q_via q) = false -> leads v (ipa_bytes (p_ipa (q_via q))) c).
(** the responses to [nr] in [o] go to [cid] *)
Definition only_to (nr cid : nat) (o : list out) : Prop := forall r f c', In (OResp nr r f (Some c')) o -> c' = cid.
(** the claim of C26 for a message received *)
Definition fair (v : server) (cid : nat) (g : gsup) : Prop :=
  identified v cid /\ (imsi_valid (g_imsi g) = true \/ (forall c', leads v (g_src g) c' -> c' = cid)).
Definition rx_ok (k : cfg) (s : hst) (cid : nat) (g : gsup) (x : hst * list out) : Prop :=
  exists q, (q_nr q = t_nr s /\ q_conn q = cid /\ q_gsup q = g) /\
    (t_nr (fst x) = S (t_nr s) /\ keys_ok (fst x) /\ trans (tx k (fst x)) (q :: opens s) (snd x) (opens (fst x))) /\
    (fair (t_srv s) cid g -> only_to (t_nr s) cid (snd x)) /\
    (identified (t_srv s) cid -> homes (t_srv (fst x)) q cid \/ opens (fst x) = opens s).

Lemma respond_in tx q m e f nr r f' c' : In (OResp nr r f' c') (snd (respond tx q m e f)) ->
  c' = tx q r /\ (g_type m <> 0 -> g_type r = g_type m).
Proof.
  unfold respond. destruct (make_response _ _ _ _) as [rc r'] eqn:E. destruct (rc =? 0); [|destruct f; intros [H|[]] || intros []; discriminate].
  intros [H|[]]. injection H as <- <- <- <-. split; auto. intros N. unfold make_response in E. injection E as _ <-. cbn.
  apply Z.eqb_neq in N. rewrite N. reflexivity.
Qed.
Lemma respond_err_in tx q c nr r f' c' : In (OResp nr r f' c') (respond_err tx q c) -> c' = tx q r.
Proof. unfold respond_err. destruct (negb _); [intros [H|[]]; discriminate|]. intros H. eapply respond_in; eauto. Qed.

Lemma tx_homes k s q c r c' : sinv (t_srv s) -> homes (t_srv s) q c -> tx k s q r = Some c' -> c' = c.
Proof.
  intros S [H1 H2] E. unfold tx, srv_tx in E.
  assert (A : forall a x, leads (t_srv s) a c -> route_find (v_routes (t_srv s)) a = Some x -> x = c).
  { intros a x L F. apply route_find_some in F. eapply route_unique; [apply S| |]; eauto. }
  destruct (_ && _) eqn:B.
  - apply Bool.andb_true_iff in B. destruct B as [_ B]. apply Bool.negb_true_iff in B. destruct (p_type (q_via q)); [discriminate|].
    destruct (route_find _ _) eqn:F; [|discriminate]. destruct (k_enc k r); [|discriminate]. injection E as <-. eapply A; [|exact F]; auto.
  - destruct (p_type (q_src q)); [discriminate|].
    destruct (route_find _ _) eqn:F; [|discriminate]. destruct (k_enc k r); [|discriminate]. injection E as <-. eapply A; [|exact F]; auto.
Qed.

Lemma identified_name v c x : sinv v -> identified v c -> find_conn v c = Some x ->
  ipa_bytes (c_name x) <> [] /\ leads v (ipa_bytes (c_name x)) c.
Proof.
  intros S (y & Iy & Ey & N & L) F. unfold find_conn in F. apply find_some in F. destruct F as [Ix Ex]. apply Nat.eqb_eq in Ex.
  assert (x = y) as ->; auto. pose proof (si_ids v S) as ND. clear -ND Ix Iy Ex Ey. induction (v_conns v) as [|z l IH]; [destruct Ix|].
  cbn in *. inversion ND; subst. destruct Ix as [->|Ix], Iy as [->|Iy]; auto.
  - exfalso. apply H1. rewrite Ex. apply in_map; auto.
  - exfalso. apply H1. rewrite <- Ex. apply in_map; auto.
Qed.

(** the request made of [g] received from [peer] *)
Definition req_of (nr cid : nat) (peer : peer_id) (g : gsup) (q : req) : Prop :=
  q_nr q = nr /\ q_conn q = cid /\ q_gsup q = g /\ p_type (q_src q) = PT_IPA /\
  ((ipa_bytes (p_ipa (q_src q)) = ipa_bytes (p_ipa peer) /\ q_via q = peer_zero) \/
   (g_src g <> [] /\ ipa_bytes (p_ipa (q_src q)) = g_src g /\ q_via q = peer)).

Lemma req_new_ok tx nr cid p g : p_type p = PT_IPA -> ipa_wf (p_ipa p) ->
  match req_new tx nr cid p g with
  | inl q => req_of nr cid p g q /\ imsi_valid (g_imsi g) = true
  | inr o => exists q, req_of nr cid p g q /\ (forall a, trans tx (q :: a) o a) /\
               (forall nr r f c', In (OResp nr r f c') o -> c' = tx q r) /\
               (imsi_valid (g_imsi g) = true -> q_via q = peer_zero)
  end.
Proof.
  intros T W. unfold req_new.
  assert (A : forall q, req_of nr cid p g q ->
    match (if negb (imsi_valid (g_imsi g)) then inr (respond_err tx q CAUSE_INV_MAND_INFO) else inl q) with
    | inl q => req_of nr cid p g q /\ imsi_valid (g_imsi g) = true
    | inr o => exists q, req_of nr cid p g q /\ (forall a, trans tx (q :: a) o a) /\
               (forall nr r f c', In (OResp nr r f c') o -> c' = tx q r) /\
               (imsi_valid (g_imsi g) = true -> q_via q = peer_zero)
    end).
  { intros q H. destruct (imsi_valid (g_imsi g)) eqn:E; cbn [negb]; auto.
    exists q. split; auto. split; [intros a; apply respond_err_trans|]. split; [|congruence]. intros; eapply respond_err_in; eauto. }
  destruct (g_src g) as [|x l] eqn:Eg.
  - apply A. unfold req_of. cbn. auto 10.
  - unfold peer_set. destruct (ipa_set (p_ipa p) (Some (x :: l))) as [rc src] eqn:E.
    destruct (ipa_set_bytes _ _ _ _ W E) as (W2 & [(-> & B)|(-> & -> & B)]).
    + cbn [negb Z.eqb]. destruct (peer_cmp _ _ =? 0) eqn:C; cbn [negb]; apply A; repeat split; auto.
      * left. split; auto. cbn. unfold peer_cmp in C. rewrite T in C. cbn in C. apply Z.eqb_eq in C. apply c27_spec in C; auto.
      * right. cbn. rewrite Eg. repeat split; auto. discriminate.
    + change (- ENOSPC =? 0) with false. cbn [negb].
      exists (mk_req nr cid (mk_peer PT_IPA (p_ipa p)) peer_zero g). split; [unfold req_of; cbn; auto 10|].
      split; [intros a; apply respond_msgt_trans; [discriminate|reflexivity]|]. split; auto.
      intros. eapply respond_in. eauto.
Qed.

Lemma tx_srv_eq k s s' : v_routes (t_srv s') = v_routes (t_srv s) -> tx k s' = tx k s.
Proof. intros E. unfold tx, srv_tx. rewrite E. reflexivity. Qed.

Lemma conn_rx_ok k s cid g n : sinv (t_srv s) -> find_conn (t_srv s) cid <> None -> n = t_nr s ->
  forall v r, conn_rx (k_enc k) (t_srv s) n cid g = (v, r) ->
  match r with
  | inl q => q_nr q = n /\ q_conn q = cid /\ q_gsup q = g /\
      forall s', v_routes (t_srv s') = v_routes v -> identified (t_srv s) cid -> homes (t_srv s') q cid
  | inr o => exists q, q_nr q = n /\ q_conn q = cid /\ q_gsup q = g /\ (forall a, trans (srv_tx (k_enc k) v) (q :: a) o a) /\
      (fair (t_srv s) cid g -> only_to n cid o)
  end.
Proof.
  intros S F -> v r E. unfold conn_rx in E. destruct (find_conn (t_srv s) cid) as [c|] eqn:Fc; [|tauto].
  assert (W : ipa_wf (c_name c)). { apply (si_wf _ S). apply in_map. apply find_some in Fc. tauto. }
  pose proof (req_new_ok (srv_tx (k_enc k) (t_srv s)) (t_nr s) cid (mk_peer PT_IPA (c_name c)) g eq_refl W) as R.
  pose proof (fun I => identified_name _ _ _ S I Fc) as IN. cbn [p_ipa] in *.
  assert (I : In cid (map c_id (v_conns (t_srv s)))) by (apply find_conn_iff; congruence).
  assert (VE : peer_is_empty (mk_peer PT_IPA (c_name c)) = true -> ~ identified (t_srv s) cid).
  { intros V D. destruct (IN D) as [N _]. apply N. unfold peer_is_empty, ipa_is_empty in V. cbn in V. apply Nat.eqb_eq in V. unfold ipa_bytes. rewrite V. reflexivity. }
  assert (U : forall a x, leads (t_srv s) a cid -> route_find (v_routes (t_srv s)) a = Some x -> x = cid).
  { intros a x La Fx. apply route_find_some in Fx. eapply route_unique; [apply S| |]; eauto. }
  destruct (req_new _ _ _ _ _) as [q|o].
  - destruct R as [R Im]. pose proof R as (Q1 & Q2 & Q3 & Q4 & Q5).
    destruct (peer_is_empty (q_via q)) eqn:V; cbn [negb] in E.
    + injection E as <- <-. repeat split; auto; [|congruence].
      destruct Q5 as [[B V0]|(B0 & B & V0)]; [|rewrite V0 in V; destruct (VE V H0)].
      rewrite B. unfold leads. rewrite H. apply IN. auto.
    + destruct (route_add _ _ _) as [rc v2] eqn:A. destruct (route_add_ok _ _ _ _ _ A S I) as (S2 & C2 & N2 & I2 & _ & L0 & L1).
      destruct Q5 as [[B V0]|(B0 & B & V0)]; [rewrite V0 in V; discriminate|].
      destruct (rc =? 0) eqn:Rc; cbn [negb] in E; injection E as <- <-.
      * apply Z.eqb_eq in Rc. repeat split; auto.
        -- unfold leads. rewrite H. apply L0; auto.
        -- intros _. rewrite V0. unfold leads. rewrite H. apply I2. apply (IN H0).
      * apply Z.eqb_neq in Rc. destruct (L1 Rc) as (Ev & c2 & Nc & Lc). subst v2.
        exists q. repeat split; auto; [intros a; apply respond_msgt_trans; [discriminate|reflexivity]|]. intros [D _] r f c' X.
        destruct (IN D) as [N L]. apply respond_in in X. destruct X as [X Ty]. cbn in Ty. specialize (Ty ltac:(discriminate)).
        unfold srv_tx in X. rewrite Ty, V in X. cbn [Z.eqb Pos.eqb negb andb] in X. change (MSGT_ROUTING_ERROR =? MSGT_ROUTING_ERROR) with true in X. cbn [andb] in X.
        rewrite V0 in X. cbn in X. destruct (route_find _ _) eqn:Fr; [|discriminate]. destruct (k_enc k r); [|discriminate]. injection X as ->. eapply U; eauto.
  - destruct R as (q & (Q1 & Q2 & Q3 & Q4 & Q5) & T & X & Im). injection E as <- <-.
    exists q. repeat split; auto. intros [D H] r f c' Hin. apply X in Hin. destruct (IN D) as [N L]. unfold srv_tx in Hin.
    destruct Q5 as [[B V]|(B0 & B & V)].
    + rewrite V in Hin. cbn in Hin. rewrite Bool.andb_false_r, Q4 in Hin.
      destruct (route_find _ _) eqn:Fr; [|discriminate]. destruct (k_enc k r); [|discriminate]. injection Hin as ->. rewrite B in Fr. eapply U; eauto.
    + destruct H as [H|H]; [apply Im in H; rewrite V in H; discriminate|]. destruct (_ && _).
      * rewrite V in Hin. cbn in Hin. destruct (route_find _ _) eqn:Fr; [|discriminate]. destruct (k_enc k r); [|discriminate]. injection Hin as ->. eapply U; eauto.
      * rewrite Q4, B in Hin. destruct (route_find _ _) eqn:Fr; [|discriminate]. destruct (k_enc k r); [|discriminate]. injection Hin as ->.
        apply route_find_some in Fr. apply H; auto.
Qed.

Lemma hinv_srv v s n : hinv s -> (t_nr s <= n)%nat -> hinv (mk_hst v (t_lus s) (t_ss s) n).
Proof.
  intros [A B C] L. split; auto. cbn. eapply Forall_impl; [|exact B]. cbn. lia.
Qed.

Lemma trans_in X a o b nr r f c : trans X a o b -> In (OResp nr r f c) o -> exists q, In q a /\ q_nr q = nr /\ c = X q r.
Proof.
  intros T. induction T; cbn [In]; try tauto; intros [E|I].
  - injection E as <- <- <- <-. eauto.
  - auto.
  - injection E as <- <- <- <-. exists q. rewrite H. cbn. auto.
  - destruct (IHT I) as (p & Ip & Hp). exists p. rewrite H. cbn. auto.
  - discriminate.
  - destruct (IHT I) as (p & Ip & Hp). exists p. rewrite H. cbn. auto.
  - discriminate.
  - auto.
Qed.

Lemma all_rets_and {A} (P Q : A -> Prop) (p : prog A) : all_rets P p -> all_rets Q p -> all_rets (fun a => P a /\ Q a) p.
Proof. induction p; cbn; auto. Qed.

Lemma read_msg_ok k w s cid g : hinv s -> sinv (t_srv s) -> find_conn (t_srv s) cid <> None -> all_rets (rx_ok k s cid g) (read_msg k w s cid g).
Proof.
  intros H SV F. unfold read_msg. pose proof (conn_rx_ok k s cid g (t_nr s) SV F eq_refl) as R.
  pose proof (conn_rx_srv (k_enc k) (t_srv s) (t_nr s) cid g SV) as CS.
  destruct (conn_rx _ _ _ _ _) as [v r]. specialize (R v r eq_refl). cbn [fst] in CS. destruct CS as (SV1 & _).
  set (s1 := mk_hst v (t_lus s) (t_ss s) (S (t_nr s))).
  assert (H1 : hinv s1) by (apply hinv_srv; auto).
  destruct r as [q|o].
  - destruct R as (R1 & R2 & R3 & R4).
    assert (L : forall x, lin k s1 q x /\ keeps_srv s1 x -> rx_ok k s cid g x).
    { intros x ((A & B & C) & K). exists q. pose proof K as (K1 & _). cbn in K1.
      rewrite <- (tx_srv_eq k s1 (fst x) K1) in C.
      assert (SVx : sinv (t_srv (fst x))) by (eapply srv_same_sinv; eauto).
      repeat split; auto.
      intros [D _] r f c' Hin. destruct (trans_in _ _ _ _ _ _ _ _ C Hin) as (p & Ip & Np & E).
      assert (p = q) as ->.
      { destruct Ip as [->|Ip]; auto. exfalso. assert (Z := hi_lt s1 H1). rewrite Forall_forall in Z.
        destruct H as [_ Z0 _]. rewrite Forall_forall in Z0. apply Z0 in Ip. lia. }
      symmetry in E. eapply tx_homes; [exact SVx| |exact E]. apply R4; auto. }
    assert (D : all_rets (rx_ok k s cid g) (dispatch k w s1 q)).
    { eapply all_rets_impl; [exact L|]. apply all_rets_and; [apply dispatch_lin; auto|apply dispatch_srv]. }
    destruct (g_dst g); auto. destruct (ipa_set_str _ _); [|exact I]. destruct (ipa_set _ _) as [rc dest]. destruct (_ && _); auto.
    eapply all_rets_impl; [exact L|]. apply all_rets_and; [|apply same_srv]. apply same_lin; [apply H1|apply forward_trans].
  - destruct R as (q & R1 & R2 & R3 & T & R4). cbn. exists q. repeat split; auto. apply H1.
Qed.

(** one event *)
Definition ev_ok (k : cfg) (s : hst) (e : event) (x : hst * list out) : Prop :=
  (exists c g o, e = ERx c g /\ snd x = ORx (t_nr s) c g :: o /\ rx_ok k s c g (fst x, o)) \/
  (t_nr (fst x) = t_nr s /\ keys_ok (fst x) /\ trans (tx k (fst x)) (opens s) (snd x) (opens (fst x))).

Lemma handle_ok k w s e : hinv s -> sinv (t_srv s) -> all_rets (ev_ok k s e) (handle k w s e).
Proof.
  intros H SV. assert (K : keys_ok s) by apply H.
  assert (Q : forall v, ev_ok k s e (with_srv s v, [])). { intros v. right. repeat split; auto. apply trans_refl. }
  assert (QT : forall o, only_tx o -> ev_ok k s e (s, o)). { intros o T. right. repeat split; auto. apply only_tx_trans; auto. }
  destruct e; cbn [handle all_rets]; auto.
  - destruct (find_conn (t_srv s) c) eqn:F; [|apply QT; constructor].
    unfold read_cb. apply all_rets_bind. eapply all_rets_impl; [|apply read_msg_ok; [exact H|exact SV|congruence]].
    intros [s' o] R. left. exists c, g, o. split; auto.
  - right. unfold lu_timeout. pose proof (lu_timeout_trans k s nr H) as T. unfold lu_timeout in T.
    destruct (find _ _); exact T.
  - right. unfold ss_timeout. destruct (ss_find _ _ _) as [z|] eqn:E; [|repeat split; auto; apply trans_refl].
    apply ss_find_in in E. destruct E as [I _]. repeat split; auto.
    + apply ss_free_keys; auto.
    + eapply trans_perm_l; [symmetry; apply (ss_free_perm s z z); auto|]. apply free_trans.
  - unfold same. apply all_rets_bind. eapply all_rets_impl; [|apply vty_msisdn_tx]. intros o T. apply QT; auto.
  - unfold same. apply all_rets_bind. eapply all_rets_impl; [|apply vty_nam_tx]. intros o T. apply QT; auto.
  - apply all_rets_bind, all_rets_true. intros _. apply QT. constructor.
Qed.

Lemma trans_sub X a o b : trans X a o b -> exists c, Permutation a (b ++ c).
Proof.
  intros T. induction T.
  - exists []. rewrite app_nil_r. auto.
  - auto.
  - destruct IHT as [x P]. exists (q :: x). rewrite H, P. apply Permutation_middle.
  - destruct IHT as [x P]. exists (q :: x). rewrite H, P. apply Permutation_middle.
  - auto.
Qed.

Lemma ev_ok_inv k s e x : hinv s -> ev_ok k s e x -> hinv (fst x).
Proof.
  intros [N L K] [(c & g & o & -> & E & q & (Q1 & Q2 & Q3) & (T1 & T2 & T3) & _)|(T1 & T2 & T3)].
  - apply trans_sub in T3. destruct T3 as [y P]. cbn [fst snd] in *.
    assert (N' : NoDup (map q_nr (q :: opens s))).
    { cbn. constructor; auto. rewrite Q1. intros I. apply in_map_iff in I. destruct I as (p & Ep & Ip).
      rewrite Forall_forall in L. apply L in Ip. lia. }
    assert (L' : Forall (fun q => (q_nr q < t_nr (fst x))%nat) (q :: opens s)).
    { rewrite T1. constructor; [lia|]. eapply Forall_impl; [|exact L]. cbn. lia. }
    split; auto.
    + apply (Permutation_NoDup (Permutation_map q_nr P)) in N'. rewrite map_app in N'. eapply nodup_app_l; eauto.
    + apply (Permutation_Forall P) in L'. apply Forall_app in L'. tauto.
  - apply trans_sub in T3. destruct T3 as [y P]. split; auto.
    + apply (Permutation_NoDup (Permutation_map q_nr P)) in N. rewrite map_app in N. eapply nodup_app_l; eauto.
    + rewrite T1. apply (Permutation_Forall P) in L. apply Forall_app in L. tauto.
Qed.

Lemma hinv0 : hinv hst0. Proof. repeat constructor. Qed.
Lemma hinv_restart s : hinv (restart s). Proof. repeat constructor. Qed.

Definition inv (s : hst) : Prop := hinv s /\ sinv (t_srv s).
Lemma inv0 : inv hst0. Proof. split; [apply hinv0|apply sinv0]. Qed.

Lemma step_cases k s d w e c s' d' o : inv s -> step k (s, d) (w, e, c) = Some (s', d', o) ->
  ev_ok k s e (s', o) \/ (s' = restart s /\ o = [] /\ In EvCrash c).
Proof. intros [H SV] E. exact (step_inv _ _ _ _ _ _ _ _ _ _ (handle_ok k w s e H SV) E). Qed.

(** the requests of a log *)
Inductive ltr : nat -> list req -> list out -> nat -> list req -> Prop :=
| l_nil n a b c : Permutation a (b ++ c) -> ltr n a [] n b
| l_rx n a q o n' b : q_nr q = n -> ltr (S n) (q :: a) o n' b -> ltr n a (ORx n (q_conn q) (q_gsup q) :: o) n' b
| l_keep n a q r c o n' b : In q a -> repeats (q_gsup q) r -> leaves (q_gsup q) r -> ltr n a o n' b -> ltr n a (OResp (q_nr q) r false c :: o) n' b
| l_final n a a' q r c o n' b : Permutation a (q :: a') -> repeats (q_gsup q) r -> closes (q_gsup q) r -> ltr n a' o n' b ->
    ltr n a (OResp (q_nr q) r true c :: o) n' b
| l_free n a a' q o n' b : Permutation a (q :: a') -> ltr n a' o n' b -> ltr n a (OFree (q_nr q) :: o) n' b
| l_tx n a c g o n' b : ltr n a o n' b -> ltr n a (OTx c g :: o) n' b.

Lemma ltr_more n a o n' b : ltr n a o n' b -> forall x a2, Permutation a2 (a ++ x) -> ltr n a2 o n' b.
Proof.
  intros T. induction T; intros x a2 P.
  - apply l_nil with (c := c ++ x). rewrite P, H. rewrite <- app_assoc. auto.
  - apply l_rx; auto. apply IHT with (x := x). cbn. apply perm_skip. auto.
  - apply l_keep; auto. + eapply Permutation_in; [symmetry; exact P|]. apply in_or_app; auto. + eauto.
  - eapply l_final with (a' := a' ++ x); eauto. rewrite P, H. reflexivity.
  - eapply l_free with (a' := a' ++ x); eauto. rewrite P, H. reflexivity.
  - apply l_tx; eauto.
Qed.
Lemma ltr_app n a o n1 b o' n2 c : ltr n a o n1 b -> ltr n1 b o' n2 c -> ltr n a (o ++ o') n2 c.
Proof.
  intros T T2. induction T; cbn.
  - eapply ltr_more; eauto.
  - apply l_rx; auto.
  - apply l_keep; auto.
  - eapply l_final; eauto.
  - eapply l_free; eauto.
  - apply l_tx; auto.
Qed.
Lemma trans_ltr X n a o b : trans X a o b -> ltr n a o n b.
Proof.
  intros T. induction T.
  - apply l_nil with (c := []). rewrite app_nil_r. auto.
  - apply l_keep; auto.
  - eapply l_final; eauto.
  - eapply l_free; eauto.
  - apply l_tx; auto.
Qed.

Lemma step_ltr k s d w e c s' d' o : inv s -> step k (s, d) (w, e, c) = Some (s', d', o) ->
  inv s' /\ ltr (t_nr s) (opens s) o (t_nr s') (opens s').
Proof.
  intros H E. destruct (step_cases _ _ _ _ _ _ _ _ _ H E) as [V|(-> & -> & _)].
  - split; [split; [exact (ev_ok_inv _ _ _ _ (proj1 H) V)|eapply step_sinv; [apply H|exact E]]|].
    destruct V as [(c1 & g & o1 & -> & E1 & q & (Q1 & Q2 & Q3) & (T1 & T2 & T3) & _)|(T1 & T2 & T3)]; cbn [fst snd] in *.
    + subst o. rewrite T1, <- Q2, <- Q3. apply l_rx; auto. apply trans_ltr with (1 := T3).
    + rewrite T1. apply trans_ltr with (1 := T3).
  - split; [split; [apply hinv_restart|apply sinv_restart]|]. apply l_nil with (c := opens s). reflexivity.
Qed.
Lemma hist_ltr k es : forall s d s' d' o, inv s -> hist k (s, d) es = Some (s', d', o) ->
  inv s' /\ ltr (t_nr s) (opens s) o (t_nr s') (opens s').
Proof.
  induction es as [|[[w e] c] es IH]; intros s d s' d' o H; cbn [hist].
  - intros [= <- <- <-]. split; auto. apply l_nil with (c := []). rewrite app_nil_r. auto.
  - destruct (step k (s, d) (w, e, c)) as [[[s1 d1] o1]|] eqn:E; [|discriminate].
    destruct (hist k (s1, d1) es) as [[[s2 d2] o2]|] eqn:E2; [|discriminate]. intros [= <- <- <-].
    destruct (step_ltr _ _ _ _ _ _ _ _ _ H E) as [H1 L1]. destruct (IH _ _ _ _ _ H1 E2) as [H2 L2].
    split; auto. eapply ltr_app; eauto.
Qed.

(** numbers below [n] that are not open never appear again *)
Lemma ltr_gone n a o n' b nr : ltr n a o n' b -> (nr < n)%nat -> ~ In nr (map q_nr a) -> forall x, In x o -> ~ about nr x.
Proof.
  intros T. induction T; intros L N x; cbn [In]; try tauto; intros [<-|I]; cbn [about]; auto.
  - apply IHT; auto. cbn. intros [E|E]; [lia|auto].
  - intros E. apply N. subst. apply in_map. auto.
  - intros E. apply N. subst. rewrite H. cbn. auto.
  - apply IHT; auto. intros E. apply N. rewrite H. cbn. auto.
  - intros E. apply N. subst. rewrite H. cbn. auto.
  - apply IHT; auto. intros E. apply N. rewrite H. cbn. auto.
Qed.
Lemma perm_nodup_tail {a a' : list req} {q} : Permutation a (q :: a') -> NoDup (map q_nr a) -> NoDup (map q_nr a') /\ ~ In (q_nr q) (map q_nr a').
Proof. intros P N. apply (Permutation_NoDup (Permutation_map q_nr P)) in N. cbn in N. inversion N; auto. Qed.

Definition fresh_ok (n : nat) (a : list req) : Prop := NoDup (map q_nr a) /\ Forall (fun q => (q_nr q < n)%nat) a.
Lemma fresh_cons n a q : q_nr q = n -> fresh_ok n a -> fresh_ok (S n) (q :: a).
Proof.
  intros E [N F]. split.
  - cbn. constructor; auto. rewrite E. intros I. apply in_map_iff in I. destruct I as (p & Ep & Ip). rewrite Forall_forall in F. apply F in Ip. lia.
  - constructor; [lia|]. eapply Forall_impl; [|exact F]. cbn. lia.
Qed.
Lemma fresh_tail n a a' q : Permutation a (q :: a') -> fresh_ok n a -> fresh_ok n a' /\ ~ In (q_nr q) (map q_nr a') /\ (q_nr q < n)%nat.
Proof.
  intros P [N F]. destruct (perm_nodup_tail P N) as [N1 N2]. apply (Permutation_Forall P) in F. inversion F; subst.
  repeat split; auto.
Qed.

Lemma ltr_closed n a o n' b : ltr n a o n' b -> fresh_ok n a ->
  forall l1 x l2 nr, o = l1 ++ x :: l2 -> ends nr x -> forall y, In y l2 -> ~ about nr y.
Proof.
  intros T. induction T; intros F l1 x l2 nr E X.
  - destruct l1; discriminate.
  - destruct l1; injection E as <- E; [destruct X|]. subst. eapply IHT; eauto. apply fresh_cons; auto.
  - destruct l1; injection E as <- E; [destruct X|]. subst. eapply IHT; eauto.
  - destruct (fresh_tail _ _ _ _ H F) as (F1 & N1 & L1). destruct l1; injection E as <- E.
    + cbn in X. subst. eapply ltr_gone; eauto.
    + subst. eapply IHT; eauto.
  - destruct (fresh_tail _ _ _ _ H F) as (F1 & N1 & L1). destruct l1; injection E as <- E.
    + cbn in X. subst. eapply ltr_gone; eauto.
    + subst. eapply IHT; eauto.
  - destruct l1; injection E as <- E; [destruct X|]. subst. eapply IHT; eauto.
Qed.

Lemma ltr_repeats n a o n' b : ltr n a o n' b ->
  forall l1 nr r f c l2, o = l1 ++ OResp nr r f c :: l2 ->
  (exists q, In q a /\ q_nr q = nr /\ repeats (q_gsup q) r) \/ (exists c' g, In (ORx nr c' g) l1 /\ repeats g r).
Proof.
  intros T. induction T; intros l1 nr r0 f c0 l2 E.
  - destruct l1; discriminate.
  - destruct l1; [discriminate|]. injection E as <- E. subst. destruct (IHT _ _ _ _ _ _ eq_refl) as [(p & [->|I] & Ep & R)|(c' & g & I & R)].
    + right. subst. exists (q_conn p), (q_gsup p). cbn. auto.
    + left. eauto.
    + right. exists c', g. cbn. auto.
  - destruct l1; injection E as <- E.
    + subst. left. exists q. intuition congruence.
    + subst. destruct (IHT _ _ _ _ _ _ eq_refl) as [L|(c' & g & I & R)]; [left; auto|right; exists c', g; cbn; auto].
  - destruct l1; injection E as <- E.
    + subst. left. exists q. split; [rewrite H; cbn; auto|]. intuition congruence.
    + subst. destruct (IHT _ _ _ _ _ _ eq_refl) as [(p & I & L)|(c' & g & I & R)]; [left; exists p; split; auto; rewrite H; cbn; auto|right; exists c', g; cbn; auto].
  - destruct l1; [discriminate|]. injection E as <- E. subst.
    destruct (IHT _ _ _ _ _ _ eq_refl) as [(p & I & L)|(c' & g & I & R)]; [left; exists p; split; auto; rewrite H; cbn; auto|right; exists c', g; cbn; auto].
  - destruct l1; [discriminate|]. injection E as <- E. subst.
    destruct (IHT _ _ _ _ _ _ eq_refl) as [L|(c' & g0 & I & R)]; [left; auto|right; exists c', g0; cbn; auto].
Qed.

Lemma ltr_state n a o n' b : ltr n a o n' b ->
  forall l1 nr r f c l2, o = l1 ++ OResp nr r f c :: l2 ->
  (exists q, In q a /\ q_nr q = nr /\ (if f then closes (q_gsup q) r else leaves (q_gsup q) r)) \/ (exists c' g, In (ORx nr c' g) l1 /\ (if f then closes g r else leaves g r)).
Proof.
  intros T. induction T; intros l1 nr r0 f c0 l2 E.
  - destruct l1; discriminate.
  - destruct l1; [discriminate|]. injection E as <- E. subst. destruct (IHT _ _ _ _ _ _ eq_refl) as [(p & [->|I] & Ep & R)|(c' & g & I & R)].
    + right. subst. exists (q_conn p), (q_gsup p). cbn. auto.
    + left. eauto.
    + right. exists c', g. cbn. auto.
  - destruct l1; injection E as <- E.
    + subst. left. exists q. intuition congruence.
    + subst. destruct (IHT _ _ _ _ _ _ eq_refl) as [L|(c' & g & I & R)]; [left; auto|right; exists c', g; cbn; auto].
  - destruct l1; injection E as <- E.
    + subst. left. exists q. split; [rewrite H; cbn; auto|]. intuition congruence.
    + subst. destruct (IHT _ _ _ _ _ _ eq_refl) as [(p & I & L)|(c' & g & I & R)]; [left; exists p; split; auto; rewrite H; cbn; auto|right; exists c', g; cbn; auto].
  - destruct l1; [discriminate|]. injection E as <- E. subst.
    destruct (IHT _ _ _ _ _ _ eq_refl) as [(p & I & L)|(c' & g & I & R)]; [left; exists p; split; auto; rewrite H; cbn; auto|right; exists c', g; cbn; auto].
  - destruct l1; [discriminate|]. injection E as <- E. subst.
    destruct (IHT _ _ _ _ _ _ eq_refl) as [L|(c' & g0 & I & R)]; [left; auto|right; exists c', g0; cbn; auto].
Qed.

Lemma ltr_rx_fresh n a o n' b : ltr n a o n' b -> (n <= n')%nat /\ (forall x, In x o -> match x with ORx nr _ _ => (n <= nr < n')%nat | _ => True end) /\
  (forall l1 nr c g l2, o = l1 ++ ORx nr c g :: l2 -> forall y, In y (l1 ++ l2) -> match y with ORx nr' _ _ => nr' <> nr | _ => True end).
Proof.
  assert (G : forall n a o n' b, ltr n a o n' b -> (n <= n')%nat /\ (forall x, In x o -> match x with ORx nr _ _ => (n <= nr < n')%nat | _ => True end)).
  { clear. intros n a o n' b T. induction T.
    - split; auto. intros x [].
    - destruct IHT as [A B]. split; [lia|]. intros x [<-|I]; [lia|]. apply B in I. destruct x; auto. lia.
    - destruct IHT as [A B]. split; auto. intros x [<-|I]; auto. apply B; auto.
    - destruct IHT as [A B]. split; auto. intros x [<-|I]; auto. apply B; auto.
    - destruct IHT as [A B]. split; auto. intros x [<-|I]; auto. apply B; auto.
    - destruct IHT as [A B]. split; auto. intros x [<-|I]; auto. apply B; auto. }
  intros T. destruct (G _ _ _ _ _ T) as [A B]. split; [exact A|]. split; [exact B|].
  clear A B. induction T; intros l1 nr c1 g1 l2 E y Iy.
  - destruct l1; discriminate.
  - destruct (G _ _ _ _ _ T) as [A B]. destruct l1; injection E as E0 E.
    + subst. cbn in Iy. apply B in Iy. destruct y; auto. lia.
    + subst o0. destruct Iy as [<-|Iy].
      * subst o. assert (I : In (ORx nr c1 g1) (l1 ++ ORx nr c1 g1 :: l2)) by (apply in_or_app; cbn; auto). apply B in I. lia.
      * eapply IHT; eauto.
  - destruct l1; [discriminate|]. injection E as <- E. destruct Iy as [<-|Iy]; auto. eapply IHT; eauto.
  - destruct l1; [discriminate|]. injection E as <- E. destruct Iy as [<-|Iy]; auto. eapply IHT; eauto.
  - destruct l1; [discriminate|]. injection E as <- E. destruct Iy as [<-|Iy]; auto. eapply IHT; eauto.
  - destruct l1; [discriminate|]. injection E as <- E. destruct Iy as [<-|Iy]; auto. eapply IHT; eauto.
Qed.

(** nothing gets lost without a crash *)
Lemma trans_kept X a o b q : trans X a o b -> In q a -> In q b \/ exists x, In x o /\ ends (q_nr q) x.
Proof.
  intros T. induction T; intros I.
  - left. eapply Permutation_in; eauto.
  - destruct (IHT I) as [L|(x & Ix & Ex)]; auto. right. exists x. cbn; auto.
  - apply (Permutation_in _ H) in I. destruct I as [<-|I].
    + right. eexists. split; [left; reflexivity|]. cbn. auto.
    + destruct (IHT I) as [L|(x & Ix & Ex)]; auto. right. exists x. cbn; auto.
  - apply (Permutation_in _ H) in I. destruct I as [<-|I].
    + right. eexists. split; [left; reflexivity|]. cbn. auto.
    + destruct (IHT I) as [L|(x & Ix & Ex)]; auto. right. exists x. cbn; auto.
  - destruct (IHT I) as [L|(x & Ix & Ex)]; auto. right. exists x. cbn; auto.
Qed.
Lemma step_kept k s d w e c s' d' o : inv s -> step k (s, d) (w, e, c) = Some (s', d', o) -> no_crash c ->
  (forall q, In q (opens s) -> In q (opens s') \/ exists x, In x o /\ ends (q_nr q) x) /\
  (forall nr c' g, In (ORx nr c' g) o -> pending s' nr \/ exists x, In x o /\ ends nr x).
Proof.
  intros H E NC. destruct (step_cases _ _ _ _ _ _ _ _ _ H E) as [V|(_ & _ & C)]; [|destruct (NC C)].
  destruct V as [(c1 & g & o1 & -> & E1 & q & (Q1 & Q2 & Q3) & (T1 & T2 & T3) & _)|(T1 & T2 & T3)]; cbn [fst snd] in *.
  - subst o. split.
    + intros p Ip. destruct (trans_kept _ _ _ _ p T3) as [L|(x & Ix & Ex)]; [right; auto|left; auto|right; exists x; cbn; auto].
    + intros nr c' g' [I|I].
      * injection I as <- <- <-. destruct (trans_kept _ _ _ _ q T3) as [L|(x & Ix & Ex)]; [left; auto| |].
        { left. exists q. auto. } { right. exists x. rewrite <- Q1. cbn; auto. }
      * exfalso. clear - T3 I. revert I. induction T3; cbn; try tauto; intros [I|I]; auto; discriminate.
  - split.
    + intros p Ip. apply trans_kept with (1 := T3); auto.
    + intros nr c' g' I. exfalso. clear - T3 I. revert I. induction T3; cbn; try tauto; intros [I|I]; auto; discriminate.
Qed.
Lemma hist_kept k es : forall s d s' d' o, inv s -> hist k (s, d) es = Some (s', d', o) ->
  (forall w e c, In (w, e, c) es -> no_crash c) ->
  (forall nr, pending s nr -> pending s' nr \/ exists x, In x o /\ ends nr x) /\
  (forall nr c' g, In (ORx nr c' g) o -> pending s' nr \/ exists x, In x o /\ ends nr x).
Proof.
  induction es as [|[[w e] c] es IH]; intros s d s' d' o H; cbn [hist].
  - intros [= <- <- <-] _. split; auto. intros nr c' g [].
  - destruct (step k (s, d) (w, e, c)) as [[[s1 d1] o1]|] eqn:E; [|discriminate].
    destruct (hist k (s1, d1) es) as [[[s2 d2] o2]|] eqn:E2; [|discriminate]. intros [= <- <- <-] NC.
    destruct (step_ltr _ _ _ _ _ _ _ _ _ H E) as [H1 L1].
    destruct (step_kept _ _ _ _ _ _ _ _ _ H E) as [A B]; [eapply NC; left; reflexivity|].
    destruct (IH _ _ _ _ _ H1 E2) as [A2 B2]. { intros w0 e0 c0 I. eapply NC. right; exact I. }
    assert (G : forall nr, pending s1 nr \/ (exists x, In x o1 /\ ends nr x) -> pending s2 nr \/ exists x, In x (o1 ++ o2) /\ ends nr x).
    { intros nr [P|(x & Ix & Ex)].
      - destruct (A2 _ P) as [L|(x & Ix & Ex)]; auto. right. exists x. rewrite in_app_iff. auto.
      - right. exists x. rewrite in_app_iff. auto. }
    split.
    + intros nr (q & Iq & Eq). apply G. destruct (A _ Iq) as [L|R]; [left; exists q; auto|subst; auto].
    + intros nr c' g I. apply in_app_iff in I. destruct I as [I|I].
      * apply G. eapply B; eauto.
      * destruct (B2 _ _ _ I) as [L|(x & Ix & Ex)]; auto. right. exists x. rewrite in_app_iff. auto.
Qed.

(** * Statements from the start of the process *)
Lemma fresh0 : fresh_ok (t_nr hst0) (opens hst0). Proof. split; constructor. Qed.

Lemma c24_repeats k d es s d' l1 nr r f c l2 :
  hist k (hst0, d) es = Some (s, d', l1 ++ OResp nr r f c :: l2) -> exists c' g, In (ORx nr c' g) l1 /\ repeats g r.
Proof.
  intros E. destruct (hist_ltr _ _ _ _ _ _ _ inv0 E) as [_ L].
  destruct (ltr_repeats _ _ _ _ _ L _ _ _ _ _ _ eq_refl) as [(q & [] & _)|R]; auto.
Qed.
Lemma c24_state k d es s d' l1 nr r f c l2 :
  hist k (hst0, d) es = Some (s, d', l1 ++ OResp nr r f c :: l2) -> exists c' g, In (ORx nr c' g) l1 /\ if f then closes g r else leaves g r.
Proof.
  intros E. destruct (hist_ltr _ _ _ _ _ _ _ inv0 E) as [_ L].
  destruct (ltr_state _ _ _ _ _ L _ _ _ _ _ _ eq_refl) as [(q & [] & _)|R]; auto.
Qed.
Lemma c24_closed k d es s d' l1 x l2 nr :
  hist k (hst0, d) es = Some (s, d', l1 ++ x :: l2) -> ends nr x -> forall y, In y l2 -> ~ about nr y.
Proof.
  intros E. destruct (hist_ltr _ _ _ _ _ _ _ inv0 E) as [_ L]. eapply (ltr_closed _ _ _ _ _ L fresh0). reflexivity.
Qed.
Lemma c24_number k d es s d' l1 nr c g l2 :
  hist k (hst0, d) es = Some (s, d', l1 ++ ORx nr c g :: l2) -> forall nr' c' g', In (ORx nr' c' g') (l1 ++ l2) -> nr' <> nr.
Proof.
  intros E nr' c' g' I. destruct (hist_ltr _ _ _ _ _ _ _ inv0 E) as [_ L]. apply ltr_rx_fresh in L.
  destruct L as (_ & _ & L). apply (L _ _ _ _ _ eq_refl) in I. auto.
Qed.
Lemma c24_open k d es s d' o nr c g : hist k (hst0, d) es = Some (s, d', o) -> (forall w e f, In (w, e, f) es -> no_crash f) ->
  In (ORx nr c g) o -> pending s nr \/ exists x, In x o /\ ends nr x.
Proof. intros E NC. destruct (hist_kept _ _ _ _ _ _ _ inv0 E NC) as [_ B]. apply B. Qed.
(** a request that is pending has not been ended *)
Lemma ltr_pending n a o n' b : ltr n a o n' b -> fresh_ok n a -> forall nr, (exists q, In q b /\ q_nr q = nr) -> forall x, In x o -> ~ ends nr x.
Proof.
  intros T F nr (q0 & I0 & E0).
  assert (G : forall n a o n' b, ltr n a o n' b -> forall nr, (nr < n)%nat -> In nr (map q_nr b) -> In nr (map q_nr a)).
  { clear. intros n a o n' b T. induction T; intros nr L I; auto.
    - rewrite H, map_app. apply in_or_app; auto.
    - assert (L' : (nr < S n)%nat) by lia. destruct (IHT nr L' I); [lia|auto].
    - rewrite H. right. auto.
    - rewrite H. right. auto. }
  assert (I1 : In nr (map q_nr b)) by (subst; apply in_map; auto). clear q0 I0 E0.
  induction T; intros x; cbn [In]; try tauto; intros [<-|I]; cbn [ends]; auto.
  - apply IHT; auto. apply fresh_cons; auto.
  - destruct (fresh_tail _ _ _ _ H F) as (F1 & N1 & L1). intros E. subst. apply N1. eapply G; eauto.
  - apply IHT; auto. eapply fresh_tail; eauto.
  - destruct (fresh_tail _ _ _ _ H F) as (F1 & N1 & L1). intros E. subst. apply N1. eapply G; eauto.
  - apply IHT; auto. eapply fresh_tail; eauto.
Qed.
Lemma c24_pending k d es s d' o nr : hist k (hst0, d) es = Some (s, d', o) -> pending s nr -> forall x, In x o -> ~ ends nr x.
Proof.
  intros E P. destruct (hist_ltr _ _ _ _ _ _ _ inv0 E) as [_ L]. eapply (ltr_pending _ _ _ _ _ L fresh0); eauto.
Qed.
