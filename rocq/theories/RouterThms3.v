(** C26: requests of a peer whose name leads elsewhere. *)
From Coq Require Import Permutation.
From Verif Require Import Base PeerId Db DbSpec DbProofs DbThms2 Auth AuthThms3 Gsup Router Hlr PeerSpec PeerThms HlrSpec HlrThms RouterThms RouterThms2 HlrThms2 HlrThms3.

(** the request made of a message without source name *)
Definition plain_req (s : hst) (c : nat) (x : conn) (g : gsup) : req := mk_req (t_nr s) c (mk_peer PT_IPA (c_name x)) peer_zero g.
Definition plain_ok (k : cfg) (s : hst) (c : nat) (x : conn) (g : gsup) (y : hst * list out) : Prop :=
  exists o, snd y = ORx (t_nr s) c g :: o /\ t_nr (fst y) = S (t_nr s) /\ v_routes (t_srv (fst y)) = v_routes (t_srv s) /\
    trans (tx k (fst y)) (plain_req s c x g :: opens s) o (opens (fst y)).
Lemma plain_rx k w s c x g : hinv s -> sinv (t_srv s) -> find_conn (t_srv s) c = Some x -> g_src g = [] ->
  all_rets (plain_ok k s c x g) (handle k w s (ERx c g)).
Proof.
  intros H SV F G. cbn [handle]. rewrite F. unfold read_cb. apply all_rets_bind.
  assert (A : forall s' o, t_nr s' = S (t_nr s) -> v_routes (t_srv s') = v_routes (t_srv s) -> trans (tx k s') (plain_req s c x g :: opens s) o (opens s') ->
    all_rets (plain_ok k s c x g) (Ret (s', ORx (t_nr s) c g :: o))) by (intros s' o N R T; exists o; auto).
  eapply all_rets_impl with (P := fun y => t_nr (fst y) = S (t_nr s) /\ v_routes (t_srv (fst y)) = v_routes (t_srv s) /\
    trans (tx k (fst y)) (plain_req s c x g :: opens s) (snd y) (opens (fst y))).
  { intros [s' o] (N & R & T). apply A; auto. }
  unfold read_msg, conn_rx. rewrite F. unfold req_new. rewrite G. fold (plain_req s c x g).
  set (s1 := mk_hst (t_srv s) (t_lus s) (t_ss s) (S (t_nr s))). assert (H1 : hinv s1) by (apply hinv_srv; auto).
  destruct (negb (imsi_valid (g_imsi g))).
  - cbn. repeat split. apply respond_err_trans.
  - cbn [plain_req q_via peer_is_empty peer_zero p_type negb]. fold (plain_req s c x g).
    assert (L : forall y, lin k s1 (plain_req s c x g) y /\ keeps_srv s1 y -> t_nr (fst y) = S (t_nr s) /\ v_routes (t_srv (fst y)) = v_routes (t_srv s) /\
      trans (tx k (fst y)) (plain_req s c x g :: opens s) (snd y) (opens (fst y))).
    { intros y ((B & C & T) & K). pose proof K as (K1 & _). cbn in K1. rewrite <- (tx_srv_eq k s1 (fst y) K1) in T. auto. }
    assert (D : all_rets (fun y => t_nr (fst y) = S (t_nr s) /\ v_routes (t_srv (fst y)) = v_routes (t_srv s) /\
      trans (tx k (fst y)) (plain_req s c x g :: opens s) (snd y) (opens (fst y))) (dispatch k w s1 (plain_req s c x g))).
    { eapply all_rets_impl; [exact L|]. apply all_rets_and; [apply dispatch_lin; auto|apply dispatch_srv]. }
    destruct (g_dst g); auto. destruct (ipa_set_str _ _); [|exact I]. destruct (ipa_set _ _) as [rc dest]. destruct (_ && _); auto.
    eapply all_rets_impl; [exact L|]. apply all_rets_and; [|apply same_srv]. apply same_lin; [apply H1|apply forward_trans].
Qed.

Lemma plain_step k s d w c x g f s2 d2 o2 nr : inv s -> find_conn (t_srv s) c = Some x -> g_src g = [] ->
  step k (s, d) (w, ERx c g, f) = Some (s2, d2, o2) -> In (ORx nr c g) o2 ->
  nr = t_nr s /\ plain_ok k s c x g (s2, o2).
Proof.
  intros [H SV] F G E Hr. destruct (step_inv _ _ _ _ _ _ _ _ _ _ (plain_rx k w s c x g H SV F G) E) as [P|(-> & -> & _)]; [|destruct Hr].
  split; [|exact P]. destruct P as (o & Eo & _ & _ & T). cbn [fst snd] in *. subst o2. destruct Hr as [Hr|Hr]; [congruence|].
  exfalso. clear -T Hr. revert Hr. induction T; cbn; try tauto; intros [I|I]; auto; discriminate.
Qed.

Lemma conn_named v c x : sinv v -> In x (v_conns v) -> c_id x = c -> find_conn v c = Some x.
Proof.
  intros S Ix Ex. pose proof (si_ids v S) as ND. unfold find_conn. clear S. induction (v_conns v) as [|z l IH]; [destruct Ix|].
  cbn in *. inversion ND; subst. destruct Ix as [->|Ix]; [now rewrite Nat.eqb_refl|].
  destruct (Nat.eqb_spec (c_id z) (c_id x)) as [E|_]; [|apply IH; auto]. exfalso. apply H1. rewrite E. now apply in_map.
Qed.

Lemma plain_mine k s c x g y nr r fin dst : hinv s -> plain_ok k s c x g y -> nr = t_nr s -> In (OResp nr r fin dst) (snd y) ->
  dst = tx k (fst y) (plain_req s c x g) r.
Proof.
  intros [_ Z _] (o & Eo & _ & _ & T) -> I. rewrite Eo in I. destruct I as [I|I]; [discriminate|].
  destruct (trans_in _ _ _ _ _ _ _ _ T I) as (p & Ip & Np & E). destruct Ip as [<-|Ip]; [exact E|].
  exfalso. rewrite Forall_forall in Z. apply Z in Ip. lia.
Qed.

Lemma c26_elsewhere k d es s d1 o w c x c' g f s2 d2 o2 es' s3 d3 o3 nr :
  hist k (hst0, d) es = Some (s, d1, o) -> In x (v_conns (t_srv s)) -> c_id x = c -> leads (t_srv s) (ipa_bytes (c_name x)) c' -> g_src g = [] ->
  step k (s, d1) (w, ERx c g, f) = Some (s2, d2, o2) -> In (ORx nr c g) o2 ->
  quiet c' es' -> hist k (s2, d2) es' = Some (s3, d3, o3) ->
  forall r fin dst, In (OResp nr r fin (Some dst)) (o2 ++ o3) -> dst = c'.
Proof.
  intros E Ix Ex Ld G St Hr Q E3. destruct (hist_ltr _ _ _ _ _ _ _ inv0 E) as [H _]. destruct (step_ltr _ _ _ _ _ _ _ _ _ H St) as [H2 _].
  destruct (plain_step _ _ _ _ _ x _ _ _ _ _ nr H (conn_named _ _ _ (proj2 H) Ix Ex) G St Hr) as [Nr P].
  pose proof P as (o' & Eo & Nn & R & T). cbn [fst snd] in *.
  assert (HH : homes (t_srv s2) (plain_req s c x g) c').
  { split; [|intros V; discriminate V]. unfold leads in *. cbn. rewrite R. exact Ld. }
  intros r fin dst I. apply in_app_iff in I. destruct I as [I|I].
  - apply (plain_mine k s c x g (s2, o2) nr r fin (Some dst) (proj1 H) P Nr) in I. symmetry in I. eapply tx_homes; [apply H2|exact HH|exact I].
  - eapply (c26_later k (plain_req s c x g) c' es' s2); eauto; [|cbn [plain_req q_nr]; rewrite <- Nr; exact I].
    split; [cbn; lia|]. split; auto. intros p Ip Np. destruct (trans_sub _ _ _ _ T) as [y Py].
    assert (Ip' : In p (plain_req s c x g :: opens s)) by (rewrite Py; apply in_or_app; auto).
    destruct Ip' as [<-|Ip']; auto. exfalso. destruct H as [[_ L _] _]. rewrite Forall_forall in L. apply L in Ip'. cbn in Np. lia.
Qed.

Lemma c26_nowhere k d es s d1 o w c x g f s2 d2 o2 nr :
  hist k (hst0, d) es = Some (s, d1, o) -> In x (v_conns (t_srv s)) -> c_id x = c -> (forall c', ~ leads (t_srv s) (ipa_bytes (c_name x)) c') -> g_src g = [] ->
  step k (s, d1) (w, ERx c g, f) = Some (s2, d2, o2) -> In (ORx nr c g) o2 ->
  forall r fin dst, In (OResp nr r fin dst) o2 -> dst = None.
Proof.
  intros E Ix Ex Ld G St Hr. destruct (hist_ltr _ _ _ _ _ _ _ inv0 E) as [H _].
  destruct (plain_step _ _ _ _ _ x _ _ _ _ _ nr H (conn_named _ _ _ (proj2 H) Ix Ex) G St Hr) as [Nr P].
  pose proof P as (o' & Eo & Nn & R & T). cbn [fst snd] in *.
  intros r fin dst I. apply (plain_mine k s c x g (s2, o2) nr r fin dst (proj1 H) P Nr) in I. subst dst. cbn [fst].
  unfold tx, srv_tx. cbn [plain_req q_via q_src peer_is_empty peer_zero p_type negb p_ipa]. rewrite Bool.andb_false_r. rewrite R.
  destruct (route_find _ _) eqn:Fr; [|reflexivity]. apply route_find_some in Fr. destruct (Ld _ Fr).
Qed.

(** a message with an invalid IMSI that states a source name *)
Definition refused (k : cfg) (s : hst) (c : nat) (x : conn) (g : gsup) (y : hst * list out) : Prop :=
  exists q o, snd y = ORx (t_nr s) c g :: o /\ req_of (t_nr s) c (mk_peer PT_IPA (c_name x)) g q /\
    o = respond_err (tx k s) q CAUSE_INV_MAND_INFO /\ ipa_bytes (p_ipa (q_src q)) = g_src g.
Lemma invalid_rx k w s c x g : sinv (t_srv s) -> find_conn (t_srv s) c = Some x -> g_src g <> [] -> (length (g_src g) <= 128)%nat -> imsi_valid (g_imsi g) = false ->
  all_rets (refused k s c x g) (handle k w s (ERx c g)).
Proof.
  intros SV F G L Im. cbn [handle]. rewrite F. unfold read_cb. apply all_rets_bind. unfold read_msg, conn_rx. rewrite F.
  assert (W : ipa_wf (c_name x)) by (apply (si_wf _ SV), in_map; apply find_some in F; tauto).
  unfold req_new. rewrite Im. cbn [negb]. destruct (g_src g) as [|b l] eqn:Eg; [congruence|].
  unfold peer_set. cbn [p_ipa]. destruct (ipa_set (c_name x) (Some (b :: l))) as [rc n] eqn:E.
  destruct (ipa_set_bytes _ _ _ _ W E) as (W2 & [(-> & B)|(_ & _ & X)]); [|unfold IPA_MAX in X; lia].
  change (negb (0 =? 0)) with false. cbv iota.
  destruct (peer_cmp _ _ =? 0) eqn:C; cbn [negb all_rets fst snd].
  - exists (mk_req (t_nr s) c (mk_peer PT_IPA n) peer_zero g). eexists. split; [reflexivity|]. split; [|split; [reflexivity|cbn; congruence]].
    unfold req_of. cbn [q_nr q_conn q_gsup q_src q_via p_type p_ipa]. repeat split; auto. left. split; auto.
    unfold peer_cmp in C. cbn in C. apply Z.eqb_eq in C. apply c27_spec in C; auto.
  - exists (mk_req (t_nr s) c (mk_peer PT_IPA n) (mk_peer PT_IPA (c_name x)) g). eexists. split; [reflexivity|]. split; [|split; [reflexivity|cbn; congruence]].
    unfold req_of. cbn [q_nr q_conn q_gsup q_src q_via p_type p_ipa]. repeat split; auto. right. split; [congruence|]. split; [congruence|reflexivity].
Qed.

Lemma err_type q c tx nr r f dst : In (OResp nr r f dst) (respond_err tx q c) -> g_type r <> MSGT_ROUTING_ERROR.
Proof.
  unfold respond_err. destruct (is_request (g_type (q_gsup q))) eqn:R; cbn [negb]; [|intros [E|[]]; discriminate].
  unfold respond. destruct (make_response _ _ _ _) as [rc m] eqn:M. destruct (rc =? 0); cbn [snd]; [|intros [E|[]]; discriminate].
  intros [E|[]]. injection E as _ <- _ _. unfold make_response in M. injection M as _ <-. unfold is_request in R. apply Z.eqb_eq in R.
  cbn [with_cause msg0 g_type]. change (0 =? 0) with true. cbv iota. unfold to_error, MSGT_ROUTING_ERROR. rewrite R.
  pose proof (Z.div_mod (g_type (q_gsup q)) 4 ltac:(lia)). lia.
Qed.

Lemma c26_invalid k d es s d1 o w c x c' g f s2 d2 o2 nr :
  hist k (hst0, d) es = Some (s, d1, o) -> In x (v_conns (t_srv s)) -> c_id x = c -> g_src g <> [] -> leads (t_srv s) (g_src g) c' -> imsi_valid (g_imsi g) = false ->
  step k (s, d1) (w, ERx c g, f) = Some (s2, d2, o2) -> In (ORx nr c g) o2 ->
  forall r fin dst, In (OResp nr r fin (Some dst)) o2 -> dst = c'.
Proof.
  intros E Ix Ex G Ld Im St Hr. destruct (hist_ltr _ _ _ _ _ _ _ inv0 E) as [H _].
  pose proof (hist_short _ _ _ _ _ _ _ sinv0 ltac:(intros r []) E _ Ld) as L. cbn in L.
  destruct (step_inv _ _ _ _ _ _ _ _ _ _ (invalid_rx k w s c x g (proj2 H) (conn_named _ _ _ (proj2 H) Ix Ex) G L Im) St) as [P|(-> & -> & _)]; [|destruct Hr].
  destruct P as (q & o' & Eo & (Q1 & Q2 & Q3 & Q4 & _) & Ee & B). cbn [fst snd] in *. subst o2. intros r fin dst [I|I]; [discriminate|]. subst o'.
  pose proof (err_type _ _ _ _ _ _ _ I) as T. apply respond_err_in in I. unfold tx, srv_tx in I. apply Z.eqb_neq in T. rewrite T in I. cbn [andb] in I. rewrite Q4, B in I.
  destruct (route_find _ _) eqn:Fr; [|discriminate]. destruct (k_enc k r); [|discriminate]. injection I as ->.
  apply route_find_some in Fr. eapply route_unique; [apply H| |]; eauto.
Qed.
