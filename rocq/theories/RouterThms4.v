(** C26: the connection of every response is found by name. *)
From Coq Require Import Permutation.
From Verif Require Import Base PeerId Db DbSpec DbProofs DbThms2 Auth AuthThms3 Gsup Router Hlr PeerSpec PeerThms HlrSpec HlrThms RouterThms RouterThms2 HlrThms2 HlrThms3 RouterThms3.

Definition src_ok (k : cfg) (s : hst) (c : nat) (x : conn) (g : gsup) (y : hst * list out) : Prop :=
  exists q o, snd y = ORx (t_nr s) c g :: o /\ req_of (t_nr s) c (mk_peer PT_IPA (c_name x)) g q /\
    trans (tx k (fst y)) (q :: opens s) o (opens (fst y)).
Lemma src_rx k w s c x g : hinv s -> sinv (t_srv s) -> find_conn (t_srv s) c = Some x -> all_rets (src_ok k s c x g) (handle k w s (ERx c g)).
Proof.
  intros H SV F. cbn [handle]. rewrite F. unfold read_cb. apply all_rets_bind.
  eapply all_rets_impl with (P := fun y => exists q, req_of (t_nr s) c (mk_peer PT_IPA (c_name x)) g q /\ trans (tx k (fst y)) (q :: opens s) (snd y) (opens (fst y))).
  { intros [s' o] (q & R & T). exists q, o. auto. }
  assert (W : ipa_wf (c_name x)) by (apply (si_wf _ SV), in_map; apply find_some in F; tauto).
  pose proof (req_new_ok (srv_tx (k_enc k) (t_srv s)) (t_nr s) c (mk_peer PT_IPA (c_name x)) g eq_refl W) as R.
  assert (C : forall v r, conn_rx (k_enc k) (t_srv s) (t_nr s) c g = (v, r) ->
    match r with inl q => req_of (t_nr s) c (mk_peer PT_IPA (c_name x)) g q
    | inr o => exists q, req_of (t_nr s) c (mk_peer PT_IPA (c_name x)) g q /\ forall a, trans (srv_tx (k_enc k) v) (q :: a) o a end).
  { intros v r. unfold conn_rx. rewrite F. destruct (req_new _ _ _ _ _) as [q|o].
    - destruct (negb (peer_is_empty (q_via q))).
      + destruct (route_add _ _ _) as [rc v']. destruct (negb (rc =? 0)); intros [= <- <-].
        * exists q. split; [apply R|]. intros a. apply respond_msgt_trans; [discriminate|reflexivity].
        * apply R.
      + intros [= <- <-]. apply R.
    - intros [= <- <-]. destruct R as (q & Q & T & _). eauto. }
  unfold read_msg. destruct (conn_rx _ _ _ _ _) as [v r]. specialize (C v r eq_refl).
  set (s1 := mk_hst v (t_lus s) (t_ss s) (S (t_nr s))). assert (H1 : hinv s1) by (apply hinv_srv; auto).
  destruct r as [q|o].
  - assert (L : forall y, lin k s1 q y /\ keeps_srv s1 y -> exists q, req_of (t_nr s) c (mk_peer PT_IPA (c_name x)) g q /\ trans (tx k (fst y)) (q :: opens s) (snd y) (opens (fst y))).
    { intros y ((A & B & T) & K). pose proof K as (K1 & _). cbn in K1. rewrite <- (tx_srv_eq k s1 (fst y) K1) in T. exists q. auto. }
    assert (D : all_rets (fun y => exists q, req_of (t_nr s) c (mk_peer PT_IPA (c_name x)) g q /\ trans (tx k (fst y)) (q :: opens s) (snd y) (opens (fst y))) (dispatch k w s1 q)).
    { destruct C as (N1 & _). eapply all_rets_impl; [exact L|]. apply all_rets_and; [apply dispatch_lin; auto|apply dispatch_srv]. }
    destruct (g_dst g); auto. destruct (ipa_set_str _ _); [|exact I]. destruct (ipa_set _ _) as [rc dest]. destruct (_ && _); auto.
    eapply all_rets_impl; [exact L|]. apply all_rets_and; [|apply same_srv]. apply same_lin; [apply H1|apply forward_trans].
  - destruct C as (q & Q & T). cbn. exists q. split; auto.
Qed.

(** [a] is the source name stated in the message with number [nr], or the name the connection had by then *)
Definition came (k : cfg) (d : db) (es : list (world * event * sched)) (nr : nat) (a : list ascii) : Prop :=
  exists es1 w c g f es2 s1 d1 o1 s2 d2 o2 x, es = es1 ++ (w, ERx c g, f) :: es2 /\ hist k (hst0, d) es1 = Some (s1, d1, o1) /\
    step k (s1, d1) (w, ERx c g, f) = Some (s2, d2, o2) /\ In (ORx nr c g) o2 /\
    In x (v_conns (t_srv s1)) /\ c_id x = c /\ (a = g_src g \/ a = ipa_bytes (c_name x)).
Lemma came_more k d es nr a e : came k d es nr a -> came k d (es ++ [e]) nr a.
Proof.
  intros (es1 & w & c & g & f & es2 & s1 & d1 & o1 & s2 & d2 & o2 & x & -> & H). exists es1, w, c, g, f, (es2 ++ [e]), s1, d1, o1, s2, d2, o2, x.
  split; [rewrite <- app_assoc; reflexivity|exact H].
Qed.
Definition traced (k : cfg) (d : db) (es : list (world * event * sched)) (q : req) : Prop :=
  p_type (q_src q) = PT_IPA /\ came k d es (q_nr q) (ipa_bytes (p_ipa (q_src q))) /\ (peer_is_empty (q_via q) = false -> came k d es (q_nr q) (ipa_bytes (p_ipa (q_via q)))).

Lemma step_traced k d es s d1 o w e f s2 d2 o2 : hist k (hst0, d) es = Some (s, d1, o) -> step k (s, d1) (w, e, f) = Some (s2, d2, o2) ->
  (forall q, In q (opens s) -> traced k d es q) ->
  exists l o', (forall q, In q l -> traced k d (es ++ [(w, e, f)]) q) /\ trans (tx k s2) l o' (opens s2) /\
    (forall nr r fin dst, In (OResp nr r fin dst) o2 -> In (OResp nr r fin dst) o').
Proof.
  intros E St Tr. destruct (hist_ltr _ _ _ _ _ _ _ inv0 E) as [H _].
  assert (Tr' : forall q, In q (opens s) -> traced k d (es ++ [(w, e, f)]) q).
  { intros q I. destruct (Tr q I) as (A & B & C). split; [exact A|]. split; [apply came_more; exact B|]. intros V. apply came_more; auto. }
  assert (O : ev_ok k s e (s2, o2) -> forall c g, e = ERx c g -> find_conn (t_srv s) c = None -> exists l o', (forall q, In q l -> traced k d (es ++ [(w, e, f)]) q) /\ trans (tx k s2) l o' (opens s2) /\
    (forall nr r fin dst, In (OResp nr r fin dst) o2 -> In (OResp nr r fin dst) o')).
  { intros _ c g -> F. assert (P : all_rets (fun y => y = (s, [])) (handle k w s (ERx c g))) by (cbn [handle]; rewrite F; reflexivity).
    destruct (step_inv _ _ _ _ _ _ _ _ _ _ P St) as [[= -> ->]|(-> & -> & _)]; [exists (opens s), []|exists [], []].
    - split; [exact Tr'|]. split; [apply trans_refl|auto].
    - split; [intros q []|]. split; [apply trans_refl|auto]. }
  destruct (step_cases _ _ _ _ _ _ _ _ _ H St) as [V|(-> & -> & _)].
  2:{ exists [], []. split; [intros q []|]. split; [apply trans_refl|auto]. }
  pose proof V as V0. destruct V as [(c & g & o1 & -> & _)|(_ & _ & T)].
  2:{ exists (opens s), o2. auto. }
  destruct (find_conn (t_srv s) c) as [x|] eqn:F; [|eapply O; eauto].
  destruct (step_inv _ _ _ _ _ _ _ _ _ _ (src_rx k w s c x g (proj1 H) (proj2 H) F) St) as [(q & o' & Eo & (N1 & N2 & N3 & N4 & N5) & T)|(-> & -> & _)].
  2:{ exists [], []. split; [intros q []|]. split; [apply trans_refl|auto]. }
  cbn [fst snd] in *. exists (q :: opens s), o'. split; [|split; [exact T|intros nr r fin dst I; rewrite Eo in I; destruct I as [I|I]; [discriminate|exact I]]].
  assert (A : forall a, a = g_src g \/ a = ipa_bytes (c_name x) -> came k d (es ++ [(w, ERx c g, f)]) (q_nr q) a).
  { intros a Ha. exists es, w, c, g, f, [], s, d1, o, s2, d2, o2, x. split; [reflexivity|]. split; [exact E|]. split; [exact St|].
    split; [rewrite Eo, N1; now left|]. pose proof (find_some _ _ F) as [Ix Ex]. apply Nat.eqb_eq in Ex. auto. }
  intros p [<-|Ip]; [|auto]. split; [exact N4|]. destruct N5 as [[B V]|(B0 & B & V)]; rewrite B, V.
  - split; [apply A; now right|]. intros X. discriminate X.
  - split; [apply A; now left|]. intros _. apply A. now right.
Qed.

Lemma hist_traced k d es : forall s d1 o, hist k (hst0, d) es = Some (s, d1, o) -> forall q, In q (opens s) -> traced k d es q.
Proof.
  induction es as [|e es IH] using rev_ind; intros s d1 o E.
  - injection E as <- <- <-. intros q [].
  - assert (X : exists s0 d0 o0 o1, hist k (hst0, d) es = Some (s0, d0, o0) /\ step k (s0, d0) e = Some (s, d1, o1)).
    { clear IH. revert E. generalize (hst0, d). revert o. induction es as [|e' es IH]; intros o y; cbn [hist app].
      - destruct (step k y e) as [[[sa da] oa]|] eqn:Se; [|discriminate]. intros [= <- <- _]. destruct y as [sy dy]. exists sy, dy, [], oa. auto.
      - destruct (step k y e') as [[y' o1]|]; [|discriminate]. destruct (hist k y' (es ++ [e])) as [[[s' d'] o2]|] eqn:Hh; [|discriminate].
        intros [= <- <- _]. destruct (IH _ _ Hh) as (s0 & d0 & o0 & o3 & E0 & E1). rewrite E0. eauto 10. }
    destruct X as (s0 & d0 & o0 & o1 & E0 & E1). destruct e as [[w e] f].
    destruct (step_traced k d es s0 d0 o0 w e f s d1 o1 E0 E1 (IH _ _ _ E0)) as (l & o' & Tl & T & _).
    intros q Iq. destruct (trans_sub _ _ _ _ T) as [y P]. apply Tl. rewrite P. apply in_or_app. auto.
Qed.

Lemma c26_by_name k d es s d1 o w e f s2 d2 o2 : hist k (hst0, d) es = Some (s, d1, o) -> step k (s, d1) (w, e, f) = Some (s2, d2, o2) ->
  forall nr r fin c', In (OResp nr r fin (Some c')) o2 -> exists a, came k d (es ++ [(w, e, f)]) nr a /\ leads (t_srv s2) a c'.
Proof.
  intros E St nr r fin c' I. destruct (step_traced _ _ _ _ _ _ _ _ _ _ _ _ E St (hist_traced k d es s d1 o E)) as (l & o' & Tl & T & Sub).
  apply Sub in I. destruct (trans_in _ _ _ _ _ _ _ _ T I) as (q & Iq & <- & X). destruct (Tl q Iq) as (A & B & C).
  unfold tx, srv_tx in X. destruct (_ && _) eqn:V.
  - apply Bool.andb_true_iff in V as [_ V]. apply Bool.negb_true_iff in V. destruct (p_type (q_via q)); [discriminate|].
    destruct (route_find _ _) eqn:Fr; [|discriminate]. destruct (k_enc k r); [|discriminate]. injection X as ->. apply route_find_some in Fr. eauto.
  - rewrite A in X. destruct (route_find _ _) eqn:Fr; [|discriminate]. destruct (k_enc k r); [|discriminate]. injection X as ->. apply route_find_some in Fr. eauto.
Qed.
