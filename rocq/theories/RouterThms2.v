(** Proofs for C25: names of more than 128 bytes. *)
From Verif Require Import Base PeerId Db DbSpec DbProofs PeerSpec PeerThms Auth AuthThms3 Gsup Router Hlr HlrSpec RouterThms.

Definition rt_short (v : server) : Prop := forall r, In r (v_routes v) -> (length (rt_addr r) <= 128)%nat.
Lemma bytes_short n : ipa_wf n -> (length (ipa_bytes n) <= 128)%nat.
Proof. intros [A B]. unfold ipa_bytes. rewrite firstn_length. unfold IPA_MAX in *. lia. Qed.
Lemma add_short v c a : rt_short v -> (length a <= 128)%nat -> rt_short (snd (route_add v c a)).
Proof.
  intros H L. unfold route_add. destruct (route_find _ _) as [c'|]; [destruct (_ =? _)%nat; exact H|].
  intros r I. cbn in I. apply in_app_iff in I as [I|[<-|[]]]; auto.
Qed.
Lemma close_short v c : rt_short v -> rt_short (srv_close v c).
Proof. intros H r I. cbn in I. apply filter_In in I as [I _]. auto. Qed.
Lemma ident_short v c t : sinv v -> rt_short v -> rt_short (srv_ident v c t).
Proof.
  intros S H. unfold srv_ident. destruct (find_conn v c) as [x|] eqn:F; auto.
  destruct t as [[|b l]|]; try (apply close_short; exact H).
  apply add_short; [exact H|]. apply bytes_short. eapply ident_wf; eauto.
Qed.
Lemma req_new_wf tx nr c peer g q : ipa_wf (p_ipa peer) -> req_new tx nr c peer g = inl q -> ipa_wf (p_ipa (q_src q)).
Proof.
  intros W. unfold req_new. destruct (g_src g) as [|b l] eqn:Eg.
  - destruct (negb (imsi_valid _)); [discriminate|]. intros [= <-]. exact W.
  - unfold peer_set. destruct (ipa_set (p_ipa peer) (Some (b :: l))) as [rc n] eqn:E. destruct (ipa_set_bytes _ _ _ _ W E) as [Wn _].
    destruct (negb (rc =? 0)); [discriminate|].
    destruct (negb (peer_cmp _ _ =? 0)); destruct (negb (imsi_valid _)); try discriminate; intros [= <-]; exact Wn.
Qed.
Lemma rx_short enc v nr c g : sinv v -> rt_short v -> rt_short (fst (conn_rx enc v nr c g)).
Proof.
  intros S H. unfold conn_rx. destruct (find_conn v c) as [x|] eqn:F; [|exact H].
  destruct (req_new _ _ _ _ _) as [q|o] eqn:Q; [|exact H]. destruct (negb _); [|exact H].
  assert (W : ipa_wf (c_name x)) by (apply (si_wf _ S), in_map; apply find_some in F; tauto).
  pose proof (add_short v c _ H (bytes_short _ (req_new_wf _ _ _ (mk_peer PT_IPA (c_name x)) _ _ W Q))) as A.
  destruct (route_add _ _ _) as [rc v']. destruct (negb (rc =? 0)); exact A.
Qed.
Lemma handle_short k w s e : sinv (t_srv s) -> rt_short (t_srv s) -> all_rets (fun x => rt_short (t_srv (fst x))) (handle k w s e).
Proof.
  intros S H. destruct e; cbn [handle all_rets fst t_srv with_srv]; auto.
  - apply ident_short; auto.
  - apply close_short; auto.
  - destruct (find_conn _ _); [|exact H]. eapply all_rets_impl; [|apply read_cb_srv]. intros x Hx.
    unfold rt_short. destruct Hx as (Hx & _). rewrite Hx. apply rx_short; auto.
  - unfold lu_timeout. destruct (find _ _); auto.
  - unfold ss_timeout. destruct (ss_find _ _ _); auto.
  - unfold same. apply all_rets_bind, all_rets_true. intros o. exact H.
  - unfold same. apply all_rets_bind, all_rets_true. intros o. exact H.
  - apply all_rets_bind, all_rets_true. intros o. exact H.
Qed.
Lemma hist_short k es : forall s d s' d' o, sinv (t_srv s) -> rt_short (t_srv s) -> hist k (s, d) es = Some (s', d', o) -> rt_short (t_srv s').
Proof.
  induction es as [|[[w e] f] es IH]; intros s d s' d' o H R; cbn [hist].
  - intros [= <- <- <-]. auto.
  - destruct (step k (s, d) (w, e, f)) as [[[s1 d1] o1]|] eqn:E; [|discriminate].
    destruct (hist k (s1, d1) es) as [[[s2 d2] o2]|] eqn:E2; [|discriminate]. intros [= <- <- <-].
    apply (IH s1 d1 s2 d2 o2); auto; [eapply step_sinv; eauto|].
    destruct (step_inv _ _ _ _ _ _ _ _ _ _ (handle_short k w s e H R) E) as [P|(-> & _)]; auto. intros r [].
Qed.
Lemma c25_no_long_name k d es s d' o : hist k (hst0, d) es = Some (s, d', o) ->
  forall a c, leads (t_srv s) a c -> (length a <= 128)%nat.
Proof. intros E a c L. apply (hist_short _ _ _ _ _ _ _ sinv0 ltac:(intros r []) E _ L). Qed.

(** a peer that says a long name keeps the name it had; one that had none becomes the empty name *)
Lemma c25_long_name_kept k d es s d1 o c x tag w f s2 d2 o2 :
  hist k (hst0, d) es = Some (s, d1, o) -> find_conn (t_srv s) c = Some x -> (128 < length tag)%nat ->
  no_crash f -> step k (s, d1) (w, EIdent c (Some tag), f) = Some (s2, d2, o2) ->
  exists c', leads (t_srv s2) (ipa_bytes (c_name x)) c' /\ ((forall i, leads (t_srv s) (ipa_bytes (c_name x)) i -> i = c) -> c' = c) /\
    forall a i, leads (t_srv s2) a i <-> leads (t_srv s) a i \/ (a = ipa_bytes (c_name x) /\ i = c /\ forall j, leads (t_srv s) a j -> j = c).
Proof.
  intros Hh F L NC E.
  assert (S : sinv (t_srv s)) by exact (hist_sinv _ _ _ _ _ _ _ sinv0 Hh).
  assert (T : t_srv s2 = srv_ident (t_srv s) c (Some tag)).
  { assert (A : all_rets (fun x => t_srv (fst x) = srv_ident (t_srv s) c (Some tag)) (handle k w s (EIdent c (Some tag)))) by reflexivity.
    destruct (step_inv _ _ _ _ _ _ _ _ _ _ A E) as [P|(_ & _ & C)]; auto. destruct (NC C). }
  rewrite T. unfold srv_ident. rewrite F. destruct tag as [|b l]; [cbn in L; lia|].
  assert (En : snd (ipa_set (c_name x) (Some (b :: l))) = c_name x).
  { unfold ipa_set. replace (IPA_MAX <? length (b :: l))%nat with true; [reflexivity|]. symmetry. apply Nat.ltb_lt. exact L. }
  rewrite En. set (v1 := set_conn _ _ _). assert (R1 : v_routes v1 = v_routes (t_srv s)) by reflexivity.
  unfold route_add. rewrite R1. destruct (route_find _ _) as [j|] eqn:G.
  - apply route_find_some in G. assert (Q : v_routes (snd (if (j =? c)%nat then (0, v1) else (- EEXIST, v1))) = v_routes (t_srv s)) by (destruct (_ =? _)%nat; reflexivity).
    unfold leads. rewrite Q. exists j. split; [exact G|]. split; [intros A; now apply A|].
    intros a i. split; [now left|]. intros [A|(-> & -> & A)]; auto. rewrite <- (A j G). exact G.
  - apply route_find_none in G. assert (NL : forall i, ~ leads (t_srv s) (ipa_bytes (c_name x)) i).
    { intros i A. apply G. exact (in_map rt_addr _ _ A). }
    unfold leads. cbn [snd with_routes v_routes]. exists c. split; [apply in_or_app; right; left; reflexivity|]. split; [auto|].
    intros a i. rewrite in_app_iff. split.
    + intros [A|[A|[]]]; [now left|]. injection A as <- <-. right. split; auto. split; auto. intros j A. destruct (NL j A).
    + intros [A|(-> & -> & _)]; [now left|]. right. left. reflexivity.
Qed.
