From Verif Require Import Base PeerId PeerSpec PeerThms Db DbSpec DbProofs DbThms2 DbThms3 Auth AuthThms3 Gsup Router RouterThms Hlr HlrSpec HlrThms2
  Mdns Proxy MsServerSpec MsServerThms Dgsm DgsmSpec DgsmThms DgsmThms2 DgsmThms3.

(** * C38 *)
Lemma exists_local i d sch : existsb (by_imsi i) (d_sub d) = true -> hd EvOk sch = EvOk ->
  run (db_subscr_exists_by_imsi i) sch d = (Fin 0, d, tl sch).
Proof.
  intros E H. unfold db_subscr_exists_by_imsi. destruct sch as [|[] sch]; try discriminate H; cbn [run exec]; rewrite E; reflexivity.
Qed.
Lemma run_local s z g c (p : prog (hst * list out)) sch d :
  run (do y <- p;; Ret (fst y, z, DLoc (ORx (t_nr s) c g) :: map DLoc (snd y))) sch d =
  alone z (run (do y <- p;; Ret (fst y, ORx (t_nr s) c g :: snd y)) sch d).
Proof. rewrite !run_bind. destruct (run p sch d) as [[[[s2 o]| |] d2] c2]; reflexivity. Qed.

Lemma c38_local k x s z c g d sch : (exists r, In r (d_sub d) /\ s_imsi r = g_imsi g) -> hd EvOk sch = EvOk ->
  exists sch', (sch' = sch \/ sch' = tl sch) /\ run (dhandle k x s z (DHlr (ERx c g))) sch d = alone z (run (handle k (dw_w x) s (ERx c g)) sch' d).
Proof.
  intros (r & Ir & Er) H. cbn [dhandle handle]. destruct (find_conn (t_srv s) c) as [cn|]; [|exists sch; split; [left; reflexivity|reflexivity]].
  assert (Ex : existsb (by_imsi (g_imsi g)) (d_sub d) = true). { apply existsb_exists. exists r. split; auto. unfold by_imsi. apply String.eqb_eq. auto. }
  unfold dread, read_cb, read_msg. destruct (conn_rx (k_enc k) (t_srv s) (t_nr s) c g) as [v rr] eqn:C. cbv zeta beta.
  set (s1 := mk_hst v (t_lus s) (t_ss s) (S (t_nr s))).
  destruct rr as [q|o]; [|exists sch; split; [left; reflexivity|apply (run_local s z g c (Ret (s1, o)))]].
  assert (Gq : q_gsup q = g).
  { unfold conn_rx in C. destruct (find_conn _ _); [|discriminate]. destruct (req_new _ _ _ _ _) as [q'|] eqn:R; [|discriminate].
    assert (q_gsup q' = g).
    { unfold req_new in R. destruct (g_src g) as [|y0 l0].
      - destruct (negb (imsi_valid _)); [discriminate|injection R as <-; reflexivity].
      - destruct (peer_set _ _) as [rc src]. destruct (negb (rc =? 0)); [discriminate|].
        destruct (negb (peer_cmp _ _ =? 0)); destruct (negb (imsi_valid _)); try discriminate; injection R as <-; reflexivity. }
    destruct (negb _); [|congruence]. destruct (route_add _ _ _) as [rc v']. destruct (negb _); [discriminate|congruence]. }
  assert (D : exists sch', (sch' = sch \/ sch' = tl sch) /\ run (if z_active z || sa_nonzero (z_gw z) then
      do y <- check_forward k x s1 z q;;
      let '(z', o, handled) := y in
      if handled : bool then Ret (s1, z', DLoc (ORx (t_nr s) c g) :: o)
      else do y <- dispatch k (dw_w x) s1 q;; Ret (fst y, z', DLoc (ORx (t_nr s) c g) :: o ++ map DLoc (snd y))
    else do y <- dispatch k (dw_w x) s1 q;; Ret (fst y, z, DLoc (ORx (t_nr s) c g) :: map DLoc (snd y))) sch d =
    alone z (run (do y <- dispatch k (dw_w x) s1 q;; Ret (fst y, ORx (t_nr s) c g :: snd y)) sch' d)).
  { destruct (z_active z || sa_nonzero (z_gw z)); [|exists sch; split; [left; reflexivity|apply run_local; auto]].
    exists (tl sch). split; [right; reflexivity|]. rewrite run_bind. unfold check_forward. rewrite run_bind, Gq, (exists_local _ _ _ Ex H). cbn [Z.eqb run]. apply run_local; auto. }
  destruct (g_dst g) as [|d0 dl]; [exact D|]. destruct (ipa_set_str _ _) as [my|]; [|exists sch; split; [left; reflexivity|reflexivity]].
  destruct (ipa_set ipa_empty _) as [rc dest]. destruct (_ && _); [|exact D]. exists sch. split; [left; reflexivity|]. apply run_local; auto.
Qed.

Lemma c38_one k s z d l i p p' : dreached k (s, z, d, l) -> cached z i p -> cached z i p' -> p = p'.
Proof.
  intros H (t & I & E) (t' & I' & E'). destruct (reach_zinv _ _ _ _ _ H) as [_ [B _ _]].
  assert (mk_pent p t = mk_pent p' t') by (eapply same_entry; [apply B|auto|auto|unfold eimsi; cbn; congruence]). congruence.
Qed.

(** * C39: order *)
Definition all_taken (l : list dout) : list nat := flat_map (fun o => match o with DTake q => [q_nr q] | _ => [] end) l.
Lemma taken_app i a b : taken i (a ++ b) = taken i a ++ taken i b. Proof. apply flat_map_app. Qed.
Lemma all_taken_app a b : all_taken (a ++ b) = all_taken a ++ all_taken b. Proof. apply flat_map_app. Qed.
Lemma ended_app a b : ended (a ++ b) = ended a ++ ended b. Proof. apply flat_map_app. Qed.
Lemma among_app m a b : among m (a ++ b) = among m a ++ among m b. Proof. apply filter_app. Qed.
Lemma taken_all i l m : In m (taken i l) -> In m (all_taken l).
Proof.
  induction l as [|o l IH]; cbn; auto. rewrite !in_app_iff. intros [H|H]; auto. left. destruct o; auto. destruct (_ =? i)%string; auto. destruct H.
Qed.
Lemma taken_one i j l m : NoDup (all_taken l) -> In m (taken i l) -> In m (taken j l) -> i = j.
Proof.
  induction l as [|o l IH]; [intros _ []|]. destruct o; auto. change (all_taken (DTake q :: l)) with (q_nr q :: all_taken l).
  intros N. inversion N as [|? ? N1 N2]; subst.
  assert (G : forall i, In m (taken i (DTake q :: l)) -> (m = q_nr q /\ g_imsi (q_gsup q) = i) \/ In m (taken i l)).
  { intros i0. cbn. rewrite in_app_iff. destruct (String.eqb_spec (g_imsi (q_gsup q)) i0); cbn; intuition. }
  intros H1 H2. destruct (G _ H1) as [[-> E1]|T1], (G _ H2) as [[E0 E2]|T2].
  - congruence.
  - destruct N1. eapply taken_all; eauto.
  - subst m. destruct N1. eapply taken_all; eauto.
  - auto.
Qed.
Lemma among_none m l : (forall n, In n l -> ~ In n m) -> among m l = [].
Proof.
  induction l as [|n l IH]; cbn; auto. intros H. destruct (existsb (Nat.eqb n) m) eqn:E; [|apply IH; auto].
  apply existsb_exists in E. destruct E as (n' & I & E). apply Nat.eqb_eq in E. subst n'. destruct (H n); auto.
Qed.
Lemma among_all m l : (forall n, In n l -> In n m) -> among m l = l.
Proof.
  induction l as [|n l IH]; cbn; auto. intros H. rewrite (proj2 (existsb_exists _ _)); [f_equal; auto|]. exists n. split; auto. apply Nat.eqb_refl.
Qed.
Lemma among_ext m m' l : (forall n, In n l -> In n m <-> In n m') -> among m l = among m' l.
Proof.
  intros H. unfold among. apply filter_ext_in. intros n I. apply Bool.eq_true_iff_eq. rewrite !existsb_exists.
  split; intros (n' & J & E); apply Nat.eqb_eq in E; subst n'; exists n; (split; [apply H; auto|apply Nat.eqb_refl]).
Qed.

Record qinv (n : nat) (l : list dout) (w : list req) : Prop := {
  qi_once : NoDup (all_taken l);
  qi_lt : forall m, In m (all_taken l) \/ In m (ended l) -> (m < n)%nat;
  qi_eq : forall i, taken i l = among (taken i l) (ended l) ++ map q_nr (filter (of_imsi i) w) }.

Lemma no_taken i o : all_taken o = [] -> taken i o = [].
Proof.
  intros H. destruct (taken i o) as [|m r] eqn:E; auto. assert (In m (all_taken o)) by (eapply taken_all; rewrite E; left; auto). rewrite H in H0. destruct H0.
Qed.
Lemma q_later n n' l w : qinv n l w -> (n <= n')%nat -> qinv n' l w.
Proof. intros [A B C] H. split; auto. intros m I. specialize (B m I). lia. Qed.
Lemma q_quiet n l w o : qinv n l w -> all_taken o = [] -> ended o = [] -> qinv n (l ++ o) w.
Proof.
  intros [A B C] T E. split; rewrite ?all_taken_app, ?ended_app, ?T, ?E, ?app_nil_r; auto.
  intros i. rewrite taken_app, (no_taken i o T), app_nil_r. apply C.
Qed.
Lemma q_pop n l w j o : qinv n l w -> all_taken o = [] -> ended o = map q_nr (filter (of_imsi j) w) ->
  qinv n (l ++ o) (filter (fun q => negb (of_imsi j q)) w).
Proof.
  intros [A B C] T E. assert (In1 : forall i m, In m (map q_nr (filter (of_imsi i) w)) -> In m (taken i l)).
  { intros i m I. rewrite C. apply in_or_app. auto. }
  split.
  - rewrite all_taken_app, T, app_nil_r. auto.
  - intros m. rewrite all_taken_app, ended_app, T, app_nil_r, in_app_iff, E. intros [I|[I|I]]; auto. apply B. left. eapply taken_all. apply (In1 j); auto.
  - intros i. rewrite taken_app, (no_taken i o T), app_nil_r, ended_app, among_app, E.
    destruct (string_dec i j) as [->|D].
    + rewrite (among_all _ (map q_nr _)) by (apply In1).
      assert (F : filter (of_imsi j) (filter (fun q => negb (of_imsi j q)) w) = []).
      { clear. induction w as [|q w IH]; cbn; auto. destruct (of_imsi j q) eqn:E; cbn; auto. rewrite E. auto. }
      rewrite F. cbn. rewrite app_nil_r. apply C.
    + rewrite (among_none _ (map q_nr _)), app_nil_r.
      * assert (F : filter (of_imsi i) (filter (fun q => negb (of_imsi j q)) w) = filter (of_imsi i) w).
        { clear -D. induction w as [|q w IH]; cbn; auto. destruct (of_imsi j q) eqn:E; cbn.
          - unfold of_imsi in *. apply String.eqb_eq in E. rewrite E. destruct (String.eqb_spec j i); [congruence|auto].
          - destruct (of_imsi i q); congruence. }
        rewrite F. apply C.
      * intros m I J. apply D. eapply taken_one; [exact A|exact J|apply In1; auto].
Qed.
Lemma q_take l w q : qinv (q_nr q) l w -> qinv (S (q_nr q)) (l ++ [DTake q]) (w ++ [q]).
Proof.
  intros [A B C]. split.
  - rewrite all_taken_app. cbn. apply NoDup_snoc; auto. intros I. specialize (B _ (or_introl I)). lia.
  - intros m. rewrite all_taken_app, ended_app. cbn. rewrite app_nil_r, in_app_iff. cbn. intros [[I|[<-|[]]]|I]; [specialize (B m (or_introl I))| |specialize (B m (or_intror I))]; lia.
  - intros i. rewrite taken_app, ended_app, filter_app, map_app. cbn. rewrite !app_nil_r. unfold of_imsi at 2.
    assert (X : forall n, In n (ended l) -> n <> q_nr q). { intros n I. specialize (B n (or_intror I)). lia. }
    destruct (String.eqb_spec (g_imsi (q_gsup q)) i) as [E|E].
    + rewrite (among_ext _ (taken i l)).
      * cbn. rewrite C at 1. rewrite app_assoc. reflexivity.
      * intros n I. rewrite in_app_iff. cbn. specialize (X n I). intuition congruence.
    + cbn. rewrite !app_nil_r. apply C.
Qed.

Section Fix.
Context (k : cfg) (x : dworld) (s : hst).

Lemma respond_ended q m e : ended (map DAns (snd (respond (tx k s) q m e true))) = [q_nr q] /\ all_taken (map DAns (snd (respond (tx k s) q m e true))) = [].
Proof. unfold respond. destruct (make_response _ _ _ _) as [rc r]. destruct (rc =? 0); auto. Qed.
Lemma respond_err_ended q c : ended (map DAns (respond_err (tx k s) q c)) = [q_nr q] /\ all_taken (map DAns (respond_err (tx k s) q c)) = [].
Proof. unfold respond_err. destruct (negb _); [auto|apply respond_ended]. Qed.
Lemma forward_ended a q : ended (gsup_forward k s a q) = [q_nr q] /\ all_taken (gsup_forward k s a q) = [].
Proof. unfold gsup_forward. destruct (negb _); [apply respond_err_ended|]. destruct (k_enc k _); [auto|apply respond_err_ended]. Qed.
Lemma result_ended z q r : ended (connect_result k s z q r) = [q_nr q] /\ all_taken (connect_result k s z q r) = [].
Proof.
  unfold connect_result. destruct r as [[a [] n]|]; [apply forward_ended| |]; (destruct (_ =? _); [apply respond_ended|apply respond_err_ended]).
Qed.
Lemma results_ended z l r : ended (flat_map (fun q => connect_result k s z q r) l) = map q_nr l /\ all_taken (flat_map (fun q => connect_result k s z q r) l) = [].
Proof.
  induction l as [|q l [A B]]; cbn; auto. destruct (result_ended z q r) as [C D]. rewrite ended_app, all_taken_app, A, B, C, D. auto.
Qed.

Lemma pop_q n l z i r z' o : pop k s z i r = (z', o) -> qinv n l (z_wait z) -> qinv n (l ++ o) (z_wait z').
Proof. intros [= <- <-] Q. cbn. destruct (results_ended z (filter (of_imsi i) (z_wait z)) r) as [A B]. apply q_pop; auto. Qed.
Lemma cb_q c : forall n l z a r z' o, connect_cb k s z c a r = (z', o) -> qinv n l (z_wait z) -> qinv n (l ++ o) (z_wait z').
Proof.
  induction c as [|e c IH]; intros n l z a r z' o; cbn [connect_cb].
  - intros [= <- <-]. rewrite app_nil_r. auto.
  - destruct (if sa_eqb a (ps_addr (pe_sub e)) then _ else _) as [z1 o1] eqn:P. destruct (connect_cb k s z1 c a r) as [z2 o2] eqn:C. intros [= <- <-] Q.
    rewrite app_assoc. eapply IH; [exact C|]. destruct (sa_eqb _ _); [eapply pop_q; eauto|]. injection P as <- <-. rewrite app_nil_r. auto.
Qed.
Lemma connect_q n l z a z' o : connect k x s z a = (z', o) -> qinv n l (z_wait z) -> qinv n (l ++ o) (z_wait z').
Proof.
  unfold connect. intros E Q. destruct (find_rem z a) as [r|]; [destruct (rm_up r)|destruct (dw_ok x a)];
    try (eapply cb_q; eauto; fail); injection E as <- <-; rewrite app_nil_r; exact Q.
Qed.
Lemma resolved_q n l z p a z' o : resolved k x s z p a = (z', o) -> qinv n l (z_wait z) -> qinv n (l ++ o) (z_wait z').
Proof.
  unfold resolved. intros E Q. destruct (_ && _); [injection E as <- <-; rewrite app_nil_r; exact Q|].
  destruct (waiting _ _); [eapply connect_q; eauto|injection E as <- <-; rewrite app_nil_r; exact Q].
Qed.
Lemma call_cbs_q m : forall n l z a r z' o, call_cbs k s m z a r = (z', o) -> qinv n l (z_wait z) -> qinv n (l ++ o) (z_wait z').
Proof.
  induction m as [|m IH]; intros n l z a r z' o; cbn [call_cbs].
  - intros [= <- <-]. rewrite app_nil_r. auto.
  - destruct (connect_cb _ _ _ _ _ _) as [z1 o1] eqn:C. destruct (call_cbs _ _ _ _ _ _) as [z2 o2] eqn:D. intros [= <- <-] Q.
    rewrite app_assoc. eapply IH; [exact D|]. eapply cb_q; eauto.
Qed.

Lemma forward_q l z p q z' o b : p_type (q_src q) = PT_IPA -> cache_by_imsi (z_cache z) (ps_imsi p) = Some p -> ps_imsi p = g_imsi (q_gsup q) ->
  idle nowhere z -> forward_to_remote k x s z p q = (z', o, b) -> qinv (q_nr q) l (z_wait z) -> qinv (S (q_nr q)) (l ++ o) (z_wait z').
Proof.
  intros T V Ei Id F Q. unfold forward_to_remote in F. destruct (ack_cases k x z p q _ T eq_refl) as (p' & E1 & E2 & _ & K).
  assert (G : exists z1, ack_to_remote k x z p q = Some z1 /\ z_wait z1 = z_wait z /\ z_rems z1 = z_rems z).
  { destruct K as [[-> _]| ->]; eexists; split; reflexivity || auto. }
  destruct G as (z1 & Ea & Ew & Er). rewrite Ea in F. pose proof (q_take _ _ _ Q) as QT. rewrite <- Ew in QT.
  destruct (negb _) eqn:U; [injection F as <- <- _; exact QT|]. apply Bool.negb_false_iff in U.
  destruct (find_rem z1 (ps_addr p)) as [r|] eqn:Fr; [destruct (rm_up r) eqn:Up|].
  - unfold is_up in F. rewrite Up in F.
    assert (Eo : DTake q :: connect_result k s z1 q (Some r) = o) by congruence. assert (z' = z1) as -> by congruence. clear F. rewrite <- Eo.
    destruct (result_ended z1 q (Some r)) as [A B].
    assert (NW : waiting z (g_imsi (q_gsup q)) = false).
    { destruct (find_rem_some _ _ _ Fr) as [Ir Ea']. rewrite Er in Ir. destruct (by_imsi_in _ _ _ V) as (t & I & _). rewrite <- Ei.
      apply (Id (mk_pent p t) r); auto. }
    rewrite Ew in *.
    assert (F1 : filter (of_imsi (g_imsi (q_gsup q))) (z_wait z) = []).
    { rewrite waiting_false in NW. revert NW. clear. induction (z_wait z) as [|q0 w IH]; cbn; auto. intros N. unfold of_imsi at 1.
      destruct (String.eqb_spec (g_imsi (q_gsup q0)) (g_imsi (q_gsup q))) as [E|E]; [destruct (N q0); auto|]. apply IH. auto. }
    assert (F2 : filter (fun q0 => negb (of_imsi (g_imsi (q_gsup q)) q0)) (z_wait z ++ [q]) = z_wait z).
    { rewrite filter_app. cbn. unfold of_imsi at 2. rewrite String.eqb_refl. cbn. rewrite app_nil_r. rewrite waiting_false in NW. revert NW. clear.
      induction (z_wait z) as [|q0 w IH]; cbn; auto. intros N. unfold of_imsi at 1.
      destruct (String.eqb_spec (g_imsi (q_gsup q0)) (g_imsi (q_gsup q))) as [E|E]; [destruct (N q0); auto|]. cbn. f_equal. apply IH. auto. }
    change (DTake q :: connect_result k s z1 q (Some r)) with ([DTake q] ++ connect_result k s z1 q (Some r)). rewrite app_assoc.
    rewrite <- F2. apply q_pop; auto. rewrite A, filter_app, F1. cbn. unfold of_imsi. rewrite String.eqb_refl. reflexivity.
  - unfold is_up in F. rewrite Up in F. destruct (connect k x s (defer z1 q) (ps_addr p)) as [z2 o2] eqn:C. injection F as <- <- _.
    change (DTake q :: o2) with ([DTake q] ++ o2). rewrite app_assoc. eapply connect_q; [exact C|exact QT].
  - cbn [is_up] in F. destruct (connect k x s (defer z1 q) (ps_addr p)) as [z2 o2] eqn:C. injection F as <- <- _.
    change (DTake q :: o2) with ([DTake q] ++ o2). rewrite app_assoc. eapply connect_q; [exact C|exact QT].
Qed.

Lemma cf_q l z q z' o : p_type (q_src q) = PT_IPA -> zinv z -> cf k x s z q = (z', o) -> qinv (q_nr q) l (z_wait z) -> qinv (S (q_nr q)) (l ++ o) (z_wait z').
Proof.
  intros T [B Id Lk] F Q. unfold cf in F. set (i := g_imsi (q_gsup q)) in *. destruct (cache_by_imsi (z_cache z) i) as [p|] eqn:V.
  - destruct (forward_to_remote k x s z p q) as [[z1 o1] b] eqn:E. cbn in F. injection F as <- <-.
    destruct (by_imsi_in _ _ _ V) as (t & _ & Ei). rewrite <- Ei in V. eapply forward_q; eauto.
  - set (p := mk_psub i "" SaNone pdom0 pdom0) in *. set (z1 := store k x z p) in *.
    assert (Wp : pwf p) by (intros []; split; apply ipa_empty_wf).
    assert (B1 : zbase z1) by (apply store_base; auto).
    assert (V1 : cache_by_imsi (z_cache z1) (ps_imsi p) = Some p) by (cbn; rewrite update_view; cbn; rewrite String.eqb_refl; reflexivity).
    assert (I1 : idle nowhere z1).
    { intros e r Ie Ir Us N A D. destruct (store_in _ _ _ _ _ B Ie) as [->|[Ie2 _]]; [discriminate Us|]. change (waiting z (eimsi e) = false). eapply Id; eauto. }
    assert (L1 : looked (eq i) z1).
    { intros e Ie Ue. destruct (store_in _ _ _ _ _ B Ie) as [->|[Ie2 D]]; [left; reflexivity|]. destruct (Lk e Ie2 Ue) as [[]|L]; auto. }
    change (z_gw z1) with (z_gw z) in F. destruct (sa_nonzero (z_gw z)) eqn:G.
    + destruct (resolved k x s z1 p (z_gw z)) as [z2 o1] eqn:R.
      destruct (resolved_inv k x s z1 p (z_gw z) z2 o1 V1 G B1 I1 L1 R) as ([B2 I2 L2] & _ & _ & p' & V2 & Ei & _).
      change (ps_imsi p) with i in V2. rewrite V2 in F. destruct (forward_to_remote k x s z2 p' q) as [[z3 o3] b] eqn:E. injection F as <- <-.
      change (ps_imsi p) with i in Ei. rewrite <- Ei in V2. rewrite app_assoc. eapply forward_q; eauto. eapply resolved_q; eauto.
    + destruct (forward_to_remote k x s z1 p q) as [[z3 o3] b] eqn:E. injection F as <- <-. cbn. eapply forward_q; eauto.
Qed.

Lemma lookup_q n l z i r z' o : lookup_result k x s z i r = (z', o) -> qinv n l (z_wait z) -> qinv n (l ++ o) (z_wait z').
Proof.
  intros F Q. unfold lookup_result in F. destruct (negb _); [injection F as <- <-; rewrite app_nil_r; auto|].
  destruct (match r with Some (v4, v6) => _ | None => None end) as [a|].
  - destruct (cache_by_imsi _ _) as [p|]; [eapply resolved_q; eauto|injection F as <- <-; rewrite app_nil_r; auto].
  - unfold subscr_del in F. destruct (pop _ _ _ _ _) as [z1 o1] eqn:P. injection F as <- <-. rewrite app_assoc. apply q_quiet; auto.
    cbn. eapply pop_q; [exact P|]. exact Q.
Qed.
Lemma rem_up_q n l z a z' o : rem_up k s z a = (z', o) -> qinv n l (z_wait z) -> qinv n (l ++ o) (z_wait z').
Proof.
  intros F Q. unfold rem_up in F. destruct (find_rem z a) as [r|]; [|injection F as <- <-; rewrite app_nil_r; auto].
  destruct (call_cbs _ _ _ _ _ _) as [z1 o1] eqn:C. injection F as <- <-. cbn. eapply call_cbs_q; [exact C|]. exact Q.
Qed.
Lemma remote_rx_quiet z a g z' o : remote_rx k x s z a g = (z', o) -> all_taken o = [] /\ ended o = [] /\ z_wait z' = z_wait z.
Proof.
  assert (E : forall up g c, all_taken (err_reply k a up g c) = [] /\ ended (err_reply k a up g c) = []).
  { intros. unfold err_reply. destruct (negb _); auto. cbv zeta. destruct (_ && _); auto. }
  unfold remote_rx. destruct (find_rem z a) as [r|]; [|intros [= <- <-]; auto].
  destruct (negb _); [intros [= <- <-]; split; [apply E|split; [apply E|auto]]|]. destruct (cache_by_imsi _ _) as [p|]; [|intros [= <- <-]; split; [apply E|split; [apply E|auto]]].
  destruct (forward_to_vlr k x s z p g a) as [z1 r1] eqn:F.
  assert (z_wait z1 = z_wait z /\ forall oo, r1 = Some oo -> exists c, oo = [DTx a c g]).
  { unfold forward_to_vlr in F. destruct (ipa_set _ _) as [rc dest]. destruct (negb _); [injection F as <- <-; split; [auto|discriminate]|].
    destruct (route_find _ _) as [c|]; [|injection F as <- <-; split; [auto|discriminate]].
    destruct (find_conn _ _) as [cn|]; [|injection F as <- <-; split; [auto|discriminate]].
    destruct (ack_from_remote _ _ _ _ _ _ _) as [z2|] eqn:A; [|injection F as <- <-; split; [auto|discriminate]].
    assert (z_wait z2 = z_wait z).
    { unfold ack_from_remote in A. destruct (_ =? _).
      - destruct (x_msisdn _); [destruct (_ || _)|]; injection A as <-; reflexivity.
      - destruct (_ =? _); [|injection A as <-; auto]. destruct (confirm _ _ _ _ _), (confirm _ _ _ _ _). destruct (_ || _); [injection A as <-; auto|discriminate]. }
    destruct (k_enc k g); injection F as <- <-; split; auto; [|discriminate]. intros oo [= <-]. eauto. }
  destruct H as [H1 H2]. destruct r1 as [oo|]; intros [= <- <-].
  - destruct (H2 _ eq_refl) as (c & ->). auto.
  - split; [apply E|split; [apply E|auto]].
Qed.
End Fix.

Lemma loc_quiet o : all_taken (map DLoc o) = [] /\ ended (map DLoc o) = [].
Proof. induction o; cbn; auto. Qed.
Lemma gone_quiet c c' : all_taken (gone c c') = [] /\ ended (gone c c') = [].
Proof. unfold gone. induction (filter _ c); cbn; auto. Qed.
Lemma shape_q k x s z e s' z' o l : shape k x s z e s' z' o -> zinv z -> qinv (t_nr s) l (z_wait z) -> qinv (t_nr s') (l ++ o) (z_wait z').
Proof.
  intros H Z Q. destruct H.
  - destruct (loc_quiet o). apply q_quiet; auto. eapply q_later; eauto.
  - change (DLoc (ORx (t_nr s) c g) :: o) with ([DLoc (ORx (t_nr s) c g)] ++ o). rewrite app_assoc. rewrite H0. rewrite <- (fr_nr _ _ _ _ H1) in *.
    eapply cf_q; eauto; [apply H1|]. apply q_quiet; auto.
  - rewrite app_nil_r. exact Q.
  - eapply lookup_q; eauto.
  - eapply rem_up_q; eauto.
  - rewrite app_nil_r. exact Q.
  - rewrite app_nil_r. exact Q.
  - destruct (remote_rx_quiet _ _ _ _ _ _ _ _ H) as (A & B & C). rewrite C. apply q_quiet; auto.
  - destruct (gone_quiet (z_cache z) c). apply q_quiet; auto.
Qed.
Lemma reach_q k s z d l : dreached k (s, z, d, l) -> qinv (t_nr s) l (z_wait z).
Proof.
  intros H. apply (dreach_ind k (fun s z l => zinv z /\ qinv (t_nr s) l (z_wait z))) in H; [apply H| | |].
  - split; [apply zinv0|]. split; cbn; [constructor|tauto|reflexivity].
  - intros s0 z0 l0 _ _. split; [split; [split; cbn; [constructor|constructor|tauto]|intros e r []|intros e []]|]. split; cbn; [constructor|tauto|reflexivity].
  - intros x s0 z0 l0 e s1 z1 o _ [Z Q] SH. split; [eapply shape_zinv; eauto|eapply shape_q; eauto].
Qed.

Lemma c39_order k s z d l i : dreached k (s, z, d, l) -> NoDup (taken i l) /\ taken i l = among (taken i l) (ended l) ++ held i z.
Proof.
  intros H. destruct (reach_q _ _ _ _ _ H) as [A B C]. split; [|apply C].
  clear -A. induction l as [|o l IH]; [constructor|]. destruct o; auto. change (all_taken (DTake q :: l)) with (q_nr q :: all_taken l) in A.
  inversion A as [|? ? A1 A2]; subst. cbn. destruct (_ =? i)%string; cbn; auto. constructor; auto. intros I. apply A1. eapply taken_all; eauto.
Qed.
