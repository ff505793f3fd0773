From Verif Require Import Base PeerId PeerSpec PeerThms Db DbSpec DbProofs DbThms2 DbThms3 Auth AuthThms3 Gsup Router RouterThms Hlr HlrSpec HlrThms2
  Mdns Proxy MsServerSpec MsServerThms Dgsm DgsmSpec DgsmThms DgsmThms2.

Section Fix.
Context (k : cfg) (x : dworld) (s : hst).

Definition pwf (p : psub) : Prop := forall d, ipa_wf (pd_name (pdom_of d p)) /\ ipa_wf (pd_prelim (pdom_of d p)).

Lemma addr_dec (a b : sa) : a = b \/ a <> b.
Proof. destruct (sa_eqb a b) eqn:E; [left; apply sa_eqb_iff; auto|right; intros X; apply sa_eqb_iff in X; congruence]. Qed.

Lemma store_base z p : zbase z -> pwf p -> zbase (store k x z p).
Proof.
  intros [A B C] W. split; cbn; auto; [apply update_one; auto|]. intros e d I. destruct (update_in _ _ _ _ A I) as [->|[I2 _]]; [apply W|auto].
Qed.
Lemma store_in z p e : zbase z -> In e (z_cache (store k x z p)) -> e = mk_pent p (stamp k x) \/ In e (z_cache z) /\ eimsi e <> ps_imsi p.
Proof. intros B. cbn. apply update_in. apply B. Qed.
Lemma store_new z p : zbase z -> exists e, In e (z_cache (store k x z p)) /\ pe_sub e = p.
Proof.
  intros B. pose proof (update_view (z_cache z) p (stamp k x) (ps_imsi p)) as V. rewrite String.eqb_refl in V. apply by_imsi_in in V.
  destruct V as (t & I & _). exists (mk_pent p t). auto.
Qed.
Lemma update_keep c p t e : NoDup (imsis c) -> In e c -> eimsi e <> ps_imsi p -> In e (cache_update c p t).
Proof.
  intros N I D. unfold cache_update.
  assert (G : forall c', cache_put c p t = Some c' -> In e c').
  { clear N. induction c as [|f c IH]; cbn; [discriminate|]. intros c'. destruct (String.eqb_spec (ps_imsi (pe_sub f)) (ps_imsi p)) as [E|E].
    - intros [= <-]. destruct I as [->|I]; [destruct (D E)|right; auto].
    - destruct (cache_put c p t) as [c2|]; [|discriminate]. intros [= <-]. destruct I as [->|I]; [left; auto|right; auto]. }
  destruct (cache_put c p t) as [c'|]; [auto|right; auto].
Qed.
Lemma store_keep z p e : zbase z -> In e (z_cache z) -> eimsi e <> ps_imsi p -> In e (z_cache (store k x z p)).
Proof. intros B I D. cbn. apply update_keep; auto. apply B. Qed.

(** an entry changes, but not its address *)
Lemma store_same z p p' : zbase z -> cache_by_imsi (z_cache z) (ps_imsi p) = Some p -> ps_imsi p' = ps_imsi p -> ps_addr p' = ps_addr p -> pwf p' ->
  zbase (store k x z p') /\ (forall b, idle b z -> idle b (store k x z p')) /\ (forall b, looked b z -> looked b (store k x z p')) /\
  (served z -> served (store k x z p')) /\ cache_by_imsi (z_cache (store k x z p')) (ps_imsi p) = Some p'.
Proof.
  intros B V E1 E2 W. destruct (by_imsi_in _ _ _ V) as (t & I & _). split; [apply store_base; auto|]. split; [|split; [|split]].
  - intros b H e r Ie Ir U N A D. change (waiting z (eimsi e) = false). destruct (store_in _ _ _ B Ie) as [->|[Ie2 _]].
    + unfold eimsi, eaddr in *. cbn in *. rewrite E1. rewrite E2 in *. apply (H (mk_pent p t) r I Ir U N A D).
    + eapply H; eauto.
  - intros b H e Ie U. destruct (store_in _ _ _ B Ie) as [->|[Ie2 _]].
    + unfold eimsi, eaddr in *. cbn in *. rewrite E1. rewrite E2 in *. apply (H (mk_pent p t) I U).
    + apply (H e Ie2 U).
  - intros H q Iq. destruct (H q Iq) as (e & Ie & Ee & He). destruct (string_dec (eimsi e) (ps_imsi p')) as [D|D].
    + destruct (store_new z p' B) as (e' & Ie' & Ep). exists e'. split; auto. unfold eimsi, eaddr in *. rewrite Ep. split; [congruence|].
      assert (e = mk_pent p t) by (eapply same_entry; [apply B| | |]; eauto; unfold eimsi; cbn; congruence). subst e. cbn in *.
      rewrite E2. auto.
    + exists e. split; [apply store_keep; auto|]. auto.
  - cbn. rewrite update_view, E1, String.eqb_refl. reflexivity.
Qed.

(** ** Requests *)
Lemma ack_cases z p q z1 : p_type (q_src q) = PT_IPA -> ack_to_remote k x z p q = z1 ->
  exists p', ps_imsi p' = ps_imsi p /\ ps_addr p' = ps_addr p /\ (pwf p -> ipa_wf (p_ipa (q_src q)) -> pwf p') /\ (z1 = Some z /\ p' = p \/ z1 = Some (store k x z p')).
Proof.
  unfold ack_to_remote, is_ipa. intros T. rewrite T. cbn [negb]. destruct (_ =? MSGT_UPDATE_LOCATION_REQUEST).
  - destruct (_ =? CN_CS); [|destruct (_ =? CN_PS)].
    + set (p' := mk_psub _ _ _ _ _). destruct (_ || _); intros <-; [exists p'|exists p; auto 10].
      split; [reflexivity|]. split; [reflexivity|]. split; [|right; reflexivity]. intros H H0 []; cbn; [split; [apply (H CsDom)|exact H0]|apply (H PsDom)].
    + set (p' := mk_psub _ _ _ _ _). destruct (_ || _); intros <-; [exists p'|exists p; auto 10].
      split; [reflexivity|]. split; [reflexivity|]. split; [|right; reflexivity]. intros H H0 []; cbn; [apply (H CsDom)|split; [apply (H PsDom)|exact H0]].
    + intros <-. exists p. destruct (_ || _); auto 10.
  - intros <-. exists p. auto 10.
Qed.

Record zinv (z : dgst) : Prop := { zi_base : zbase z; zi_idle : idle nowhere z; zi_look : looked no_one z }.

Lemma forward_inv z p q z' o b but : p_type (q_src q) = PT_IPA -> ipa_wf (p_ipa (q_src q)) -> cache_by_imsi (z_cache z) (ps_imsi p) = Some p ->
  ps_imsi p = g_imsi (q_gsup q) -> zbase z -> idle nowhere z -> looked but z ->
  forward_to_remote k x s z p q = (z', o, b) -> zbase z' /\ idle nowhere z' /\ looked but z' /\ (served z -> served z').
Proof.
  intros T W V E B Id Lk F. unfold forward_to_remote in F. destruct (ack_cases z p q _ T eq_refl) as (p' & E1 & E2 & W' & K).
  destruct (by_imsi_in _ _ _ V) as (t & Ip & _).
  assert (Wp : pwf p) by (intros d; apply (zb_wf _ B (mk_pent p t) d Ip)).
  assert (G : exists z1, ack_to_remote k x z p q = Some z1 /\ zbase z1 /\ idle nowhere z1 /\ looked but z1 /\ (served z -> served z1) /\
                z_wait z1 = z_wait z /\ z_rems z1 = z_rems z /\ exists t', In (mk_pent p' t') (z_cache z1)).
  { destruct K as [[-> ->]| ->]; [exists z; eauto 10|]. exists (store k x z p').
    destruct (store_same z p p' B V E1 E2 (W' Wp W)) as (A1 & A2 & A3 & A4 & A5). split; auto. split; auto. split; auto. split; auto. split; auto.
    split; auto. split; auto. rewrite <- E1 in A5. apply by_imsi_in in A5. destruct A5 as (t' & I' & _). eauto. }
  destruct G as (z1 & Ea & B1 & I1 & L1 & S1 & Ew & Er & t' & I'). rewrite Ea in F. clear K Ea.
  assert (NE : forall e, In e (z_cache z1) -> eimsi e = g_imsi (q_gsup q) -> e = mk_pent p' t').
  { intros e Ie X. eapply same_entry; [apply B1|auto|auto|]. unfold eimsi in *. cbn. congruence. }
  assert (WD : forall i, waiting (defer z1 q) i = waiting z1 i || (g_imsi (q_gsup q) =? i)%string).
  { intros i. unfold waiting, defer. cbn. rewrite existsb_app. cbn. rewrite Bool.orb_false_r. reflexivity. }
  destruct (negb (sa_nonzero (ps_addr p))) eqn:U.
  - injection F as <- _ _. apply Bool.negb_true_iff in U.
    split; [destruct B1; split; auto|]. split; [|split].
    + intros e r Ie Ir Us N A D. rewrite WD. apply Bool.orb_false_iff. split; [eapply I1; eauto|]. apply String.eqb_neq. intros X.
      rewrite (NE e Ie (eq_sym X)) in Us. unfold eaddr in Us. cbn in Us. congruence.
    + exact L1.
    + intros H qq Iq. cbn in Iq. apply in_app_or in Iq. destruct Iq as [Iq|[<-|[]]]; [apply S1; auto|].
      exists (mk_pent p' t'). split; auto. unfold eimsi, eaddr. cbn. split; [congruence|]. left. congruence.
  - apply Bool.negb_false_iff in U. destruct (is_up (find_rem z1 (ps_addr p))) eqn:Up; [injection F as <- _ _; auto|].
    destruct (connect k x s (defer z1 q) (ps_addr p)) as [z2 o2] eqn:C. injection F as <- _ _.
    assert (B2 : zbase (defer z1 q)) by (destruct B1; split; auto).
    assert (I2 : idle (fun b => b = ps_addr p) (defer z1 q)).
    { intros e r Ie Ir Us N A D. rewrite WD. apply Bool.orb_false_iff. split; [eapply I1; eauto|]. apply String.eqb_neq. intros X.
      apply N. rewrite (NE e Ie (eq_sym X)). exact E2. }
    destruct (connect_inv k x s _ _ _ _ C B2 I2) as (B3 & I3 & C3 & L3 & _ & _ & _ & W3 & R3 & R4).
    split; auto. split; auto. split.
    + intros e. rewrite C3, L3. apply L1.
    + intros H qq Iq. assert (Sd : forall q0, In q0 (z_wait (defer z1 q)) -> exists e, In e (z_cache z1) /\ eimsi e = g_imsi (q_gsup q0) /\
        (sa_nonzero (eaddr e) = false \/ (exists r, In r (z_rems z1) /\ rm_addr r = eaddr e) \/ eaddr e = ps_addr p)).
      { intros q0 I0. cbn in I0. apply in_app_or in I0. destruct I0 as [I0|[<-|[]]].
        - destruct (S1 H q0 I0) as (e & A1 & A2 & A3). exists e. split; auto. split; auto. tauto.
        - exists (mk_pent p' t'). split; auto. unfold eimsi, eaddr. cbn. split; [congruence|]. auto. }
      destruct (Sd qq (W3 qq Iq)) as (e & A1 & A2 & A3). exists e. rewrite C3. split; auto. split; auto.
      destruct (addr_dec (eaddr e) (ps_addr p)) as [X|X].
      * destruct R3 as [(r & Ir & Er3 & _)|R3]; [right; exists r; split; auto; congruence|].
        pose proof (R3 e A1 X) as NW. rewrite waiting_false in NW. destruct (NW qq Iq). auto.
      * destruct A3 as [A3|[(r & Ir & Er3)|A3]]; auto; [|tauto]. right. exists r. split; auto. apply R4; auto. congruence.
Qed.

(** ** Lookups *)
Lemma resolved_inv z p a z' o : cache_by_imsi (z_cache z) (ps_imsi p) = Some p -> sa_nonzero a = true ->
  zbase z -> idle nowhere z -> looked (eq (ps_imsi p)) z -> resolved k x s z p a = (z', o) ->
  zinv z' /\ (served z -> served z') /\ z_gw z' = z_gw z /\ exists p', cache_by_imsi (z_cache z') (ps_imsi p) = Some p' /\ ps_imsi p' = ps_imsi p /\ sa_nonzero (ps_addr p') = true /\
    ps_cs p' = ps_cs p /\ ps_ps p' = ps_ps p.
Proof.
  intros V U B Id Lk F. unfold resolved in F. destruct (by_imsi_in _ _ _ V) as (t & Ip & _).
  assert (Wp : pwf p) by (intros d; apply (zb_wf _ B (mk_pent p t) d Ip)).
  destruct (sa_nonzero (ps_addr p) && sa_eqb a (ps_addr p)) eqn:Q.
  { injection F as <- <-. apply Bool.andb_true_iff in Q. destruct Q as [Q _]. split; [|split; auto; split; auto; exists p; auto 10]. split; auto.
    intros e Ie Ue. destruct (Lk e Ie Ue) as [L|L]; auto. assert (e = mk_pent p t) by (eapply same_entry; [apply B| | |]; eauto).
    subst e. unfold eaddr in Ue. cbn in Ue. congruence. }
  set (p' := mk_psub (ps_imsi p) (ps_msisdn p) a (ps_cs p) (ps_ps p)) in *. set (z1 := store k x z p') in *.
  assert (Wp' : pwf p') by (intros d; destruct d; [apply (Wp CsDom)|apply (Wp PsDom)]).
  assert (B1 : zbase z1) by (apply store_base; auto).
  assert (V1 : cache_by_imsi (z_cache z1) (ps_imsi p) = Some p') by (cbn; rewrite update_view; cbn; rewrite String.eqb_refl; reflexivity).
  assert (L1 : looked no_one z1).
  { intros e Ie Ue. destruct (store_in _ _ _ B Ie) as [->|[Ie2 D]]; [unfold eaddr in Ue; cbn in Ue; congruence|].
    destruct (Lk e Ie2 Ue) as [L|L]; auto. cbn in D. congruence. }
  assert (S1 : served z -> forall q, In q (z_wait z) -> exists e, In e (z_cache z1) /\ eimsi e = g_imsi (q_gsup q) /\
        (sa_nonzero (eaddr e) = false \/ (exists r, In r (z_rems z) /\ rm_addr r = eaddr e) \/ eaddr e = a /\ eimsi e = ps_imsi p)).
  { intros H q Iq. destruct (H q Iq) as (e & A1 & A2 & A3). destruct (string_dec (eimsi e) (ps_imsi p')) as [D|D].
    - destruct (store_new z p' B) as (e' & Ie' & Ep). exists e'. split; auto. unfold eimsi, eaddr in *. rewrite Ep. split; [congruence|]. right. right. auto.
    - exists e. split; [apply store_keep; auto|]. split; auto. tauto. }
  destruct (waiting z1 (ps_imsi p)) eqn:Wt.
  - assert (I1 : idle (fun b => b = a) z1).
    { intros e r Ie Ir Us N A D. change (waiting z (eimsi e) = false). destruct (store_in _ _ _ B Ie) as [->|[Ie2 _]]; [destruct N; reflexivity|].
      eapply Id; eauto. }
    destruct (connect_inv k x s _ _ _ _ F B1 I1) as (B3 & I3 & C3 & L3 & _ & G3 & _ & W3 & R3 & R4).
    split; [split; auto; intros e; rewrite C3, L3; apply L1|]. split; [|split; [exact G3|]].
    + intros H qq Iq. destruct (S1 H qq (W3 qq Iq)) as (e & A1 & A2 & A3). exists e. rewrite C3. split; auto. split; auto.
      destruct (addr_dec (eaddr e) a) as [X|X].
      * destruct R3 as [(r & Ir & Er3 & _)|R3]; [right; exists r; split; auto; congruence|].
        pose proof (R3 e A1 X) as NW. rewrite waiting_false in NW. destruct (NW qq Iq). auto.
      * destruct A3 as [A3|[(r & Ir & Er3)|A3]]; auto; [|tauto]. right. exists r. split; auto. apply R4; auto. congruence.
    + exists p'. rewrite C3. auto 10.
  - injection F as <- <-. split; [split; auto|].
    + intros e r Ie Ir Us N A D. destruct (store_in _ _ _ B Ie) as [->|[Ie2 _]]; [exact Wt|].
      change (waiting z (eimsi e) = false). eapply Id; eauto.
    + split; [|split; [reflexivity|exists p'; auto 10]]. intros H qq Iq. destruct (S1 H qq Iq) as (e & A1 & A2 & A3). exists e. split; auto. split; auto.
      destruct A3 as [A3|[A3|[_ A3]]]; auto. rewrite waiting_false in Wt. destruct (Wt qq Iq). congruence.
Qed.

Lemma cf_inv z q z' o : p_type (q_src q) = PT_IPA -> ipa_wf (p_ipa (q_src q)) -> zinv z ->
  cf k x s z q = (z', o) -> zinv z' /\ (served z -> served z').
Proof.
  intros T W [B Id Lk] F. unfold cf in F. set (i := g_imsi (q_gsup q)) in *. destruct (cache_by_imsi (z_cache z) i) as [p|] eqn:V.
  - destruct (forward_to_remote k x s z p q) as [[z1 o1] b] eqn:E. cbn in F. injection F as <- <-.
    destruct (by_imsi_in _ _ _ V) as (t & _ & Ei). rewrite <- Ei in V.
    destruct (forward_inv z p q z1 o1 b no_one T W V Ei B Id Lk E) as (A1 & A2 & A3 & A4). split; [split|]; auto.
  - set (p := mk_psub i "" SaNone pdom0 pdom0) in *. set (z1 := store k x z p) in *.
    assert (Wp : pwf p) by (intros []; split; apply ipa_empty_wf).
    assert (B1 : zbase z1) by (apply store_base; auto).
    assert (V1 : cache_by_imsi (z_cache z1) (ps_imsi p) = Some p) by (cbn; rewrite update_view; cbn; rewrite String.eqb_refl; reflexivity).
    assert (I1 : idle nowhere z1).
    { intros e r Ie Ir Us N A D. destruct (store_in _ _ _ B Ie) as [->|[Ie2 _]]; [discriminate Us|]. change (waiting z (eimsi e) = false). eapply Id; eauto. }
    assert (L1 : looked (eq i) z1).
    { intros e Ie Ue. destruct (store_in _ _ _ B Ie) as [->|[Ie2 D]]; [left; reflexivity|]. destruct (Lk e Ie2 Ue) as [[]|L]; auto. }
    assert (S1 : served z -> served z1).
    { intros H q0 I0. destruct (H q0 I0) as (e & A1 & A2 & A3). exists e. split; [|auto]. apply store_keep; auto. apply (by_imsi_none _ _ V); auto. }
    change (z_gw z1) with (z_gw z) in F. destruct (sa_nonzero (z_gw z)) eqn:G.
    + destruct (resolved k x s z1 p (z_gw z)) as [z2 o1] eqn:R.
      destruct (resolved_inv z1 p (z_gw z) z2 o1 V1 G B1 I1 L1 R) as ([B2 I2 L2] & S2 & _ & p' & V2 & Ei & _).
      change (ps_imsi p) with i in V2. rewrite V2 in F. destruct (forward_to_remote k x s z2 p' q) as [[z3 o3] b] eqn:E. injection F as <- <-.
      change (ps_imsi p) with i in Ei. rewrite <- Ei in V2.
      destruct (forward_inv z2 p' q z3 o3 b no_one T W V2 Ei B2 I2 L2 E) as (A1 & A2 & A3 & A4). split; [split|]; auto.
    + destruct (forward_to_remote k x s z1 p q) as [[z3 o3] b] eqn:E. injection F as <- <-.
      destruct (forward_inv z1 p q z3 o3 b (eq i) T W V1 eq_refl B1 I1 L1 E) as ([A1 A1' A1''] & A2 & A3 & A4). split; [split; [split; auto|exact A2|]|auto].
      intros e Ie Ue. destruct (A3 e Ie Ue) as [X|X]; right; [left; auto|right; auto].
Qed.

Lemma del1_keep i j l : i <> j -> In j l -> In j (del1 i l).
Proof.
  intros N. induction l as [|h l IH]; cbn [del1 In]; [tauto|]. destruct (String.eqb_spec h i) as [E|E]; intros [->|I]; cbn [In]; auto. congruence.
Qed.

Lemma subscr_del_inv z i z' o : zbase z -> idle nowhere z -> looked (eq i) z -> subscr_del k s z i = (z', o) -> zinv z' /\ (served z -> served z').
Proof.
  intros [B1 B2 B3] Id Lk F. unfold subscr_del in F. cbn [pop] in F. injection F as <- <-. split; [split|].
  - split; cbn; auto; [apply del_one; auto|]. intros e d I. apply (del_in _ _ _ B1) in I. apply B3. tauto.
  - intros e r Ie Ir Us N A D. apply (del_in _ _ _ B1) in Ie. eapply less_waiting; [|eapply Id; try apply Ie; eauto].
    cbn. intros q I. apply filter_In in I. tauto.
  - intros e Ie Ue. apply (del_in _ _ _ B1) in Ie. destruct (Lk e (proj1 Ie) Ue) as [L|L]; [destruct Ie; congruence|auto].
  - intros H q Iq. cbn in Iq. apply filter_In in Iq. destruct Iq as [Iq X]. apply Bool.negb_true_iff in X. unfold of_imsi in X. apply String.eqb_neq in X.
    destruct (H q Iq) as (e & A1 & A2 & A3). exists e. split; [cbn; apply (del_in _ _ _ B1); split; auto; congruence|auto].
Qed.

Lemma lookup_inv z i r z' o : zinv z -> lookup_result k x s z i r = (z', o) -> zinv z' /\ (served z -> served z').
Proof.
  intros [B Id Lk] F. unfold lookup_result in F. destruct (negb _); [injection F as <- <-; split; auto; split; auto|].
  set (z1 := z_with_look z (del1 i (z_look z))) in *.
  assert (B1 : zbase z1) by (destruct B; split; auto).
  assert (L1 : looked (eq i) z1).
  { intros e Ie Ue. destruct (Lk e Ie Ue) as [[]|L]. destruct (string_dec i (eimsi e)); auto. right. apply del1_keep; auto. }
  set (ao := match r with Some (v4, v6) => _ | None => None end) in F.
  assert (NZ : forall a, ao = Some a -> sa_nonzero a = true).
  { subst ao. intros a. destruct r as [[v4 v6]|]; [|discriminate]. destruct (sa_nonzero v4) eqn:U4; [congruence|]. destruct (sa_nonzero v6) eqn:U6; congruence. }
  destruct ao as [a|].
  - destruct (cache_by_imsi (z_cache z1) i) as [p|] eqn:V.
    + destruct (by_imsi_in _ _ _ V) as (t & _ & Ei). rewrite <- Ei in V, L1.
      destruct (resolved_inv z1 p a z' o V (NZ a eq_refl) B1 Id L1 F) as (A1 & A2 & _). auto.
    + injection F as <- <-. split; auto. split; auto. intros e Ie Ue. destruct (L1 e Ie Ue) as [L|L]; auto.
      destruct (by_imsi_none _ _ V e Ie). auto.
  - eapply subscr_del_inv in F; eauto.
Qed.

(** ** Links *)
Lemma call_cbs_wait n : forall z a r z' o, call_cbs k s n z a r = (z', o) ->
  z' = z_with_wait z (z_wait z') /\ (forall q, In q (z_wait z') -> In q (z_wait z)) /\
  (n <> O -> forall q e, In q (z_wait z') -> In e (z_cache z) -> eaddr e = a -> g_imsi (q_gsup q) <> eimsi e).
Proof.
  induction n as [|n IH]; intros z a r z' o; cbn [call_cbs].
  - intros [= <- <-]. split; [destruct z; reflexivity|]. split; [auto|tauto].
  - destruct (connect_cb k s z (z_cache z) a (Some r)) as [z1 o1] eqn:C. destruct (call_cbs k s n z1 a r) as [z2 o2] eqn:D.
    intros [= <- <-]. destruct (cb_wait _ _ _ _ _ _ _ _ C) as [A1 A2]. destruct (IH _ _ _ _ _ D) as (B1 & B2 & _).
    split; [rewrite B1, A1; reflexivity|]. split; [intros q I; apply A2; auto|]. intros _ q e I Ie Ea. apply A2; auto.
Qed.

Lemma served_mono z z' : (forall q, In q (z_wait z') -> In q (z_wait z)) -> z_cache z' = z_cache z ->
  (forall r, In r (z_rems z) -> exists r', In r' (z_rems z') /\ rm_addr r' = rm_addr r) -> served z -> served z'.
Proof.
  intros W C R H q I. destruct (H q (W q I)) as (e & A1 & A2 & A3). exists e. rewrite C. split; auto. split; auto.
  destruct A3 as [A3|(r & Ir & Er)]; auto. right. destruct (R r Ir) as (r' & I' & E'). exists r'. split; auto. congruence.
Qed.
Lemma edit_same l a f : (forall r, exists r', f r = Some r' /\ rm_addr r' = rm_addr r) -> map rm_addr (edit_rem l a f) = map rm_addr l.
Proof.
  intros K. induction l as [|r l IH]; cbn; auto. destruct (sa_eqb _ _); cbn; [|congruence]. destruct (K r) as (r' & -> & E). cbn. congruence.
Qed.
Lemma addrs_in l l' : map rm_addr l' = map rm_addr l -> forall r, In r l -> exists r', In r' l' /\ rm_addr r' = rm_addr r.
Proof. intros E r I. apply (in_map rm_addr) in I. rewrite <- E in I. apply in_map_iff in I. destruct I as (r' & X & Y). eauto. Qed.

Lemma rem_up_inv z a z' o : zinv z -> rem_up k s z a = (z', o) -> zinv z' /\ (served z -> served z').
Proof.
  intros [[B1 B2 B3] Id Lk] F. unfold rem_up in F. destruct (find_rem z a) as [r|] eqn:Fr; [|injection F as <- <-; split; auto; split; auto; split; auto].
  apply find_rem_some in Fr. destruct Fr as [Ir Ea]. cbn [rm_cbs rm_addr rm_up] in F.
  set (r1 := mk_rem (rm_addr r) true (rm_cbs r)) in *. set (f1 := fun _ : rem => Some r1) in *. set (l1 := edit_rem (z_rems z) a f1) in *.
  set (f2 := fun r0 => Some (mk_rem (rm_addr r0) (rm_up r0) 0)) in *.
  destruct (call_cbs k s (rm_cbs r) (z_with_rems z l1) a r1) as [z1 o1] eqn:C. injection F as <- <-.
  destruct (call_cbs_wait _ _ _ _ _ _ C) as (A1 & A2 & A3). cbn [z_with_rems z_wait z_cache] in A2, A3.
  assert (R1 : z_rems z1 = l1) by (rewrite A1; reflexivity). assert (C1 : z_cache z1 = z_cache z) by (rewrite A1; reflexivity).
  assert (K1 : map rm_addr l1 = map rm_addr (z_rems z)).
  { subst l1. assert (AA : forall l, map rm_addr (edit_rem l a f1) = map rm_addr l); [|apply AA].
    induction l as [|r0 l IH]; cbn; auto. destruct (sa_eqb _ _) eqn:E; cbn; [|congruence]. apply sa_eqb_iff in E. congruence. }
  assert (K2 : map rm_addr (edit_rem (z_rems z1) a f2) = map rm_addr (z_rems z)).
  { rewrite edit_same; [rewrite R1; exact K1|]. intros r0. eexists. split; reflexivity. }
  assert (KA : keeps_addr f2) by (intros r0 r0' [= <-]; reflexivity).
  assert (X1 : forall rr, In rr l1 -> rm_addr rr <> a -> In rr (z_rems z)).
  { subst l1. clear -Ea. induction (z_rems z) as [|r0 l IH]; cbn; [tauto|]. intros rr. destruct (sa_eqb _ _); cbn; intros [<-|I] N; auto. destruct (N Ea). }
  split; [split|].
  - split; cbn [z_cache z_rems z_with_rems]; rewrite ?C1; auto. rewrite K2. auto.
  - intros e rr Ie Irr Us N A D. cbn [z_cache z_with_rems] in Ie. rewrite C1 in Ie. cbn [z_rems z_with_rems] in Irr. apply waiting_false. cbn [z_wait z_with_rems].
    intros q Iq X. rewrite R1 in Irr. destruct (edit_in _ _ _ KA (eq_ind _ (@NoDup sa) B2 _ (eq_sym K1)) _ Irr) as [[Y1 Y2]|(r0 & Y1 & Y2 & Y3)].
    + assert (Hw : waiting z (eimsi e) = false) by (apply (Id e rr); auto). rewrite waiting_false in Hw. exact (Hw q (A2 q Iq) X).
    + assert (Eea : eaddr e = a). { apply KA in Y3. congruence. }
      destruct (rm_cbs r) as [|n] eqn:Nc; [|apply (A3 ltac:(discriminate) q e Iq Ie Eea X)].
      assert (Hw : waiting z (eimsi e) = false) by (apply (Id e r); auto; congruence). rewrite waiting_false in Hw. exact (Hw q (A2 q Iq) X).
  - intros e. cbn [z_cache z_with_rems z_look]. rewrite A1. apply Lk.
  - apply served_mono; cbn [z_wait z_with_rems z_cache z_rems]; auto. apply addrs_in; auto.
Qed.

Lemma rem_lost_inv z a : zinv z -> zinv (rem_lost z a) /\ (served z -> served (rem_lost z a)).
Proof.
  intros [[B1 B2 B3] Id Lk]. unfold rem_lost. set (f := fun r => Some (mk_rem (rm_addr r) false (rm_cbs r))).
  assert (K : keeps_addr f) by (intros r0 r0' [= <-]; reflexivity).
  assert (E : map rm_addr (edit_rem (z_rems z) a f) = map rm_addr (z_rems z)) by (apply edit_same; intros r; eexists; split; reflexivity).
  split; [split|].
  - split; cbn; auto. rewrite E; auto.
  - intros e rr Ie Irr Us N A D. change (waiting z (eimsi e) = false). cbn in Irr, Ie. destruct (edit_in _ _ _ K B2 _ Irr) as [[Y1 Y2]|(r0 & Y1 & Y2 & Y3)]; [eapply Id; eauto|].
    injection Y3 as <-. cbn in *. destruct D as [D|D]; [discriminate|]. eapply Id; eauto.
  - exact Lk.
  - apply served_mono; cbn; auto. apply addrs_in; auto.
Qed.
Lemma rem_down_inv z a : zinv z -> zinv (rem_down z a) /\
  ((forall q p, In q (z_wait z) -> cached z (g_imsi (q_gsup q)) p -> ps_addr p <> a) -> served z -> served (rem_down z a)).
Proof.
  intros [[B1 B2 B3] Id Lk]. unfold rem_down. set (f := fun _ : rem => @None rem).
  assert (K : keeps_addr f) by (intros r0 r0'; discriminate).
  split; [split|].
  - split; cbn; auto. apply edit_addrs; auto.
  - intros e rr Ie Irr Us N A D. change (waiting z (eimsi e) = false). cbn in Irr, Ie. destruct (edit_in _ _ _ K B2 _ Irr) as [[Y1 Y2]|(r0 & Y1 & Y2 & Y3)]; [eapply Id; eauto|discriminate].
  - exact Lk.
  - intros Cm H q Iq. destruct (H q Iq) as (e & A1 & A2 & A3). exists e. split; auto. split; auto. destruct A3 as [A3|(r & Ir & Er)]; auto. right. exists r.
    split; auto. cbn. assert (N : rm_addr r <> a). { rewrite Er. apply (Cm q (pe_sub e) Iq). destruct e as [p t]. exists t. auto. }
    clear -Ir N. induction (z_rems z) as [|r0 l IH]; cbn in *; [tauto|]. destruct Ir as [->|I]; destruct (sa_eqb (rm_addr _) a) eqn:E; cbn; auto.
    apply sa_eqb_iff in E. destruct (N E).
Qed.

(** ** Messages of remote HLRs *)
Lemma confirm_wf d dest via : ipa_wf dest -> ipa_wf (pd_name d) -> ipa_wf (pd_prelim d) ->
  ipa_wf (pd_name (fst (confirm k x d dest via))) /\ ipa_wf (pd_prelim (fst (confirm k x d dest via))).
Proof. intros. unfold confirm. destruct (_ =? 0); cbn; auto using ipa_empty_wf. Qed.
Lemma ack_from_cases z p g dest via z1 : ipa_wf dest -> pwf p -> ack_from_remote k x z p g dest via = Some z1 ->
  z1 = z \/ exists p', z1 = store k x z p' /\ ps_imsi p' = ps_imsi p /\ ps_addr p' = ps_addr p /\ pwf p'.
Proof.
  intros W Wp. unfold ack_from_remote. destruct (_ =? MSGT_INSERT_DATA_REQUEST).
  - destruct (x_msisdn _) as [m|]; [|intros [= <-]; auto]. destruct (_ || _); intros [= <-]; auto. right. eexists. split; [reflexivity|]. split; [reflexivity|]. split; [reflexivity|].
    intros []; [apply (Wp CsDom)|apply (Wp PsDom)].
  - destruct (_ =? MSGT_UPDATE_LOCATION_RESULT); [|intros [= <-]; auto].
    set (v := if _ =? 0 then _ else _). pose proof (confirm_wf (ps_cs p) dest v W (proj1 (Wp CsDom)) (proj2 (Wp CsDom))) as W1.
    pose proof (confirm_wf (ps_ps p) dest v W (proj1 (Wp PsDom)) (proj2 (Wp PsDom))) as W2.
    destruct (confirm _ _ (ps_cs p) _ _) as [cs c1], (confirm _ _ (ps_ps p) _ _) as [ps c2]. destruct (c1 || c2); [|discriminate]. intros [= <-].
    right. eexists. split; [reflexivity|]. split; [reflexivity|]. split; [reflexivity|]. intros []; cbn; auto.
Qed.
Lemma remote_rx_cases z a g z' o : zbase z -> remote_rx k x s z a g = (z', o) ->
  z' = z \/ exists p p', cache_by_imsi (z_cache z) (ps_imsi p) = Some p /\ ps_imsi p = g_imsi g /\ z' = store k x z p' /\ ps_imsi p' = ps_imsi p /\ ps_addr p' = ps_addr p /\ pwf p'.
Proof.
  intros B. unfold remote_rx. destruct (find_rem z a) as [r|]; [|intros [= <- <-]; auto]. destruct (negb _); [intros [= <- <-]; auto|].
  destruct (cache_by_imsi _ _) as [p|] eqn:V; [|intros [= <- <-]; auto]. unfold forward_to_vlr.
  destruct (ipa_set ipa_empty (Some (g_dst g))) as [rc dest] eqn:Es. destruct (ipa_set_bytes _ _ _ _ ipa_empty_wf Es) as (Wd & _).
  destruct (negb (rc =? 0)); [intros [= <- <-]; auto|]. destruct (route_find _ _) as [c|]; [|intros [= <- <-]; auto].
  destruct (find_conn _ _) as [cn|]; [|intros [= <- <-]; auto]. destruct (ack_from_remote _ _ _ _ _ _ _) as [z1|] eqn:A; [|intros [= <- <-]; auto].
  intros F. assert (z' = z1) as -> by (destruct (k_enc k g); congruence).
  destruct (by_imsi_in _ _ _ V) as (t & Ip & Ei). assert (Wp : pwf p) by (intros d; apply (zb_wf _ B (mk_pent p t) d Ip)).
  destruct (ack_from_cases _ _ _ _ _ _ Wd Wp A) as [->|(p' & -> & A1 & A2 & A3)]; auto. right. exists p, p'. split; [rewrite Ei; exact V|]. auto 10.
Qed.
Lemma remote_rx_inv z a g z' o : zinv z -> remote_rx k x s z a g = (z', o) -> zinv z' /\ (served z -> served z').
Proof.
  intros [B Id Lk] F. destruct (remote_rx_cases _ _ _ _ _ B F) as [->|(p & p' & V & _ & -> & E1 & E2 & W)]; [split; auto; split; auto|].
  destruct (store_same z p p' B V E1 E2 W) as (A1 & A2 & A3 & A4 & _). split; auto. split; auto.
Qed.

Lemma clean_inv z c : cache_clean (z_cache z) (stamp k x) FRESH = Val c -> zinv z -> zinv (z_with_cache z c) /\
  ((forall q e, In q (z_wait z) -> In e (z_cache z) -> ps_imsi (pe_sub e) = g_imsi (q_gsup q) -> pe_upd e <= dw_now x - k_tz k <= pe_upd e + 3600) ->
   served z -> served (z_with_cache z c)).
Proof.
  intros C [[B1 B2 B3] Id Lk]. pose proof (clean_in _ _ _ _ C) as In'. pose proof (clean_one _ _ _ _ C B1) as On. split; [split|].
  - split; cbn; auto. intros e d I. apply In' in I. apply B3. tauto.
  - intros e r Ie. apply In' in Ie. destruct Ie as [Ie _]. apply (Id e r Ie).
  - intros e Ie. apply In' in Ie. destruct Ie as [Ie _]. apply (Lk e Ie).
  - intros Cm H q Iq. destruct (H q Iq) as (e & A1 & A2 & A3). exists e. split; auto. cbn. apply In'. split; auto. pose proof (Cm q e Iq A1 A2) as X.
    unfold stamp, timestamp_now, FRESH, UINT32_MAX. lia.
Qed.
End Fix.

Lemma zinv0 : zinv dgst0.
Proof. split; [split; cbn; [constructor|constructor|tauto]|intros e r []|intros e []]. Qed.
Lemma shape_zinv k x s z e s' z' o : shape k x s z e s' z' o -> zinv z -> zinv z' /\ (calm k x z e -> served z -> served z').
Proof.
  intros H Z. destruct H.
  - auto.
  - destruct (cf_inv k x s' z q z' o) as [A B]; auto; try apply H1.
  - split; auto. destruct Z as [[]]. split; [split|..]; auto.
  - destruct (lookup_inv k x s z i r z' o Z H); auto.
  - destruct (rem_up_inv k s z a z' o Z H); auto.
  - apply rem_down_inv; auto.
  - destruct (rem_lost_inv z a Z); auto.
  - destruct (remote_rx_inv k x s z a g z' o Z H); auto.
  - apply clean_inv; auto.
Qed.
Lemma reach_zinv k s z d l : dreached k (s, z, d, l) -> sinv (t_srv s) /\ zinv z.
Proof.
  apply (dreach_ind k (fun s z l => zinv z)).
  - apply zinv0.
  - intros. split; [split; cbn; [constructor|constructor|tauto]|intros e r []|intros e []].
  - intros. eapply shape_zinv; eauto.
Qed.
