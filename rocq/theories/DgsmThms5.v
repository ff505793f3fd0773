From Verif Require Import Base PeerId PeerSpec PeerThms Db DbSpec DbProofs DbThms2 DbThms3 Auth AuthThms3 Gsup Router RouterThms Hlr HlrSpec HlrThms2
  HlrStep Mdns Proxy MsServerSpec MsServerThms Dgsm DgsmSpec DgsmThms DgsmThms2 DgsmThms3 DgsmThms4.

(** * C39: what becomes of deferred requests *)
Lemma sa_usable_iff a : sa_nonzero a = true <-> sa_usable a.
Proof.
  rewrite nonzero_iff. unfold sa_usable. destruct a as [|ip p|ip p]; cbn.
  - split; [tauto|]. intros (ip & p & [H|H] & _); discriminate.
  - split; [intros [A B]; exists ip, p; auto|]. intros (ip' & p' & [H|H] & A & B); [|discriminate]. injection H as <- <-. auto.
  - split; [intros [A B]; exists ip, p; auto|]. intros (ip' & p' & [H|H] & A & B); [discriminate|]. injection H as <- <-. auto.
Qed.

Lemma step_shape k s z d l x e c y : dreached k (s, z, d, l) -> dstep k (s, z, d, l) (x, e, c) = Some y ->
  (exists s' z' d' o, y = (s', z', d', l ++ o) /\ shape k x s z e s' z' o) \/
  (exists d', y = (restart s, mk_dgst [] [] [] [] (z_active z) (z_gw z) (z_cause z), d', []) /\ exists dd cc, run (dhandle k x s z e) c d = (Crashed, dd, cc)).
Proof.
  intros H E. destruct (reach_zinv _ _ _ _ _ H) as [S _]. unfold dstep in E.
  destruct (run (dhandle k x s z e) c d) as [[r d2] c2] eqn:R. destruct r as [[[s1 z1] o]| |]; [| |discriminate]; injection E as <-.
  - left. exists s1, z1, d2, o. split; auto. pose proof (all_rets_run _ _ (dhandle_shape k x s z e S) c d (s1, z1, o)) as SH.
    unfold run_out in SH. rewrite R in SH. exact (SH eq_refl).
  - right. eauto 10.
Qed.
Lemma step_reached k y e y' : dreached k y -> dstep k y e = Some y' -> dreached k y'.
Proof.
  intros (d0 & es & H) E. exists d0, (es ++ [e]). revert H. generalize (hst0, dgst0, d0, @nil dout). induction es as [|f es IH]; intros y0; cbn.
  - intros [= ->]. rewrite E. reflexivity.
  - destruct (dstep k y0 f); [apply IH|discriminate].
Qed.

Section Fix.
Context (k : cfg) (x : dworld) (s : hst).


Lemma respond_back q m e : plain m -> exists r, snd (respond (tx k s) q m e true) = [OResp (q_nr q) r true (tx k s q r)] /\
  g_type r = (if g_type m =? 0 then (if e then to_error (g_type (q_gsup q)) else to_result (g_type (q_gsup q))) else g_type m) /\
  g_cause r = g_cause m /\ g_x r = g_x m /\ g_imsi r = g_imsi (q_gsup q).
Proof.
  intros P. destruct (respond_plain (tx k s) q m e true P) as (r & E & A & B & C). exists r. rewrite E. repeat split; auto.
  unfold respond in E. destruct (make_response m (q_gsup q) e true) as [rc r'] eqn:M. destruct (rc =? 0); [|discriminate]. injection E as ->.
  unfold make_response in M. injection M as _ <-. cbn. destruct P as (-> & _). reflexivity.
Qed.
Lemma err_refused q c : exists m, respond_err (tx k s) q c = [m] /\ refused c q m.
Proof.
  unfold respond_err. destruct (is_request (g_type (q_gsup q))) eqn:R; cbn [negb].
  - destruct (respond_back q (with_cause (msg0 0) c) true) as (r & -> & A & B & _ & C); [repeat split|]. eexists. split; [reflexivity|]. cbn. auto.
  - eexists. split; [reflexivity|]. cbn. auto.
Qed.
(** what one request gets *)
Definition fate (cause : Z) (q : req) (r : option rem) (o : dout) : Prop :=
  match r with
  | Some (mk_rem a true _) => (k_enc k (sent_on q) = true -> p_type (q_src q) = PT_IPA -> o = DFwd (q_nr q) a (sent_on q)) /\
      (o = DFwd (q_nr q) a (sent_on q) \/ exists m, o = DAns m /\ refused CAUSE_NET_FAIL q m)
  | _ => exists m, o = DAns m /\ turned_down cause q m
  end.
Lemma result_fate z q r : exists o, connect_result k s z q r = [o] /\ fate (z_cause z) q r o.
Proof.
  unfold connect_result, fate.
  assert (G : exists o, map DAns (if g_type (q_gsup q) =? MSGT_CHECK_IMEI_REQUEST
                   then snd (respond (tx k s) q (with_ext (msg0 MSGT_CHECK_IMEI_RESULT)
                               (mk_ext None None 0 0 [] None true None [] PlNone None None None [])) false true)
                   else respond_err (tx k s) q (z_cause z)) = [o] /\ exists m, o = DAns m /\ turned_down (z_cause z) q m).
  { destruct (Z.eqb_spec (g_type (q_gsup q)) MSGT_CHECK_IMEI_REQUEST) as [E|E].
    - destruct (respond_back q (with_ext (msg0 MSGT_CHECK_IMEI_RESULT) (mk_ext None None 0 0 [] None true None [] PlNone None None None [])) false)
        as (r1 & -> & A & _ & B & C); [repeat split|]. eexists. split; [reflexivity|]. eexists. split; [reflexivity|]. split; [|congruence]. intros _. cbn.
      split; auto. split; auto. split; auto. split; [exact A|]. rewrite B. reflexivity.
    - destruct (err_refused q (z_cause z)) as (m & -> & R). eexists. split; [reflexivity|]. eexists. split; [reflexivity|]. split; [congruence|auto]. }
  destruct r as [[a [] n]|]; auto. unfold gsup_forward. change (with_src (q_gsup q) (ipa_bytes (p_ipa (q_src q)))) with (sent_on q).
  destruct (err_refused q CAUSE_NET_FAIL) as (m & -> & R). unfold is_ipa. destruct (p_type (q_src q)) eqn:T; cbn [negb].
  - eexists. split; [reflexivity|]. split; [discriminate|]. right. eauto.
  - destruct (k_enc k (sent_on q)) eqn:K; eexists; (split; [reflexivity|]); (split; [auto; discriminate|]); [auto|right; eauto].
Qed.

Lemma cb_out c : forall z a r z' o, connect_cb k s z c a r = (z', o) ->
  (forall y, In y o -> exists q e, In q (z_wait z) /\ In e c /\ eaddr e = a /\ eimsi e = g_imsi (q_gsup q) /\ fate (z_cause z) q r y) /\
  (forall q e, In q (z_wait z) -> In e c -> eaddr e = a -> eimsi e = g_imsi (q_gsup q) -> exists y, In y o /\ fate (z_cause z) q r y).
Proof.
  induction c as [|e c IH]; intros z a r z' o; cbn [connect_cb].
  - intros [= <- <-]. split; [intros y []|intros q e _ []].
  - destruct (sa_eqb a (ps_addr (pe_sub e))) eqn:E.
    + apply sa_eqb_iff in E. cbn [pop]. destruct (connect_cb k s _ c a r) as [z2 o2] eqn:C. intros [= <- <-]. destruct (IH _ _ _ _ _ C) as [A B].
      cbn [z_wait z_with_wait z_cause] in A, B. split.
      * intros y I. apply in_app_or in I. destruct I as [I|I].
        -- apply in_flat_map in I. destruct I as (q & Iq & Iy). apply filter_In in Iq. destruct Iq as [Iq Eq]. unfold of_imsi in Eq. apply String.eqb_eq in Eq.
           destruct (result_fate z q r) as (y' & Ey & Fy). rewrite Ey in Iy. destruct Iy as [<-|[]]. exists q, e. repeat split; auto. left; auto.
        -- destruct (A y I) as (q & f & A1 & A2 & A3). apply filter_In in A1. exists q, f. repeat split; try tauto. right. auto.
      * intros q f Iq If Ea Ei. destruct (of_imsi (ps_imsi (pe_sub e)) q) eqn:O.
        -- destruct (result_fate z q r) as (y & Ey & Fy). exists y. split; auto. apply in_or_app. left. apply in_flat_map. exists q. rewrite filter_In. split; auto. rewrite Ey. left; auto.
        -- destruct If as [<-|If].
           { unfold of_imsi in O. apply String.eqb_neq in O. destruct O. auto. }
           destruct (B q f) as (y & I & F); auto; [apply filter_In; rewrite O; auto|]. exists y. split; auto. apply in_or_app; auto.
    + destruct (connect_cb k s z c a r) as [z2 o2] eqn:C. intros [= <- <-]. destruct (IH _ _ _ _ _ C) as [A B]. split.
      * intros y I. destruct (A y I) as (q & f & A1 & A2 & A3). exists q, f. repeat split; try tauto. right. auto.
      * intros q f Iq [<-|If] Ea Ei; [|eauto]. unfold eaddr in Ea. symmetry in Ea. apply sa_eqb_iff in Ea. congruence.
Qed.

(** outputs: [w] says which requests were waiting, [z] is the state afterwards *)
Definition fine (w : req -> Prop) (cause : Z) (z : dgst) (y : dout) : Prop :=
  match y with
  | DFwd nr a m => exists q p, w q /\ q_nr q = nr /\ m = sent_on q /\ cached z (g_imsi (q_gsup q)) p /\ ps_addr p = a /\
      exists r, In r (z_rems z) /\ rm_addr r = a /\ rm_up r = true
  | DAns m => exists q, w q /\ (turned_down cause q m \/ refused CAUSE_NET_FAIL q m)
  | DTake q => w q
  | _ => True
  end.
Lemma fate_fine (w : req -> Prop) cause z q r y e : fate cause q r y -> w q -> In e (z_cache z) -> eimsi e = g_imsi (q_gsup q) ->
  (forall r0, r = Some r0 -> rm_up r0 = true -> rm_addr r0 = eaddr e /\ exists r1, In r1 (z_rems z) /\ rm_addr r1 = eaddr e /\ rm_up r1 = true) -> fine w cause z y.
Proof.
  intros F W Ie Ei R. unfold fate in F.
  assert (G : (exists m, y = DAns m /\ turned_down cause q m) -> fine w cause z y) by (intros (m & -> & T); exists q; auto).
  destruct r as [[a [] n]|]; auto. destruct F as [_ [->|(m & -> & H)]]; [|exists q; auto].
  destruct (R _ eq_refl eq_refl) as (Ea & r1 & I1 & E1 & U1). cbn in Ea. exists q, (pe_sub e). split; auto. split; auto. split; auto. destruct e as [p t].
  split; [exists t; auto|]. split; [auto|]. exists r1. rewrite Ea. auto.
Qed.
Lemma fine_more (w w' : req -> Prop) cause z y : (forall q, w q -> w' q) -> fine w cause z y -> fine w' cause z y.
Proof.
  intros H. destruct y; cbn; auto.
  - intros (q & p & A & B). exists q, p. auto.
  - intros (q & A & B). exists q. auto.
Qed.
Definition waits (z : dgst) (q : req) : Prop := In q (z_wait z).

Lemma connect_out z a z' o : connect k x s z a = (z', o) -> forall y, In y o -> fine (waits z) (z_cause z) z' y.
Proof.
  intros C y I. unfold connect in C.
  assert (G : forall r, connect_cb k s z (z_cache z) a r = (z', o) ->
    (forall r0, r = Some r0 -> In r0 (z_rems z) /\ rm_addr r0 = a /\ rm_up r0 = true) -> fine (waits z) (z_cause z) z' y).
  { intros r CB R. destruct (cb_out _ _ _ _ _ _ CB) as [A _]. destruct (A y I) as (q & e & A1 & A2 & A3 & A4 & A5).
    destruct (cb_wait _ _ _ _ _ _ _ _ CB) as [W _]. rewrite W. eapply fate_fine; eauto. intros r0 Er U. destruct (R r0 Er) as (I0 & E0 & U0). split; [congruence|].
    exists r0. cbn. repeat split; auto; congruence. }
  destruct (find_rem z a) as [r|] eqn:F.
  - destruct (rm_up r) eqn:U; [|injection C as <- <-; destruct I]. apply (G (Some r)); auto. intros r0 [= <-]. apply find_rem_some in F. tauto.
  - destruct (dw_ok x a); [injection C as <- <-; destruct I|]. apply (G None); auto. discriminate.
Qed.
Lemma resolved_out z p a z' o : resolved k x s z p a = (z', o) -> forall y, In y o -> fine (waits z) (z_cause z) z' y.
Proof.
  unfold resolved. intros C y I. destruct (_ && _); [injection C as <- <-; destruct I|]. destruct (waiting _ _); [|injection C as <- <-; destruct I].
  apply (connect_out _ _ _ _ C y I).
Qed.
Lemma call_cbs_out m : forall z a r z' o, call_cbs k s m z a r = (z', o) -> (forall y, In y o -> exists q e, In q (z_wait z) /\ In e (z_cache z) /\ eaddr e = a /\
    eimsi e = g_imsi (q_gsup q) /\ fate (z_cause z) q (Some r) y) /\
  (m <> O -> forall q e, In q (z_wait z) -> In e (z_cache z) -> eaddr e = a -> eimsi e = g_imsi (q_gsup q) -> exists y, In y o /\ fate (z_cause z) q (Some r) y).
Proof.
  induction m as [|m IH]; intros z a r z' o; cbn [call_cbs].
  - intros [= <- <-]. split; [intros y []|tauto].
  - destruct (connect_cb _ _ _ _ _ _) as [z1 o1] eqn:C. destruct (call_cbs _ _ _ _ _ _) as [z2 o2] eqn:D. intros [= <- <-].
    destruct (cb_wait _ _ _ _ _ _ _ _ C) as [W1 W2]. destruct (cb_out _ _ _ _ _ _ C) as [A B]. destruct (IH _ _ _ _ _ D) as [A' _]. split.
    + intros y I. apply in_app_or in I. destruct I as [I|I]; [auto|]. destruct (A' y I) as (q & e & A1 & A2 & A3). rewrite W1 in A2, A3. apply W2 in A1.
      exists q, e. split; [apply A1|]. auto.
    + intros _ q e Iq Ie Ea Ei. destruct (B q e Iq Ie Ea Ei) as (y & I & F). exists y. split; auto. apply in_or_app; auto.
Qed.
Lemma rem_up_out z a z' o : rem_up k s z a = (z', o) -> forall y, In y o -> fine (waits z) (z_cause z) z' y.
Proof.
  unfold rem_up. intros C y I. destruct (find_rem z a) as [r|] eqn:F; [|injection C as <- <-; destruct I]. apply find_rem_some in F. destruct F as [Ir Ea].
  set (r1 := mk_rem (rm_addr r) true (rm_cbs r)) in *. set (l1 := edit_rem (z_rems z) a (fun _ => Some r1)) in *.
  destruct (call_cbs _ _ _ _ _ _) as [z1 o1] eqn:D. injection C as <- <-. destruct (call_cbs_out _ _ _ _ _ _ D) as [A _].
  destruct (A y I) as (q & e & A1 & A2 & A3 & A4 & A5). destruct (call_cbs_wait _ _ _ _ _ _ _ _ D) as (W & _).
  eapply (fate_fine _ _ _ q (Some r1) y e); [exact A5|exact A1|cbn; rewrite W; exact A2|exact A4|]. intros r0 [= <-] _. split; [cbn; congruence|].
  exists (mk_rem (rm_addr r) true 0). split; [|cbn; split; [congruence|auto]]. cbn [z_rems z_with_rems].
  assert (R1 : z_rems z1 = l1) by (rewrite W; reflexivity). rewrite R1. subst l1 r1.
  clear -Ir Ea. induction (z_rems z) as [|r0 l IH]; cbn in *; [tauto|]. destruct (sa_eqb (rm_addr r0) a) eqn:E; cbn.
  - rewrite (proj2 (sa_eqb_iff _ _) Ea). left. reflexivity.
  - rewrite E. right. destruct Ir as [->|I]; [rewrite (proj2 (sa_eqb_iff _ _) Ea) in E; discriminate|auto].
Qed.

Lemma forward_out z p q z' o b : p_type (q_src q) = PT_IPA -> cache_by_imsi (z_cache z) (ps_imsi p) = Some p -> ps_imsi p = g_imsi (q_gsup q) ->
  forward_to_remote k x s z p q = (z', o, b) -> zbase z ->
  (forall y, In y o -> fine (fun q' => waits z q' \/ q' = q) (z_cause z) z' y) /\ z_cause z' = z_cause z /\ (forall q', waits z' q' -> waits z q' \/ q' = q) /\
  exists o', o = DTake q :: o'.
Proof.
  intros T V Ei F B. unfold forward_to_remote in F. destruct (ack_cases k x z p q _ T eq_refl) as (p' & E1 & E2 & _ & K).
  assert (G : exists z1, ack_to_remote k x z p q = Some z1 /\ z_wait z1 = z_wait z /\ z_cause z1 = z_cause z /\ exists t', In (mk_pent p' t') (z_cache z1)).
  { destruct K as [[-> ->]| ->]; eexists; (split; [reflexivity|]); (split; [auto|]); (split; [auto|]).
    - apply by_imsi_in in V. destruct V as (t & I & _). eauto.
    - destruct (store_new k x z p' B) as ([p0 t0] & I & <-). eauto. }
  destruct G as (z1 & Ea & Ew & Ec & t' & I'). rewrite Ea in F.
  assert (CC : forall z2 o2, connect k x s (defer z1 q) (ps_addr p) = (z2, o2) ->
    (forall y, In y (DTake q :: o2) -> fine (fun q' => waits z q' \/ q' = q) (z_cause z) z2 y) /\ z_cause z2 = z_cause z /\ (forall q', waits z2 q' -> waits z q' \/ q' = q)).
  { intros z2 o2 C.
    assert (WW : forall q', waits (defer z1 q) q' -> waits z q' \/ q' = q).
    { intros q'. unfold waits, defer. cbn. rewrite in_app_iff, Ew. cbn. intuition. }
    split; [|split].
    - intros y [<-|I]; [cbn; auto|]. pose proof (connect_out _ _ _ _ C y I) as Fi. change (z_cause (defer z1 q)) with (z_cause z1) in Fi. rewrite Ec in Fi.
      eapply fine_more; [exact WW|exact Fi].
    - unfold connect in C. destruct (find_rem _ _) as [r|]; [destruct (rm_up r)|destruct (dw_ok _ _)]; try (injection C as <- _; exact Ec);
        apply cb_wait in C; destruct C as [-> _]; exact Ec.
    - intros q' I. apply WW. unfold waits in *. unfold connect in C. destruct (find_rem _ _) as [r|]; [destruct (rm_up r)|destruct (dw_ok _ _)]; try (injection C as <- _; exact I);
        apply cb_wait in C; destruct C as [_ C]; apply C; exact I. }
  destruct (negb (sa_nonzero (ps_addr p))) eqn:U.
  - injection F as <- <- _. split; [intros y [<-|[]]; cbn; auto|]. split; auto. split; [|eauto]. intros q'. unfold waits. cbn. rewrite in_app_iff, Ew. cbn. intuition.
  - destruct (find_rem z1 (ps_addr p)) as [r|] eqn:Fr; [destruct (rm_up r) eqn:Up|]; cbn [is_up] in F; rewrite ?Up in F.
    + assert (Eo : DTake q :: connect_result k s z1 q (Some r) = o) by congruence. assert (z' = z1) as -> by congruence. clear F. rewrite <- Eo.
      split; [|split; [auto|split; [unfold waits; rewrite Ew; auto|eauto]]].
      intros y [<-|I]; [cbn; auto|]. destruct (result_fate z1 q (Some r)) as (y' & Ey & Fy). rewrite Ey in I. destruct I as [<-|[]].
      rewrite Ec in Fy. apply find_rem_some in Fr. destruct Fr as [Ir Er].
      eapply (fate_fine _ _ _ q (Some r) y' (mk_pent p' t')); eauto; [unfold eimsi; cbn; congruence|].
      intros r0 [= <-] _. unfold eaddr. cbn. split; [congruence|]. exists r. repeat split; auto. congruence.
    + destruct (connect _ _ _ _ _) as [z2 o2] eqn:C. injection F as <- <- _. destruct (CC z2 o2 eq_refl) as (A1 & A2 & A3). split; auto. split; auto. split; eauto.
    + destruct (connect _ _ _ _ _) as [z2 o2] eqn:C. injection F as <- <- _. destruct (CC z2 o2 eq_refl) as (A1 & A2 & A3). split; auto. split; auto. split; eauto.
Qed.

Lemma resolved_more z p a z' o : resolved k x s z p a = (z', o) -> z_cause z' = z_cause z /\ (forall q, waits z' q -> waits z q).
Proof.
  unfold resolved. intros C. destruct (_ && _); [injection C as <- <-; auto|]. destruct (waiting _ _); [|injection C as <- <-; auto].
  unfold connect in C. unfold waits. destruct (find_rem _ _) as [r|]; [destruct (rm_up r)|destruct (dw_ok _ _)]; try (injection C as <- _; auto);
        apply cb_wait in C; destruct C as [Z C]; (split; [rewrite Z; reflexivity|]); intros q I; apply C; exact I.
Qed.
Lemma fine_later (w : req -> Prop) cause z z' y : z_cache z' = z_cache z -> z_rems z' = z_rems z -> fine w cause z y -> fine w cause z' y.
Proof. intros C R. unfold fine, cached. rewrite C, R. auto. Qed.

Lemma forward_rems z p q z' o b : forward_to_remote k x s z p q = (z', o, b) -> cache_by_imsi (z_cache z) (ps_imsi p) = Some p -> p_type (q_src q) = PT_IPA -> zbase z ->
  (forall r, In r (z_rems z) -> rm_up r = true -> exists r', In r' (z_rems z') /\ rm_addr r' = rm_addr r /\ rm_up r' = true) /\
  (forall i p0, cached z i p0 -> exists p1, cached z' i p1 /\ ps_addr p1 = ps_addr p0).
Proof.
  intros F V T B. unfold forward_to_remote in F. destruct (ack_cases k x z p q _ T eq_refl) as (p' & E1 & E2 & _ & K).
  assert (G : exists z1, ack_to_remote k x z p q = Some z1 /\ z_rems z1 = z_rems z /\ forall i p0, cached z i p0 -> exists p1, cached z1 i p1 /\ ps_addr p1 = ps_addr p0).
  { destruct K as [[-> ->]| ->]; eexists; (split; [reflexivity|]); (split; [auto|]); [eauto|]. intros i p0 (t & I & E).
    destruct (string_dec i (ps_imsi p)) as [->|D].
    - exists p'. destruct (store_new k x z p' B) as ([p1 t1] & I1 & Ep). cbn in Ep. subst p1. split; [exists t1; split; auto|]. rewrite E2. f_equal.
      pose proof (in_by_imsi _ _ (zb_one _ B) I) as Vi. unfold eimsi in Vi. cbn in Vi. rewrite E in Vi. congruence.
    - exists p0. split; auto. exists t. split; auto. apply store_keep; auto. unfold eimsi. cbn. congruence. }
  destruct G as (z1 & Ea & Er & Cz). rewrite Ea in F.
  assert (CC : forall z2 o2, connect k x s (defer z1 q) (ps_addr p) = (z2, o2) ->
     z_cache z2 = z_cache z1 /\ (forall r, In r (z_rems z) -> rm_up r = true -> exists r', In r' (z_rems z2) /\ rm_addr r' = rm_addr r /\ rm_up r' = true)).
  { intros z2 o2 C. unfold connect in C. change (find_rem (defer z1 q) (ps_addr p)) with (find_rem z1 (ps_addr p)) in C.
    destruct (find_rem z1 (ps_addr p)) as [r|] eqn:Fr; [destruct (rm_up r) eqn:U|destruct (dw_ok _ _)].
    - apply cb_wait in C. destruct C as [-> _]. cbn. rewrite Er. split; eauto.
    - injection C as <- _. split; auto. cbn. rewrite Er. intros r0 I0 U0.
      assert (GG : forall l, In r0 l -> exists r', In r' (edit_rem l (ps_addr p) (fun r1 => Some (mk_rem (rm_addr r1) (rm_up r1) (S (rm_cbs r1))))) /\ rm_addr r' = rm_addr r0 /\ rm_up r' = true).
      { induction l as [|h l IH]; [intros []|]. cbn. intros [->|I]; destruct (sa_eqb _ _).
        - eexists. split; [left; reflexivity|]. auto.
        - exists r0. split; [left; auto|auto].
        - exists r0. split; [right; auto|auto].
        - destruct (IH I) as (r' & A & A'). exists r'. split; [right; auto|auto]. }
      apply GG; auto.
    - injection C as <- _. split; auto. cbn. rewrite Er. intros r0 I0 U0. exists r0. auto.
    - apply cb_wait in C. destruct C as [-> _]. cbn. rewrite Er. split; eauto. }
  destruct (negb (sa_nonzero (ps_addr p))); [injection F as <- _ _; cbn; rewrite Er; eauto|].
  destruct (is_up _); [assert (z' = z1) as -> by congruence; rewrite Er; eauto|].
  destruct (connect _ _ _ _ _) as [z2 o2] eqn:C. injection F as <- _ _. destruct (CC z2 o2 eq_refl) as (A1 & A2). split; auto. unfold cached. rewrite A1. exact Cz.
Qed.
Lemma fine_up (w : req -> Prop) cause z z' y : (forall r, In r (z_rems z) -> rm_up r = true -> exists r', In r' (z_rems z') /\ rm_addr r' = rm_addr r /\ rm_up r' = true) ->
  (forall i p0, cached z i p0 -> exists p1, cached z' i p1 /\ ps_addr p1 = ps_addr p0) -> fine w cause z y -> fine w cause z' y.
Proof.
  intros R C. destruct y; cbn; auto. intros (q & p & A1 & A2 & A3 & A4 & A5 & r & A6 & A7 & A8). destruct (C _ _ A4) as (p1 & C1 & C2). destruct (R _ A6 A8) as (r' & R1 & R2 & R3).
  exists q, p1. repeat split; auto; [congruence|]. exists r'. repeat split; auto. congruence.
Qed.

Lemma cf_out z q z' o : p_type (q_src q) = PT_IPA -> zinv z -> cf k x s z q = (z', o) ->
  (forall y, In y o -> fine (fun q' => waits z q' \/ q' = q) (z_cause z) z' y) /\ (forall q', waits z' q' -> waits z q' \/ q' = q) /\ In (DTake q) o.
Proof.
  intros T [B Id Lk] F. unfold cf in F. set (i := g_imsi (q_gsup q)) in *. destruct (cache_by_imsi (z_cache z) i) as [p|] eqn:V.
  - destruct (forward_to_remote k x s z p q) as [[z1 o1] b] eqn:E. cbn in F. injection F as <- <-.
    destruct (by_imsi_in _ _ _ V) as (t & _ & Ei). rewrite <- Ei in V. destruct (forward_out z p q z1 o1 b T V Ei E B) as (A1 & A2 & A3 & o' & ->). split; auto. split; auto. left; auto.
  - set (p := mk_psub i "" SaNone pdom0 pdom0) in *. set (z1 := store k x z p) in *.
    assert (Wp : pwf p) by (intros []; split; apply ipa_empty_wf).
    assert (B1 : zbase z1) by (apply store_base; auto).
    assert (V1 : cache_by_imsi (z_cache z1) (ps_imsi p) = Some p) by (cbn; rewrite update_view; cbn; rewrite String.eqb_refl; reflexivity).
    assert (I1 : idle nowhere z1).
    { intros e r Ie Ir Us N A D. destruct (store_in _ _ _ _ _ B Ie) as [->|[Ie2 _]]; [discriminate Us|]. change (waiting z (eimsi e) = false). eapply Id; eauto. }
    assert (L1 : looked (eq i) z1).
    { intros e Ie Ue. destruct (store_in _ _ _ _ _ B Ie) as [->|[Ie2 D]]; [left; reflexivity|]. destruct (Lk e Ie2 Ue) as [[]|L]; auto. }
    change (z_gw z1) with (z_gw z) in F. destruct (sa_nonzero (z_gw z)) eqn:G.
    + destruct (resolved k x s z1 p (z_gw z)) as [z2 o1] eqn:R.
      destruct (resolved_inv k x s z1 p (z_gw z) z2 o1 V1 G B1 I1 L1 R) as ([B2 I2 L2] & _ & _ & p' & V2 & Ei & _).
      change (ps_imsi p) with i in V2. rewrite V2 in F. destruct (forward_to_remote k x s z2 p' q) as [[z3 o3] b] eqn:E. injection F as <- <-.
      change (ps_imsi p) with i in Ei. rewrite <- Ei in V2. destruct (forward_out z2 p' q z3 o3 b T V2 Ei E B2) as (A1 & A2 & A3 & o' & Eo).
      destruct (resolved_more _ _ _ _ _ R) as [C2 W2]. change (z_cause z1) with (z_cause z) in C2. destruct (forward_rems _ _ _ _ _ _ E V2 T B2) as [R1 R2]. split; [|split].
      * intros y Iy. apply in_app_or in Iy. destruct Iy as [Iy|Iy].
        -- apply (fine_up _ _ z2); auto. eapply fine_more; [|exact (resolved_out _ _ _ _ _ R y Iy)]. cbn. intros q' W. left. exact W.
        -- rewrite <- C2. eapply fine_more; [|exact (A1 y Iy)]. cbn. intros q' [W|W]; auto. left. apply (W2 q' W).
      * intros q' W. destruct (A3 q' W) as [W'|W']; auto. left. apply (W2 q' W').
      * subst o3. apply in_or_app. right. left. auto.
    + destruct (forward_to_remote k x s z1 p q) as [[z3 o3] b] eqn:E. injection F as <- <-. destruct (forward_out z1 p q z3 o3 b T V1 eq_refl E B1) as (A1 & A2 & A3 & o' & Eo).
      split; [|split].
      * intros y Iy. eapply fine_later; [| |exact (A1 y Iy)]; reflexivity.
      * exact A3.
      * subst o3. left. auto.
Qed.

Lemma lookup_out z i r z' o : lookup_result k x s z i r = (z', o) -> (forall y, In y o -> fine (waits z) (z_cause z) z' y) /\ (forall q, waits z' q -> waits z q).
Proof.
  intros F. unfold lookup_result in F. destruct (negb _); [injection F as <- <-; split; [intros y []|auto]|].
  destruct (match r with Some (v4, v6) => _ | None => None end) as [a|].
  - destruct (cache_by_imsi _ _) as [p|]; [|injection F as <- <-; split; [intros y []|auto]]. split.
    + apply (resolved_out _ _ _ _ _ F).
    + apply (resolved_more _ _ _ _ _ F).
  - unfold subscr_del in F. cbn [pop] in F. injection F as <- <-. split.
    + intros y I. apply in_app_or in I. destruct I as [I|[<-|[]]]; [|exact Logic.I]. apply in_flat_map in I. destruct I as (q & Iq & Iy). apply filter_In in Iq.
      destruct (result_fate (z_with_look z (del1 i (z_look z))) q None) as (y' & Ey & m & -> & TD).
      change (In y (connect_result k s (z_with_look z (del1 i (z_look z))) q None)) in Iy. rewrite Ey in Iy. destruct Iy as [<-|[]]. exists q. split; [apply Iq|auto].
    + intros q I. unfold waits in *. cbn in I. apply filter_In in I. tauto.
Qed.
End Fix.

Lemma quiet_fine w c z y o : all_taken o = [] -> ended o = [] -> In y o -> (forall nr r co, y <> DAns (OResp nr r false co)) -> (forall nr c g, y <> DAns (ORx nr c g)) ->
  (forall c g, y <> DAns (OTx c g)) -> fine w c z y.
Proof.
  intros T E I N1 N2 N3. destruct y as [|q|nr a g|[]| | |]; cbn; auto; exfalso.
  - assert (In (q_nr q) (all_taken o)) by (apply in_flat_map; eexists; split; [exact I|left; auto]). rewrite T in H. destruct H.
  - assert (In nr (ended o)) by (apply in_flat_map; eexists; split; [exact I|left; auto]). rewrite E in H. destruct H.
  - eapply N2; eauto.
  - destruct final; [|eapply N1; eauto]. assert (In nr (ended o)) by (apply in_flat_map; eexists; split; [exact I|left; auto]). rewrite E in H. destruct H.
  - assert (In nr (ended o)) by (apply in_flat_map; eexists; split; [exact I|left; auto]). rewrite E in H. destruct H.
  - eapply N3; eauto.
Qed.
Lemma rx_no_ans k x s z a g z' o m : remote_rx k x s z a g = (z', o) -> ~ In (DAns m) o.
Proof.
  assert (E : forall up g c, ~ In (DAns m) (err_reply k a up g c)).
  { intros. unfold err_reply. destruct (negb _); auto. cbv zeta. destruct (_ && _); auto. intros [H|[]]; discriminate. }
  unfold remote_rx. destruct (find_rem z a) as [r|]; [|intros [= <- <-]; auto].
  destruct (negb _); [intros [= <- <-]; apply E|]. destruct (cache_by_imsi _ _) as [p|]; [|intros [= <- <-]; apply E].
  unfold forward_to_vlr. destruct (ipa_set _ _) as [rc dest]. destruct (negb _); [intros [= <- <-]; apply E|].
  destruct (route_find _ _) as [c|]; [|intros [= <- <-]; apply E]. destruct (find_conn _ _) as [cn|]; [|intros [= <- <-]; apply E].
  destruct (ack_from_remote _ _ _ _ _ _ _) as [z2|] eqn:A; [|intros [= <- <-]; apply E]. destruct (k_enc k g); intros [= <- <-]; [intros [H|[]]; discriminate|apply E].
Qed.

(** the waiting requests are in the log *)
Definition winv (l : list dout) (z : dgst) : Prop := forall q, In q (z_wait z) -> In (DTake q) l /\ p_type (q_src q) = PT_IPA.
Lemma shape_out k x s z e s' z' o l : shape k x s z e s' z' o -> zinv z -> winv l z ->
  winv (l ++ o) z' /\ forall y, In y o -> fine (fun q => In (DTake q) (l ++ o)) (z_cause z) z' y.
Proof.
  intros H Z W.
  assert (M : forall w : req -> Prop, (forall q, w q -> waits z q \/ In (DTake q) o) -> forall q, w q -> In (DTake q) (l ++ o)).
  { intros w Hw q Q. apply in_or_app. destruct (Hw q Q) as [X|X]; auto. left. apply W. auto. }
  assert (M2 : (forall q, waits z' q -> waits z q) -> winv (l ++ o) z').
  { intros Hw q Q. destruct (W q (Hw q Q)). split; auto. apply in_or_app; auto. }
  destruct H.
  - split; [apply M2; auto|]. intros y I. apply in_map_iff in I. destruct I as (y0 & <- & _). exact Logic.I.
  - destruct (cf_out k x s' z q z' o (fr_ipa _ _ _ _ H1) Z H3) as (A1 & A2 & A3). split.
    + intros q' Q. destruct (A2 q' Q) as [X|X].
      * destruct (W q' X). split; auto. apply in_or_app; auto.
      * subst q'. split; [|apply H1]. apply in_or_app. right. right. auto.
    + intros y [<-|I]; [exact Logic.I|]. eapply fine_more; [|exact (A1 y I)]. apply M. intros q' [X|X]; auto. subst q'. right. right. auto.
  - split; [apply M2; auto|intros y []].
  - destruct (lookup_out k x s z i r z' o H) as [A1 A2]. split; [auto|]. intros y I. eapply fine_more; [|exact (A1 y I)]. apply M. auto.
  - split; [|intros y I; eapply fine_more; [|exact (rem_up_out k s z a z' o H y I)]; apply M; auto]. apply M2. intros q. unfold waits. unfold rem_up in H. destruct (find_rem z a) as [r|]; [|injection H as <- <-; auto].
    destruct (call_cbs _ _ _ _ _ _) as [z1 o1] eqn:D. injection H as <- <-. cbn. intros I. destruct (call_cbs_wait _ _ _ _ _ _ _ _ D) as (_ & C & _). apply C in I. exact I.
  - split; [apply M2; auto|intros y []].
  - split; [apply M2; auto|intros y []].
  - destruct (remote_rx_quiet _ _ _ _ _ _ _ _ H) as (A & B & C). split; [apply M2; unfold waits; rewrite C; auto|].
    intros y I. pose proof (rx_no_ans k x s z a g z' o) as NA. eapply quiet_fine; eauto; intros; intros ->; eapply NA; eauto.
  - split; [apply M2; auto|]. intros y I. unfold gone in I. apply in_map_iff in I. destruct I as (e & <- & _). exact Logic.I.
Qed.
Lemma reach_winv k s z d l : dreached k (s, z, d, l) -> winv l z.
Proof.
  intros H. apply (dreach_ind k (fun s z l => zinv z /\ winv l z)) in H; [apply H| | |].
  - split; [apply zinv0|intros q []].
  - intros s0 z0 l0 _ _. split; [split; [split; cbn; [constructor|constructor|tauto]|intros e r []|intros e []]|intros q []].
  - intros x s0 z0 l0 e s1 z1 o _ [Z Q] SH. split; [eapply shape_zinv; eauto|eapply shape_out; eauto].
Qed.

Lemma cached_entry z i p : zbase z -> (cached z i p <-> cache_by_imsi (z_cache z) i = Some p).
Proof.
  intros B. split.
  - intros (t & I & <-). apply (in_by_imsi (z_cache z) (mk_pent p t) (zb_one _ B) I).
  - intros V. destruct (by_imsi_in _ _ _ V) as (t & I & E). exists t. auto.
Qed.

Theorem c39_outs k s z d l x e c s' z' d' l' : dreached k (s, z, d, l) -> dstep k (s, z, d, l) (x, e, c) = Some (s', z', d', l') -> l' = [] \/
  exists o, l' = l ++ o /\
    (forall nr a m, In (DFwd nr a m) o -> exists q p, In (DTake q) l' /\ q_nr q = nr /\ m = sent_on q /\ cached z' (g_imsi (q_gsup q)) p /\ ps_addr p = a /\
       exists r, In r (z_rems z') /\ rm_addr r = a /\ rm_up r = true) /\
    (forall m, In (DAns m) o -> exists q, In (DTake q) l' /\ (turned_down (z_cause z) q m \/ refused CAUSE_NET_FAIL q m)).
Proof.
  intros H E. destruct (step_shape _ _ _ _ _ _ _ _ _ H E) as [(s1 & z1 & d1 & o & Y & SH)|(d1 & Y & _)]; injection Y as -> -> -> ->; [right|left; reflexivity].
  exists o. split; auto. destruct (shape_out _ _ _ _ _ _ _ _ _ SH (proj2 (reach_zinv _ _ _ _ _ H)) (reach_winv _ _ _ _ _ H)) as [_ F]. split.
  - intros nr a m I. exact (F _ I).
  - intros m I. exact (F _ I).
Qed.

Theorem c39_up k s z d l x a r : dreached k (s, z, d, l) -> In r (z_rems z) -> rm_addr r = a -> sa_usable a ->
  exists z' o, (forall c, dstep k (s, z, d, l) (x, DUp a, c) = Some (s, z', d, l ++ o)) /\
    forall q p, In q (z_wait z) -> cached z (g_imsi (q_gsup q)) p -> ps_addr p = a ->
      ~ In q (z_wait z') /\
      (In (DFwd (q_nr q) a (sent_on q)) o \/ k_enc k (sent_on q) = false /\ exists m, In (DAns m) o /\ refused CAUSE_NET_FAIL q m).
Proof.
  intros H Ir Ea U. destruct (reach_zinv _ _ _ _ _ H) as [_ [B Id Lk]]. pose proof (reach_winv _ _ _ _ _ H) as W.
  destruct (rem_up k s z a) as [z' o] eqn:E. exists z', o. split; [intros c; unfold dstep, dhandle; rewrite E; reflexivity|].
  intros q p Iq Cp Ap. unfold rem_up in E.
  destruct (find_rem z a) as [r1|] eqn:Fr; [|exfalso; exact (find_rem_none z a Fr r Ir Ea)].
  destruct (find_rem_some z a r1 Fr) as [I1 E1].
  destruct (call_cbs k s _ _ a _) as [z1 o1] eqn:C. injection E as <- <-.
  destruct Cp as (t & Ie & Ei).
  assert (N : rm_cbs r1 <> O).
  { intros N. pose proof (Id (mk_pent p t) r1 Ie I1) as X. unfold eaddr, eimsi in X. cbn in X. rewrite Ap in X. rewrite (proj2 (sa_usable_iff a) U) in X.
    specialize (X eq_refl (fun f => f) E1 (or_intror N)). rewrite Ei in X. pose proof (proj1 (waiting_false _ _) X q Iq) as Y. apply Y. reflexivity. }
  destruct (call_cbs_wait _ _ _ _ _ _ _ _ C) as (_ & _ & W2). destruct (call_cbs_out _ _ _ _ _ _ _ _ C) as [_ O].
  split.
  - cbn. intros I. apply (W2 N q (mk_pent p t) I); cbn; auto.
  - destruct (O N q (mk_pent p t) Iq Ie Ap Ei) as (y & Iy & Fy). cbn in Fy. rewrite E1 in Fy. destruct Fy as [F1 [->|(m & -> & F2)]]; auto.
    destruct (k_enc k (sent_on q)) eqn:K; [|right; eauto]. left. rewrite (F1 eq_refl (proj2 (W q Iq))) in Iy. exact Iy.
Qed.

Theorem c39_lookup_failed k s z d l x i r : dreached k (s, z, d, l) -> In i (z_look z) ->
  (forall v4 v6, r = Some (v4, v6) -> ~ sa_usable v4 /\ ~ sa_usable v6) ->
  exists z' o, (forall c, dstep k (s, z, d, l) (x, DLook i r, c) = Some (s, z', d, l ++ o)) /\
    (forall p, ~ cached z' i p) /\
    forall q, In q (z_wait z) -> g_imsi (q_gsup q) = i -> ~ In q (z_wait z') /\ exists m, In (DAns m) o /\ turned_down (z_cause z) q m.
Proof.
  intros H L U. destruct (reach_zinv _ _ _ _ _ H) as [_ [B Id Lk]].
  destruct (lookup_result k x s z i r) as [z' o] eqn:E. exists z', o. split; [intros c; unfold dstep, dhandle; rewrite E; reflexivity|].
  unfold lookup_result in E. rewrite (proj2 (existsb_exists _ _)) in E; [|exists i; split; auto; apply String.eqb_refl]. cbn [negb] in E.
  replace (match r with Some (v4, v6) => if sa_nonzero v4 then Some v4 else if sa_nonzero v6 then Some v6 else None | None => None end) with (@None sa) in E.
  2: { destruct r as [[v4 v6]|]; auto. destruct (U v4 v6 eq_refl) as [U1 U2]. destruct (sa_nonzero v4) eqn:N1; [apply sa_usable_iff in N1; tauto|].
       destruct (sa_nonzero v6) eqn:N2; [apply sa_usable_iff in N2; tauto|auto]. }
  unfold subscr_del, pop in E. set (zl := z_with_look z (del1 i (z_look z))) in *.
  assert (Eo : flat_map (fun q => connect_result k s zl q None) (filter (of_imsi i) (z_wait zl)) ++ [DGone i] = o) by congruence.
  assert (Ez : z_with_cache (z_with_wait zl (filter (fun q => negb (of_imsi i q)) (z_wait zl))) (cache_del (z_cache z) i) = z').
  { change (z_cache z) with (z_cache (z_with_wait zl (filter (fun q => negb (of_imsi i q)) (z_wait zl)))). congruence. }
  split.
  - intros p (t & I & Ei). rewrite <- Ez in I. cbn in I. apply (del_in _ _ _ (zb_one _ B)) in I. apply I. exact Ei.
  - intros q Iq Ei. split.
    + rewrite <- Ez. cbn. intros I. apply filter_In in I. destruct I as [_ I]. unfold of_imsi in I. rewrite Ei, String.eqb_refl in I. discriminate.
    + destruct (result_fate k s zl q None) as (y & Ey & m & -> & TD). exists m. split; [|exact TD]. rewrite <- Eo. apply in_or_app. left. apply in_flat_map. exists q.
      split; [|rewrite Ey; left; auto]. apply filter_In. split; [exact Iq|]. unfold of_imsi. rewrite Ei. apply String.eqb_refl.
Qed.

Theorem c39_found k s z d l x i p v4 v6 a : dreached k (s, z, d, l) -> In i (z_look z) -> cached z i p ->
  (sa_usable v4 /\ a = v4 \/ ~ sa_usable v4 /\ sa_usable v6 /\ a = v6) ->
  exists z' o, (forall c, dstep k (s, z, d, l) (x, DLook i (Some (v4, v6)), c) = Some (s, z', d, l ++ o)) /\ exists p', cached z' i p' /\ ps_addr p' = a /\ ps_cs p' = ps_cs p /\ ps_ps p' = ps_ps p.
Proof.
  intros H L Cp U. destruct (reach_zinv _ _ _ _ _ H) as [_ [B Id Lk]].
  destruct (lookup_result k x s z i (Some (v4, v6))) as [z' o] eqn:E. exists z', o. split; [intros c; unfold dstep, dhandle; rewrite E; reflexivity|].
  unfold lookup_result in E. rewrite (proj2 (existsb_exists _ _)) in E; [|exists i; split; auto; apply String.eqb_refl]. cbn [negb] in E.
  assert (X : (if sa_nonzero v4 then Some v4 else if sa_nonzero v6 then Some v6 else None) = Some a).
  { destruct U as [[U ->]|(N & U & ->)]; apply sa_usable_iff in U; rewrite U; auto. destruct (sa_nonzero v4) eqn:N4; auto. apply sa_usable_iff in N4. tauto. }
  rewrite X in E. clear X. cbn [z_cache z_with_look] in E. apply (cached_entry _ _ _ B) in Cp. rewrite Cp in E.
  destruct (by_imsi_in _ _ _ Cp) as (t & Ip & Ei). unfold resolved in E.
  destruct (sa_nonzero (ps_addr p) && sa_eqb a (ps_addr p)) eqn:Q.
  - injection E as <- <-. apply Bool.andb_true_iff in Q. destruct Q as [_ Q]. apply sa_eqb_iff in Q. exists p. split; [|auto]. exists t. auto.
  - set (z1 := store k x _ _) in E.
    assert (C : z_cache z' = z_cache z1).
    { destruct (waiting _ _); [|injection E as <- <-; reflexivity]. unfold connect in E. destruct (find_rem _ _) as [r|]; [destruct (rm_up r)|destruct (dw_ok _ _)];
        try (injection E as <- _; reflexivity); apply cb_wait in E; destruct E as [-> _]; reflexivity. }
    exists (mk_psub (ps_imsi p) (ps_msisdn p) a (ps_cs p) (ps_ps p)). split; [|auto].
    assert (V : cache_by_imsi (z_cache z1) i = Some (mk_psub (ps_imsi p) (ps_msisdn p) a (ps_cs p) (ps_ps p))).
    { unfold z1, store. cbn [z_cache z_with_cache z_with_look]. rewrite update_view. cbn. rewrite Ei, String.eqb_refl. reflexivity. }
    destruct (by_imsi_in _ _ _ V) as (t' & I' & E'). exists t'. rewrite C. auto.
Qed.

Theorem c39_awaited k y : calmly k y -> dreached k y /\ let '(s, z, d, l) := y in forall q, In q (z_wait z) -> awaited z q.
Proof.
  intros H. assert (G : dreached k y /\ let '(s, z, d, l) := y in served z).
  { induction H as [d|s z d l x e c y H [IH S] K E].
    - split; [exists d, []; reflexivity|intros q []].
    - split; [eapply step_reached; eauto|]. destruct (step_shape _ _ _ _ _ _ _ _ _ IH E) as [(s1 & z1 & d1 & o & -> & SH)|(d1 & -> & _)].
      + destruct (shape_zinv _ _ _ _ _ _ _ _ SH (proj2 (reach_zinv _ _ _ _ _ IH))) as [_ X]. auto.
      + intros q []. }
  destruct G as [R S]. split; auto. destruct y as [[[s z] d] l]. destruct (reach_zinv _ _ _ _ _ R) as [_ [B Id Lk]].
  intros q Iq. destruct (S q Iq) as ([p t] & Ie & Ei & X). unfold eimsi in Ei. cbn in Ei. exists p. split; [exists t; auto|].
  unfold eaddr in X. cbn in X. destruct (sa_nonzero (ps_addr p)) eqn:N.
  - right. split; [apply sa_usable_iff; auto|]. destruct X as [X|([a up n] & Ir & Ea)]; [discriminate|]. cbn in Ea.
    pose proof (Id (mk_pent p t) _ Ie Ir) as J. unfold eaddr, eimsi in J. cbn in J. specialize (J N (fun f => f) Ea).
    assert (Wq : waiting z (ps_imsi p) = true) by (apply waiting_iff; exists q; auto).
    destruct up; [rewrite J in Wq; auto; discriminate|]. destruct n as [|n]; [rewrite J in Wq; auto; discriminate|]. exists n. rewrite <- Ea. exact Ir.
  - left. split; [intros U; apply sa_usable_iff in U; congruence|]. rewrite <- Ei. destruct (Lk (mk_pent p t) Ie N) as [[]|J]. exact J.
Qed.

(** a request that nothing will ever happen to *)
Definition dead (z : dgst) : Prop := z_look z = [] /\ (z_rems z = [] \/ z_cache z = []).
Lemma edit_nil a f : edit_rem [] a f = []. Proof. reflexivity. Qed.
Lemma dead_step k x s z e s' z' o q : shape k x s z e s' z' o -> no_rx e -> dead z -> In q (z_wait z) -> dead z' /\ In q (z_wait z').
Proof.
  intros H N [L D] Q. destruct H; unfold dead; cbn [z_look z_rems z_cache z_wait].
  - auto.
  - destruct N.
  - auto.
  - unfold lookup_result in H. rewrite L in H. cbn in H. injection H as <- <-. auto.
  - unfold rem_up in H. destruct (find_rem z a) as [r|] eqn:F; [|injection H as <- <-; auto].
    assert (D2 : z_cache z = []). { destruct D as [D|D]; auto. unfold find_rem in F. rewrite D in F. discriminate. }
    destruct (call_cbs _ _ _ _ _ _) as [z1 o1] eqn:C. injection H as <- <-.
    assert (G : forall n zz zz' oo r0, z_cache zz = [] -> call_cbs k s n zz a r0 = (zz', oo) -> zz' = zz).
    { induction n as [|n IH]; intros zz zz' oo r0 Z; cbn [call_cbs]; [intros [= <- <-]; auto|]. rewrite Z. cbn [connect_cb].
      destruct (call_cbs k s n zz a r0) as [z2 o2] eqn:E. intros [= <- <-]. eapply IH; eauto. }
    apply G in C; [|exact D2]. subst z1. cbn. auto.
  - unfold rem_down. cbn. split; auto. split; auto. destruct D as [->| ->]; auto.
  - unfold rem_lost. cbn. split; auto. split; auto. destruct D as [->| ->]; auto.
  - unfold remote_rx in H. destruct (find_rem z a) as [r|] eqn:F; [|injection H as <- <-; auto].
    assert (D2 : z_cache z = []). { destruct D as [D|D]; auto. unfold find_rem in F. rewrite D in F. discriminate. }
    destruct (negb _); [injection H as <- <-; auto|]. rewrite D2 in H. cbn in H. injection H as <- <-. auto.
  - split; auto. split; auto. destruct D as [D|D]; auto. right. rewrite D in H. cbn in H. injection H as <-. reflexivity.
Qed.
Lemma dead_hist k q es : forall s z d l s' z' d' l', dreached k (s, z, d, l) -> dead z -> In q (z_wait z) ->
  Forall (fun e => no_rx (snd (fst e)) /\ no_crash (snd e)) es -> dhist k (s, z, d, l) es = Some (s', z', d', l') -> In q (z_wait z').
Proof.
  induction es as [|[[x e] c] es IH]; intros s z d l s' z' d' l' R D Q F; cbn [dhist]; [intros [= <- <- <- <-]; auto|].
  destruct (dstep k _ _) as [[[[s1 z1] d1] l1]|] eqn:E; [|discriminate]. inversion F as [|? ? [N C] F']; subst. cbn in N, C. intros HH.
  assert (G : dead z1 /\ In q (z_wait z1)).
  { destruct (step_shape _ _ _ _ _ _ _ _ _ R E) as [(s2 & z2 & d2 & o & Y & SH)|(d2 & Y & dd & cc & RC)].
    - injection Y as -> -> -> ->. eapply dead_step; eauto.
    - destruct (C (run_crash _ _ _ _ _ RC)). }
  eapply (IH s1 z1 d1 l1); eauto; [eapply step_reached; eauto|apply G|apply G].
Qed.

(** * C38: messages for subscribers of other HLRs *)
Lemma exists_foreign i d c rc d' c' : existsb (by_imsi i) (d_sub d) = false -> run (db_subscr_exists_by_imsi i) c d = (Fin rc, d', c') -> d' = d /\ (rc =? 0) = false.
Proof.
  intros N. unfold db_subscr_exists_by_imsi. cbn [run]. destruct c as [|[] c]; cbn; rewrite ?N; intros [= <- <- <-]; auto.
Qed.
Theorem c38_foreign k x s z d0 l c g sch d s' z' o d' sch' : dreached k (s, z, d0, l) -> (z_active z = true \/ sa_usable (z_gw z)) ->
  ~ (exists r, In r (d_sub d) /\ s_imsi r = g_imsi g) -> g_dst g = [] ->
  run (dhandle k x s z (DHlr (ERx c g))) sch d = (Fin (s', z', o), d', sch') ->
  d' = d /\ t_lus s' = t_lus s /\ t_ss s' = t_ss s /\
  ((exists q, In (DTake q) o /\ q_gsup q = g /\ q_nr q = t_nr s) \/
   (run (dhandle k x s z (DHlr (ERx c g))) sch d = alone z (run (handle k (dw_w x) s (ERx c g)) sch d))).
Proof.
  intros H A N Dst. destruct (reach_zinv _ _ _ _ _ H) as [S Z].
  assert (A' : z_active z = true \/ sa_nonzero (z_gw z) = true) by (destruct A as [A|A]; auto; right; apply sa_usable_iff; auto).
  assert (Ex : existsb (by_imsi (g_imsi g)) (d_sub d) = false).
  { destruct (existsb _ _) eqn:E; auto. destruct N. apply existsb_exists in E. destruct E as (r & I & E). exists r. split; auto. apply String.eqb_eq. exact E. }
  cbn [dhandle handle]. destruct (find_conn (t_srv s) c) as [cn|]; [|intros [= <- <- <- <- <-]; repeat split; auto; right; reflexivity].
  unfold dread, read_cb, read_msg. pose proof (fun v q => conn_rx_fresh k s c g v q S) as FR.
  destruct (conn_rx _ _ _ _ _) as [v r]. cbv zeta beta. set (s1 := mk_hst v (t_lus s) (t_ss s) (Datatypes.S (t_nr s))).
  destruct r as [q|oo]; [|intros [= <- <- <- <- <-]; repeat split; auto; right; reflexivity].
  specialize (FR _ _ eq_refl). rewrite Dst. rewrite (proj2 (Bool.orb_true_iff _ _) A'). intros R. rewrite run_bind in R.
  destruct (run (check_forward k x s1 z q) sch d) as [[r1 d1] c1] eqn:R1.
  assert (D1 : forall y, r1 = Fin y -> d1 = d /\ y = (cf k x s1 z q, true)).
  { intros y ->. pose proof (all_rets_run _ _ (cf_check k x s1 z q ltac:(rewrite (fr_gsup _ _ _ _ FR); apply FR) (fr_ipa _ _ _ _ FR) A') sch d y) as CF.
    unfold run_out in CF. rewrite R1 in CF. specialize (CF eq_refl).
    unfold check_forward in R1. rewrite run_bind, (fr_gsup _ _ _ _ FR) in R1.
    destruct (run (db_subscr_exists_by_imsi (g_imsi g)) sch d) as [[r2 d2] c2] eqn:R2. destruct r2 as [rc| |]; try discriminate.
    destruct (exists_foreign _ _ _ _ _ _ Ex R2) as [-> Er]. rewrite Er in R1.
    assert (Z0 : d1 = d).
    { revert R1. destruct (cache_by_imsi _ _) as [p|].
      - destruct (forward_to_remote _ _ _ _ _ _) as [[? ?] ?]. cbn. intros [= _ <- _]; auto.
      - destruct (sa_nonzero _).
        + destruct (resolved _ _ _ _ _ _) as [? ?]. destruct (cache_by_imsi _ _) as [p|]; [destruct (forward_to_remote _ _ _ _ _ _) as [[? ?] ?]|]; cbn; intros [= _ <- _]; auto.
        + destruct (negb _); [cbn; intros [= _ <- _]; auto|]. destruct (forward_to_remote _ _ _ _ _ _) as [[? ?] []]; [destruct (imsi_valid _)|]; cbn; try discriminate; intros [= _ <- _]; auto. }
    split; auto. destruct CF as [-> | ->]; auto. exfalso. revert R1. destruct (cache_by_imsi _ _) as [p|].
    - destruct (forward_to_remote _ _ _ _ _ _) as [[? ?] ?]. cbn. discriminate.
    - change (z_gw (store k x z _)) with (z_gw z). change (z_active (store k x z _)) with (z_active z). destruct (sa_nonzero _) eqn:G.
      + destruct (resolved _ _ _ _ _ _) as [? ?]. destruct (cache_by_imsi _ _) as [p|]; [destruct (forward_to_remote _ _ _ _ _ _) as [[? ?] ?]|]; cbn; discriminate.
      + destruct A' as [A'|A']; [|congruence]. rewrite A'. cbn [negb]. destruct (forward_to_remote _ _ _ _ _ _) as [[? ?] []]; [destruct (imsi_valid _)|]; cbn; discriminate. }
  destruct r1 as [y| |]; try discriminate. destruct (D1 y eq_refl) as [-> ->]. destruct (cf k x s1 z q) as [z1 o1] eqn:C. cbn in R. injection R as <- <- <- <- <-.
  repeat split; auto. left. exists q. destruct (cf_out k x s1 z q z1 o1 (fr_ipa _ _ _ _ FR) Z C) as (_ & _ & T). split; [right; exact T|]. split; apply FR.
Qed.
