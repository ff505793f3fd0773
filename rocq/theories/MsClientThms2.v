(** Proofs about the lookup client, continued: reachable states (C35, C36). *)
From Verif Require Import Base PeerId DbProofs MsLookup Mdns MsClient MsClientSpec MsClientThms.
Local Open Scope N_scope.

Lemma init_inv : cinv c_init.
Proof. constructor; cbn; try tauto; try constructor; auto. Qed.
Lemma step_inv s e s' : cinv s -> (forall q mn tm, e = CRequest q mn tm -> handle_free s) -> cstep s e = Val s' -> cinv s'.
Proof.
  intros I F E. destruct e as [q mn tm|h| |h rc x|q x|u|ms]; cbn [cstep] in E.
  - injection E as <-. apply request_inv; eauto.
  - injection E as <-. destruct (get_request s h) as [r|] eqn:G; auto. apply get_request_in in G as [Ir _]. apply cancel_inv; auto.
  - destruct (c_stack s) as [|f st] eqn:St; [injection E as <-; auto|]. eapply return_inv; eauto.
  - destruct (c_stack s) eqn:St; injection E as <-; auto. apply rx_inv; auto.
  - destruct (c_stack s) eqn:St; injection E as <-; auto. apply answer_inv; auto.
  - destruct (c_stack s) eqn:St; [|injection E as <-; auto]. destruct (find _ _) as [r|] eqn:Fd; [|injection E as <-; auto]. apply find_uid in Fd as [Ir _].
    destruct (q_timer r) as [t|] eqn:T; [|injection E as <-; auto]. destruct (N.leb_spec t (c_now s)); injection E as <-; auto. eapply timeout_inv; eauto.
  - destruct (c_stack s) eqn:St; injection E as <-; auto. apply tick_inv; auto.
Qed.
Lemma creach_inv s : creach s -> cinv s.
Proof. induction 1; [apply init_inv|eapply step_inv; eauto]. Qed.

(** ** What the notes say *)
Lemma tr_ok_app a b : tr_ok (a ++ b) -> tr_ok b.
Proof. induction a as [|n a IH]; cbn; auto. intros [_ H]. auto. Qed.
Lemma tr_ok_in a n b m : tr_ok (a ++ n :: b) -> In m a -> exists a1 a2, a = a1 ++ m :: a2 /\ legal m (a2 ++ n :: b).
Proof.
  intros O I. apply in_split in I as (a1 & a2 & ->). exists a1, a2. split; auto. rewrite <- app_assoc in O. apply tr_ok_app in O. destruct O as [L _]. exact L.
Qed.
Lemma legal_started n b : legal n b -> (exists u q mn tm t, n = TStart u q mn tm t) \/ exists q mn tm t0, In (TStart (note_uid n) q mn tm t0) b.
Proof.
  intros [_ L]. destruct n as [u q mn tm t|u q rc x t|u rc x l t|u t]; cbn.
  - left. eauto 6.
  - right. destruct L as (_ & _ & mn & tm & t0 & L). eauto.
  - right. destruct L as (_ & _ & q & mn & tm & t0 & L & _). eauto.
  - right. destruct L as (_ & L). auto.
Qed.
(** a request starts once *)
Lemma started_before a u q mn tm t0 b : tr_ok (a ++ TStart u q mn tm t0 :: b) -> (forall m, In m a -> forall q' mn' tm' t', m <> TStart u q' mn' tm' t') /\ forall m, In m b -> note_uid m <> u.
Proof.
  intros O. split.
  - intros m I q' mn' tm' t' ->. destruct (tr_ok_in _ _ _ _ O I) as (a1 & a2 & _ & [_ L]). destruct L as [L _]. apply (L (TStart u q mn tm t0)); [apply in_app_iff; right; left; auto|reflexivity].
  - apply tr_ok_app in O. destruct O as [[_ [L _]] _]. auto.
Qed.
Lemma start_once tr u q mn tm t0 q' mn' tm' t0' : tr_ok tr -> In (TStart u q mn tm t0) tr -> In (TStart u q' mn' tm' t0') tr -> q' = q /\ mn' = mn /\ tm' = tm /\ t0' = t0.
Proof.
  intros O A B. apply in_split in A as (a & b & ->). destruct (started_before _ _ _ _ _ _ _ O) as [X Y]. apply in_app_iff in B as [B|[B|B]].
  - exfalso. exact (X _ B _ _ _ _ eq_refl).
  - assert (q' = q /\ mn' = mn /\ tm' = tm /\ t0' = t0) by (repeat split; congruence). auto.
  - exfalso. exact (Y _ B eq_refl).
Qed.

Lemma c35_started s a n b : creach s -> c_trace s = a ++ n :: b ->
  match n with TStart u _ _ _ _ => forall m, In m b -> note_uid m <> u | _ => exists q mn tm t0, In (TStart (note_uid n) q mn tm t0) b end.
Proof.
  intros R E. pose proof (i_ok _ (creach_inv _ R)) as O. rewrite E in O. apply tr_ok_app in O. destruct O as [L _].
  pose proof (legal_started _ _ L) as [(u & q & mn & tm & t & ->)|X]; [destruct L as [_ [L _]]; exact L|]. destruct n; auto. destruct L as [_ [L _]]. exact L.
Qed.
Lemma c35_one_end s a u rc x t b : creach s -> c_trace s = a ++ TCall u rc x true t :: b ->
  ~ final_call u b /\ ~ cancelled u b /\ forall n, In n a -> note_uid n = u -> exists t', n = TCancel u t'.
Proof.
  intros R E. pose proof (i_ok _ (creach_inv _ R)) as O. rewrite E in O. split; [|split].
  - apply tr_ok_app in O. destruct O as [[_ (L & _)] _]. auto.
  - apply tr_ok_app in O. destruct O as [[_ (_ & L & _)] _]. auto.
  - intros n I U. destruct (tr_ok_in _ _ _ _ O I) as (a1 & a2 & _ & L).
    assert (Fc : final_call u (a2 ++ TCall u rc x true t :: b)) by (exists rc, x, t; apply in_app_iff; right; left; auto).
    destruct L as [_ L]. destruct n as [v q mn tm t'|v q rc' y t'|v rc' y l t'|v t']; cbn in U; subst v.
    + exfalso. destruct L as [L _]. apply (L (TCall u rc x true t)); [apply in_app_iff; right; left; auto|reflexivity].
    + exfalso. destruct L as [L _]. contradiction.
    + exfalso. destruct L as [L _]. contradiction.
    + eauto.
Qed.
Lemma c35_cancel s a u t b : creach s -> c_trace s = a ++ TCancel u t :: b -> forall n, In n a -> note_uid n <> u.
Proof.
  intros R E n I U. pose proof (i_ok _ (creach_inv _ R)) as O. rewrite E in O. destruct (tr_ok_in _ _ _ _ O I) as (a1 & a2 & _ & L).
  assert (Fc : cancelled u (a2 ++ TCancel u t :: b)) by (exists t; apply in_app_iff; right; left; auto).
  destruct L as [_ L]. destruct n as [v q mn tm t'|v q rc' y t'|v rc' y l t'|v t']; cbn in U; subst v.
  - destruct L as [L _]. apply (L (TCancel u t)); [apply in_app_iff; right; left; auto|reflexivity].
  - destruct L as (_ & L & _). contradiction.
  - destruct L as (_ & L & _). contradiction.
  - destruct L as (L & _). contradiction.
Qed.
Lemma c35_ages s a u rc x l t b y l' t' : creach s -> c_trace s = a ++ TCall u rc x l t :: b -> In (TCall u RcResult y l' t') a -> rc = RcResult /\ lr_age y < lr_age x.
Proof.
  intros R E I. pose proof (i_ok _ (creach_inv _ R)) as O. rewrite E in O. destruct (tr_ok_in _ _ _ _ O I) as (a1 & a2 & _ & [_ L]).
  destruct L as (_ & _ & q & mn & tm & t0 & _ & (_ & L & _) & _). apply (L rc x l t). apply in_app_iff. right. left. auto.
Qed.
Lemma c35_age0 s a u q x t b : creach s -> c_trace s = a ++ TRes u q RcResult x t :: b -> lr_age x = 0 -> exists a', a = a' ++ [TCall u RcResult x true t].
Proof.
  intros R E Z. pose proof (creach_inv _ R) as I. pose proof (i_ok _ I) as O. pose proof (i_set _ I) as Se. rewrite E in O, Se. destruct a as [|n a] using rev_ind.
  - cbn in Se. contradiction.
  - clear IHa. rewrite <- app_assoc in O. apply tr_ok_app in O. cbn in O. destruct O as [[L _] _]. exists a. rewrite (L Z). auto.
Qed.
Lemma c35_min s u rc x l t q mn tm t0 : creach s -> In (TCall u rc x l t) (c_trace s) -> In (TStart u q mn tm t0) (c_trace s) -> (rc = RcResult /\ lr_age x = 0) \/ t0 + mn <= t.
Proof.
  intros R I J. pose proof (i_ok _ (creach_inv _ R)) as O. destruct (in_split _ _ I) as (a & b & E). pose proof O as O'. rewrite E in O'. apply tr_ok_app in O'. destruct O' as [[_ L] _].
  destruct L as (_ & _ & q' & mn' & tm' & t0' & L1 & L2 & _).
  assert (S1 : In (TStart u q' mn' tm' t0') (c_trace s)) by (rewrite E; apply in_app_iff; right; right; auto).
  destruct (start_once _ _ _ _ _ _ _ _ _ _ O J S1) as (_ & -> & -> & ->).
  destruct rc; [destruct L2 as (_ & _ & L2 & _); auto|destruct L2 as (_ & _ & [L2|L2] & _); auto|destruct L2 as (_ & _ & L2 & _); auto].
Qed.
(** what the final call says *)
Lemma c35_final s a u rc x t b q mn tm t0 : creach s -> c_trace s = a ++ TCall u rc x true t :: b -> In (TStart u q mn tm t0) (c_trace s) ->
  match rc with
  | RcNotFound => (forall q' y t', ~ In (TRes u q' RcResult y t') b) /\ t0 + tm <= t
  | RcNone => (exists y t', In (TCall u RcResult y false t') b) /\ t0 + tm <= t
  | RcResult => (exists q' t', In (TRes u q' RcResult x t') b) /\ (lr_age x = 0 \/ (tm <= mn /\ t0 + mn <= t))
  end.
Proof.
  intros R E J. pose proof (i_ok _ (creach_inv _ R)) as O. pose proof O as O'. rewrite E in O'. apply tr_ok_app in O'. destruct O' as [[_ L] _].
  destruct L as (_ & _ & q' & mn' & tm' & t0' & L1 & L2 & _).
  assert (S1 : In (TStart u q' mn' tm' t0') (c_trace s)) by (rewrite E; apply in_app_iff; right; right; auto).
  destruct (start_once _ _ _ _ _ _ _ _ _ _ O J S1) as (_ & -> & -> & ->).
  destruct rc.
  - destruct L2 as (_ & L2 & _ & L3). auto.
  - destruct L2 as (L2 & _ & L3 & L4). split; [exact L2|]. destruct (proj1 L4 eq_refl) as [H|H]; [auto|]. destruct L3 as [H'|H']; auto.
  - destruct L2 as (_ & L2 & _ & L3). split; auto. intros q1 y t' H. apply (L2 y). exists q1, t'. auto.
Qed.
(** a call that is not final tells a result, and only when the request is to go on *)
Lemma c35_partial_result s a u rc x t b q mn tm t0 : creach s -> c_trace s = a ++ TCall u rc x false t :: b -> In (TStart u q mn tm t0) (c_trace s) ->
  rc = RcResult /\ lr_age x <> 0 /\ mn < tm /\ exists q' t', In (TRes u q' RcResult x t') b.
Proof.
  intros R E J. pose proof (i_ok _ (creach_inv _ R)) as O. pose proof O as O'. rewrite E in O'. apply tr_ok_app in O'. destruct O' as [[_ L] _].
  destruct L as (_ & _ & q' & mn' & tm' & t0' & L1 & L2 & _).
  assert (S1 : In (TStart u q' mn' tm' t0') (c_trace s)) by (rewrite E; apply in_app_iff; right; right; auto).
  destruct (start_once _ _ _ _ _ _ _ _ _ _ O J S1) as (_ & -> & -> & ->).
  destruct rc; [destruct L2 as (L2 & _); discriminate| |destruct L2 as (L2 & _); discriminate].
  destruct L2 as (L2 & _ & _ & L3). split; auto. split; [intros Z; assert (false = true) by (apply L3; auto); discriminate|]. split; [|exact L2].
  destruct (N.lt_ge_cases mn tm) as [|G]; auto. assert (false = true) by (apply L3; auto). discriminate.
Qed.
(** the best result is not withheld *)
Lemma c35_best s a u rc x t b q' y t' : creach s -> c_trace s = a ++ TCall u rc x true t :: b -> In (TRes u q' RcResult y t') b ->
  exists z l t1, In (TCall u RcResult z l t1) (c_trace s) /\ lr_age z <= lr_age y.
Proof.
  intros R E I. pose proof (i_ok _ (creach_inv _ R)) as O. rewrite E in O. apply tr_ok_app in O. destruct O as [[_ L] _].
  destruct L as (_ & _ & q0 & mn0 & tm0 & t0 & _ & _ & L). destruct (L eq_refl y) as (z & l & t1 & H & Le); [exists q', t'; auto|]. exists z, l, t1. split; auto. rewrite E. apply in_app_iff. right. auto.
Qed.
Lemma c35_ended s u q mn tm t0 : creach s -> In (TStart u q mn tm t0) (c_trace s) -> open u s \/ final_call u (c_trace s) \/ cancelled u (c_trace s).
Proof. intros R. apply (i_dead _ (creach_inv _ R)). Qed.

(** ** Answers go to a request with the same query *)
Lemma query_eqb_eq a b : lq_type a <> IdNone -> query_eqb a b = true -> a = b.
Proof.
  unfold query_eqb. destruct a as [sa ta ia], b as [sb tb ib]. cbn. intros T E. apply andb_true_iff in E as [E E3]. apply andb_true_iff in E as [E1 E2].
  apply String.eqb_eq in E1. subst. destruct ta, tb; try discriminate; try contradiction; apply String.eqb_eq in E3; subst; auto.
Qed.
Lemma rx_notes s h rc x n : In n (c_trace (rx_result s h rc x)) -> In n (c_trace s) \/ exists r, In r (c_reqs s) /\ q_handle r = h /\ q_uid r = note_uid n.
Proof.
  unfold rx_result. destruct (get_request s h) as [r|] eqn:G; [|auto]. apply get_request_in in G as [Ir Eh].
  assert (X : forall m l, note_uid m = q_uid r -> In n (m :: l) -> In n l \/ exists r, In r (c_reqs s) /\ q_handle r = h /\ q_uid r = note_uid n).
  { intros m l Em [<-|H]; auto. right. exists r. auto. }
  destruct rc; cbn; try (apply X; reflexivity). destruct (match q_rc r with RcResult => _ | _ => false end); [cbn; apply X; reflexivity|].
  destruct (lr_age x =? 0); [|destruct (q_waiting r)]; cbn -[In]; try (apply X; reflexivity).
  - intros H. apply X in H as [H|H]; [|auto|reflexivity]. apply X in H as [H|H]; auto.
  - intros H. apply X in H as [H|H]; [|auto|reflexivity]. apply X in H as [H|H]; auto.
Qed.
Lemma c35_own s q x s' n : creach s -> lq_type q <> IdNone -> cstep s (CAnswer q x) = Val s' -> In n (c_trace s') -> In n (c_trace s) \/ exists mn tm t0, In (TStart (note_uid n) q mn tm t0) (c_trace s).
Proof.
  intros R Tq E I. cbn [cstep] in E. destruct (c_stack s) eqn:St; injection E as <-; [|auto]. unfold rx_answer in I. destruct (find _ (c_mdns s)) as [[h q']|] eqn:Fd; [|auto].
  apply find_some in Fd as [Im Eq]. cbn in Eq. apply rx_notes in I as [I|(r & Ir & Eh & Eu)]; [auto|right].
  pose proof (creach_inv _ R) as Iv. rewrite (i_mdns _ Iv), <- in_rev in Im. apply in_map_iff in Im as (r' & Em & Ir'). injection Em as Eh' Eq'.
  assert (r' = r) by (apply (nodup_inj q_handle (c_reqs s)); auto; [exact (i_hnd _ Iv)|congruence]). subst r'.
  pose proof (i_req _ Iv _ Ir) as (t0 & A & _). apply in_of in A as [A _]. rewrite Eu, Eq' in A.
  assert (q' = q). { apply query_eqb_eq; auto. intros T. unfold query_eqb in Eq. rewrite T in Eq. destruct (lq_type q); try contradiction; cbn in Eq; rewrite andb_false_r in Eq; discriminate. }
  rewrite H in A. eauto.
Qed.
(** an answer to an open query is taken by one *)
Lemma c35_taken s q x u mn tm t0 : creach s -> c_stack s = [] -> lq_type q <> IdNone -> open u s -> In (TStart u q mn tm t0) (c_trace s) ->
  exists s' v, cstep s (CAnswer q x) = Val s' /\ open v s /\ In (TRes v q RcResult x (c_now s)) (c_trace s').
Proof.
  intros R St Tq (r & Ir & Eu) Sr. pose proof (creach_inv _ R) as Iv. cbn [cstep]. rewrite St. exists (rx_answer s q x).
  pose proof (i_req _ Iv _ Ir) as (t1 & A & _). apply in_of in A as [A _]. rewrite Eu in A. destruct (start_once _ _ _ _ _ _ _ _ _ _ (i_ok _ Iv) Sr A) as (Q & _).
  unfold rx_answer. destruct (find _ (c_mdns s)) as [[h q']|] eqn:Fd.
  - apply find_some in Fd as [Im Eq]. cbn in Eq. rewrite (i_mdns _ Iv), <- in_rev in Im. apply in_map_iff in Im as (r' & Em & Ir'). injection Em as Eh' Eq'.
    assert (q' = q). { apply query_eqb_eq; auto. intros T. unfold query_eqb in Eq. rewrite T in Eq. destruct (lq_type q); try contradiction; cbn in Eq; rewrite andb_false_r in Eq; discriminate. }
    rewrite H in Eq'. exists (q_uid r'). split; [reflexivity|]. split; [exists r'; auto|]. unfold rx_result.
    rewrite (get_request_spec s h r'); auto; [|exact (i_hnd _ Iv)|rewrite <- Eh'; exact (i_hnd0 _ Iv _ Ir')]. rewrite Eq'.
    destruct (match q_rc r' with RcResult => _ | _ => false end); [left; auto|]. destruct (lr_age x =? 0); [right; left; auto|]. cbn [q_waiting q_with_result]. destruct (q_waiting r'); [left; auto|right; left; auto].
  - exfalso. pose proof (find_none _ _ Fd (q_handle r, q_query r)) as X. cbn in X. rewrite Q in X.
    assert (query_eqb q q = true) by (unfold query_eqb; rewrite String.eqb_refl; destruct q as [qs [] qi]; cbn; auto; apply String.eqb_refl).
    rewrite X in H; [discriminate|]. rewrite (i_mdns _ Iv), <- in_rev. apply in_map_iff. exists r. rewrite Q. auto.
Qed.

(** ** Timers come up in time *)
Definition timer_le (s : cst) : Prop := forall r d, In r (c_reqs s) -> q_timer r = Some d -> d <= c_now s + q_min r + q_tmo r.
Lemma rx_timers s h rc x : timer_le s -> timer_le (rx_result s h rc x).
Proof.
  intros T. unfold rx_result. destruct (get_request s h) as [r|] eqn:G; [|auto]. apply get_request_in in G as [Ir _].
  set (r1 := q_with_result r RcResult x).
  assert (X : forall s', c_reqs s' = swap r1 (c_reqs s) -> c_now s' = c_now s -> timer_le s').
  { intros s' E1 E2 r' d I D. rewrite E1 in I. rewrite E2. unfold swap in I. apply in_map_iff in I as (r0 & E & I0). destruct (q_uid r0 =? q_uid r1); subst r'; [apply (T r); auto|apply T; auto]. }
  destruct rc; auto. destruct (match q_rc r with RcResult => _ | _ => false end); auto. fold r1. destruct (lr_age x =? 0); [apply X; reflexivity|]. destruct (q_waiting r1); apply X; reflexivity.
Qed.
Lemma cleanup_timers s r : timer_le s -> timer_le (cleanup s r).
Proof. intros T r' d I D. cbn in I. apply filter_In in I as [I _]. apply T; auto. Qed.
Lemma step_timers s e s' : cinv s -> handle_free s \/ (forall q mn tm, e <> CRequest q mn tm) -> timer_le s -> cstep s e = Val s' -> timer_le s'.
Proof.
  intros I F T E. destruct e as [q mn tm|h| |h rc x|q x|u|ms]; cbn [cstep] in E.
  - injection E as <-. destruct F as [[F _]|F]; [|exfalso; eapply F; eauto]. unfold request. destruct (negb _ || negb _); auto. cbv zeta. cbn [c_reqs].
    destruct (find _ _) as [o|] eqn:Fd. { exfalso. apply find_some in Fd as [Io Eo]. apply N.eqb_eq in Eo. exact (F _ Io Eo). }
    intros r d Ir D. cbn in Ir. apply in_app_iff in Ir as [Ir|[<-|[]]]; [apply (T _ _ Ir D)|]. cbn in *. assert (Ed := f_equal (fun o => match o with Some d => d | None => 0 end) D). cbn in Ed. rewrite <- Ed. destruct (negb (mn =? 0)); lia.
  - injection E as <-. destruct (get_request s h) as [r|]; auto. apply (cleanup_timers s r T).
  - destruct (c_stack s) as [|f st] eqn:St; [injection E as <-; auto|]. unfold return_cb in E.
    assert (T1 : timer_le (if f_finish f then cancel (c_with_stack s st) (f_handle f) else c_with_stack s st)).
    { destruct (f_finish f); [|exact T]. unfold cancel. destruct (get_request _ _) as [r|]; [apply cleanup_timers|]; exact T. }
    pose proof (i_frame _ I) as Fi. unfold frame_inv in Fi. rewrite St in Fi. destruct st; [|contradiction]. destruct Fi as [_ Fi].
    destruct (f_after f) as [|u ms|r1]; [injection E as <-; auto| |contradiction]. destruct Fi as (Ff & _ & Fi). rewrite Ff in *. change (c_reqs (c_with_stack s [])) with (c_reqs s) in E. destruct (find _ (c_reqs s)) as [r|] eqn:Fd; [|discriminate].
    assert (Es : s' = put_req (c_with_stack s []) (q_with_timer r (Some (c_now s + ms)))) by (injection E as <-; reflexivity). subst s'. clear E.
    intros r' d I' D. cbn in I'. apply find_uid in Fd as [Ir Eu]. destruct (Fi _ Ir Eu) as [-> _]. apply in_map_iff in I' as (r0 & E & I0). destruct (q_uid r0 =? q_uid r); subst r'; [|apply (T r0); auto]. cbn in *. injection D as <-. lia.
  - destruct (c_stack s) eqn:St; injection E as <-; auto. apply rx_timers; auto.
  - destruct (c_stack s) eqn:St; injection E as <-; auto. unfold rx_answer. destruct (find _ _) as [[h q']|]; [apply rx_timers; auto|auto].
  - destruct (c_stack s) eqn:St; [|injection E as <-; auto]. destruct (find _ _) as [r|] eqn:Fd; [|injection E as <-; auto]. apply find_uid in Fd as [Ir _].
    destruct (q_timer r) as [t|] eqn:Td; [|injection E as <-; auto]. destruct (N.leb_spec t (c_now s)); injection E as <-; auto.
    assert (X : forall r1 s', (forall d, q_timer r1 = Some d -> d <= c_now s + q_min r1 + q_tmo r1) -> c_reqs s' = swap r1 (c_reqs s) -> c_now s' = c_now s -> timer_le s').
    { intros r1 s' H1 E1 E2 r' d I' D. rewrite E1 in I'. rewrite E2. unfold swap in I'. apply in_map_iff in I' as (r0 & E & I0). destruct (q_uid r0 =? q_uid r1); subst r'; [apply H1; auto|apply T; auto]. }
    unfold timeout. cbn [q_waiting q_with_timer]. destruct (q_waiting r).
    + cbn [q_tmo q_min q_with_waiting q_with_timer]. destruct (q_tmo r <=? q_min r); cbn [q_rc q_with_waiting q_with_timer].
      * destruct (q_rc r); (eapply X; [|reflexivity|reflexivity]); cbn; discriminate.
      * destruct (q_rc r); (eapply X; [|reflexivity|reflexivity]); cbn; try discriminate; intros d D; injection D as <-; lia.
    + eapply X; [|reflexivity|reflexivity]. cbn. discriminate.
  - destruct (c_stack s) eqn:St; injection E as <-; auto. intros r d Ir D. cbn in *. specialize (T _ _ Ir D). lia.
Qed.
Lemma creach_timers s : creach s -> timer_le s.
Proof.
  induction 1 as [|s e s' R IH F E]; [intros r d []|]. apply (step_timers s e); auto; [apply creach_inv; auto|]. destruct e; try (right; intros; discriminate). left. eapply F. eauto.
Qed.

Lemma find_uid_eq s r : cinv s -> In r (c_reqs s) -> find (fun r' => q_uid r' =? q_uid r) (c_reqs s) = Some r.
Proof.
  intros I Ir. destruct (find _ _) as [r'|] eqn:F.
  - apply find_uid in F as [I' E']. f_equal. apply (nodup_inj q_uid (c_reqs s)); auto. exact (i_uid _ I).
  - exfalso. apply (find_none _ _ F) in Ir. apply N.eqb_neq in Ir. contradiction.
Qed.
Definition no_req (e : cev) : Prop := forall q mn tm, e <> CRequest q mn tm.
Lemma creach_run s l s' : creach s -> Forall no_req l -> crun s l = Val s' -> creach s'.
Proof.
  revert s. induction l as [|e l IH]; intros s R F E; cbn in E; [injection E as <-; auto|]. inversion F as [|? ? F1 F2]; subst. destruct (cstep s e) as [s1|] eqn:E1; [|discriminate]. cbn in E.
  apply (IH s1); auto. eapply cr_step; eauto. intros q mn tm ->. exfalso. eapply F1. reflexivity.
Qed.
(** once the time has come, the timer of a request ends it, or ends its waiting time *)
Lemma fire s u q mn tm t0 ms : creach s -> c_stack s = [] -> open u s -> In (TStart u q mn tm t0) (c_trace s) -> mn + tm <= ms ->
  exists s', crun s [CTick ms; CTimer u; CReturn] = Val s' /\ c_stack s' = [] /\
   ((~ open u s' /\ final_call u (c_trace s')) \/ (open u s' /\ In (TStart u q mn tm t0) (c_trace s') /\ forall r, In r (c_reqs s') -> q_uid r = u -> q_waiting r = false)) /\
   ((forall r, In r (c_reqs s) -> q_uid r = u -> q_waiting r = false) -> ~ open u s' /\ final_call u (c_trace s')).
Proof.
  intros R St (r & Ir & Eu) Sr Le. pose proof (creach_inv _ R) as I. pose proof (creach_timers _ R) as Tl.
  pose proof (i_req _ I _ Ir) as (t1 & A & B & C & [(f & E & _)|(D & F & W)]); [rewrite St in E; discriminate|].
  apply in_of in A as [A _]. rewrite Eu in A. destruct (start_once _ _ _ _ _ _ _ _ _ _ (i_ok _ I) Sr A) as (_ & Emn & Etm & Et).
  assert (Td : exists d, q_timer r = Some d) by (destruct W as [(_ & _ & W & _)|(_ & _ & _ & _ & [(d & W & _)|W])]; [eauto|eauto|rewrite St in W; discriminate]). destruct Td as (d & Td).
  assert (Ld : d <= c_now s + ms) by (specialize (Tl _ _ Ir Td); lia).
  cbn [crun cstep]. rewrite St. cbn [mbind]. cbn [cstep c_stack c_reqs c_now]. set (s1 := mk_cst _ _ _ _ _ _ _).
  assert (I1 : cinv s1) by (apply tick_inv; auto). assert (Fd : find (fun r0 => q_uid r0 =? u) (c_reqs s1) = Some r) by (rewrite <- Eu; apply (find_uid_eq s1); auto).
  change (c_reqs s1) with (c_reqs s) in Fd. rewrite Fd, Td. destruct (N.leb_spec d (c_now s + ms)) as [_|X]; [|lia]. cbn [mbind].
  assert (I2 : cinv (timeout s1 r)) by (apply (timeout_inv s1 r d); auto).
  (* a final call *)
  assert (Fin : forall r1, q_uid r1 = u -> q_handle r1 = q_handle r -> timeout s1 r = send_result (put_req s1 r1) r1 true ADone ->
    exists s', (mdo s'0 <- cstep (timeout s1 r) CReturn;; Val s'0) = Val s' /\ c_stack s' = [] /\ ((~ open u s' /\ final_call u (c_trace s')) \/ (open u s' /\ In (TStart u q mn tm t0) (c_trace s') /\ forall r, In r (c_reqs s') -> q_uid r = u -> q_waiting r = false)) /\
   ((forall r, In r (c_reqs s) -> q_uid r = u -> q_waiting r = false) -> ~ open u s' /\ final_call u (c_trace s'))).
  { intros r1 E1 E2 E3. rewrite E3 in *. cbn [cstep send_result c_stack c_with_stack c_note]. change (c_stack (put_req s1 r1)) with (@nil frame). unfold return_cb. cbn [f_finish f_handle f_after mbind].
    set (s2 := c_with_stack _ []). change (c_reqs (send_result (put_req s1 r1) r1 true ADone)) with (c_reqs s2) in *.
    assert (Ir2 : In r1 (c_reqs s2)).
    { cbn. apply in_map_iff. exists r. rewrite Eu, E1, N.eqb_refl. auto. }
    assert (G : get_request s2 (q_handle r1) = Some r1). { apply get_request_spec; auto; [exact (i_hnd _ I2)|exact (i_hnd0 _ I2 _ Ir2)]. }
    exists (cleanup s2 r1). unfold cancel. rewrite G. split; auto. split; auto.
    assert (Z : ~ open u (cleanup s2 r1) /\ final_call u (c_trace (cleanup s2 r1))).
    { split; [|exists (q_rc r1), (q_res r1), (c_now s1); cbn; left; rewrite E1; auto]. intros (r' & H & E'). cbn in H. apply filter_In in H as [_ H]. rewrite E', E1, N.eqb_refl in H. discriminate. }
    auto. }
  unfold timeout in Fin |- *. cbn [q_waiting q_with_timer] in Fin |- *. destruct (q_waiting r) eqn:Wt.
  - cbn [q_tmo q_min q_with_waiting q_with_timer] in Fin |- *. destruct (N.leb_spec (q_tmo r) (q_min r)) as [Lt|Lt].
    + cbn [q_rc q_with_waiting q_with_timer] in Fin |- *. destruct (q_rc r); refine (Fin _ _ _ eq_refl); auto.
    + cbn [q_rc q_with_waiting q_with_timer q_uid q_handle] in Fin |- *. destruct (q_rc r) eqn:Rc.
      * clear Fin. set (r1 := q_with_timer _ _). exists (put_req s1 r1). split; [reflexivity|]. split; [reflexivity|]. assert (Ir2 : In r1 (c_reqs (put_req s1 r1))) by (cbn; apply in_map_iff; exists r; rewrite N.eqb_refl; auto). split.
        { right. split; [exists r1; auto|]. split; [exact Sr|]. intros r' H E'. cbn in H. apply in_map_iff in H as (r0 & H & I0). destruct (N.eqb_spec (q_uid r0) (q_uid r)) as [Q|Q]; [subst r'; reflexivity|]. exfalso. apply Q. congruence. }
        intros H. specialize (H _ Ir Eu). congruence.
      * clear Fin. set (r1 := q_with_waiting (q_with_timer r None) false). cbn [cstep send_result c_stack c_with_stack c_note]. change (c_stack (put_req s1 r1)) with (@nil frame). unfold return_cb. cbn [f_finish f_handle f_after].
        assert (Ir2 : In r1 (c_reqs (put_req s1 r1))) by (cbn; apply in_map_iff; exists r; rewrite N.eqb_refl; auto).
        assert (Fd2 : find (fun r0 => q_uid r0 =? q_uid r) (c_reqs (put_req s1 r1)) = Some r1).
        { assert (E2 : timeout s1 r = send_result (put_req s1 r1) r1 false (ATimer (q_uid r) (q_tmo r - q_min r))).
          { unfold timeout. cbn [q_waiting q_with_timer]. rewrite Wt. cbn [q_tmo q_min q_with_waiting q_with_timer]. destruct (N.leb_spec (q_tmo r) (q_min r)); [lia|]. cbn [q_rc q_with_waiting q_with_timer]. rewrite Rc. reflexivity. }
          rewrite E2 in I2. apply (find_uid_eq _ r1 I2). exact Ir2. }
        change (c_reqs (c_with_stack (send_result (put_req s1 r1) r1 false (ATimer (q_uid r) (q_tmo r - q_min r))) [])) with (c_reqs (put_req s1 r1)).
        rewrite Fd2. cbn [mbind]. eexists. split; [reflexivity|]. split; [reflexivity|]. split.
        { right. split; [|split].
          - exists (q_with_timer r1 (Some (c_now s1 + (q_tmo r - q_min r)))). split; [|exact Eu]. cbn [c_reqs put_req c_with_reqs]. apply in_map_iff. exists r1. split; [|exact Ir2]. match goal with |- (if ?a =? ?b then _ else _) = _ => change b with a end. rewrite N.eqb_refl. reflexivity.
          - cbn. right. exact Sr.
          - intros r' H E'. cbn [c_reqs put_req c_with_reqs] in H. apply in_map_iff in H as (r0 & H & I0). match type of H with (if ?a =? ?b then _ else _) = _ => change b with (q_uid r) in H end. destruct (N.eqb_spec (q_uid r0) (q_uid r)) as [Q|Q]; [subst r'; reflexivity|]. exfalso. apply Q. congruence. }
        intros H. specialize (H _ Ir Eu). congruence.
      * clear Fin. set (r1 := q_with_timer _ _). exists (put_req s1 r1). split; [reflexivity|]. split; [reflexivity|]. assert (Ir2 : In r1 (c_reqs (put_req s1 r1))) by (cbn; apply in_map_iff; exists r; rewrite N.eqb_refl; auto). split.
        { right. split; [exists r1; auto|]. split; [exact Sr|]. intros r' H E'. cbn in H. apply in_map_iff in H as (r0 & H & I0). destruct (N.eqb_spec (q_uid r0) (q_uid r)) as [Q|Q]; [subst r'; reflexivity|]. exfalso. apply Q. congruence. }
        intros H. specialize (H _ Ir Eu). congruence.
  - refine (Fin _ _ _ eq_refl); auto.
Qed.
Lemma crun_app s l l' : crun s (l ++ l') = mdo s' <- crun s l;; crun s' l'.
Proof. revert s. induction l as [|e l IH]; intros s; cbn; auto. destruct (cstep s e); cbn; auto. Qed.
Lemma run_done s u ms : c_stack s = [] -> ~ open u s -> exists s', crun s [CTick ms; CTimer u; CReturn] = Val s' /\ c_stack s' = [] /\ c_trace s' = c_trace s /\ ~ open u s'.
Proof.
  intros St No. cbn [crun cstep]. rewrite St. cbn [mbind]. cbn [cstep c_stack c_reqs c_now]. destruct (find _ _) as [r|] eqn:Fd.
  { exfalso. apply find_uid in Fd as [Ir Eu]. apply No. exists r. auto. }
  cbn [mbind cstep c_stack]. eexists. split; [reflexivity|]. repeat split. intros (r & Ir & Eu). apply No. exists r. auto.
Qed.
Lemma c35_ends s u q mn tm t0 ms ms' : creach s -> c_stack s = [] -> open u s -> In (TStart u q mn tm t0) (c_trace s) -> mn + tm <= ms -> mn + tm <= ms' ->
  exists s', crun s [CTick ms; CTimer u; CReturn; CTick ms'; CTimer u; CReturn] = Val s' /\ ~ open u s' /\ final_call u (c_trace s').
Proof.
  intros R St O Sr L L'. change [CTick ms; CTimer u; CReturn; CTick ms'; CTimer u; CReturn] with ([CTick ms; CTimer u; CReturn] ++ [CTick ms'; CTimer u; CReturn]). rewrite crun_app.
  destruct (fire s u q mn tm t0 ms R St O Sr L) as (s1 & E1 & St1 & [(N1 & F1)|(O1 & Sr1 & W1)] & _); rewrite E1; cbn [mbind].
  - destruct (run_done s1 u ms' St1 N1) as (s2 & E2 & _ & T2 & N2). exists s2. rewrite T2. auto.
  - assert (R1 : creach s1) by (apply (creach_run s [CTick ms; CTimer u; CReturn]); auto; repeat constructor; intros ? ? ?; discriminate).
    destruct (fire s1 u q mn tm t0 ms' R1 St1 O1 Sr1 L') as (s2 & E2 & _ & _ & F2). exists s2. split; auto.
Qed.

(** ** Use of freed requests *)
Definition frames_of_open (s : cst) : Prop := forall f u ms, In f (c_stack s) -> f_after f = ATimer u ms ->
  (exists q mn tm t0, In (TStart u q mn tm t0) (c_trace s) /\ 0 < mn /\ mn < tm) /\ (open u s \/ cancelled u (c_trace s)).
Lemma frames_step s e s' : cinv s -> (forall q mn tm, e = CRequest q mn tm -> handle_free s) -> frames_of_open s -> cstep s e = Val s' -> frames_of_open s'.
Proof.
  intros I F FO E. destruct e as [q mn tm|h| |h rc x|q x|u|ms]; cbn [cstep] in E.
  - injection E as <-. destruct (F _ _ _ eq_refl) as [Fr _]. unfold request. destruct (negb _ || negb _); auto. cbv zeta. cbn [c_reqs].
    destruct (find _ _) as [o|] eqn:Fd. { exfalso. apply find_some in Fd as [Io Eo]. apply N.eqb_eq in Eo. exact (Fr _ Io Eo). }
    intros f u ms If Ea. cbn in If. destruct (FO _ _ _ If Ea) as [(q' & mn' & tm' & t0 & A & B) C]. split; [exists q', mn', tm', t0; split; auto; right; auto|]. destruct C as [(r & Ir & Er)|C]; [left; exists r; split; auto; cbn; apply in_app_iff; auto|right; apply cancelled_cons; auto].
  - injection E as <-. destruct (get_request s h) as [r|] eqn:G; auto. apply get_request_in in G as [Ir _]. intros f u ms If Ea. destruct (FO _ _ _ If Ea) as [(q' & mn' & tm' & t0 & A & B) C]. split; [exists q', mn', tm', t0; split; auto; right; auto|].
    destruct C as [(r' & Ir' & Er)|C]; [|right; apply cancelled_cons; auto]. destruct (N.eq_dec (q_uid r) u) as [Q|Q]; [right; exists (c_now s); left; congruence|]. left. exists r'. split; auto. cbn. apply filter_In. split; auto. apply negb_true_iff, N.eqb_neq. congruence.
  - destruct (c_stack s) as [|f st] eqn:St; [injection E as <-; auto|]. pose proof (i_frame _ I) as Fi. unfold frame_inv in Fi. rewrite St in Fi. destruct st; [|contradiction]. destruct Fi as [_ Fi].
    intros f' u ms If _. exfalso. unfold return_cb in E.
    assert (S0 : c_stack (if f_finish f then cancel (c_with_stack s []) (f_handle f) else c_with_stack s []) = []) by (destruct (f_finish f); [unfold cancel; destruct (get_request _ _)|]; reflexivity).
    destruct (f_after f); [injection E as <-; rewrite S0 in If; destruct If| |contradiction]. destruct (find _ _); [|discriminate]. injection E as <-. cbn in If. rewrite S0 in If. destruct If.
  - destruct (c_stack s) eqn:St; injection E as <-; auto. intros f u ms If Ea. exfalso. unfold rx_result in If. destruct (get_request s h) as [r|]; [|rewrite St in If; destruct If].
    destruct rc; [cbn in If; rewrite St in If; destruct If| |cbn in If; rewrite St in If; destruct If]. destruct (match q_rc r with RcResult => _ | _ => false end); [cbn in If; rewrite St in If; destruct If|].
    destruct (lr_age x =? 0); [|cbn [q_waiting q_with_result] in If; destruct (q_waiting r)]; cbn in If; rewrite ?St in If; try contradiction; destruct If as [<-|[]]; discriminate.
  - destruct (c_stack s) eqn:St; injection E as <-; auto. intros f u ms If Ea. exfalso. unfold rx_answer in If. destruct (find _ _) as [[h q']|]; [|rewrite St in If; destruct If]. unfold rx_result in If. destruct (get_request s h) as [r|]; [|rewrite St in If; destruct If].
    destruct (match q_rc r with RcResult => _ | _ => false end); [cbn in If; rewrite St in If; destruct If|].
    destruct (lr_age x =? 0); [|cbn [q_waiting q_with_result] in If; destruct (q_waiting r)]; cbn in If; rewrite ?St in If; try contradiction; destruct If as [<-|[]]; discriminate.
  - destruct (c_stack s) eqn:St; [|injection E as <-; auto]. destruct (find _ _) as [r|] eqn:Fd; [|injection E as <-; auto]. apply find_uid in Fd as [Ir Eu].
    destruct (q_timer r) as [t|] eqn:Td; [|injection E as <-; auto]. destruct (N.leb_spec t (c_now s)); injection E as <-; auto.
    pose proof (i_req _ I _ Ir) as (t0 & A & B & C & [(f & E & _)|(D & _ & W)]); [rewrite St in E; discriminate|]. apply in_of in A as [A _].
    intros f v ms If Ea. unfold timeout in *. cbn [q_waiting q_with_timer] in *. destruct (q_waiting r) eqn:Wt.
    + cbn [q_tmo q_min q_with_waiting q_with_timer] in *. destruct (N.leb_spec (q_tmo r) (q_min r)) as [Lt|Lt]; cbn [q_rc q_with_waiting q_with_timer] in *.
      * exfalso. destruct (q_rc r); cbn in If; rewrite St in If; destruct If as [<-|[]]; discriminate.
      * destruct (q_rc r) eqn:Rc; [exfalso; cbn in If; rewrite St in If; destruct If| |exfalso; cbn in If; rewrite St in If; destruct If]. cbn in If. rewrite St in If. destruct If as [<-|[]]. cbn in Ea. injection Ea as <- <-. split.
        { exists (q_query r), (q_min r), (q_tmo r), t0. split; [right; exact A|]. destruct W as [(_ & W & _)|(W & _)]; [lia|congruence]. }
        left. eexists. split; [cbn; apply in_map_iff; exists r; rewrite N.eqb_refl; auto|reflexivity].
    + exfalso. cbn in If. rewrite St in If. destruct If as [<-|[]]. discriminate.
  - destruct (c_stack s) eqn:St; injection E as <-; auto. intros f u ms' [].
Qed.
Lemma creach_frames s : creach s -> frames_of_open s.
Proof. induction 1 as [|s e s' R IH F E]; [intros f u ms []|]. eapply frames_step; eauto. apply creach_inv; auto. Qed.
(** the one case in which a freed request is used *)
Lemma c36_bad s e : creach s -> cstep s e = Bad ->
  e = CReturn /\ exists h u ms q mn tm t0, c_stack s = [mk_frame h false (ATimer u ms)] /\ In (TStart u q mn tm t0) (c_trace s) /\ 0 < mn /\ mn < tm /\ cancelled u (c_trace s).
Proof.
  intros R E. pose proof (creach_inv _ R) as I. destruct e as [q mn tm|h| |h rc x|q x|u|ms]; cbn [cstep] in E; try (destruct (c_stack s); discriminate); try discriminate.
  - split; auto. destruct (c_stack s) as [|f st] eqn:St; [discriminate|]. pose proof (i_frame _ I) as Fi. unfold frame_inv in Fi. rewrite St in Fi. destruct st; [|contradiction]. destruct Fi as [_ Fi].
    unfold return_cb in E. destruct (f_after f) as [|u ms|] eqn:Fa; [discriminate| |discriminate]. destruct Fi as (Ff & _). rewrite Ff in E. change (c_reqs (c_with_stack s [])) with (c_reqs s) in E. destruct (find _ _) as [r|] eqn:Fd; [discriminate|].
    destruct (creach_frames _ R f u ms) as [(q & mn & tm & t0 & A & B & C) D]; [rewrite St; left; auto|auto|]. exists (f_handle f), u, ms, q, mn, tm, t0. split; [destruct f; cbn in *; subst; auto|]. do 3 (split; auto).
    destruct D as [(r & Ir & Er)|D]; auto. exfalso. apply (find_none _ _ Fd) in Ir. apply N.eqb_neq in Ir. contradiction.
  - destruct (c_stack s); [|discriminate]. destruct (find _ _) as [r|]; [|discriminate]. destruct (q_timer r) as [t|]; [|discriminate]. destruct (t <=? c_now s); discriminate.
Qed.
Lemma c36_safe s e : creach s -> (forall u q mn tm t0, In (TStart u q mn tm t0) (c_trace s) -> mn = 0 \/ tm <= mn) -> cstep s e <> Bad.
Proof.
  intros R H E. destruct (c36_bad _ _ R E) as (_ & h & u & ms & q & mn & tm & t0 & _ & A & B & C & _). destruct (H _ _ _ _ _ A); lia.
Qed.

(** requests that leave the timeout at its default, as those of the HLR *)
Inductive reach_hlr : cst -> Prop :=
| rh_init : reach_hlr c_init
| rh_step s e s' : reach_hlr s -> (forall q mn tm, e = CRequest q mn tm -> handle_free s /\ tm = 0) -> cstep s e = Val s' -> reach_hlr s'.
Lemma reach_hlr_creach s : reach_hlr s -> creach s.
Proof. induction 1 as [|s e s' R IH F E]; [constructor|]. eapply cr_step; eauto. intros q mn tm H. apply (F _ _ _ H). Qed.
Definition all_default (s : cst) : Prop := forall u q mn tm t0, In (TStart u q mn tm t0) (c_trace s) -> mn = 0 \/ tm <= mn.
Lemma reach_hlr_default s : reach_hlr s -> all_default s.
Proof.
  induction 1 as [|s e s' R IH F E]; [intros ? ? ? ? ? []|].
  assert (X : (forall u q mn tm t0, In (TStart u q mn tm t0) (c_trace s') -> In (TStart u q mn tm t0) (c_trace s)) -> all_default s') by (intros H u q mn tm t0 I; eapply IH; eauto).
  destruct e as [q mn tm|h| |h rc x|q x|u|ms]; cbn [cstep] in E.
  - injection E as <-. destruct (F _ _ _ eq_refl) as [[Fr _] ->]. unfold request in *. destruct (negb _ || negb _); auto. cbv zeta. cbn [c_reqs].
    destruct (find _ _) as [o|] eqn:Fd. { exfalso. apply find_some in Fd as [Io Eo]. apply N.eqb_eq in Eo. exact (Fr _ Io Eo). }
    intros u' q' mn' tm' t0 [H|H]; [|eapply IH; eauto]. injection H as _ _ <- <- _. cbn. destruct (N.eqb_spec mn 0); [auto|right; lia].
  - injection E as <-. apply X. destruct (get_request s h); auto. intros ? ? ? ? ? [H|H]; [discriminate|auto].
  - destruct (c_stack s) as [|f st] eqn:St; [injection E as <-; auto|]. apply X. unfold return_cb in E.
    assert (T0 : c_trace (if f_finish f then cancel (c_with_stack s st) (f_handle f) else c_with_stack s st) = c_trace s) by (destruct (f_finish f); [unfold cancel; destruct (get_request _ _)|]; reflexivity).
    pose proof (i_frame _ (creach_inv _ (reach_hlr_creach _ R))) as Fi. unfold frame_inv in Fi. rewrite St in Fi. destruct st; [|contradiction]. destruct Fi as [_ Fi].
    destruct (f_after f); [injection E as <-; rewrite T0; auto| |contradiction]. destruct (find _ _); [|discriminate]. injection E as <-. cbn. rewrite T0. auto.
  - apply X. destruct (c_stack s); injection E as <-; auto. intros u q' mn tm t0 H. unfold rx_result in H. destruct (get_request s h) as [r|]; auto.
    destruct rc; [destruct H as [H|H]; [discriminate|auto]| |destruct H as [H|H]; [discriminate|auto]]. destruct (match q_rc r with RcResult => _ | _ => false end); [destruct H as [H|H]; [discriminate|auto]|].
    destruct (lr_age x =? 0); [|cbn [q_waiting q_with_result] in H; destruct (q_waiting r)]; cbn in H; repeat (destruct H as [H|H]; [discriminate|]); auto.
  - apply X. destruct (c_stack s); injection E as <-; auto. intros u q' mn tm t0 H. unfold rx_answer in H. destruct (find _ _) as [[h q'']|]; auto. unfold rx_result in H. destruct (get_request s h) as [r|]; auto.
    destruct (match q_rc r with RcResult => _ | _ => false end); [destruct H as [H|H]; [discriminate|auto]|].
    destruct (lr_age x =? 0); [|cbn [q_waiting q_with_result] in H; destruct (q_waiting r)]; cbn in H; repeat (destruct H as [H|H]; [discriminate|]); auto.
  - apply X. destruct (c_stack s); [|injection E as <-; auto]. destruct (find _ _) as [r|]; [|injection E as <-; auto]. destruct (q_timer r) as [t|]; [|injection E as <-; auto]. destruct (t <=? c_now s); injection E as <-; auto.
    intros u' q' mn tm t0 H. unfold timeout in H. cbn [q_waiting q_with_timer] in H. destruct (q_waiting r).
    + cbn [q_tmo q_min q_with_waiting q_with_timer] in H. destruct (q_tmo r <=? q_min r); cbn [q_rc q_with_waiting q_with_timer] in H; destruct (q_rc r); cbn in H; try (destruct H as [H|H]; [discriminate|]); auto.
    + cbn in H. destruct H as [H|H]; [discriminate|auto].
  - apply X. destruct (c_stack s); injection E as <-; auto.
Qed.
Lemma c36_hlr s e : reach_hlr s -> cstep s e <> Bad.
Proof. intros R. apply c36_safe; [apply reach_hlr_creach; auto|exact (reach_hlr_default _ R)]. Qed.

(** ** Handles come up again after 2^32 requests *)
Definition wq : query := mk_query "gsup.hlr" IdImsi "901700000014705".
Definition wr0 : req := mk_req 0 1 wq 0 500 false RcNone (mk_result None None 0) (Some 500).
Definition wstate (s : cst) (h : N) : Prop :=
  c_reqs s = [wr0] /\ c_next s = h /\ 0 < c_uid s /\ c_mdns s = [(1, wq)] /\ c_now s = 0 /\ c_stack s = [] /\ In (TStart 0 wq 0 500 0) (c_trace s) /\
  (forall n, In n (c_trace s) -> match n with TRes _ _ _ _ _ | TCall _ _ _ _ _ => False | _ => True end).
Lemma wstep s h : wstate s h -> 1 < h -> exists s', crun s [CRequest wq 0 500; CCancel h] = Val s' /\ wstate s' ((h + 1) mod 4294967296).
Proof.
  intros (E1 & E2 & E3 & E4 & E5 & E6 & E7 & E8) L. destruct s as [rs nx ud md nw st tr]. cbn in E1, E2, E3, E4, E5, E6, E7, E8. subst rs nx md nw st.
  set (r1 := mk_req ud h wq 0 500 false RcNone (mk_result None None 0) (Some 500)).
  assert (A : request (mk_cst [wr0] h ud [(1, wq)] 0 [] tr) wq 0 500 = mk_cst [wr0; r1] ((h + 1) mod 4294967296) (ud + 1) [(h, wq); (1, wq)] 0 [] (TStart ud wq 0 500 0 :: tr)).
  { unfold request. change (negb (service_valid (lq_service wq)) || negb (id_valid (lq_type wq) (lq_id wq))) with false. cbv iota zeta. cbn [c_next c_reqs c_uid c_mdns c_now c_stack c_trace].
    destruct (N.eqb_spec h 0) as [X|_]; [lia|]. cbn [find]. change (q_handle wr0) with 1. destruct (N.eqb_spec 1 h) as [X|_]; [lia|]. reflexivity. }
  cbn [crun cstep]. rewrite A. cbn [mbind cstep]. unfold get_request. cbn [c_reqs find]. change (q_handle wr0) with 1. change (q_handle r1) with h.
  destruct (N.eqb_spec h 0) as [X|_]; [lia|]. destruct (N.eqb_spec 1 h) as [X|_]; [lia|]. rewrite N.eqb_refl. cbn [mbind].
  exists (mk_cst [wr0] ((h + 1) mod 4294967296) (ud + 1) [(1, wq)] 0 [] (TCancel ud 0 :: TStart ud wq 0 500 0 :: tr)). split.
  - unfold cleanup, c_note, c_with_reqs, c_with_mdns. cbn [c_reqs c_next c_uid c_mdns c_now c_stack c_trace filter mdns_cleanup]. change (q_uid wr0) with 0. change (q_uid r1) with ud. change (q_handle r1) with h. destruct (N.eqb_spec 0 ud) as [X|_]; [lia|]. rewrite !N.eqb_refl. reflexivity.
  - unfold wstate. cbn [c_reqs c_next c_uid c_mdns c_now c_stack c_trace]. split; auto. split; auto. split; [lia|]. split; auto. split; auto. split; auto. split; [right; right; auto|]. intros n [<-|[<-|H]]; auto. apply E8. auto.
Qed.
Lemma wrap_state n s : wstate s 2 -> 2 + n < 4294967296 -> exists l s', crun s l = Val s' /\ wstate s' (2 + n).
Proof.
  intros W. induction n as [|n IH] using N.peano_ind; intros L.
  - exists [], s. auto.
  - destruct IH as (l & s1 & E & W1); [lia|]. destruct (wstep s1 (2 + n) W1) as (s2 & E2 & W2); [lia|]. exists (l ++ [CRequest wq 0 500; CCancel (2 + n)]), s2. rewrite crun_app, E. cbn [mbind]. split; auto.
    replace (2 + N.succ n) with ((2 + n + 1) mod 4294967296); auto. rewrite N.mod_small by lia. lia.
Qed.
Lemma c35_wrap : exists l s x, crun c_init l = Val s /\ In (TStart 0 wq 0 500 0) (c_trace s) /\ In (TCall 0 RcNone x true 0) (c_trace s) /\ forall q rc y t, ~ In (TRes 0 q rc y t) (c_trace s).
Proof.
  destruct (cstep c_init (CRequest wq 0 500)) as [s1|] eqn:E1; [|discriminate].
  assert (W1 : wstate s1 2). { injection E1 as <-. vm_compute. repeat split; auto. intros n [<-|[]]. auto. }
  destruct (wrap_state 4294967293 s1 W1) as (l & s2 & E2 & W2); [lia|]. change (2 + 4294967293) with 4294967295 in W2.
  destruct (wstep s2 4294967295 W2) as (s3 & E3 & W3); [lia|]. change ((4294967295 + 1) mod 4294967296) with 0 in W3.
  destruct W3 as (F1 & F2 & F3 & F4 & F5 & F6 & F7 & F8). exists (CRequest wq 0 500 :: (l ++ [CRequest wq 0 500; CCancel 4294967295]) ++ [CRequest wq 0 500]).
  cbn [crun]. rewrite E1. cbn [mbind]. rewrite !crun_app, E2. cbn [mbind]. rewrite E3. cbn [mbind crun cstep]. unfold request. change (negb (service_valid (lq_service wq)) || negb (id_valid (lq_type wq) (lq_id wq))) with false.
  rewrite F2. cbv iota zeta. change (0 =? 0) with true. cbv iota. cbn [c_reqs]. rewrite F1. cbn [find]. change (q_handle wr0 =? 1) with true. cbv iota.
  eexists. exists (mk_result None None 0). split; [reflexivity|]. cbn [c_trace send_result c_note c_with_stack]. rewrite F5. split; [right; right; auto|]. split; [left; reflexivity|].
  intros q rc y t [H|[H|H]]; try discriminate. exact (F8 _ H).
Qed.

(** ** With less than 2^32 requests no handle comes up twice *)
Definition short (s : cst) : Prop :=
  ((c_uid s = 0 /\ c_next s = 0) \/ (0 < c_uid s /\ c_next s = (c_uid s + 1) mod 4294967296)) /\
  (forall r, In r (c_reqs s) -> q_handle r <= c_uid s) /\ (forall f, In f (c_stack s) -> f_handle f <= c_uid s).
Lemma short_free s : short s -> c_uid s < 4294967295 -> handle_free s.
Proof.
  intros (A & B & C) L. assert (H : (if c_next s =? 0 then 1 else c_next s) = c_uid s + 1).
  { destruct A as [[A1 A2]|[A1 A2]]; rewrite A2; [rewrite A1; auto|]. rewrite N.mod_small by lia. destruct (N.eqb_spec (c_uid s + 1) 0); [lia|auto]. }
  unfold handle_free. rewrite H. split; [intros r Ir E; specialize (B _ Ir); lia|intros f If E; specialize (C _ If); lia].
Qed.
Lemma short_same s s' : short s -> c_uid s' = c_uid s -> c_next s' = c_next s -> (forall r, In r (c_reqs s') -> exists r0, In r0 (c_reqs s) /\ q_handle r = q_handle r0) ->
  (forall f, In f (c_stack s') -> In f (c_stack s) \/ exists r, In r (c_reqs s) /\ f_handle f = q_handle r) -> short s'.
Proof.
  intros (A & B & C) E1 E2 Hr Hf. unfold short. rewrite E1, E2. split; auto. split.
  - intros r Ir. destruct (Hr _ Ir) as (r0 & I0 & ->). auto.
  - intros f If. destruct (Hf _ If) as [I0|(r & Ir & ->)]; auto.
Qed.
Lemma rx_short s h rc x : short s -> short (rx_result s h rc x).
Proof.
  intros S. unfold rx_result. destruct (get_request s h) as [r|] eqn:G; auto. apply get_request_in in G as [Ir _].
  assert (X : forall f, f = id -> short (f (c_note s (TRes (q_uid r) (q_query r) rc x (c_now s))))) by (intros f ->; apply (short_same s); auto; intros r' H; exists r'; auto). specialize (X id eq_refl). unfold id in X.
  assert (Sw : forall r1 r', q_handle r1 = q_handle r -> In r' (map (fun r' => if q_uid r' =? q_uid r1 then r1 else r') (c_reqs s)) -> exists r0, In r0 (c_reqs s) /\ q_handle r' = q_handle r0).
  { intros r1 r' E1 H. apply in_map_iff in H as (a & H & Ia). destruct (q_uid a =? q_uid r1); subst r'; [exists r; auto|exists a; auto]. }
  destruct rc; auto. destruct (match q_rc r with RcResult => _ | _ => false end); auto.
  destruct (lr_age x =? 0); [|cbn [q_waiting q_with_result]; destruct (q_waiting r)]; (apply (short_same s); [exact S|reflexivity|reflexivity|intros r' H; cbn in H; apply (Sw (q_with_result r RcResult x)); auto|]); cbn; auto; intros f [<-|H]; auto; right; exists r; auto.
Qed.
Lemma cancel_short s h : short s -> short (cancel s h).
Proof.
  intros S. unfold cancel. destruct (get_request s h) as [r|]; auto. apply (short_same s); auto. intros r' H. cbn in H. apply filter_In in H as [H _]. exists r'. auto.
Qed.
Definition reqs_in (l : list cev) : N := N.of_nat (length (filter (fun e => match e with CRequest _ _ _ => true | _ => false end) l)).
Lemma step_short s e s' : cinv s -> short s -> c_uid s + reqs_in [e] <= 4294967295 -> cstep s e = Val s' -> short s' /\ c_uid s' <= c_uid s + reqs_in [e].
Proof.
  intros I S L E. destruct e as [q mn tm|h| |h rc x|q x|u|ms]; cbn [cstep] in E; unfold reqs_in in L |- *; cbn [filter length] in L |- *; change (N.of_nat 0) with 0 in *; change (N.of_nat 1) with 1 in *; rewrite ?N.add_0_r in *.
  - injection E as <-. pose proof (short_free s S) as F. destruct F as [Fr _]; [lia|]. unfold request. destruct (negb _ || negb _). { split; auto. lia. }
    cbv zeta. cbn [c_reqs]. destruct (find _ _) as [o|] eqn:Fd. { exfalso. apply find_some in Fd as [Io Eo]. apply N.eqb_eq in Eo. exact (Fr _ Io Eo). }
    split; [|cbn; lia]. destruct S as (A & B & C). assert (H : (if c_next s =? 0 then 1 else c_next s) = c_uid s + 1).
    { destruct A as [[A1 A2]|[A1 A2]]; rewrite A2; [rewrite A1; auto|]. rewrite N.mod_small by lia. destruct (N.eqb_spec (c_uid s + 1) 0); [lia|auto]. }
    rewrite H. split; [|split]; cbn [c_reqs c_next c_uid c_stack request_add c_with_mdns c_with_reqs].
    + right. split; [lia|auto].
    + intros r Ir. apply in_app_iff in Ir as [Ir|[<-|[]]]; [specialize (B _ Ir); lia|cbn; lia].
    + intros f If. specialize (C _ If). lia.
  - injection E as <-. destruct (get_request s h) as [r|] eqn:G; [|split; auto; lia]. split; [|cbn; lia]. apply (short_same s); auto. intros r' H. cbn in H. apply filter_In in H as [H _]. exists r'. auto.
  - destruct (c_stack s) as [|f st] eqn:St; [injection E as <-; split; auto; lia|]. unfold return_cb in E.
    assert (S1 : short (c_with_stack s st)). { apply (short_same s); auto; [intros r H; exists r; auto|]. intros f' H. left. rewrite St. right. auto. }
    assert (S2 : short (if f_finish f then cancel (c_with_stack s st) (f_handle f) else c_with_stack s st)) by (destruct (f_finish f); [apply cancel_short|]; auto).
    assert (U2 : c_uid (if f_finish f then cancel (c_with_stack s st) (f_handle f) else c_with_stack s st) = c_uid s) by (destruct (f_finish f); [unfold cancel; destruct (get_request _ _)|]; reflexivity).
    pose proof (i_frame _ I) as Fi. unfold frame_inv in Fi. rewrite St in Fi. destruct st; [|contradiction]. destruct Fi as [_ Fi].
    destruct (f_after f); [injection E as <-; rewrite U2; split; auto; lia| |contradiction]. destruct (find _ _) as [r|] eqn:Fd; [|discriminate]. apply find_uid in Fd as [Ir _]. injection E as <-. split; [|cbn; rewrite U2; lia].
    eapply short_same; [exact S2|reflexivity|reflexivity| |cbn; auto]. intros r' H. cbn in H. apply in_map_iff in H as (a & H & Ia). destruct (q_uid a =? q_uid r); subst r'; [exists r; auto|exists a; auto].
  - destruct (c_stack s) eqn:St; injection E as <-; [|split; auto; lia]. split; [apply rx_short; auto|]. unfold rx_result. destruct (get_request s h) as [r|]; [|lia]. destruct rc; cbn; try lia. destruct (match q_rc r with RcResult => _ | _ => false end); cbn; [lia|]. destruct (lr_age x =? 0); [|destruct (q_waiting r)]; cbn; lia.
  - destruct (c_stack s) eqn:St; injection E as <-; [|split; auto; lia]. unfold rx_answer. destruct (find _ _) as [[h q']|]; [|split; auto; lia]. split; [apply rx_short; auto|]. unfold rx_result. destruct (get_request s h) as [r|]; [|lia]. destruct (match q_rc r with RcResult => _ | _ => false end); cbn; [lia|]. destruct (lr_age x =? 0); [|destruct (q_waiting r)]; cbn; lia.
  - destruct (c_stack s) eqn:St; [|injection E as <-; split; auto; lia]. destruct (find _ _) as [r|] eqn:Fd; [|injection E as <-; split; auto; lia]. apply find_uid in Fd as [Ir Eu].
    destruct (q_timer r) as [t|] eqn:Td; [|injection E as <-; split; auto; lia]. destruct (N.leb_spec t (c_now s)); injection E as <-; [|split; auto; lia].
    assert (X : forall s' r1, c_uid s' = c_uid s -> c_next s' = c_next s -> q_handle r1 = q_handle r -> c_reqs s' = swap r1 (c_reqs s) -> (forall f, In f (c_stack s') -> f_handle f = q_handle r) -> short s' /\ c_uid s' <= c_uid s).
    { intros s' r1 E1 E2 E3 E4 E5. split; [|lia]. apply (short_same s); auto; [|intros f If; right; exists r; auto]. intros r' H'. rewrite E4 in H'. apply in_map_iff in H' as (a & H' & Ia). destruct (q_uid a =? q_uid r1); subst r'; [exists r; auto|exists a; auto]. }
    unfold timeout. cbn [q_waiting q_with_timer]. destruct (q_waiting r).
    + cbn [q_tmo q_min q_with_waiting q_with_timer]. destruct (q_tmo r <=? q_min r); cbn [q_rc q_with_waiting q_with_timer].
      * destruct (q_rc r); (eapply X; [reflexivity|reflexivity| |reflexivity|]; [reflexivity|intros f Hf; cbn in Hf; rewrite St in Hf; destruct Hf as [<-|[]]; reflexivity]).
      * destruct (q_rc r); (eapply X; [reflexivity|reflexivity| |reflexivity|]; [reflexivity|intros f Hf; cbn in Hf; rewrite St in Hf; repeat (destruct Hf as [<-|Hf]; [reflexivity|]); destruct Hf]).
    + eapply X; [reflexivity|reflexivity| |reflexivity|]; [reflexivity|intros f Hf; cbn in Hf; rewrite St in Hf; destruct Hf as [<-|[]]; reflexivity].
  - destruct (c_stack s) eqn:St; injection E as <-; [|split; auto; lia]. split; [|cbn; lia]. apply (short_same s); auto; [|intros f []]. intros r H. exists r. auto.
Qed.
Lemma short_run l : forall s s', creach s -> short s -> c_uid s + reqs_in l <= 4294967295 -> crun s l = Val s' -> creach s'.
Proof.
  induction l as [|e l IH]; intros s s' R S L E; cbn in E; [injection E as <-; auto|]. destruct (cstep s e) as [s1|] eqn:E1; [|discriminate]. cbn in E.
  assert (Q : reqs_in (e :: l) = reqs_in [e] + reqs_in l) by (unfold reqs_in; cbn [filter]; destruct e; cbn [length]; lia). rewrite Q in L.
  destruct (step_short s e s1 (creach_inv _ R) S) as [S1 U1]; [lia|auto|]. apply (IH s1); auto; [|lia]. eapply cr_step; eauto. intros q mn tm ->. apply short_free; auto. change (reqs_in [CRequest q mn tm]) with 1 in L. lia.
Qed.
Lemma creach_short l s : crun c_init l = Val s -> reqs_in l <= 4294967295 -> creach s.
Proof.
  intros E L. apply (short_run l c_init); auto; [constructor|]. split; [left; auto|]. split; [intros r []|intros f []].
Qed.
