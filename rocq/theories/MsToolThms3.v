(** Proofs about the lookup tool, continued: the steps (C58). *)
From Verif Require Import Base PeerId DbProofs Db Auth Gsup Router Ctrl MsLookup Mdns MsClient MsClientSpec MsClientThms MsClientThms2 MsTool MsToolSpec MsToolThms MsToolThms2.
Local Open Scope N_scope.

(** ** Events of the lookup client *)
(** the callback was called for one request, or not at all *)
Inductive told_step (o : topts) (s s' : tst) : Prop :=
| ts_quiet : t_qs s' = t_qs s -> t_cls s' = t_cls s -> t_out s' = t_out s -> t_next s' = t_next s -> keys (t_cl s') = keys (t_cl s) ->
    (forall v, calls v (c_trace (t_cl s')) = calls v (c_trace (t_cl s))) -> told_step o s s'
| ts_call : forall u h q d r, In (u, h, q) (keys (t_cl s)) -> In (h, d) (t_qs s) -> query_init d = inl q ->
    t_cls s' = t_cls (respond o s d (Some r)) -> t_out s' = t_out (respond o s d (Some r)) -> t_next s' = t_next s ->
    t_qs s' = (if r_last r then query_del h (t_qs s) else t_qs s) ->
    keys (t_cl s') = (if r_last r then filter (fun k => negb (fst (fst k) =? u)) (keys (t_cl s)) else keys (t_cl s)) ->
    calls u (c_trace (t_cl s')) = r :: calls u (c_trace (t_cl s)) -> (forall v, v <> u -> calls v (c_trace (t_cl s')) = calls v (c_trace (t_cl s))) -> told_step o s s'.

Lemma put_cl_respond o s c q r : respond o (t_with_cl s c) q r = t_with_cl (respond o s q r) c.
Proof.
  assert (R : forall q text fin l s c, respond_clients l q text fin (t_with_cl s c) = t_with_cl (respond_clients l q text fin s) c).
  { intros q0 text fin l. induction l as [|k l IH]; intros s0 c0; cbn [respond_clients]; auto. destruct (q0 =? k_str k)%string; auto. destruct fin; rewrite <- IH; reflexivity. }
  unfold respond. change (t_put (t_with_cl s c) (OLine (format o q r))) with (t_with_cl (t_put s (OLine (format o q r))) c). change (t_cls (t_with_cl (t_put s (OLine (format o q r))) c)) with (t_cls (t_put s (OLine (format o q r)))).
  rewrite R. destruct (is_final r); reflexivity.
Qed.
Lemma settle_told o s e : binv s -> plain_ev e -> exists s', (mdo c <- cstep (t_cl s) e;; settle o (t_with_cl s c)) = Val s' /\ told_step o s s' /\
  creach (t_cl s') /\ short (t_cl s') /\ uncancelled (t_cl s') /\ c_stack (t_cl s') = [] /\ c_uid (t_cl s') <= c_uid (t_cl s) /\ crun (t_cl s) [e; CReturn] = Val (t_cl s').
Proof.
  intros B P. pose proof (v_reach _ B) as R. pose proof (creach_inv _ R) as I. pose proof (v_uid _ B) as Ub. destruct (step_plain (t_cl s) e (v_stack _ B) P) as (c1 & E1). rewrite E1. cbn [mbind].
  assert (R1 : creach c1) by (eapply cr_step; eauto; intros ? ? ? ->; contradiction).
  assert (Ne : reqs_in [e] = 0) by (destruct e; try contradiction; reflexivity).
  destruct (step_short (t_cl s) e c1 I (v_short _ B) ltac:(rewrite Ne; lia) E1) as [S1 U1]. rewrite Ne, N.add_0_r in U1.
  assert (N1 : uncancelled c1) by (intros u C; apply (v_unc _ B u); eapply no_cancel_step; eauto; intros h ->; contradiction).
  cbn [crun]. rewrite E1. cbn [mbind].
  destruct (step_moved _ _ _ I (v_stack _ B) P E1) as [Q1 Q2 Q3|u h q f rc x t tl K St Eh Et Ec Ek].
  - exists (t_with_cl s c1). unfold settle. cbn [t_cl t_with_cl]. rewrite Q1. rewrite (return_quiet c1 Q1). cbn [mbind].
    split; [destruct (c_trace c1); reflexivity|]. split; [apply ts_quiet; auto|]. auto 10.
  - rewrite <- Ek in K. destruct (return_moved c1 u h q f R1 N1 K St Eh) as (c2 & E2 & St2 & Tr2 & K2). rewrite E2. cbn [mbind]. rewrite Ek in K, K2.
    destruct (v_keys _ B _ _ _ K) as (d & Id). destruct (v_qs _ B _ _ Id) as (u' & q' & K' & Qi). destruct (keys_handle _ _ _ _ _ _ I K K') as [-> ->].
    set (r := mk_tres rc x (f_finish f)).
    unfold settle. cbn [t_cl t_with_cl]. rewrite St, Et. unfold result_cb. cbn [t_qs t_with_cl]. rewrite Eh, (find_query _ _ _ (v_nd _ B) Id). fold r. rewrite put_cl_respond.
    pose proof (respond_spec o s d (Some r) (v_ids _ B)) as [A1 A2 A3 _ _ _ _ _ _ _].
    set (s2 := if r_last r then _ else _). assert (C2 : t_cl s2 = c1) by (unfold s2; destruct (r_last r); reflexivity). rewrite C2, E2. cbn [mbind].
    assert (R2 : creach c2) by (eapply cr_step; eauto; discriminate).
    destruct (step_short c1 CReturn c2 (creach_inv _ R1) S1 ltac:(change (reqs_in [CReturn]) with 0; lia) E2) as [S2 U2]. change (reqs_in [CReturn]) with 0 in U2.
    assert (N2 : uncancelled c2) by (intros v C; apply (N1 v); eapply no_cancel_step; eauto; discriminate).
    exists (t_with_cl s2 c2). split; [reflexivity|]. split.
    + eapply ts_call with (u := u) (h := h) (q := q) (d := d) (r := r); auto; unfold s2; cbn [t_cl t_with_cl].
      * destruct (r_last r); reflexivity.
      * destruct (r_last r); reflexivity.
      * destruct (r_last r); cbn; auto.
      * cbn [t_qs t_with_cl]. destruct (r_last r); cbn; rewrite A2; reflexivity.
      * rewrite Tr2, Et. cbn. rewrite N.eqb_refl, Ec. reflexivity.
      * intros v D. rewrite Tr2, Et. cbn. destruct (N.eqb_spec u v); [congruence|]. apply Ec.
    + cbn [t_cl t_with_cl]. do 4 (split; auto). split; [lia|auto].
Qed.
Lemma told_binv o s s' : binv s -> told_step o s s' -> creach (t_cl s') -> short (t_cl s') -> uncancelled (t_cl s') -> c_stack (t_cl s') = [] -> c_uid (t_cl s') <= c_uid (t_cl s) -> binv s'.
Proof.
  intros B T R S U St Le. pose proof (v_uid _ B) as Ub. pose proof (creach_inv _ (v_reach _ B)) as I. destruct T as [Q1 Q2 Q3 Q4 Q5 Q6|u h q d r K Id Qi E1 E2 E3 E4 E5 E6 E7].
  - destruct B. constructor; auto; unfold closed, connected; rewrite ?Q1, ?Q2, ?Q3, ?Q4, ?Q5; auto. lia.
  - pose proof (respond_binv o s d (Some r) B) as B'. pose proof (respond_spec o s d (Some r) (v_ids _ B)) as [A1 A2 A3 _ _ _ _ _ _ _].
    destruct B' as [_ _ _ _ _ _ _ _ w1 w2 w3 w4 w5 w6]. unfold closed, connected in *. rewrite A3 in *. constructor; auto; unfold closed, connected; rewrite ?E1, ?E2, ?E3; auto; [lia| | |].
    + intros h' d'. rewrite E4, E5. intros H. destruct (r_last r); [|exact (v_qs _ B _ _ H)]. apply query_del_in in H as [H D]; [|exact (v_nd _ B)]. cbn in D. destruct (v_qs _ B _ _ H) as (u1 & q1 & X & Y). exists u1, q1. split; auto.
      apply filter_In. split; auto. cbn. apply negb_true_iff, N.eqb_neq. intros ->. apply D. destruct (keys_uid _ _ _ _ _ _ I K X). auto.
    + intros u1 h1 q1. rewrite E4, E5. intros H. destruct (r_last r); [|exact (v_keys _ B _ _ _ H)]. apply filter_In in H as [H D]. cbn in D. apply negb_true_iff, N.eqb_neq in D. destruct (v_keys _ B _ _ _ H) as (d1 & X). exists d1.
      apply query_del_in; [exact (v_nd _ B)|]. split; auto. cbn. intros ->. apply D. destruct (keys_handle _ _ _ _ _ _ I K H). auto.
    + rewrite E4. destruct (r_last r); [apply query_del_nd|]; exact (v_nd _ B).
Qed.
Lemma told_waits o s s' : binv s -> waits s "" -> told_step o s s' -> waits s' "".
Proof.
  intros B W T k. destruct T as [Q1 Q2 Q3 Q4 Q5 Q6|u h q d r K Id Qi E1 E2 E3 E4 E5 E6 E7].
  - rewrite Q1, Q2. apply W.
  - rewrite E1, E4. intros Ik Ne Ne'. pose proof (respond_spec o s d (Some r) (v_ids _ B)) as [_ _ _ A4 _ _ _ _ _ _]. apply A4 in Ik as [Ik X]. destruct (W _ Ik Ne Ne') as (h' & H). exists h'. cbn in X.
    destruct (r_last r) eqn:L; auto. apply query_del_in; [exact (v_nd _ B)|]. split; auto. cbn. intros ->.
    assert (E : (h, k_str k) = (h, d)) by (apply (nodup_inj fst (t_qs s)); auto; exact (v_nd _ B)). injection E as E. apply X. auto.
Qed.
