(** Proofs about the lookup tool, continued: every query ends (C58). *)
From Verif Require Import Base PeerId DbProofs Db Auth Gsup Router Ctrl MsLookup Mdns MsClient MsClientSpec MsClientThms MsClientThms2 MsTool MsToolSpec MsToolThms MsToolThms2 MsToolThms3 MsToolThms4 MsToolThms5 MsToolThms6 MsToolThms7.
Local Open Scope N_scope.

(** ** Requests of the lookup client, followed through its events *)
Definition follows (s' : tst) (u h : N) (q : query) (d : string) : Prop :=
  (In (u, h, q) (keys (t_cl s')) /\ In (h, d) (t_qs s')) \/ (forall j, ~ connected s' j d) /\ ~ In h (map fst (t_qs s')).
Lemma told_conn o s s' j d : binv s -> told_step o s s' -> connected s' j d -> connected s j d.
Proof.
  intros B [Q1 Q2 Q3 Q4 Q5 Q6|u' h' q' d' r Kk Id Qi E1 E2 E3 E4 E5 E6 E7]; unfold connected; [rewrite Q2; auto|]. rewrite E1. pose proof (respond_spec o s d' (Some r) (v_ids _ B)) as [_ _ _ R4 _ _ _ _ _ _]. intros H. apply R4 in H as [H _]. exact H.
Qed.
Lemma told_qs o s s' h : binv s -> told_step o s s' -> In h (map fst (t_qs s')) -> In h (map fst (t_qs s)).
Proof.
  intros B [Q1 Q2 Q3 Q4 Q5 Q6|u' h' q' d' r Kk Id Qi E1 E2 E3 E4 E5 E6 E7]; [rewrite Q1; auto|]. rewrite E4. destruct (r_last r); auto. intros H. apply in_map_iff in H as ([h2 d2] & E & H). apply query_del_in in H as [H _]; [|exact (v_nd _ B)]. apply in_map_iff. exists (h2, d2). auto.
Qed.
Lemma told_follows o s s' u h q d : binv s -> told_step o s s' -> In (u, h, q) (keys (t_cl s)) -> In (h, d) (t_qs s) -> follows s' u h q d.
Proof.
  intros B Td K Q. pose proof (creach_inv _ (v_reach _ B)) as I. destruct Td as [Q1 Q2 Q3 Q4 Q5 Q6|u' h' q' d' r Kk Id Qi E1 E2 E3 E4 E5 E6 E7]; unfold follows, connected.
  - left. rewrite Q1, Q5. auto.
  - rewrite E1, E4, E5. pose proof (respond_spec o s d' (Some r) (v_ids _ B)) as [_ _ _ R4 _ _ _ _ _ _]. destruct (r_last r) eqn:La; [|left; auto].
    destruct (N.eq_dec h' h) as [->|Dh].
    + right. assert (d' = d). { pose proof (find_query _ _ _ (v_nd _ B) Id) as X1. pose proof (find_query _ _ _ (v_nd _ B) Q) as X2. congruence. } subst d'. split.
      * intros j H. apply R4 in H as [H X]. apply X. cbn. auto.
      * intros H. apply in_map_iff in H as ([h2 d2] & E & H). apply query_del_in in H as [_ H]; [|exact (v_nd _ B)]. cbn in E, H. congruence.
    + left. split.
      * apply filter_In. split; auto. cbn. apply negb_true_iff, N.eqb_neq. intros ->. apply Dh. destruct (keys_uid _ _ _ _ _ _ I K Kk). auto.
      * apply query_del_in; [exact (v_nd _ B)|]. auto.
Qed.
Lemma client_cost e ce : client_ev e = Some ce -> cost e = 0.
Proof. destruct e; try discriminate; auto. Qed.
Lemma client_follow o l cs : Forall2 (fun e c => client_ev e = Some c) l cs -> forall s s', tinv s -> trun o s l = Val s' ->
  tinv s' /\ crun (t_cl s) (flat_map (fun c => [c; CReturn]) cs) = Val (t_cl s') /\ t_next s' = t_next s /\ (forall j d, connected s' j d -> connected s j d) /\ (forall h, In h (map fst (t_qs s')) -> In h (map fst (t_qs s))) /\
  forall u h q d, In (u, h, q) (keys (t_cl s)) -> In (h, d) (t_qs s) -> follows s' u h q d.
Proof.
  induction 1 as [|e c l cs Ec F IH]; intros s s' T E; cbn [trun] in E.
  - injection E as <-. split; auto. split; auto. split; auto. split; auto. split; auto. intros u h q d K Q. left. auto.
  - pose proof T as [B W]. destruct (tstep_total o s e T) as (s1 & E1 & T1 & L1); [rewrite (client_cost _ _ Ec); pose proof (v_uid _ B); lia|]. rewrite E1 in E. cbn [mbind] in E.
    destruct (tstep_client _ _ _ _ _ B Ec E1) as [Td Cr]. destruct (IH s1 s' T1 E) as (T2 & Cr2 & N2 & C2 & H2 & F2).
    assert (N1 : t_next s1 = t_next s) by (destruct Td; auto).
    split; auto. split; [change (flat_map (fun c0 => [c0; CReturn]) (c :: cs)) with ([c; CReturn] ++ flat_map (fun c0 => [c0; CReturn]) cs)%list; rewrite crun_app, Cr; exact Cr2|].
    split; [congruence|]. split; [intros j d C; eapply told_conn; eauto|]. split; [intros h C; eapply told_qs; eauto|].
    intros u h q d K Q. destruct (told_follows o s s1 u h q d B Td K Q) as [(K1 & Q1)|[X Y]].
    + destruct (F2 u h q d K1 Q1) as [(K2 & Q2)|Z]; [left; auto|right; auto].
    + right. split; auto. intros j C. apply (X j), C2, C.
Qed.
Lemma key_open u h q c : In (u, h, q) (keys c) -> open u c.
Proof. unfold keys, key. intros H. apply in_map_iff in H as (r & E & H). injection E as <- _ _. exists r. auto. Qed.
Lemma key_start u h q c : cinv c -> c_stack c = [] -> In (u, h, q) (keys c) -> exists mn tm t0, In (TStart u q mn tm t0) (c_trace c).
Proof.
  unfold keys, key. intros I St H. apply in_map_iff in H as (r & E & H). injection E as <- <- <-. pose proof (i_req _ I _ H) as (t0 & A & _). apply in_of in A as [A _]. eauto.
Qed.
Lemma trun_app o l l' : forall s, trun o s (l ++ l') = mdo s' <- trun o s l;; trun o s' l'.
Proof. induction l as [|e l IH]; intros s; cbn [trun app]; auto. destruct (tstep o s e); cbn [mbind]; auto. Qed.
Lemma query_ends o s u h q d mn tm t0 ms ms' : tinv s -> In (u, h, q) (keys (t_cl s)) -> In (h, d) (t_qs s) -> In (TStart u q mn tm t0) (c_trace (t_cl s)) -> mn + tm <= ms -> mn + tm <= ms' ->
  exists s', trun o s [ETick ms; ETimer u; ETick ms'; ETimer u] = Val s' /\ tinv s' /\ final_call u (c_trace (t_cl s')) /\ (forall j, ~ connected s' j d) /\ ~ In h (map fst (t_qs s')) /\
   t_next s' = t_next s /\ (forall j d, connected s' j d -> connected s j d) /\ (forall h, In h (map fst (t_qs s')) -> In h (map fst (t_qs s))).
Proof.
  intros T K Q Sr L L'. pose proof T as [B W]. assert (Ub := v_uid _ B).
  assert (F : forall m, Forall2 (fun e c => client_ev e = Some c) [ETick m; ETimer u] [CTick m; CTimer u]) by (repeat constructor).
  assert (Tk : forall c m r, c_stack c = [] -> crun c (CTick m :: CReturn :: r) = crun c (CTick m :: r)).
  { intros c m r St. cbn [crun cstep]. rewrite St. cbn [mbind crun cstep c_stack]. reflexivity. }
  destruct (trun_total o [ETick ms; ETimer u] s T) as (s1 & E1 & T1 & _); [cbn [packets]; lia|]. destruct (client_follow o _ _ (F ms) s s1 T E1) as (_ & Cr1 & N1 & Cn1 & H1 & F1). cbn [flat_map app] in Cr1. rewrite (Tk _ _ _ (v_stack _ B)) in Cr1.
  pose proof T1 as [B1 _]. assert (Ub1 := v_uid _ B1).
  destruct (trun_total o [ETick ms'; ETimer u] s1 T1) as (s2 & E2 & T2 & _); [cbn [packets]; lia|]. destruct (client_follow o _ _ (F ms') s1 s2 T1 E2) as (_ & Cr2 & N2 & Cn2 & H2 & F2). cbn [flat_map app] in Cr2. rewrite (Tk _ _ _ (v_stack _ B1)) in Cr2.
  exists s2.
  destruct (c35_ends (t_cl s) u q mn tm t0 ms ms' (v_reach _ B) (v_stack _ B) (key_open _ _ _ _ K) Sr L L') as (c' & E' & No & Fi).
  change [CTick ms; CTimer u; CReturn; CTick ms'; CTimer u; CReturn] with ([CTick ms; CTimer u; CReturn] ++ [CTick ms'; CTimer u; CReturn])%list in E'. rewrite crun_app, Cr1 in E'. cbn [mbind] in E'. rewrite Cr2 in E'. injection E' as <-.
  split. { change [ETick ms; ETimer u; ETick ms'; ETimer u] with ([ETick ms; ETimer u] ++ [ETick ms'; ETimer u])%list. rewrite trun_app, E1. exact E2. }
  split; auto. split; auto.
  assert (G : (forall j, ~ connected s2 j d) /\ ~ In h (map fst (t_qs s2))).
  { destruct (F1 u h q d K Q) as [(K1 & Q1)|[X Y]]; [|split; [intros j Cj; exact (X j (Cn2 _ _ Cj))|intros Y'; apply Y, H2, Y']]. destruct (F2 u h q d K1 Q1) as [(K2 & _)|X]; [|exact X]. destruct No. eapply key_open; eauto. }
  destruct G as [G1 G2]. split; auto. split; auto. split; [congruence|]. split; auto.
Qed.
Lemma c58_ends o args l s i d : reached o args l s -> connected s i d -> d <> "" ->
  exists u q mn tm t0, query_init d = inl q /\ In (TStart u q mn tm t0) (c_trace (t_cl s)) /\
   forall ms ms', mn + tm <= ms -> mn + tm <= ms' -> exists s', trun o s [ETick ms; ETimer u; ETick ms'; ETimer u] = Val s' /\ closed i s' /\ final_call u (c_trace (t_cl s')).
Proof.
  intros R C D. destruct (reached_tinv _ _ _ _ R) as [T _]. pose proof T as [B W]. pose proof (creach_inv _ (v_reach _ B)) as I.
  destruct (W _ C D D) as (h & Q). cbn in Q. destruct (v_qs _ B _ _ Q) as (u & q & K & Qi). destruct (key_start _ _ _ _ I (v_stack _ B) K) as (mn & tm & t0 & Sr).
  exists u, q, mn, tm, t0. split; auto. split; auto. intros ms ms' L L'. destruct (query_ends o s u h q d mn tm t0 ms ms' T K Q Sr L L') as (s2 & E & [B2 _] & Fi & G & _ & N2 & Cn & _).
  exists s2. split; auto. split; auto.
  assert (Li : i < t_next s2) by (rewrite N2; exact (v_lt _ B _ C)). destruct (v_live _ B2 i Li) as [X|(d' & Cd)]; auto. exfalso. pose proof (connected_one _ _ _ _ B C (Cn _ _ Cd)). subst d'. exact (G _ Cd).
Qed.

(** ** The end of the program *)
Definition tally (s : tst) : N := t_handled s + N.of_nat (length (t_qs s)).
Lemma respond_clients_handled q text fin l : forall s, t_handled (respond_clients l q text fin s) = t_handled s /\ t_qs (respond_clients l q text fin s) = t_qs s.
Proof.
  induction l as [|k l IH]; intros s; cbn [respond_clients]; auto. destruct (q =? k_str k)%string; auto. destruct fin; [destruct (IH (close_client (t_put s (OMsg (k_id k) text)) (k_id k))) as [-> ->]|destruct (IH (t_put s (OMsg (k_id k) text))) as [-> ->]]; auto.
Qed.
Lemma respond_handled o s q r : t_handled s < 4294967295 -> t_handled (respond o s q r) = (if is_final r then t_handled s + 1 else t_handled s) /\ t_qs (respond o s q r) = t_qs s.
Proof.
  intros L. unfold respond. set (s1 := t_put s _). destruct (respond_clients_handled q (format o q r) (is_final r) (t_cls s1) s1) as [A B].
  destruct (is_final r); unfold t_count; cbn [t_handled t_qs]; rewrite A, B; split; auto. apply N.mod_small. cbn. lia.
Qed.
Lemma query_del_length h l x : find (fun e => fst e =? h) l = Some x -> S (length (query_del h l)) = length l.
Proof. induction l as [|[h' q] l IH]; cbn; [discriminate|]. destruct (h' =? h); [auto|]. cbn. intros E. rewrite IH; auto. Qed.
Lemma settle_tally o s s' : tally s <= 4294967295 -> settle o s = Val s' -> tally s' = tally s.
Proof.
  unfold settle. intros L E. destruct (c_stack (t_cl s)) as [|f st]; [injection E as <-; auto|]. destruct (c_trace (t_cl s)) as [|[v q mn tm t|v q rc x t|v rc x last t|v t] tr]; try (injection E as <-; auto; fail).
  set (r := mk_tres rc x last) in *. set (s1 := result_cb o s (f_handle f) r) in *. destruct (cstep (t_cl s1) CReturn) as [c|]; [|discriminate]. injection E as <-. change (tally s1 = tally s). unfold s1, result_cb.
  destruct (find _ _) as [[h q]|] eqn:F; auto. pose proof (query_del_length _ _ _ F) as Ql.
  assert (L1 : t_handled s < 4294967295) by (unfold tally in L; rewrite <- Ql in L; lia). destruct (respond_handled o s q (Some r) L1) as [H1 H2]. cbn [is_final] in H1.
  destruct (r_last r); unfold tally; cbn [t_handled t_qs t_with_qs]; rewrite H1, H2; lia.
Qed.
Lemma start_query_tally o s q s' : tally s < 4294967295 -> start_query o s q = Val s' -> tally s' = tally s + 1.
Proof.
  intros L E. assert (Er : forall d s, tally s < 4294967295 -> tally (respond o s d None) = tally s + 1).
  { intros d s0 L0. unfold tally in *. destruct (respond_handled o s0 d None ltac:(lia)) as [-> ->]. cbn [is_final]. lia. }
  unfold start_query in E. cbv zeta in E. destruct (match split_at "@" q with Some (t, _) => handling t | None => Some (o_min o, o_tmo o) end) as [[mn tm]|]; [|injection E as <-; auto].
  destruct (QUERY_STR <=? _)%nat; [injection E as <-; auto|]. destruct (query_init _) as [qq|]; [|injection E as <-; auto].
  set (h := if _ || _ then _ else _) in *. destruct (settle _ _) as [s1|] eqn:S1; [|discriminate]. cbn [mbind] in E. apply settle_tally in S1; [|change (tally s <= 4294967295); lia]. change (tally s1 = tally s) in S1.
  injection E as <-. destruct (h =? 0); [rewrite Er; lia|]. unfold tally in *. cbn [t_handled t_qs t_with_qs length]. lia.
Qed.
Lemma tstep_tally o s e s' : tally s + cost e <= 4294967295 -> tstep o s e = Val s' -> tally s <= tally s' <= tally s + cost e.
Proof.
  intros L E. destruct e; cbn [tstep cost] in *.
  1:{ injection E as <-. unfold socket_accept. destruct (o_fmt o); [destruct (o_head o)|]; unfold tally; cbn; lia. }
  1:{ unfold socket_read in E. destruct (find _ _) as [k|]; [|injection E as <-; lia]. destruct (line_of b) as [x|]; [|injection E as <-; unfold tally; cbn; lia]. cbv zeta in E.
      destruct (negb _); [injection E as <-; unfold tally; cbn; lia|]. destruct (start_query _ _ _) as [s1|] eqn:Q; [|discriminate]. injection E as <-. apply start_query_tally in Q; [|unfold tally in *; cbn; lia]. unfold tally in *. cbn in *. lia. }
  1:{ injection E as <-. destruct (find _ _); unfold tally; cbn; lia. }
  all: match type of E with (mdo c <- ?x;; _) = _ => destruct x as [c|]; [|discriminate] end; cbn [mbind] in E; apply settle_tally in E; [|unfold tally in *; cbn; lia]; unfold tally in *; cbn in *; lia.
Qed.
Lemma trun_tally o l : forall s s', tally s + N.of_nat (packets l) <= 4294967295 -> trun o s l = Val s' -> tally s <= tally s' <= tally s + N.of_nat (packets l).
Proof.
  induction l as [|e l IH]; intros s s' L E; cbn [trun] in E; [injection E as <-; lia|]. rewrite packets_cost in *. destruct (tstep o s e) as [s1|] eqn:E1; [|discriminate]. cbn [mbind] in E. apply tstep_tally in E1; [|lia]. apply IH in E; lia.
Qed.
Lemma start_queries_tally o l : forall s s', tally s + N.of_nat (length l) <= 4294967295 -> start_queries o l s = Val s' -> tally s' = tally s + N.of_nat (length l).
Proof.
  induction l as [|q l IH]; intros s s' L E; cbn [start_queries] in E; [injection E as <-; cbn; lia|]. cbn [length] in *. destruct (start_query o s q) as [s1|] eqn:E1; [|discriminate]. cbn [mbind] in E. apply start_query_tally in E1; [|lia]. apply IH in E; lia.
Qed.
Lemma reached_tally o args l s : reached o args l s -> N.of_nat (length args) <= tally s <= 4294967295.
Proof.
  intros (L & s0 & E0 & E). unfold start in E0. apply start_queries_tally in E0.
  - assert (T0 : tally (match o_fmt o with Csv => if o_head o then t_put t_init (OLine CSV_HEADERS) else t_init | Json => t_init end) = 0) by (destruct (o_fmt o); [destruct (o_head o)|]; reflexivity). rewrite T0 in E0. apply trun_tally in E; lia.
  - destruct (o_fmt o); [destruct (o_head o)|]; unfold tally; cbn; lia.
Qed.
Lemma c60_done o args l s : reached o args l s -> args <> [] -> done o s = true <-> o_daemon o = false /\ t_qs s = [].
Proof.
  intros R Ne. destruct (reached_tally _ _ _ _ R) as [A _]. unfold done. rewrite !andb_true_iff, !negb_true_iff, N.eqb_neq. unfold tally in A. destruct args; [contradiction|]. cbn [length] in A. split.
  - intros [[X _] Y]. split; auto. destruct (t_qs s); [auto|discriminate].
  - intros [X Y]. rewrite Y in *. split; auto. split; auto. cbn in A. lia.
Qed.

(** only time passes *)
Definition timer_ev (e : tev) : Prop := match e with ETimer _ | ETick _ => True | _ => False end.
Lemma nodup_incl_lt (h : N) l l' : NoDup l -> In h l' -> ~ In h l -> (forall x, In x l -> In x l') -> (length l < length l')%nat.
Proof.
  intros Nd Ih Nh Sub. assert (X : (length (h :: l) <= length l')%nat) by (apply NoDup_incl_length; [constructor; auto|intros x [<-|Hx]; auto]). cbn in X. lia.
Qed.
Lemma all_end o n : forall s, tinv s -> (length (t_qs s) <= n)%nat -> exists l s', Forall timer_ev l /\ (length l <= 4 * n)%nat /\ trun o s l = Val s' /\ t_qs s' = [].
Proof.
  induction n as [|n IH]; intros s T L.
  - exists [], s. split; auto. split; auto. split; auto. destruct (t_qs s); auto. cbn in L. lia.
  - destruct (t_qs s) as [|[h d] qs] eqn:Eq; [exists [], s; split; auto; split; [cbn; lia|auto]|].
    pose proof T as [B W]. pose proof (creach_inv _ (v_reach _ B)) as I. assert (Q : In (h, d) (t_qs s)) by (rewrite Eq; left; auto).
    destruct (v_qs _ B _ _ Q) as (u & q & K & Qi). destruct (key_start _ _ _ _ I (v_stack _ B) K) as (mn & tm & t0 & Sr).
    destruct (query_ends o s u h q d mn tm t0 (mn + tm) (mn + tm) T K Q Sr ltac:(lia) ltac:(lia)) as (s1 & E1 & T1 & _ & _ & Nh & _ & _ & Sub).
    assert (Lt : (length (map fst (t_qs s1)) < length (map fst (t_qs s)))%nat) by (apply (nodup_incl_lt h); auto; [exact (v_nd _ (proj1 T1))|rewrite Eq; left; auto]). rewrite !map_length, Eq in Lt. cbn in L, Lt.
    destruct (IH s1 T1 ltac:(lia)) as (l & s' & F & Ll & E & Z). exists ([ETick (mn + tm); ETimer u; ETick (mn + tm); ETimer u] ++ l)%list, s'. split; [apply Forall_app; split; auto; repeat constructor|]. split; [rewrite app_length; cbn [length]; lia|]. split; auto. rewrite trun_app, E1. exact E.
Qed.
Lemma c60_ends o args l s : reached o args l s -> args <> [] -> o_daemon o = false -> exists l' s', Forall timer_ev l' /\ trun o s l' = Val s' /\ done o s' = true.
Proof.
  intros R Ne Da. destruct (reached_tinv _ _ _ _ R) as [T _]. destruct (all_end o _ s T (le_n _)) as (l' & s' & F & _ & E & Z). exists l', s'. split; auto. split; auto.
  assert (R' : reached o args (l ++ l') s').
  { destruct R as (L & s0 & E0 & E1). split; [|exists s0; split; auto; rewrite trun_app, E1; exact E]. assert (P : packets (l ++ l') = packets l); [|rewrite P; auto]. clear - F. induction l as [|e l IH]; cbn; [|destruct e; cbn; rewrite ?IH; auto]. induction F as [|e l He F IH]; auto. destruct e; try contradiction; auto. }
  apply (c60_done o args (l ++ l') s' R' Ne). auto.
Qed.
