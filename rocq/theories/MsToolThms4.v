(** Proofs about the lookup tool, continued: queries and socket clients (C58). *)
From Verif Require Import Base PeerId DbProofs Db Auth Gsup Router Ctrl MsLookup Mdns MsClient MsClientSpec MsClientThms MsClientThms2 MsTool MsToolSpec MsToolThms MsToolThms2 MsToolThms3.
Local Open Scope N_scope.

(** ** A query *)
(** the query is refused, or taken *)
Inductive started (o : topts) (s : tst) (d : string) (s' : tst) : Prop :=
| st_err : s' = respond o s d None -> started o s d s'
| st_ok : forall qq h mn tm, query_init d = inl qq -> t_qs s' = (h, d) :: t_qs s -> t_cls s' = t_cls s -> t_out s' = t_out s -> t_next s' = t_next s ->
    keys (t_cl s') = keys (t_cl s) ++ [(c_uid (t_cl s), h, qq)] -> (forall v, calls v (c_trace (t_cl s')) = calls v (c_trace (t_cl s))) ->
    c_uid (t_cl s') = c_uid (t_cl s) + 1 -> In (TStart (c_uid (t_cl s)) qq mn tm (c_now (t_cl s))) (c_trace (t_cl s')) -> ~ In h (map fst (t_qs s)) -> started o s d s'.
Lemma settle_quiet o s : c_stack (t_cl s) = [] -> settle o s = Val s.
Proof. intros E. unfold settle. rewrite E. reflexivity. Qed.
Lemma err_waits o s d : binv s -> waits s d -> waits (respond o s d None) "".
Proof.
  intros B W k Ik Ne _. pose proof (respond_spec o s d None (v_ids _ B)) as [_ A2 _ A4 _ _ _ _ _ _]. rewrite A2. apply A4 in Ik as [Ik X]. apply W; auto.
Qed.
Lemma start_query_spec o s q : binv s -> waits s (domain_of q) -> c_uid (t_cl s) < 4294967295 ->
  exists s', start_query o s q = Val s' /\ started o s (domain_of q) s' /\ tinv s' /\ c_uid (t_cl s') <= c_uid (t_cl s) + 1.
Proof.
  intros B W L. set (d := domain_of q) in *. unfold start_query. fold d.
  assert (Er : exists s', Val (respond o s d None) = Val s' /\ started o s d s' /\ tinv s' /\ c_uid (t_cl s') <= c_uid (t_cl s) + 1).
  { exists (respond o s d None). split; auto. split; [apply st_err; auto|]. pose proof (respond_spec o s d None (v_ids _ B)) as [A1 _ _ _ _ _ _ _ _ _]. rewrite A1. split; [|lia]. split; [apply respond_binv; auto|apply err_waits; auto]. }
  destruct (match split_at "@" q with Some _ => _ | None => _ end) as [[mn tm]|]; auto. destruct (_ <=? _)%nat; auto. destruct (query_init d) as [qq|] eqn:Qi; auto. cbv zeta.
  destruct (query_init_valid _ _ Qi) as [V1 V2]. rewrite V1, V2. cbn [negb orb]. set (h := if c_next (t_cl s) =? 0 then 1 else c_next (t_cl s)).
  pose proof (v_reach _ B) as R. pose proof (creach_inv _ R) as I. pose proof (short_free _ (v_short _ B) L) as Fr.
  destruct (request_moved (t_cl s) qq mn tm I Fr (v_stack _ B) V1 V2) as (M1 & M2 & M3 & M4 & tm' & M5). fold h in M2. set (c1 := request (t_cl s) qq mn tm) in *.
  rewrite settle_quiet by exact M1. cbn [mbind]. assert (H0 : h <> 0) by (unfold h; destruct (N.eqb_spec (c_next (t_cl s)) 0); lia). destruct (N.eqb_spec h 0); [contradiction|].
  assert (Es : cstep (t_cl s) (CRequest qq mn tm) = Val c1) by reflexivity.
  assert (R1 : creach c1) by (eapply cr_step; eauto).
  destruct (step_short (t_cl s) (CRequest qq mn tm) c1 I (v_short _ B) ltac:(change (reqs_in [CRequest qq mn tm]) with 1; lia) Es) as [S1 _].
  assert (N1 : uncancelled c1) by (intros u C; apply (v_unc _ B u); eapply no_cancel_step; eauto; discriminate).
  assert (Hn : ~ In h (map fst (t_qs s))).
  { intros H. apply in_map_iff in H as ([h' d'] & E & H). cbn in E. subst h'. destruct (v_qs _ B _ _ H) as (u1 & q1 & K & _). unfold keys in K. apply in_map_iff in K as (r & E & Ir). unfold key in E. injection E as _ E _. destruct Fr as [Fr _]. exact (Fr _ Ir E). }
  eexists. split; [reflexivity|]. split; [|split; [split|]].
  - eapply st_ok with (h := h); cbn [t_qs t_cls t_out t_next t_cl t_with_cl t_with_qs]; eauto.
  - destruct B. constructor; cbn [t_qs t_cls t_out t_next t_cl t_with_cl t_with_qs]; auto; [lia| | |].
    + intros h' d'. cbn. rewrite M2. intros [E|H]; [injection E as <- <-; exists (c_uid (t_cl s)), qq; split; auto; apply in_app_iff; right; left; auto|]. destruct (v_qs _ _ H) as (u1 & q1 & X & Y). exists u1, q1. split; auto. apply in_app_iff. auto.
    + intros u1 h1 q1. cbn. rewrite M2, in_app_iff. intros [H|[H|[]]]; [destruct (v_keys _ _ _ H) as (d1 & X); exists d1; auto|]. injection H as <- <- <-. exists d. auto.
    + cbn. constructor; auto.
  - intros k Ik Ne _. cbn in Ik |- *. destruct (string_dec (k_str k) d) as [E|D]; [exists h; rewrite E; auto|]. destruct (W _ Ik Ne D) as (h' & H). exists h'. auto.
  - cbn. lia.
Qed.
(** ** Socket clients *)
Lemma close_binv s i : binv s -> (exists d, connected s i d) -> binv (close_client s i).
Proof.
  intros B (d0 & C0). assert (Nc : ~ In (OClose i) (t_out s)) by (intros X; destruct (v_gone _ B _ X) as [_ Y]; exact (Y _ C0)). destruct B. unfold close_client.
  constructor; cbn; auto.
  - apply filter_nodup. auto.
  - intros k H. apply filter_In in H as [H _]. auto.
  - intros j t [H|H]; [discriminate|eauto].
  - intros j [E|H].
    + injection E as <-. split; [apply (v_lt _ C0)|]. intros d X. apply filter_In in X as [_ X]. cbn in X. rewrite N.eqb_refl in X. discriminate.
    + destruct (v_gone _ H) as [X Y]. split; auto. intros d Z. apply filter_In in Z as [Z _]. exact (Y _ Z).
  - intros j L. unfold closed, connected. cbn. destruct (v_live _ L) as [C|(d & C)]; auto. destruct (N.eq_dec i j) as [->|D]; [left; left; auto|]. right. exists d. apply filter_In. split; auto. cbn. apply negb_true_iff, N.eqb_neq. auto.
Qed.
Lemma close_tinv s i : tinv s -> (exists d, connected s i d) -> tinv (close_client s i).
Proof. intros [B W] C. split; [apply close_binv; auto|]. intros k Ik. cbn in *. apply filter_In in Ik as [Ik _]. apply W. auto. Qed.
Lemma find_client l i k : find (fun k => k_id k =? i) l = Some k -> In k l /\ k_id k = i.
Proof. intros H. apply find_some in H as [I E]. apply N.eqb_eq in E. auto. Qed.
Lemma set_cls s i q k : NoDup (map k_id (t_cls s)) -> In k (t_cls s) -> k_id k = i -> forall k', In k' (t_cls (set_str s i q)) <-> k' = mk_tclient i q \/ (In k' (t_cls s) /\ k_id k' <> i).
Proof.
  intros N I E k'. cbn. rewrite in_map_iff. split.
  - intros (a & X & Y). destruct (N.eqb_spec (k_id a) i); subst k'; auto.
  - intros [->|[X Y]].
    + exists k. rewrite E, N.eqb_refl. auto.
    + exists k'. destruct (N.eqb_spec (k_id k') i); [contradiction|auto].
Qed.
Lemma set_ids s i q : map k_id (t_cls (set_str s i q)) = map k_id (t_cls s).
Proof. cbn. rewrite map_map. apply map_ext. intros a. destruct (N.eqb_spec (k_id a) i); auto. Qed.
Lemma set_binv s i q k : binv s -> In k (t_cls s) -> k_id k = i -> binv (set_str s i q).
Proof.
  intros B Ik Ei. pose proof (set_cls s i q k (v_ids _ B) Ik Ei) as Sc. pose proof (set_ids s i q) as Si. destruct B. constructor; auto; cbn [t_cl t_qs t_next t_out t_with_cls set_str].
  - rewrite Si. auto.
  - intros k' H. apply Sc in H as [->|[H _]]; auto. cbn. rewrite <- Ei. auto.
  - intros j H. destruct (v_gone _ H) as [X Y]. split; auto. intros d Z. apply Sc in Z as [Z|[Z _]]; [|exact (Y _ Z)]. injection Z as -> ->. apply (Y (k_str k)). unfold connected. rewrite <- Ei, <- (client_eta k (k_str k) eq_refl). auto.
  - intros j L. destruct (v_live _ L) as [C|(d & C)]; auto. right. destruct (N.eq_dec j i) as [->|D]; [exists q; apply Sc; auto|]. exists d. apply Sc. right. auto.
Qed.
Lemma set_waits s i q k : tinv s -> In k (t_cls s) -> k_id k = i -> waits (set_str s i q) q.
Proof.
  intros [B W] Ik Ei k' Ik' Ne D. apply (set_cls s i q k (v_ids _ B) Ik Ei) in Ik' as [->|[Ik' _]]; [contradiction|]. apply W; auto.
Qed.
Lemma put_line_tinv s t : tinv s -> tinv (t_put s (OLine t)).
Proof.
  intros [B W]. split; [|exact W]. destruct B. constructor; auto.
  - intros i x [H|H]; [discriminate|eauto].
  - intros i [H|H]; [discriminate|]. exact (v_gone _ H).
  - intros i L. destruct (v_live _ L) as [C|C]; auto. left. right. auto.
Qed.
Lemma put_msg_tinv s i d t : tinv s -> connected s i d -> tinv (t_put s (OMsg i t)).
Proof.
  intros [B W] C. split; [|exact W]. destruct B. constructor; auto.
  - intros j x [H|H]; [injection H as <- <-; apply (v_lt _ C)|eauto].
  - intros j [H|H]; [discriminate|]. exact (v_gone _ H).
  - intros j L. destruct (v_live _ L) as [C'|C']; auto. left. right. auto.
  - cbn. split; auto. intros X. destruct (v_gone _ X) as [_ Y]. exact (Y _ C).
Qed.
(** what a packet does *)
Inductive read_step (o : topts) (s : tst) (i : N) (b : list ascii) (s' : tst) : Prop :=
| rd_nobody : (forall d, ~ connected s i d) -> s' = s -> read_step o s i b s'
| rd_close : forall d, connected s i d -> asked b = None -> s' = close_client s i -> read_step o s i b s'
| rd_again : forall d q, connected s i d -> d <> "" -> asked b = Some q -> s' = t_put s (OMsg i (format o q None)) -> read_step o s i b s'
| rd_query : forall q s1 x, connected s i "" -> asked b = Some q -> started o (set_str s i q) q s1 -> s' = t_put s1 (OLine x) -> tinv s1 -> read_step o s i b s'.
Lemma socket_read_spec o s i b : tinv s -> c_uid (t_cl s) < 4294967295 ->
  exists s', socket_read o s i b = Val s' /\ read_step o s i b s' /\ tinv s' /\ c_uid (t_cl s') <= c_uid (t_cl s) + 1.
Proof.
  intros T L. pose proof T as [B W]. unfold socket_read. destruct (find _ _) as [k|] eqn:F.
  2:{ exists s. split; auto. split; [|split; auto; lia]. apply rd_nobody; auto. intros d C. apply (find_none _ _ F) in C. cbn in C. rewrite N.eqb_refl in C. discriminate. }
  apply find_client in F as [Ik Ei]. assert (C : connected s i (k_str k)) by (unfold connected; rewrite <- Ei, <- (client_eta k (k_str k) eq_refl); auto).
  destruct (line_of b) as [x|] eqn:Lb.
  2:{ eexists. split; [reflexivity|]. split; [eapply rd_close; eauto; unfold asked; rewrite Lb; auto|]. split; [apply close_tinv; eauto|cbn; lia]. }
  cbv zeta. assert (As : asked b = Some (domain_of x)) by (unfold asked; rewrite Lb; auto). destruct (String.eqb_spec (k_str k) "") as [E|E]; cbn [negb].
  - rewrite E in C. destruct (start_query_spec o (set_str s i (domain_of x)) x) as (s1 & E1 & St & T1 & L1); [eapply set_binv; eauto|eapply set_waits; eauto|exact L|].
    rewrite E1. cbn [mbind]. eexists. split; [reflexivity|]. split; [eapply rd_query; eauto|]. split; [apply put_line_tinv; auto|exact L1].
  - eexists. split; [reflexivity|]. split; [eapply rd_again; eauto|]. split; [eapply put_msg_tinv; eauto|cbn; lia].
Qed.
Lemma accept_tinv o s : tinv s -> tinv (socket_accept o s).
Proof.
  intros T. pose proof T as [B W]. unfold socket_accept. set (s1 := mk_tst _ _ _ _ _ _).
  assert (T1 : tinv s1).
  { split; [|intros k [<-|Ik] Ne; [contradiction|apply W; auto]]. destruct B. constructor; auto; cbn.
    - constructor; auto. intros H. apply in_map_iff in H as (k & E & H). specialize (v_lt _ H). lia.
    - intros k [<-|H]; [cbn; lia|]. specialize (v_lt _ H). lia.
    - intros i t H. specialize (v_msg _ _ H). lia.
    - intros i H. destruct (v_gone _ H) as [X Y]. split; [lia|]. intros d [Z|Z]; [injection Z as Z _; lia|exact (Y _ Z)].
    - intros i H. destruct (N.eq_dec i (t_next s)) as [->|D]; [right; exists ""; left; auto|]. destruct (v_live i ltac:(lia)) as [C|(d & C)]; [left; exact C|right; exists d; right; exact C]. }
  destruct (o_fmt o); auto. destruct (o_head o); auto. apply (put_msg_tinv s1 (t_next s) ""); auto. left. auto.
Qed.
(** ** Runs *)
Definition cost (e : tev) : N := match e with EPacket _ _ => 1 | _ => 0 end.
Lemma tstep_total o s e : tinv s -> c_uid (t_cl s) + cost e <= 4294967295 -> exists s', tstep o s e = Val s' /\ tinv s' /\ c_uid (t_cl s') <= c_uid (t_cl s) + cost e.
Proof.
  intros T L. pose proof T as [B W]. destruct e as [|i b|i|q x|u|ms]; cbn [tstep cost] in *.
  - eexists. split; [reflexivity|]. split; [apply accept_tinv; auto|]. unfold socket_accept. destruct (o_fmt o); [destruct (o_head o)|]; cbn; lia.
  - destruct (socket_read_spec o s i b T ltac:(lia)) as (s' & E & _ & T' & L'). eauto.
  - eexists. split; [reflexivity|]. destruct (find _ _) as [k|] eqn:F; [|split; auto; lia]. apply find_client in F as [Ik Ei]. split; [|cbn; lia]. apply close_tinv; auto. exists (k_str k). unfold connected. rewrite <- Ei, <- (client_eta k (k_str k) eq_refl). auto.
  - destruct (settle_told o s (CAnswer q x) B Logic.I) as (s' & E & Td & X1 & X2 & X3 & X4 & X5 & _). exists s'. split; auto. split; [|lia]. split; [eapply told_binv; eauto|eapply told_waits; eauto].
  - destruct (settle_told o s (CTimer u) B Logic.I) as (s' & E & Td & X1 & X2 & X3 & X4 & X5 & _). exists s'. split; auto. split; [|lia]. split; [eapply told_binv; eauto|eapply told_waits; eauto].
  - destruct (settle_told o s (CTick ms) B Logic.I) as (s' & E & Td & X1 & X2 & X3 & X4 & X5 & _). exists s'. split; auto. split; [|lia]. split; [eapply told_binv; eauto|eapply told_waits; eauto].
Qed.
Lemma packets_cost e l : N.of_nat (packets (e :: l)) = cost e + N.of_nat (packets l).
Proof. destruct e; cbn [packets cost]; lia. Qed.
Lemma trun_total o l : forall s, tinv s -> c_uid (t_cl s) + N.of_nat (packets l) <= 4294967295 -> exists s', trun o s l = Val s' /\ tinv s' /\ c_uid (t_cl s') <= c_uid (t_cl s) + N.of_nat (packets l).
Proof.
  induction l as [|e l IH]; intros s T L; cbn [trun]; [exists s; split; auto; split; auto; lia|]. rewrite packets_cost in *. destruct (tstep_total o s e T) as (s1 & E & T1 & L1); [lia|]. rewrite E. cbn [mbind].
  destruct (IH s1 T1) as (s2 & E2 & T2 & L2); [lia|]. exists s2. split; auto. split; auto. lia.
Qed.
Lemma start_total o args : N.of_nat (length args) <= 4294967295 -> exists s, start o args = Val s /\ tinv s /\ c_uid (t_cl s) <= N.of_nat (length args).
Proof.
  intros L. unfold start. set (s0 := match o_fmt o with Csv => _ | Json => _ end).
  assert (G : forall l s, tinv s -> c_uid (t_cl s) + N.of_nat (length l) <= 4294967295 -> exists s', start_queries o l s = Val s' /\ tinv s' /\ c_uid (t_cl s') <= c_uid (t_cl s) + N.of_nat (length l)).
  { induction l as [|q l IH]; intros s T L'; cbn [start_queries]; [exists s; split; auto; split; auto; cbn; lia|]. cbn [length] in *. rewrite Nat2N.inj_succ in *.
    destruct T as [B W]. destruct (start_query_spec o s q B) as (s1 & E & _ & T1 & L1); [intros k Ik Ne _; apply W; auto|lia|]. rewrite E. cbn [mbind]. destruct (IH s1 T1) as (s2 & E2 & T2 & L2); [lia|]. exists s2. split; auto. split; auto. lia. }
  assert (U : c_uid (t_cl s0) = 0) by (unfold s0; destruct (o_fmt o); [destruct (o_head o)|]; reflexivity).
  destruct (G args s0 (init_tinv o)) as (s & E & T & L'); [rewrite U; lia|]. exists s. rewrite U in L'. auto.
Qed.
Lemma reached_tinv o args l s : reached o args l s -> tinv s /\ c_uid (t_cl s) <= N.of_nat (length args + packets l).
Proof.
  intros (L & s0 & E & Er). destruct (start_total o args) as (s1 & E1 & T1 & L1); [lia|]. rewrite E in E1. injection E1 as <-.
  destruct (trun_total o l s0 T1) as (s2 & E2 & T2 & L2); [lia|]. rewrite Er in E2. injection E2 as <-. split; auto. lia.
Qed.
Lemma c58_safe o args l : N.of_nat (length args + packets l) <= 4294967295 -> exists s, reached o args l s.
Proof.
  intros L. destruct (start_total o args) as (s1 & E1 & T1 & L1); [lia|]. destruct (trun_total o l s1 T1) as (s2 & E2 & T2 & L2); [lia|]. exists s2. split; auto. exists s1. auto.
Qed.
