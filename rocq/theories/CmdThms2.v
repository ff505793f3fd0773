(** Proofs for C71: what is done. *)
From Verif Require Import Base Ctrl Mdns Main MainSpec MainThms Cmd CmdSpec CmdThms.
From Verif Require MsNet MsNetSpec MsNetThms MsTool MsToolSpec MsToolThms4 MsToolThms8.
Local Open Scope string_scope. Local Open Scope N_scope.

Lemma format_ok x f : look_format x = Some f <-> format_named x f.
Proof.
  unfold look_format, format_named. destruct x as [t|].
  - destruct (prefix t "json") eqn:J.
    + apply prefix_begins in J. split.
      * intros E. inversion E. auto.
      * intros [[-> _]|(_ & [r C] & N)]; auto. exfalso. destruct J as [r' J]. destruct t as [|c t]; [auto|]. injection C as <- _. discriminate J.
    + assert (NJ : ~ begins t "json"). { intros H. apply prefix_begins in H. congruence. }
      destruct (prefix t "csv") eqn:C.
      * apply prefix_begins in C. split; [intros E; inversion E; right; split; auto; split; auto; intros ->; discriminate|intros [[_ H]|[-> _]]; [tauto|auto]].
      * assert (NC : ~ begins t "csv"). { intros H. apply prefix_begins in H. congruence. } split; [discriminate|tauto].
  - split; congruence.
Qed.
Lemma loop_safe o args : forall b pre s, MsToolSpec.reached o args pre s -> N.of_nat (length args + MsToolSpec.packets (pre ++ concat b)) <= 4294967295 ->
  exists r, MsTool.loop o s b = Val r.
Proof.
  induction b as [|x b IH]; intros pre s R L; cbn [MsTool.loop]; [eauto|]. cbn [concat] in L.
  assert (P : forall a c, MsToolSpec.packets (a ++ c) = (MsToolSpec.packets a + MsToolSpec.packets c)%nat).
  { intros a c. induction a as [|y a IHa]; [reflexivity|]. cbn. destruct y; cbn; rewrite ?IHa; reflexivity. }
  assert (L1 : N.of_nat (length args + MsToolSpec.packets (pre ++ x)) <= 4294967295). { rewrite !P in *. lia. }
  destruct (MsToolThms4.c58_safe o args (pre ++ x) L1) as [s1 R1]. destruct R as (_ & s0 & S0 & T0). pose proof R1 as (_ & s0' & S0' & T1).
  rewrite S0 in S0'. injection S0' as <-. rewrite MsToolThms8.trun_app, T0 in T1. cbn in T1. rewrite T1. cbn. destruct (MsTool.done o s1); [eauto|].
  apply (IH (pre ++ x)%list s1 R1). rewrite <- app_assoc. exact L.
Qed.
Lemma tool_safe o args b : N.of_nat (length args + MsToolSpec.packets (concat b)) <= 4294967295 -> exists r, MsTool.main o args b = Val r.
Proof.
  intros L. assert (L0 : N.of_nat (length args + MsToolSpec.packets []) <= 4294967295) by (cbn; lia).
  destruct (MsToolThms4.c58_safe o args [] L0) as [s R]. unfold MsTool.main. pose proof R as (_ & s0 & S0 & T0). rewrite S0. cbn in *. injection T0 as ->. exact (loop_safe o args b [] s R L).
Qed.
Lemma loop_daemon o b : MsTool.o_daemon o = true -> forall s s' x, MsTool.loop o s b = Val (s', x) -> x = false.
Proof.
  intros D. induction b as [|y b IH]; intros s s' x; cbn; [congruence|]. destruct (MsTool.trun o s y) as [s1|]; cbn; [|discriminate]. unfold MsTool.done. rewrite D. cbn. apply IH.
Qed.
Lemma tool_oneshot o args : MsTool.o_daemon o = false -> args <> [] -> N.of_nat (length args) <= 4294967295 -> exists l s, Forall MsToolThms8.timer_ev l /\ MsTool.main o args [l] = Val (s, true).
Proof.
  intros D A L. assert (L0 : N.of_nat (length args + MsToolSpec.packets []) <= 4294967295) by (cbn; lia).
  destruct (MsToolThms4.c58_safe o args [] L0) as [s R]. destruct (MsToolThms8.c60_ends o args [] s R A D) as (l & s' & F & T & E).
  exists l. unfold MsTool.main. destruct R as (_ & s0 & S0 & T0). cbn in T0. injection T0 as ->. rewrite S0. cbn. rewrite T. cbn. rewrite E. eauto.
Qed.

Lemma main_accepted e args b l ws o : spelled look_shorts look_longs l ws args -> look_args e args = inl (o, ws) -> k_send o = false ->
  (startable e o ws -> exists t, runs_with e o t /\ look_main e args b = mdo r <- MsTool.main t ws b;; Val (LRan (fst r) (snd r), [])) /\
  (~ startable e o ws -> exists x m, look_main e args b = Val (x, m) /\ In x [LUsage; LTimeout; LFormat; LMdns; LSocket] /\ (k_quiet o = true -> m = [])).
Proof.
  intros _ A S. unfold look_main. rewrite A, S. split.
  - intros [W T (f & F) M K]. assert (E1 : negb (k_daemon o) && match ws with [] => true | _ => false end = false). { destruct W as [W|W]; [destruct ws; [tauto|apply andb_false_r]|rewrite W; auto]. }
    rewrite E1. assert (E2 : k_daemon o && (k_tmo o =? 0) = false). { destruct (k_daemon o); auto. apply N.eqb_neq, T. auto. }
    rewrite E2. apply format_ok in F. rewrite F, M. cbn [negb]. assert (E3 : match k_sock o with Some p => e_sock e p | None => true end = true). { destruct (k_sock o); auto. }
    rewrite E3. cbn [negb]. eexists. split; [|reflexivity]. apply format_ok in F. split; cbn; auto.
  - intros N. unfold say. assert (Q : forall m, k_quiet o = true -> (if k_quiet o then [] else [m : lmsg]) = []). { intros m ->. auto. }
    destruct (negb (k_daemon o) && _) eqn:E1; [do 2 eexists; split; [reflexivity|]; split; cbn; auto 10|].
    destruct (k_daemon o && _) eqn:E2; [do 2 eexists; split; [reflexivity|]; split; cbn; auto 10|].
    destruct (look_format (k_fmt o)) as [f|] eqn:F; [|do 2 eexists; split; [reflexivity|]; split; cbn; auto 10].
    destruct (e_mdns e (k_ip o) (k_port o)) eqn:M; cbn [negb]; [|do 2 eexists; split; [reflexivity|]; split; cbn; auto 10].
    destruct (match k_sock o with Some p => e_sock e p | None => true end) eqn:K; cbn [negb]; [|do 2 eexists; split; [reflexivity|]; split; cbn; auto 10].
    exfalso. apply N. split; auto.
    + destruct ws; [|left; discriminate]. right. destruct (k_daemon o); [reflexivity|discriminate].
    + intros D. rewrite D in E2. apply N.eqb_neq. exact E2.
    + exists f. apply format_ok. auto.
    + intros p Kp. rewrite Kp in K. exact K.
Qed.
Lemma main_send e args b ws o : look_args e args = inl (o, ws) -> k_send o = true ->
  look_main e args b = (mdo r <- (if e_mdns e (k_ip o) (k_port o) then MsNet.do_send (e_pton e) (k_suffix o) ws else Val (1%Z, None));;
    Val (LSent (fst r) (snd r), ((if k_daemon o || is_some (k_fmt o) || is_some (k_sock o) then say o MListening else []) ++ if (fst r =? 0)%Z then [] else say o MSend)%list)).
Proof. intros A S. unfold look_main. rewrite A, S. reflexivity. Qed.
Lemma main_stopped e args b x : look_args e args = inr x -> look_main e args b = Val x.
Proof. intros A. unfold look_main. rewrite A. reflexivity. Qed.
