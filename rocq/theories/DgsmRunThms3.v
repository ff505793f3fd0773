(** Proofs about the mDNS server and client of the HLR: the theorems. *)
From Verif Require Import Base PeerId Db Auth Gsup Router Hlr UssdCfg SmsCfg MsLookup Mdns Proxy MsServer PeerSpec MsServerSpec Ctrl Config ConfigSpec ConfigThms ConfigThms2 ConfigThms3 DgsmRun DgsmRunSpec DgsmRunThms DgsmRunThms2.
Local Open Scope string_scope.
Local Open Scope list_scope.

Lemma sw_wanted s a w : srv_wanted (dr_conf s) a w -> dr_allow s = true -> sw s = true /\ srv_at s = (a, w).
Proof. intros (A & B & C & D) E. unfold sw, srv_at. rewrite A, B, C, D, E. auto. Qed.
Lemma cw_wanted s a w : cli_wanted (dr_conf s) a w -> dr_allow s = true -> cw s = true /\ cli_at s = (a, w, dr_gen s).
Proof. intros (A & B & C & D) E. unfold cw, cli_at. rewrite A, B, C, D, E. auto. Qed.
Lemma sw_parts s : sw s = true -> dr_allow s = true /\ srv_wanted (dr_conf s) (fst (srv_at s)) (snd (srv_at s)).
Proof. unfold sw. rewrite !andb_true_iff. intros [[A B] C]. split; [exact A|]. repeat split; auto. Qed.
Lemma cw_parts s : cw s = true -> dr_allow s = true /\ cli_wanted (dr_conf s) (fst (fst (cli_at s))) (snd (fst (cli_at s))).
Proof. unfold cw. rewrite !andb_true_iff. intros [[A B] C]. split; [exact A|]. repeat split; auto. Qed.
Lemma rrun_app e l1 l2 s : rrun e s (l1 ++ l2) = mdo s' <- rrun e s l1;; rrun e s' l2.
Proof. revert s. induction l1 as [|x l1 IH]; intros s; [reflexivity|]. cbn [app rrun]. destruct (rstep e s x); [apply IH|reflexivity]. Qed.
Lemma rrun_dinv e l s s' : dinv s -> rrun e s l = Val s' -> dinv s'.
Proof.
  revert s. induction l as [|[o x] l IH]; intros s I H; [injection H as <-; exact I|]. cbn [rrun] in H.
  destruct (rstep_spec e s o x I) as [[B _]|(s1 & E & J & _)]; [rewrite B in H; discriminate|]. rewrite E in H. exact (IH s1 J H).
Qed.
Lemma dinv0 : dinv dr_init. Proof. split; left; reflexivity. Qed.
Lemma reach_dinv e l s : rrun e dr_init l = Val s -> dinv s. Proof. apply rrun_dinv, dinv0. Qed.

Theorem c63_only e l s : rrun e dr_init l = Val s ->
  (forall a w, srv_runs s a w -> dr_allow s = true /\ srv_wanted (dr_conf s) a w) /\ (forall a w, cli_runs s a w -> dr_allow s = true /\ cli_wanted (dr_conf s) a w).
Proof.
  intros R. destruct (reach_dinv e l s R) as [O C]. split; intros a w H.
  - destruct O as [N|[W E]]; [unfold srv_runs in H; congruence|]. unfold srv_runs in H. rewrite E in H. injection H as <- <-. exact (sw_parts s W).
  - destruct H as (g & H). destruct C as [N|[W E]]; [congruence|]. rewrite E in H. injection H as <- <- <-. exact (cw_parts s W).
Qed.
Theorem c63_up e l s : opens e dr_init l -> rrun e dr_init l = Val s -> srv_up s /\ cli_up s.
Proof.
  assert (G : forall s0, dinv s0 -> sup s0 -> cup s0 -> opens e s0 l -> rrun e s0 l = Val s -> sup s /\ cup s).
  { induction l as [|[o x] l IH]; intros s0 I S C Op R; [injection R as <-; auto|]. cbn [rrun opens] in R, Op.
    destruct (rstep_spec e s0 o x I) as [[B _]|(s1 & E & J & U & U' & _)]; [rewrite B in R; discriminate|]. rewrite E in R, Op. destruct Op as [[Os Oc] Op]. refine (IH s1 J _ _ Op R).
    - intros W. apply U; [exact W|]. left. split; [exact S|]. destruct (sw_parts s1 W) as [_ Wt]. exact (Os _ _ Wt).
    - intros W. apply U'; [exact W|]. left. split; [exact C|]. destruct (cw_parts s1 W) as [_ Wt]. destruct (Oc _ _ Wt). auto. }
  intros Op R. destruct (G dr_init dinv0 ltac:(discriminate) ltac:(discriminate) Op R) as [S C]. split.
  - intros A a w Wt. destruct (sw_wanted _ _ _ Wt A) as [W E]. unfold srv_runs. rewrite <- E. apply S, W.
  - intros A a w Wt. destruct (cw_wanted _ _ _ Wt A) as [W E]. exists (dr_gen s). rewrite <- E. apply C, W.
Qed.
Theorem c63_quiet e l s x s' : rrun e dr_init l = Val s -> rstep e s x = Val s' -> dr_allow s' = true ->
  (forall a w, srv_runs s a w -> srv_wanted (dr_conf s') a w -> srv_runs s' a w /\ filter on_srv (dr_log s') = filter on_srv (dr_log s)) /\
  (forall a w, cli_runs s a w -> cli_wanted (dr_conf s') a w -> cli_runs s' a w /\ filter (fun n => negb (on_srv n)) (dr_log s') = filter (fun n => negb (on_srv n)) (dr_log s)).
Proof.
  intros R E A. pose proof (reach_dinv e l s R) as I. destruct x as [o x]. destruct (rstep_spec e s o x I) as [[B _]|(s1 & E1 & J & U & U' & (n & L & N1 & N2) & _ & M)]; [congruence|].
  rewrite E in E1. injection E1 as <-. split; intros a w H Wt.
  - destruct (sw_wanted _ _ _ Wt A) as [W P]. unfold srv_runs in *. rewrite <- P in H. split; [rewrite <- P; apply U; auto|]. rewrite L, filter_app, (N1 W H). reflexivity.
  - destruct (cw_wanted _ _ _ Wt A) as [W P]. destruct H as (g & H).
    (* the client had the text of that time; if it was replaced, the step is undefined *)
    assert (Gg : g = dr_gen s') .
    { destruct I as [_ [N|[_ C]]]; [congruence|]. rewrite C in H. unfold cli_at in H. injection H as H1 H2 H3.
      clear U U' N1 N2 M. destruct x as [f nn ws| |]; cbn [rstep snd fst] in E.
      - destruct (exec e f nn ws (dr_conf s)) as [|c|c ch|] eqn:X; [injection E as <-; congruence| | |discriminate]; set (k := calls_of e (dr_conf s) nn ws) in *.
        + destruct (ca_text k) eqn:T; [|unfold applies in E; assert (Z : dr_gen s' = dr_gen (with_conf s c k)); [|rewrite Z; cbn; rewrite T; congruence]].
          * exfalso. pose proof (exec_calls e f nn ws (dr_conf s)) as Q. rewrite X in Q. destruct Q as (_ & _ & _ & K4). fold k in K4. specialize (K4 T). unfold applies in E. rewrite K4 in E.
            set (m := if ca_srv k then apply_srv o (with_conf s c k) else with_conf s c k) in E. assert (Fm : dr_conf m = c /\ dr_allow m = dr_allow s /\ dr_gen m = S (dr_gen s) /\ dr_cli m = dr_cli s).
            { subst m. destruct (ca_srv k); [destruct (apply_srv_spec o (with_conf s c k)) as ((F1 & F2 & F3 & F4) & _); rewrite F1, F2, F3, F4|]; cbn; rewrite T; auto. }
            clearbody m. destruct Fm as (F1 & F2 & F3 & F4). destruct (apply_cli_spec o m) as [[B _]|(s2 & B & NT & (F5 & F6 & _) & _)]; [congruence|]. rewrite B in E. injection E as ->. apply NT.
            exists a, w, g. rewrite F4, C. unfold cli_at. split; [congruence|]. split; [unfold cw in *; rewrite F5, F6 in W; exact W|]. split; [|rewrite F3; lia]. rewrite <- F5. destruct Wt as (_ & _ & Wq & _). congruence.
          * destruct (ca_srv k); [destruct (apply_srv_spec o (with_conf s c k)) as ((F1 & F2 & F3 & F4) & _); rewrite <- F3; set (m := apply_srv o (with_conf s c k)) in *|set (m := with_conf s c k) in *]; clearbody m; (destruct (ca_cli k); [|injection E as <-; reflexivity]);
              (destruct (apply_cli_spec o m) as [[B _]|(s2 & B & _ & (_ & _ & F7 & _) & _)]; [congruence|]; rewrite B in E; injection E as ->; exact F7).
        + destruct (ca_text k) eqn:T; [|unfold applies in E; assert (Z : dr_gen s' = dr_gen (with_conf s c k)); [|rewrite Z; cbn; rewrite T; congruence]].
          * exfalso. pose proof (exec_calls e f nn ws (dr_conf s)) as Q. rewrite X in Q. destruct Q as (_ & _ & _ & K4). fold k in K4. specialize (K4 T). unfold applies in E. rewrite K4 in E.
            set (m := if ca_srv k then apply_srv o (with_conf s c k) else with_conf s c k) in E. assert (Fm : dr_conf m = c /\ dr_allow m = dr_allow s /\ dr_gen m = S (dr_gen s) /\ dr_cli m = dr_cli s).
            { subst m. destruct (ca_srv k); [destruct (apply_srv_spec o (with_conf s c k)) as ((F1 & F2 & F3 & F4) & _); rewrite F1, F2, F3, F4|]; cbn; rewrite T; auto. }
            clearbody m. destruct Fm as (F1 & F2 & F3 & F4). destruct (apply_cli_spec o m) as [[B _]|(s2 & B & NT & (F5 & F6 & _) & _)]; [congruence|]. rewrite B in E. injection E as ->. apply NT.
            exists a, w, g. rewrite F4, C. unfold cli_at. split; [congruence|]. split; [unfold cw in *; rewrite F5, F6 in W; exact W|]. split; [|rewrite F3; lia]. rewrite <- F5. destruct Wt as (_ & _ & Wq & _). congruence.
          * destruct (ca_srv k); [destruct (apply_srv_spec o (with_conf s c k)) as ((F1 & F2 & F3 & F4) & _); rewrite <- F3; set (m := apply_srv o (with_conf s c k)) in *|set (m := with_conf s c k) in *]; clearbody m; (destruct (ca_cli k); [|injection E as <-; reflexivity]);
              (destruct (apply_cli_spec o m) as [[B _]|(s2 & B & _ & (_ & _ & F7 & _) & _)]; [congruence|]; rewrite B in E; injection E as ->; exact F7).
      - unfold applies in E. cbn [ca_srv ca_cli] in E. destruct (apply_srv_spec o (with_allow s true)) as ((F1 & F2 & F3 & F4) & _). destruct (apply_cli_spec o (apply_srv o (with_allow s true))) as [[B _]|(s2 & B & _ & (_ & _ & F7 & _) & _)]; [congruence|]. rewrite B in E. injection E as ->. rewrite F7, F3. cbn. congruence.
      - unfold applies in E. cbn [ca_srv ca_cli] in E. destruct (apply_srv_spec o (with_allow s false)) as ((F1 & F2 & F3 & F4) & _). destruct (apply_cli_spec o (apply_srv o (with_allow s false))) as [[B _]|(s2 & B & _ & (_ & _ & F7 & _) & _)]; [congruence|]. rewrite B in E. injection E as ->. rewrite F7, F3. cbn. congruence. }
    subst g. rewrite <- P in H. split; [exists (dr_gen s'); rewrite <- P; apply U'; auto|]. rewrite L, filter_app, (N2 W H). reflexivity.
Qed.

Lemma text_words e f c n ws : exec e f n ws c <> XNo -> ca_text (calls_of e c n ws) = true -> exists w, (n = NdMs \/ n = NdClient) /\ ws = ["mdns"; "domain-suffix"; w].
Proof.
  intros X T. destruct (dispatch_inv e ws (cmds e f c n) _ eq_refl) as [E|(p & h & v & J & A & _)]; [unfold exec in X; congruence|].
  assert (Any1 : forall r, args e [Any] r = Some v -> exists w, r = [w]).
  { intros r. rewrite args_eq. destruct r as [|w r]; [discriminate|]. cbn [fits is_kw]. rewrite args_eq. destruct r; [|discriminate]. eauto. }
  destruct n; try discriminate T; cbn [cmds] in J.
  - cbn [In] in J. destruct J as [[= <- <-]|[[= <- <-]|J]].
    + apply args_kw in A as (r & -> & A). apply args_kw in A as (r' & -> & A). discriminate T.
    + apply args_kw in A as (r & -> & A). apply args_kw in A as (r' & -> & A). apply Any1 in A as (w & ->). eauto.
    + repeat match type of J with _ \/ _ => destruct J as [[= <- <-]|J]; [repeat (let r := fresh "r" in apply args_kw in A as (r & -> & A)); discriminate T|] end. destruct J.
  - cbn [calls_of] in T. destruct (starts _ ws); [discriminate T|]. destruct (is_some _ || is_some _); discriminate T.
  - cbn [In] in J. destruct J as [[= <- <-]|[[= <- <-]|[[= <- <-]|J]]].
    + apply args_kw in A as (r & -> & A). discriminate T.
    + apply args_kw in A as (r & -> & A). apply args_kw in A as (r' & -> & A). discriminate T.
    + apply args_kw in A as (r & -> & A). apply args_kw in A as (r' & -> & A). apply Any1 in A as (w & ->). eauto.
    + repeat match type of J with _ \/ _ => destruct J as [[= <- <-]|J]; [repeat (let r := fresh "r" in apply args_kw in A as (r & -> & A)); discriminate T|] end. destruct J.
Qed.
Theorem c63_safe e l s x : rrun e dr_init l = Val s -> rstep e s x = Bad ->
  (exists f n ws, snd x = RCmd f n ws /\ exec e f n ws (dr_conf s) = XUb) \/ (sets_cli_suffix (snd x) /\ exists a w, cli_runs s a w).
Proof.
  intros R B. destruct x as [o x]. destruct (rstep_spec e s o x (reach_dinv e l s R)) as [(_ & f & n & ws & -> & [X|(X & T & a & w & g & H)])|(s' & E & _)]; [left; exists f, n, ws; auto| |congruence].
  right. destruct (text_words e f (dr_conf s) n ws X T) as (w' & N & ->). split; [exists f, n, w'; auto|]. exists a, w, g. exact H.
Qed.
Theorem c63_text e l s o x : rrun e dr_init l = Val s -> sets_cli_suffix x -> (exists a w, cli_runs s a w) -> rstep e s (o, x) = Bad.
Proof.
  intros R (f & n & w & N & ->) (a & w0 & g & H). destruct (reach_dinv e l s R) as [_ [Z|[W C]]]; [congruence|].
  assert (T : forall k c, ca_cli k = true -> ca_text k = true -> cw (with_conf s c k) = true -> cl_query (f_cli c) = cl_query (f_cli (dr_conf s)) -> applies o k (with_conf s c k) = Bad).
  { intros k c K1 K2 Cw Q. unfold applies. rewrite K1. set (m := if ca_srv k then apply_srv o (with_conf s c k) else with_conf s c k).
    assert (Fm : dr_conf m = c /\ dr_allow m = dr_allow s /\ dr_gen m = S (dr_gen s) /\ dr_cli m = dr_cli s).
    { subst m. destruct (ca_srv k); [destruct (apply_srv_spec o (with_conf s c k)) as ((F1 & F2 & F3 & F4) & _); rewrite F1, F2, F3, F4|]; cbn; rewrite K2; auto. }
    clearbody m. destruct Fm as (F1 & F2 & F3 & F4). destruct (apply_cli_spec o m) as [[B _]|(s2 & _ & NT & _)]; [exact B|]. exfalso. apply NT.
    exists (cl_query (f_cli (dr_conf s))), (cl_suffix (f_cli (dr_conf s))), (dr_gen s). rewrite F4. split; [exact C|]. split; [unfold cw in *; rewrite F1, F2; exact Cw|]. rewrite F1, F3. split; [auto|lia]. }
  cbn [rstep snd fst]. destruct N as [-> | ->]; (unfold exec; cbn [cmds dispatch args fits Port is_kw argn nth String.eqb Ascii.eqb Bool.eqb]; apply T; [reflexivity|reflexivity|exact W|reflexivity]).
Qed.
Theorem c63_sock e l s : rrun e dr_init l = Val s ->
  (forall a w, srv_runs s a w -> exists x, In x l /\ sock_init (fst x) a = true) /\ (forall a w, cli_runs s a w -> exists x, In x l /\ sock_init (fst x) a = true).
Proof.
  revert s. induction l as [|[o x] l IH] using rev_ind; intros s R.
  - injection R as <-. split; [intros a w H|intros a w (g & H)]; discriminate.
  - rewrite rrun_app in R. destruct (rrun e dr_init l) as [s0|] eqn:R0; [|discriminate]. cbn [mbind rrun] in R. specialize (IH s0 eq_refl) as [I1 I2].
    destruct (rstep_spec e s0 o x (reach_dinv e l s0 R0)) as [[B _]|(s1 & E & _ & _ & _ & _ & M1 & M2)]; [rewrite B in R; discriminate|]. rewrite E in R. injection R as <-. split.
    + intros a w H. destruct M1 as [N|[N|(a' & w' & N & S)]]; unfold srv_runs in H; [congruence| |].
      * destruct (I1 a w) as (y & Y & Z); [unfold srv_runs; congruence|]. exists y. split; [apply in_or_app; auto|exact Z].
      * rewrite N in H. injection H as -> ->. exists (o, x). split; [apply in_or_app; right; left; reflexivity|exact S].
    + intros a w (g & H). destruct M2 as [N|[N|(a' & w' & g' & N & S)]]; [congruence| |].
      * destruct (I2 a w) as (y & Y & Z); [exists g; congruence|]. exists y. split; [apply in_or_app; auto|exact Z].
      * rewrite N in H. injection H as -> -> ->. exists (o, x). split; [apply in_or_app; right; left; reflexivity|exact S].
Qed.
Lemma sock_group o a : joins_multicast o -> sock_init o a = true -> exists x r p, a = Sa4 (x :: r) p /\ (224 <= x <= 239)%N.
Proof.
  intros J S. unfold sock_init in S. rewrite !andb_true_iff in S. destruct S as [[[[_ S] _] _] _]. destruct (J _ S) as (x & r & E & L).
  destruct a as [|ip p|ip p]; cbn in E; [injection E as <- <-; lia| |injection E as <- <-; lia]. subst ip. eauto 6.
Qed.
Theorem c63_ip6 e l s a w : (forall x, In x l -> joins_multicast (fst x)) -> rrun e dr_init l = Val s -> srv_runs s a w \/ cli_runs s a w -> exists x r p, a = Sa4 (x :: r) p /\ (224 <= x <= 239)%N.
Proof.
  intros J R H. destruct (c63_sock e l s R) as [S C]. destruct H as [H|H]; [destruct (S a w H) as (x & I & K)|destruct (C a w H) as (x & I & K)]; exact (sock_group _ _ (J x I) K).
Qed.
Theorem c63_fail e l s o f n ws c ch a w : rrun e dr_init l = Val s -> srv_runs s a w -> (n = NdServer /\ exists v, ws = "mdns" :: "bind" :: v) ->
  exec e f n ws (dr_conf s) = XOk c ch -> sr_bind (f_srv c) <> a -> sock_init o (sr_bind (f_srv c)) = false ->
  exists s', rstep e s (o, RCmd f n ws) = Val s' /\ dr_conf s' = c /\ dr_srv s' = None /\ srv_wanted c (sr_bind (f_srv c)) w.
Proof.
  intros R H (-> & v & ->) X D F. destruct (c63_only e l s R) as [O _]. destruct (O a w H) as [A (W1 & W2 & W3 & W4)].
  assert (Xb : srv_bind e (dr_conf s) v = (true, c)).
  { destruct (dispatch_inv e ("mdns" :: "bind" :: v) (cmds e f (dr_conf s) NdServer) _ eq_refl) as [E|(p & h & v' & J & Ar & E)]; [unfold exec in X; congruence|]. unfold exec in X. rewrite E in X.
    cbn [cmds] in J. apply in_app_or in J as [J|J].
    - cbn [In] in J. destruct J as [[= <- <-]|[[= <- <-]|[[= <- <-]|[[= <- <-]|[]]]]]; apply args_kw in Ar as (r & Er & Ar); try discriminate; injection Er as <-; apply args_kw in Ar as (r & Er & Ar); try discriminate. injection Er as <-.
      apply args_opts in Ar. subst v'. unfold answer_of in X. destruct (srv_bind e (dr_conf s) v) as [[] c'] eqn:B; cbn in X; [|discriminate]. injection X as <- _. reflexivity.
    - cbn [svc_cmds In] in J. destruct J as [[= <- <-]|[[= <- <-]|[[= <- <-]|[]]]]; apply args_kw in Ar as (r & Er & Ar); discriminate. }
  cbn [rstep snd fst]. rewrite X. change (calls_of e (dr_conf s) NdServer ("mdns" :: "bind" :: v)) with (mk_calls false (fst (srv_bind e (dr_conf s) v)) false). rewrite Xb. cbn [fst].
  unfold applies. cbn [ca_srv ca_cli]. eexists. split; [reflexivity|]. set (k := mk_calls false true false). destruct (apply_srv_spec o (with_conf s c k)) as ((F1 & F2 & _) & [N|[W N]] & _).
  - split; [rewrite F1; reflexivity|]. split; [exact N|]. unfold srv_bind in Xb. destruct (sa_nonzero _); [|discriminate]. injection Xb as <-. repeat split; auto.
  - exfalso. unfold apply_srv in N. cbn [dr_srv with_conf] in N. unfold srv_runs in H. rewrite H in N. cbn [dr_conf with_conf] in N.
    destruct (sa_eqb (sr_bind (f_srv c)) a) eqn:Q; [apply sa_eqb_eq in Q; contradiction|]. rewrite orb_true_r in N. cbn [orb dr_srv dr_with_srv] in N.
    destruct (_ && _); [rewrite F in N|]; discriminate.
Qed.
