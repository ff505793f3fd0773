(** Proofs about the mDNS server and client of the HLR: histories. *)
From Verif Require Import Base PeerId Db Auth Gsup Router Hlr UssdCfg SmsCfg MsLookup Mdns Proxy MsServer PeerSpec MsServerSpec Ctrl Config ConfigSpec ConfigThms ConfigThms2 ConfigThms3 DgsmRun DgsmRunSpec DgsmRunThms.
Local Open Scope string_scope.
Local Open Scope list_scope.

Definition dinv (s : drun) : Prop := srv_ok s /\ cli_ok s.
Lemma srv_ok_move s s' : srv_key (dr_conf s') = srv_key (dr_conf s) -> dr_allow s' = dr_allow s -> dr_srv s' = dr_srv s -> srv_ok s -> srv_ok s'.
Proof. intros K A E [N|[W H]]; [left; congruence|]. right. unfold sw, srv_at in *. injection K as K1 K2 K3 K4. rewrite A, K1, K2, K3, K4, E. auto. Qed.
Lemma cli_ok_move s s' : cli_key (dr_conf s') = cli_key (dr_conf s) -> dr_allow s' = dr_allow s -> dr_gen s' = dr_gen s -> dr_cli s' = dr_cli s -> cli_ok s -> cli_ok s'.
Proof. intros K A G E [N|[W H]]; [left; congruence|]. right. unfold cw, cli_at in *. injection K as K1 K2 K3 K4. rewrite A, K1, K2, K3, K4, E, G. auto. Qed.
Lemma frame_cli_srv_ok s s' : frame_cli s s' -> srv_ok s -> srv_ok s'.
Proof. intros (A & B & _ & D). apply srv_ok_move; congruence. Qed.
Lemma frame_srv_cli_ok s s' : frame_srv s s' -> cli_ok s -> cli_ok s'.
Proof. intros (A & B & C & D). apply cli_ok_move; congruence. Qed.

Lemma filter_none {A} (f : A -> bool) l : forallb (fun x => negb (f x)) l = true -> filter f l = [].
Proof. induction l as [|x l IH]; [reflexivity|]. cbn. destruct (f x); [discriminate|]. exact IH. Qed.
Lemma filter_none' {A} (f : A -> bool) l : forallb f l = true -> filter (fun x => negb (f x)) l = [].
Proof. induction l as [|x l IH]; [reflexivity|]. cbn. destruct (f x); [exact IH|discriminate]. Qed.

(** [s] differs from [s0] by configuration, allow_startup and the number of texts; what is not applied did not change *)
Lemma applies_spec o k s0 s : dinv s0 -> dr_srv s = dr_srv s0 -> dr_cli s = dr_cli s0 -> dr_log s = dr_log s0 ->
  (ca_srv k = false -> srv_ok s /\ (dr_srv s0 = None -> sw s = true -> sw s0 = true /\ srv_at s = srv_at s0)) ->
  (ca_cli k = false -> cli_ok s /\ (dr_cli s0 = None -> cw s = true -> cw s0 = true /\ cli_at s = cli_at s0)) ->
  (applies o k s = Bad /\ ca_cli k = true /\ text_gone s) \/
  exists s', applies o k s = Val s' /\ ~ (ca_cli k = true /\ text_gone s) /\ dr_conf s' = dr_conf s /\ dr_allow s' = dr_allow s /\ dr_gen s' = dr_gen s /\ dinv s' /\
    (sw s = true -> (ca_srv k = true /\ sock_init o (fst (srv_at s)) = true) \/ dr_srv s0 = Some (srv_at s) -> dr_srv s' = Some (srv_at s)) /\
    (cw s = true -> (ca_cli k = true /\ os_rand o = true /\ sock_init o (fst (fst (cli_at s))) = true) \/ dr_cli s0 = Some (cli_at s) -> dr_cli s' = Some (cli_at s)) /\
    (exists n, dr_log s' = n ++ dr_log s0 /\ (sw s = true -> dr_srv s0 = Some (srv_at s) -> filter on_srv n = []) /\ (cw s = true -> dr_cli s0 = Some (cli_at s) -> filter (fun x => negb (on_srv x)) n = [])).
Proof.
  intros [I1 I2] Es Ec El Ns Nc. unfold applies.
  set (s1 := if ca_srv k then apply_srv o s else s).
  assert (S1 : frame_srv s s1 /\ srv_ok s1 /\ (sw s = true -> (ca_srv k = true /\ sock_init o (fst (srv_at s)) = true) \/ dr_srv s0 = Some (srv_at s) -> dr_srv s1 = Some (srv_at s)) /\
    (exists n, dr_log s1 = n ++ dr_log s0 /\ forallb on_srv n = true /\ (sw s = true -> dr_srv s0 = Some (srv_at s) -> n = []))).
  { subst s1. destruct (ca_srv k) eqn:C.
    - destruct (apply_srv_spec o s) as (F & O & U & Q & n & L & Ln). split; [exact F|]. split; [exact O|]. split.
      + intros W [[_ H]|H]; [apply U; auto|]. rewrite <- Es in H. rewrite (Q W H). exact H.
      + exists n. rewrite L, El. split; [reflexivity|]. split; [exact Ln|]. intros W H. rewrite <- Es in H. rewrite (Q W H) in L. apply (f_equal (@length _)) in L. rewrite app_length in L. destruct n; [reflexivity|cbn in L; lia].
    - split; [repeat split|]. split; [apply Ns; reflexivity|]. split; [intros W [[? _]|H]; [discriminate|]; rewrite Es; exact H|]. exists []. rewrite El. repeat split. }
  clearbody s1. destruct S1 as ((F1 & F2 & F3 & F4) & O & U & n1 & L1 & N1 & Q1).
  assert (Cw : cw s1 = cw s) by (unfold cw; rewrite F1, F2; reflexivity). assert (Ca : cli_at s1 = cli_at s) by (unfold cli_at; rewrite F1, F3; reflexivity).
  destruct (ca_cli k) eqn:C.
  - destruct (apply_cli_spec o s1) as [[B T]|(s' & B & T & F & O' & U' & Q' & n & L & Ln)]; rewrite B.
    + left. split; [reflexivity|]. split; [reflexivity|]. destruct T as (a & w & g & T1 & T2 & T3 & T4). exists a, w, g. rewrite F1 in T3. rewrite F3 in T4. rewrite F4 in T1. rewrite Cw in T2. auto.
    + right. exists s'. split; [reflexivity|].
      split. { intros [_ (a & w & g & T1 & T2 & T3 & T4)]. apply T. exists a, w, g. rewrite F1, F3, F4, Cw. auto. }
      pose proof (frame_cli_srv_ok _ _ F O) as Os. destruct F as (F5 & F6 & F7 & F8).
      split; [congruence|]. split; [congruence|]. split; [congruence|]. split; [split; assumption|]. rewrite Cw, Ca in *. split; [intros W H; rewrite F8; auto|].
      assert (Qc : cw s = true -> dr_cli s0 = Some (cli_at s) -> s' = s1) by (intros W H; apply Q'; [exact W|]; rewrite F4, Ec; exact H). split.
      * intros W [(_ & R & H)|H]; [auto|]. rewrite (Qc W H), F4, Ec. exact H.
      * exists (n ++ n1). rewrite L, L1, app_assoc. split; [reflexivity|]. split; intros W H; rewrite filter_app.
        -- rewrite (filter_none _ _ Ln), (Q1 W H). reflexivity.
        -- rewrite (filter_none' _ _ N1), (Qc W H) in *. apply (f_equal (@length _)) in L. rewrite app_length in L. destruct n; [reflexivity|cbn in L; lia].
  - right. exists s1. split; [reflexivity|]. split; [intros [? _]; discriminate|]. split; [exact F1|]. split; [exact F2|]. split; [exact F3|].
    split. { split; [exact O|]. apply (frame_srv_cli_ok s); [repeat split; assumption|]. apply Nc. reflexivity. }
    split; [exact U|]. split; [intros W [[? _]|H]; [discriminate|]; rewrite F4, Ec; exact H|]. exists n1. split; [exact L1|]. split; [intros W H; rewrite (Q1 W H); reflexivity|intros _ _; apply filter_none'; exact N1].
Qed.

Definition sup (s : drun) : Prop := sw s = true -> dr_srv s = Some (srv_at s).
Definition cup (s : drun) : Prop := cw s = true -> dr_cli s = Some (cli_at s).
Lemma rstep_spec e s o x : dinv s ->
  (rstep e s (o, x) = Bad /\ exists f n ws, x = RCmd f n ws /\
     (exec e f n ws (dr_conf s) = XUb \/ (exec e f n ws (dr_conf s) <> XNo /\ ca_text (calls_of e (dr_conf s) n ws) = true /\ exists a w g, dr_cli s = Some (a, w, g)))) \/
  exists s', rstep e s (o, x) = Val s' /\ dinv s' /\
    (sw s' = true -> (sup s /\ sock_init o (fst (srv_at s')) = true) \/ dr_srv s = Some (srv_at s') -> dr_srv s' = Some (srv_at s')) /\
    (cw s' = true -> (cup s /\ os_rand o = true /\ sock_init o (fst (fst (cli_at s'))) = true) \/ dr_cli s = Some (cli_at s') -> dr_cli s' = Some (cli_at s')) /\
    (exists n, dr_log s' = n ++ dr_log s /\ (sw s' = true -> dr_srv s = Some (srv_at s') -> filter on_srv n = []) /\ (cw s' = true -> dr_cli s = Some (cli_at s') -> filter (fun x => negb (on_srv x)) n = [])) /\
    (dr_srv s' = None \/ dr_srv s' = dr_srv s \/ exists a w, dr_srv s' = Some (a, w) /\ sock_init o a = true) /\ (dr_cli s' = None \/ dr_cli s' = dr_cli s \/ exists a w g, dr_cli s' = Some (a, w, g) /\ sock_init o a = true).
Proof.
  intros I. pose proof I as [I1 I2].
  (* what starts *)
  assert (St : forall k m s', dr_srv m = dr_srv s -> dr_cli m = dr_cli s -> applies o k m = Val s' ->
    (dr_srv s' = None \/ dr_srv s' = dr_srv s \/ exists a w, dr_srv s' = Some (a, w) /\ sock_init o a = true) /\ (dr_cli s' = None \/ dr_cli s' = dr_cli s \/ exists a w g, dr_cli s' = Some (a, w, g) /\ sock_init o a = true)).
  { intros k m s' Es Ec A. unfold applies in A.
    assert (H1 : let m1 := if ca_srv k then apply_srv o m else m in dr_cli m1 = dr_cli s /\ (dr_srv m1 = None \/ dr_srv m1 = dr_srv s \/ exists a w, dr_srv m1 = Some (a, w) /\ sock_init o a = true)).
    { cbv zeta. destruct (ca_srv k); [|rewrite Es, Ec; auto]. split; [destruct (apply_srv_spec o m) as ((_ & _ & _ & F) & _); congruence|].
      unfold apply_srv. rewrite <- Es. destruct (dr_srv m) as [[a w]|] eqn:E.
      - destruct (_ || _) eqn:Q.
        + cbn [dr_srv dr_with_srv]. destruct (_ && _); [|auto]. destruct (sock_init o _) eqn:S; cbn; eauto 6.
        + rewrite E. auto.
      - rewrite E. destruct (_ && _); [|auto]. destruct (sock_init o _) eqn:S; cbn; eauto 6. }
    cbv zeta in H1. set (m1 := if ca_srv k then apply_srv o m else m) in *. clearbody m1. destruct H1 as [H1 H2]. destruct (ca_cli k).
    - destruct (apply_cli_spec o m1) as [[B _]|(s2 & B & _ & (_ & _ & _ & F) & _)]; [congruence|]. rewrite B in A. injection A as <-. rewrite F. split; [exact H2|].
      unfold apply_cli in B. rewrite <- H1. destruct (dr_cli m1) as [[[a w] g]|] eqn:E.
      + destruct (_ || _) eqn:Q; cbn [mbind] in B.
        * injection B as <-. cbn [dr_cli dr_with_cli]. destruct (_ && _); [|auto]. destruct (os_rand o && sock_init o _) eqn:S; cbn; [apply andb_true_iff in S as [_ S]; eauto 8|auto].
        * destruct (negb (g =? dr_gen m1)%nat); [discriminate|]. cbn [mbind] in B. destruct (negb (cl_suffix (f_cli (dr_conf m1)) =? w)); injection B as <-.
          -- cbn [dr_cli dr_with_cli]. destruct (_ && _); [|auto]. destruct (os_rand o && sock_init o _) eqn:S; cbn; [apply andb_true_iff in S as [_ S]; eauto 8|auto].
          -- rewrite E. auto.
      + cbn [mbind] in B. injection B as <-. rewrite E. destruct (_ && _); [|auto]. destruct (os_rand o && sock_init o _) eqn:S; cbn; [apply andb_true_iff in S as [_ S]; eauto 8|auto].
    - injection A as <-. rewrite H1. auto. }
  assert (Both : forall b, exists s', applies o (mk_calls false true true) (with_allow s b) = Val s' /\ dinv s' /\
    (sw s' = true -> (sup s /\ sock_init o (fst (srv_at s')) = true) \/ dr_srv s = Some (srv_at s') -> dr_srv s' = Some (srv_at s')) /\
    (cw s' = true -> (cup s /\ os_rand o = true /\ sock_init o (fst (fst (cli_at s'))) = true) \/ dr_cli s = Some (cli_at s') -> dr_cli s' = Some (cli_at s')) /\
    (exists n, dr_log s' = n ++ dr_log s /\ (sw s' = true -> dr_srv s = Some (srv_at s') -> filter on_srv n = []) /\ (cw s' = true -> dr_cli s = Some (cli_at s') -> filter (fun x => negb (on_srv x)) n = [])) /\
    (dr_srv s' = None \/ dr_srv s' = dr_srv s \/ exists a w, dr_srv s' = Some (a, w) /\ sock_init o a = true) /\ (dr_cli s' = None \/ dr_cli s' = dr_cli s \/ exists a w g, dr_cli s' = Some (a, w, g) /\ sock_init o a = true)).
  { intros b. destruct (applies_spec o (mk_calls false true true) s (with_allow s b) I eq_refl eq_refl eq_refl ltac:(discriminate) ltac:(discriminate)) as [(_ & _ & T)|(s' & A & _ & C & D & G & V & U & U' & L)].
    - exfalso. destruct T as (a & w & g & T1 & _ & _ & T4). destruct I2 as [N|[_ H]]; [cbn in T1; congruence|]. cbn in T1, T4. rewrite H in T1. injection T1 as <- <- <-. apply T4. reflexivity.
    - exists s'. split; [exact A|]. split; [exact V|]. assert (W : sw s' = sw (with_allow s b)) by (unfold sw; rewrite C, D; reflexivity). assert (Wc : cw s' = cw (with_allow s b)) by (unfold cw; rewrite C, D; reflexivity).
      assert (P : srv_at s' = srv_at (with_allow s b)) by (unfold srv_at; rewrite C; reflexivity). assert (Pc : cli_at s' = cli_at (with_allow s b)) by (unfold cli_at; rewrite C, G; reflexivity).
      rewrite W, Wc, P, Pc. split; [intros X [[_ Y]|Y]; apply U; auto|]. split; [intros X [(_ & Y & Z)|Y]; apply U'; auto|]. split; [exact L|]. exact (St _ (with_allow s b) _ eq_refl eq_refl A). }
  destruct x as [f n ws| |]; [|right; cbn [rstep snd fst]; destruct (Both true) as (s' & H); exists s'; exact H|right; cbn [rstep snd fst]; destruct (Both false) as (s' & H); exists s'; exact H].
  cbn [rstep snd fst]. pose proof (exec_calls e f n ws (dr_conf s)) as X. set (k := calls_of e (dr_conf s) n ws) in *.
  assert (Go : forall c, exec e f n ws (dr_conf s) <> XNo -> ca_all (dr_conf s) c k ->
    (applies o k (with_conf s c k) = Bad /\ exists f' n' ws', RCmd f n ws = RCmd f' n' ws' /\ (exec e f' n' ws' (dr_conf s) = XUb \/ (exec e f' n' ws' (dr_conf s) <> XNo /\ ca_text (calls_of e (dr_conf s) n' ws') = true /\ exists a w g, dr_cli s = Some (a, w, g)))) \/
    exists s', applies o k (with_conf s c k) = Val s' /\ dinv s' /\
    (sw s' = true -> (sup s /\ sock_init o (fst (srv_at s')) = true) \/ dr_srv s = Some (srv_at s') -> dr_srv s' = Some (srv_at s')) /\
    (cw s' = true -> (cup s /\ os_rand o = true /\ sock_init o (fst (fst (cli_at s'))) = true) \/ dr_cli s = Some (cli_at s') -> dr_cli s' = Some (cli_at s')) /\
    (exists n, dr_log s' = n ++ dr_log s /\ (sw s' = true -> dr_srv s = Some (srv_at s') -> filter on_srv n = []) /\ (cw s' = true -> dr_cli s = Some (cli_at s') -> filter (fun x => negb (on_srv x)) n = [])) /\
    (dr_srv s' = None \/ dr_srv s' = dr_srv s \/ exists a w, dr_srv s' = Some (a, w) /\ sock_init o a = true) /\ (dr_cli s' = None \/ dr_cli s' = dr_cli s \/ exists a w g, dr_cli s' = Some (a, w, g) /\ sock_init o a = true)).
  { intros c Nx (K1 & K2 & K3 & K4).
    assert (A1 : ca_srv k = false -> sw (with_conf s c k) = sw s /\ srv_at (with_conf s c k) = srv_at s).
    { intros Q. specialize (K1 Q). injection K1 as E1 E2 E3 E4. unfold sw, srv_at. cbn [dr_conf dr_allow with_conf]. rewrite E1, E2, E3, E4. auto. }
    assert (A2 : ca_cli k = false -> cw (with_conf s c k) = cw s /\ cli_at (with_conf s c k) = cli_at s).
    { intros Q. specialize (K2 Q). injection K2 as E1 E2 E3 E4. assert (T : ca_text k = false) by (destruct (ca_text k); auto; rewrite K4 in Q; auto).
      unfold cw, cli_at. cbn [dr_conf dr_allow dr_gen with_conf]. rewrite E1, E2, E3, E4, T. auto. }
    destruct (applies_spec o k s (with_conf s c k) I eq_refl eq_refl eq_refl) as [(B & C & T)|(s' & A & _ & C & D & G & V & U & U' & L)].
    - intros Q. destruct (A1 Q) as [-> ->]. split; [|auto]. apply (srv_ok_move s); auto.
    - intros Q. destruct (A2 Q) as [-> ->]. split; [|auto]. assert (T : ca_text k = false) by (destruct (ca_text k); auto; rewrite K4 in Q; auto). apply (cli_ok_move s); auto. cbn. rewrite T. reflexivity.
    - left. split; [exact B|]. exists f, n, ws. split; [reflexivity|]. right. split; [exact Nx|]. destruct T as (a & w & g & T1 & _ & _ & T4). cbn in T1. split; [|eauto].
      fold k. destruct I2 as [N|[_ H]]; [congruence|]. rewrite H in T1. injection T1 as <- <- <-. cbn in T4. destruct (ca_text k); auto.
    - right. exists s'. split; [exact A|]. split; [exact V|]. assert (W : sw s' = sw (with_conf s c k)) by (unfold sw; rewrite C, D; reflexivity). assert (Wc : cw s' = cw (with_conf s c k)) by (unfold cw; rewrite C, D; reflexivity).
      assert (P : srv_at s' = srv_at (with_conf s c k)) by (unfold srv_at; rewrite C; reflexivity). assert (Pc : cli_at s' = cli_at (with_conf s c k)) by (unfold cli_at; rewrite C, G; reflexivity).
      rewrite W, Wc, P, Pc. split.
      + intros Y [[Su Z]|Z]; [|apply U; auto]. destruct (ca_srv k) eqn:Q; [apply U; auto|]. destruct (A1 eq_refl) as [W' P']. apply U; [exact Y|]. right. rewrite P'. apply Su. congruence.
      + split; [|split; [exact L|exact (St _ (with_conf s c k) _ eq_refl eq_refl A)]]. intros Y [(Su & R & Z)|Z]; [|apply U'; auto]. destruct (ca_cli k) eqn:Q; [apply U'; auto|]. destruct (A2 eq_refl) as [W' P']. apply U'; [exact Y|]. right. rewrite P'. apply Su. congruence. }
  destruct (exec e f n ws (dr_conf s)) as [|c|c ch|] eqn:E.
  - right. exists s. split; [reflexivity|]. split; [exact I|]. split; [intros W [[S _]|H]; [apply S|]; auto|]. split; [intros W [[S _]|H]; [apply S|]; auto|]. split; [exists []; repeat split|auto].
  - apply Go; [discriminate|exact X].
  - apply Go; [discriminate|exact X].
  - left. split; [reflexivity|]. exists f, n, ws. auto.
Qed.
