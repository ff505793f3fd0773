(** Every command keeps the invariant (C56, C57) *)
From Verif Require Import Base PeerId Db DbSpec DbProofs DbThms DbThms2 DbThms3 Auth Gsup Router Hlr UssdCfg SmsCfg UssdSpec UssdThms MsLookup Mdns Proxy MsServer PeerSpec PeerThms MsServerSpec MsServerThms Ctrl CtrlSpec CtrlThms CtrlThms4 VtyListThms Config ConfigSpec ConfigThms ConfigThms2.
Local Open Scope string_scope.
Local Open Scope list_scope.

Definition srv_ok (s : ms_server) : Prop := sa_nonzero (sr_bind s) = true /\ is_word (sr_suffix s) /\ mscs_ok (sr_mscs s).
Definition cli_ok (k : ms_client) : Prop :=
  (cl_gw k = SaNone \/ sa_nonzero (cl_gw k) = true) /\ sa_nonzero (cl_query k) = true /\ is_word (cl_suffix k) /\ (1 <= cl_timeout k <= 100000)%Z.
Definition is_cause (z : Z) : Prop := In z (map fst cause_names).
Record cinv (e : venv) (c : conf) : Prop := {
  i_reject : is_cause (f_reject c);
  i_noproxy : is_cause (f_noproxy c);
  i_db : is_word (f_db c);
  i_cod : forall n, f_cod c = CodRand n -> (3 <= n <= 15)%Z;
  i_bind : forall a, f_bind c = Some a -> is_word a /\ v_ipv4 e a = true;
  i_name : is_word (f_name c);
  i_ussd : u_ok (f_ussd c);
  i_ncss : (0 <= f_ncss c <= 255)%Z;
  i_smsc : u_ok (f_smsc c) /\ all_ext (f_smsc c);
  i_pdp : pdp_ok (f_pdp c);
  i_srv : srv_ok (f_srv c);
  i_cli : cli_ok (f_cli c) }.

Ltac setter := intros []; constructor; cbn; auto.
Lemma cinv_reject e c x : cinv e c -> is_cause x -> cinv e (set_reject c x). Proof. setter. Qed.
Lemma cinv_noproxy e c x : cinv e c -> is_cause x -> cinv e (set_noproxy c x). Proof. setter. Qed.
Lemma cinv_imei e c x : cinv e c -> cinv e (set_imei c x). Proof. setter. Qed.
Lemma cinv_db e c x : cinv e c -> is_word x -> cinv e (set_db c x). Proof. setter. Qed.
Lemma cinv_cod e c m x y : cinv e c -> (forall n, m = CodRand n -> (3 <= n <= 15)%Z) -> cinv e (set_cod c m x y). Proof. setter. Qed.
Lemma cinv_bind e c x : cinv e c -> (forall a, x = Some a -> is_word a /\ v_ipv4 e a = true) -> cinv e (set_bind c x). Proof. setter. Qed.
Lemma cinv_name e c x : cinv e c -> is_word x -> cinv e (set_name c x). Proof. setter. Qed.
Lemma cinv_ussd e c x : cinv e c -> u_ok x -> cinv e (set_ussd c x). Proof. setter. Qed.
Lemma cinv_ncss e c x : cinv e c -> (0 <= x <= 255)%Z -> cinv e (set_ncss c x). Proof. setter. Qed.
Lemma cinv_smsc e c x : cinv e c -> u_ok x /\ all_ext x -> cinv e (set_smsc c x). Proof. setter. Qed.
Lemma cinv_pdp e c x : cinv e c -> pdp_ok x -> cinv e (set_pdp c x). Proof. setter. Qed.
Lemma cinv_srv e c x : cinv e c -> srv_ok x -> cinv e (set_srv c x). Proof. setter. Qed.
Lemma cinv_cli e c x : cinv e c -> cli_ok x -> cinv e (set_cli c x). Proof. setter. Qed.

Ltac word_now := apply wordb_iff; vm_compute; reflexivity.
Lemma cinv0 e : cinv e conf0.
Proof.
  constructor; cbn; try (unfold is_cause; cbn; tauto); try word_now; try (intros; discriminate); try (unfold NCSS_DEFAULT; lia); try apply u_ok0.
  - split; [apply u_ok0|]. intros p i [].
  - unfold pdp_ok. cbn. repeat split; auto; try constructor; repeat (destruct H as [<-|H]; [cbn; lia|]); destruct H.
  - split; [reflexivity|]. split; [word_now|]. split; [split; [constructor|intros m []]|intros m []].
  - split; [auto|]. split; [reflexivity|]. split; [word_now|unfold TIMEOUT_DEFAULT; cbn; lia].
Qed.

Definition xok (e : venv) (r : xres) : Prop := match r with XOk c' _ | XWarn c' => cinv e c' | _ => True end.
Lemma ussd_xok e c x ch : cinv e c -> ucmd_words x -> xok e (ussd_do c x ch).
Proof. intros I W. unfold ussd_do. assert (J : cinv e (set_ussd c (ucmd_run (f_ussd c) x))) by (apply cinv_ussd; auto; apply u_ok_run; auto; apply (i_ussd _ _ I)). destruct (ucmd_ok _ _); exact J. Qed.
Lemma smsc_xok e c x ch : cinv e c -> ucmd_words (as_ucmd x) -> xok e (smsc_do c x ch).
Proof.
  intros I W. unfold smsc_do. destruct (i_smsc _ _ I) as [A B].
  assert (J : cinv e (set_smsc c (ucmd_run (f_smsc c) (as_ucmd x)))) by (apply cinv_smsc; auto; split; [apply u_ok_run; auto|apply all_ext_run; auto]). destruct (ucmd_ok _ _); exact J.
Qed.
Lemma svc_xok e c x ch : cinv e c -> vcmd_words x -> xok e (svc_do c x ch).
Proof.
  intros I W. unfold svc_do. destruct (i_srv _ _ I) as (A & B & M). destruct (vcmd_run (sr_mscs (f_srv c)) x) as [[b l]|] eqn:R; [|exact Logic.I].
  assert (J : mscs_ok l) by (eapply mscs_run; eauto).
  assert (K : cinv e (set_srv c (mk_srv (sr_on (f_srv c)) (sr_mdns (f_srv c)) (sr_bind (f_srv c)) (sr_suffix (f_srv c)) l))) by (apply cinv_srv; auto; split; [|split]; auto).
  destruct b; exact K.
Qed.
Lemma srv_bind_inv e c v : cinv e c -> cinv e (snd (srv_bind e c v)).
Proof. intros I. unfold srv_bind. destruct (sa_nonzero _) eqn:Z; cbn; auto. apply cinv_srv; auto. destruct (i_srv _ _ I) as (A & B & M). split; [|split]; auto. Qed.
Lemma cli_bind_inv e c v : cinv e c -> cinv e (snd (cli_bind e c v)).
Proof. intros I. unfold cli_bind. destruct (sa_nonzero _) eqn:Z; cbn; auto. apply cinv_cli; auto. destruct (i_cli _ _ I) as (A & B & M & T). split; [|split; [|split]]; auto. Qed.
Lemma answer_xok e b c : cinv e c -> xok e (answer_of (b, c)).
Proof. destruct b; auto. Qed.
Lemma srv_mdns_inv e c b : cinv e c -> cinv e (srv_mdns c b).
Proof. intros I. apply cinv_srv; auto. destruct (i_srv _ _ I) as (A & B & M). split; [|split]; auto. Qed.
Lemma srv_on_inv e c b : cinv e c -> cinv e (srv_on c b).
Proof. intros I. apply cinv_srv; auto. destruct (i_srv _ _ I) as (A & B & M). split; [|split]; auto. Qed.
Lemma srv_suffix_inv e c w : cinv e c -> is_word w -> cinv e (srv_suffix c w).
Proof. intros I W. apply cinv_srv; auto. destruct (i_srv _ _ I) as (A & B & M). split; [|split]; auto. Qed.
Lemma cli_mdns_inv e c b : cinv e c -> cinv e (cli_mdns c b).
Proof. intros I. apply cinv_cli; auto. destruct (i_cli _ _ I) as (A & B & M & T). split; [|split; [|split]]; auto. Qed.
Lemma cli_on_inv e c b : cinv e c -> cinv e (cli_on c b).
Proof. intros I. apply cinv_cli; auto. destruct (i_cli _ _ I) as (A & B & M & T). split; [|split; [|split]]; auto. Qed.
Lemma cli_suffix_inv e c w : cinv e c -> is_word w -> cinv e (cli_suffix c w).
Proof. intros I W. apply cinv_cli; auto. destruct (i_cli _ _ I) as (A & B & M & T). split; [|split; [|split]]; auto. Qed.
Lemma cli_timeout_inv e c t : cinv e c -> (1 <= t <= 100000)%Z -> cinv e (cli_timeout c t).
Proof. intros I W. apply cinv_cli; auto. destruct (i_cli _ _ I) as (A & B & M & T). split; [|split; [|split]]; auto. Qed.
Lemma cli_gw_inv e c a : cinv e c -> (a = SaNone \/ sa_nonzero a = true) -> cinv e (cli_gw c a).
Proof. intros I W. apply cinv_cli; auto. destruct (i_cli _ _ I) as (A & B & M & T). split; [|split; [|split]]; auto. Qed.
Lemma slot_apn_inv e c n a : cinv e c -> cinv e (slot_apn c n a).
Proof. intros I. unfold slot_apn. destruct (nth_error _ n) as [s|] eqn:F; auto. apply cinv_pdp; auto. apply pdp_apn; auto. apply (i_pdp _ _ I). Qed.
Lemma cause_of_is s x : cause_of s = Some x -> is_cause x.
Proof. unfold cause_of. destruct (find _ cause_names) as [y|] eqn:F; [|discriminate]. intros [= <-]. apply find_some in F as [I _]. apply in_map; auto. Qed.

Lemma svc_cmds_xok e c n p h v ws : cinv e c -> vnode_ok n -> In (p, h) (svc_cmds e c n) -> args e p ws = Some v -> fit_args e p v -> Forall is_word v -> xok e (h v).
Proof.
  intros I V J A F W. cbn [svc_cmds In] in J. destruct J as [[= <- <-]|[[= <- <-]|[[= <- <-]|[]]]]; cbn in F; destruct F as (w & r & -> & F);
    inversion W; subst; apply svc_xok; auto; split; cbn; auto.
Qed.
Ltac argw F := repeat match type of F with
  | exists w r, _ => let w := fresh "w" in let r := fresh "r" in let Hf := fresh "Hf" in destruct F as (w & r & -> & Hf & F)
  end; try (cbn in F; subst).
Lemma exec_xok e f n ws c : cinv e c -> line_ok n ws -> xok e (exec e f n ws c).
Proof.
  intros I (W & NO & MS). destruct (dispatch_inv e ws (cmds e f c n) _ eq_refl) as [E|(p & h & v & J & A & E)]; unfold exec; rewrite E; [exact Logic.I|].
  destruct (args_fit e p (cmds_patterns _ _ _ _ _ _ J) ws v A) as [F SUB].
  assert (WV : Forall is_word v) by (rewrite Forall_forall in *; auto). clear SUB E.
  destruct n as [| | | | | | |m| | | |k]; cbn [cmds] in J.
  - cbn [In] in J. repeat (destruct J as [[= <- <-]|J]; [exact I|]). destruct J.
  - cbn [In] in J.
    repeat match type of J with _ \/ _ => destruct J as [[= <- <-]|J]; [cbn [fit_args] in F; argw F; repeat match goal with X : Forall is_word (_ :: _) |- _ => inversion X; clear X; subst end|] end;
      try exact I; try (destruct J; fail); try (apply ussd_xok; cbn; auto; fail); try (apply smsc_xok; cbn; auto; fail); try (apply cinv_imei; auto; fail).
    + apply cinv_db; auto.
    + apply cinv_ncss; auto. apply range_atoi; auto; lia.
    + unfold reject_do. destruct (cause_of _) as [x|] eqn:C; [|exact Logic.I]. apply cause_of_is in C. cbn [xok]. destruct (_ =? "not-found"); [apply cinv_reject|apply cinv_noproxy]; auto.
    + apply cinv_cod; auto. intros x. cbn [argn nth]. match goal with Q : fits e (Choice ["no-msisdn"; "msisdn-from-imsi"]) ?w = true |- _ => cbn [fits existsb] in Q; destruct (w =? "no-msisdn"); [discriminate|]; destruct (w =? "msisdn-from-imsi"); [discriminate|]; discriminate Q end.
    + apply cinv_cod; auto. intros x. cbn [argn nth]. destruct (_ =? "no-msisdn"); [discriminate|]. destruct (_ =? "msisdn-from-imsi"); [discriminate|]. intros [= <-].
      apply range_atoi; auto; lia.
    + apply cinv_cod; auto. discriminate.
  - cbn [In] in J. repeat match type of J with _ \/ _ => destruct J as [[= <- <-]|J]; [cbn [fit_args] in F; argw F; repeat match goal with X : Forall is_word (_ :: _) |- _ => inversion X; clear X; subst end|] end; [| |destruct J].
    + apply cinv_bind; auto. intros a [= <-]. auto.
    + destruct f; cbn [xok]; auto. apply cinv_name; auto.
  - destruct J.
  - destruct J.
  - cbn [In] in J. destruct J as [[= <- <-]|J]; [|].
    { cbn zeta. apply answer_xok. apply cli_bind_inv, srv_bind_inv. auto. }
    repeat match type of J with _ \/ _ => destruct J as [[= <- <-]|J]; [cbn [fit_args] in F; argw F; repeat match goal with X : Forall is_word (_ :: _) |- _ => inversion X; clear X; subst end|] end; [| | | | | |destruct J].
    + apply cli_suffix_inv; auto. apply srv_suffix_inv; auto.
    + apply cli_mdns_inv, srv_mdns_inv; auto.
    + apply srv_on_inv; auto.
    + apply srv_on_inv; auto.
    + apply cli_on_inv; auto.
    + apply cli_on_inv; auto.
  - apply in_app_or in J as [J|J]; [|eapply svc_cmds_xok; eauto; exact Logic.I].
    cbn [In] in J. destruct J as [[= <- <-]|J].
    { destruct (srv_bind e c v) as [b c'] eqn:S. apply answer_xok. replace c' with (snd (srv_bind e c v)) by (rewrite S; auto). apply srv_bind_inv; auto. }
    destruct J as [[= <- <-]|J]; [|destruct J as [[= <- <-]|J]; [|destruct J as [[= <- <-]|[]]]].
    + cbn [fit_args] in F. argw F. inversion WV; subst. apply srv_suffix_inv; auto.
    + apply srv_mdns_inv; auto.
    + apply svc_xok; auto. split; [|exact Logic.I]. cbn [node_of vnode_ok]. exists v. split; auto.
      apply MS; auto.
      destruct ws as [|w1 ws]; [discriminate|]. rewrite args_eq in A. cbn [fits] in A. destruct (String.eqb_spec w1 "msc"); [subst|discriminate].
      destruct ws as [|w2 ws]; [discriminate|]. cbn [is_kw] in A. rewrite args_eq in A. cbn [fits] in A. destruct (String.eqb_spec w2 "ipa-name"); [subst|discriminate].
      cbn [is_kw] in A. destruct ws as [|w3 ws]; [discriminate|]. cbn in A. injection A as <-. auto.
  - eapply svc_cmds_xok; eauto; exact NO.
  - cbn [In] in J. destruct J as [[= <- <-]|J].
    { cbn [fit_args] in F; argw F. apply cli_timeout_inv; auto. apply range_atoi; auto; lia. }
    destruct J as [[= <- <-]|J].
    { destruct (cli_bind e c v) as [b c'] eqn:S. apply answer_xok. replace c' with (snd (cli_bind e c v)) by (rewrite S; auto). apply cli_bind_inv; auto. }
    destruct J as [[= <- <-]|J]; [|destruct J as [[= <- <-]|J]; [|destruct J as [[= <- <-]|J]; [|destruct J as [[= <- <-]|[]]]]].
    + cbn [fit_args] in F. argw F. inversion WV; subst. apply cli_suffix_inv; auto.
    + apply cli_mdns_inv; auto.
    + destruct (sa_nonzero _) eqn:Z; cbn [xok]; auto. apply cli_gw_inv; auto.
    + apply cli_gw_inv; auto.
  - cbn [In] in J. repeat (destruct J as [[= <- <-]|J]; [apply cinv_pdp; auto; apply pdp_on, (i_pdp _ _ I)|]). destruct J.
  - cbn [In] in J. destruct J as [[= <- <-]|[[= <- <-]|[]]]; cbn [fit_args] in F; argw F; match goal with Q : fits _ _ ?x = true |- _ => rename x into w1 end; assert (R : (1 <= atoi w1 <= 10)%Z) by (apply range_atoi; auto; lia); cbn [argn nth].
    + unfold profile_enter. destruct (slot_of (atoi w1) _) eqn:S1; [exact I|]. destruct (slot_of 0 _) eqn:S0; [|exact I]. apply cinv_pdp; auto. apply pdp_enter; auto. apply (i_pdp _ _ I).
    + unfold profile_del. destruct (slot_of (atoi w1) _) eqn:S1; [|exact I]. apply cinv_pdp; auto. eapply pdp_del; eauto. apply (i_pdp _ _ I).
  - cbn [In] in J. destruct J as [[= <- <-]|[[= <- <-]|[]]].
    + unfold profile_apn. destruct (_ <? _)%nat; [exact I|]. destruct (v_apn e _); apply slot_apn_inv; auto.
    + apply slot_apn_inv; auto.
Qed.
Lemma acts_inv e l : forall c c', cinv e c -> Forall act_ok l -> acts e l c = Val c' -> cinv e c'.
Proof.
  induction l as [|a l IH]; intros c c' I F; cbn [acts]; [intros [= <-]; auto|]. inversion F as [|? ? Ha Hl]; subst.
  destruct (act_run e c a) as [c1|] eqn:R; [|discriminate]. cbn [mbind]. apply IH; auto. destruct a as [n ws|n ws|p]; cbn [act_run act_ok] in *.
  - pose proof (exec_xok e true n ws c I Ha) as X. destruct (exec e true n ws c); try discriminate R; injection R as <-; auto.
  - pose proof (exec_xok e false n ws c I Ha) as X. destruct (exec e false n ws c); try discriminate R; injection R as <-; auto.
  - injection R as <-. apply cinv_db; auto.
Qed.
