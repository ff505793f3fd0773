(** Slots of PDP profiles stay packed unless a profile is removed (C56, C57) *)
From Verif Require Import Base PeerId Db DbSpec DbProofs DbThms DbThms2 DbThms3 Auth Gsup Router Hlr UssdCfg SmsCfg UssdSpec UssdThms MsLookup Mdns Proxy MsServer PeerSpec PeerThms MsServerSpec MsServerThms Ctrl CtrlSpec CtrlThms CtrlThms4 VtyListThms Config ConfigSpec ConfigThms ConfigThms2 ConfigThms3 ConfigThms4 ConfigThms5.
Local Open Scope string_scope.
Local Open Scope list_scope.

Definition packs (l : list pslot) : Prop := exists a b, l = a ++ b /\ Forall (fun s => sl_ctx s <> 0%Z) a /\ Forall (fun s => sl_ctx s = 0%Z) b.
Lemma packs_packed p : packs (pd_slots p) -> packed p.
Proof.
  intros (a & b & E & A & B) i j s t L I J T. rewrite E in *. rewrite Forall_forall in A, B. destruct (Nat.lt_ge_cases j (length a)) as [Q|Q].
  - rewrite nth_error_app1 in I by lia. apply A. eapply nth_error_In; eauto.
  - exfalso. rewrite nth_error_app2 in J by lia. apply T, B. eapply nth_error_In; eauto.
Qed.
Lemma packs_enter l n id : packs l -> slot_of 0 l = Some n -> id <> 0%Z -> packs (slot_put n (mk_pslot id None) l).
Proof.
  intros (a & b & E & A & B) S N. destruct (slot_of_split _ _ _ S) as (x & s & y & El & Ln & Cs & Hx). subst n. rewrite El, slot_put_split. rewrite El in E. clear El S.
  assert (Q : Forall (fun s => sl_ctx s = 0%Z) y).
  { revert a A E. induction x as [|z x IH]; intros a A E; cbn [app] in E.
    - destruct a as [|q a]; cbn [app] in E; [|injection E as -> E; inversion A; subst; contradiction]. rewrite <- E in B. inversion B; auto.
    - destruct a as [|q a]; cbn [app] in E.
      + exfalso. apply (Hx z); [now left|]. rewrite <- E in B. inversion B; auto.
      + injection E as -> E. inversion A; subst. apply (IH (fun w I => Hx w (or_intror I)) a); auto. }
  exists (x ++ [mk_pslot id None]), y. split; [rewrite <- app_assoc; auto|]. split; auto. rewrite Forall_app. split; [rewrite Forall_forall; auto|constructor; auto].
Qed.
Lemma packs_ctx l l' : map sl_ctx l = map sl_ctx l' -> packs l -> packs l'.
Proof.
  intros E (a & b & -> & A & B). rewrite map_app in E. assert (L : l' = firstn (length a) l' ++ skipn (length a) l') by (symmetry; apply firstn_skipn).
  exists (firstn (length a) l'), (skipn (length a) l'). split; auto. rewrite Forall_forall in *.
  assert (E1 : map sl_ctx (firstn (length a) l') = map sl_ctx a).
  { rewrite <- firstn_map, <- E, firstn_app, map_length, Nat.sub_diag, <- (map_length sl_ctx a), firstn_all. cbn. apply app_nil_r. }
  assert (E2 : map sl_ctx (skipn (length a) l') = map sl_ctx b).
  { rewrite <- skipn_map, <- E, skipn_app, map_length, Nat.sub_diag, <- (map_length sl_ctx a), skipn_all. reflexivity. }
  rewrite ?Forall_forall. split; intros x I; apply (in_map sl_ctx) in I; [rewrite E1 in I|rewrite E2 in I]; apply in_map_iff in I as (y & <- & I); auto.
Qed.
Lemma slot_apn_ctx c n a : map sl_ctx (pd_slots (f_pdp (slot_apn c n a))) = map sl_ctx (pd_slots (f_pdp c)).
Proof.
  unfold slot_apn. destruct (nth_error _ n) as [s|] eqn:E; auto. cbn. destruct (nth_error_split _ _ E) as (x & y & -> & <-). rewrite slot_put_split, !map_app. reflexivity.
Qed.
Definition pk (c : conf) (r : xres) : Prop := packs (pd_slots (f_pdp c)) -> match r with XOk d _ | XWarn d => packs (pd_slots (f_pdp d)) | _ => True end.
Lemma pk_same c d ch : f_pdp d = f_pdp c -> pk c (XOk d ch). Proof. intros E P. rewrite E. auto. Qed.
Lemma pk_warn c d : f_pdp d = f_pdp c -> pk c (XWarn d). Proof. intros E P. rewrite E. auto. Qed.
Lemma pk_ussd c x ch : pk c (ussd_do c x ch). Proof. unfold ussd_do. destruct (ucmd_ok _ _); intros P; exact P. Qed.
Lemma pk_smsc c x ch : pk c (smsc_do c x ch). Proof. unfold smsc_do. destruct (ucmd_ok _ _); intros P; exact P. Qed.
Lemma pk_svc c x ch : pk c (svc_do c x ch). Proof. unfold svc_do. destruct (vcmd_run _ _) as [[[] l]|]; intros P; exact P || exact Logic.I. Qed.
Lemma pk_srv_bind e c v : f_pdp (snd (srv_bind e c v)) = f_pdp c. Proof. unfold srv_bind. destruct (sa_nonzero _); reflexivity. Qed.
Lemma pk_cli_bind e c v : f_pdp (snd (cli_bind e c v)) = f_pdp c. Proof. unfold cli_bind. destruct (sa_nonzero _); reflexivity. Qed.
Lemma pk_answer c r : f_pdp (snd r) = f_pdp c -> pk c (answer_of r). Proof. unfold answer_of. destruct (fst r); [apply pk_same|apply pk_warn]. Qed.
Lemma pk_svcs e c n p h v : In (p, h) (svc_cmds e c n) -> pk c (h v).
Proof. cbn [svc_cmds In]. intros [[= <- <-]|[[= <- <-]|[[= <- <-]|[]]]]; apply pk_svc. Qed.
Lemma exec_packs e f n ws c : (n = NdPdps -> hd "" ws <> "no") -> pk c (exec e f n ws c).
Proof.
  intros NO. destruct (dispatch_inv e ws (cmds e f c n) _ eq_refl) as [E|(p & h & v & J & A & E)]; unfold exec; rewrite E; [intros P; exact Logic.I|]. clear E.
  destruct (args_fit e p (cmds_patterns _ _ _ _ _ _ J) ws v A) as [F _].
  destruct n as [| | | | | | |m| | | |k]; cbn [cmds] in J.
  - cbn [In] in J. repeat (destruct J as [[= <- <-]|J]; [apply pk_same; reflexivity|]). destruct J.
  - cbn [In] in J. repeat match type of J with _ \/ _ => destruct J as [[= <- <-]|J] end; try (destruct J; fail); try apply pk_ussd; try apply pk_smsc; try (apply pk_same; reflexivity).
    unfold reject_do. destruct (cause_of _); [|intros P; exact Logic.I]. apply pk_same. destruct (_ =? "not-found"); reflexivity.
  - cbn [In] in J. destruct J as [[= <- <-]|[[= <- <-]|[]]]; [apply pk_same; reflexivity|]. destruct f; [apply pk_same|apply pk_warn]; reflexivity.
  - destruct J.
  - destruct J.
  - cbn [In] in J. destruct J as [[= <- <-]|J].
    { cbn zeta. apply pk_answer. cbn [snd]. rewrite pk_cli_bind, pk_srv_bind. auto. }
    repeat (destruct J as [[= <- <-]|J]; [apply pk_same; reflexivity|]). destruct J.
  - apply in_app_or in J as [J|J]; [|eapply pk_svcs; eauto]. cbn [In] in J. destruct J as [[= <- <-]|J]; [apply pk_answer, pk_srv_bind|].
    destruct J as [[= <- <-]|[[= <- <-]|[[= <- <-]|[]]]]; try (apply pk_same; reflexivity). apply pk_svc.
  - eapply pk_svcs; eauto.
  - cbn [In] in J. destruct J as [[= <- <-]|[[= <- <-]|J]]; [apply pk_same; reflexivity|apply pk_answer, pk_cli_bind|].
    destruct J as [[= <- <-]|[[= <- <-]|[[= <- <-]|[[= <- <-]|[]]]]]; try (apply pk_same; reflexivity). destruct (sa_nonzero _); [apply pk_same|apply pk_warn]; reflexivity.
  - cbn [In] in J. destruct J as [[= <- <-]|[[= <- <-]|[]]]; intros P; exact P.
  - cbn [In] in J. destruct J as [[= <- <-]|[[= <- <-]|[]]].
    + cbn [fit_args] in F. destruct F as (w & r & -> & Fw & _). cbn [argn nth]. unfold profile_enter. destruct (slot_of (atoi w) _) eqn:S1; [intros P; exact P|].
      destruct (slot_of 0 _) eqn:S0; [|intros P; exact P]. intros P. cbn. apply packs_enter; auto. assert (1 <= atoi w <= 10)%Z by (apply range_atoi; auto; lia). lia.
    + exfalso. destruct ws as [|w ws]; [discriminate|]. rewrite args_eq in A. cbn [fits] in A. destruct (String.eqb_spec w "no"); [|discriminate]. subst. apply (NO eq_refl). reflexivity.
  - cbn [In] in J. destruct J as [[= <- <-]|[[= <- <-]|[]]].
    + unfold profile_apn. destruct (_ <? _)%nat; [intros P; exact P|]. destruct (v_apn e _); intros P; eapply packs_ctx; [symmetry; apply slot_apn_ctx|exact P|symmetry; apply slot_apn_ctx|exact P].
    + intros P. eapply packs_ctx; [symmetry; apply slot_apn_ctx|exact P].
Qed.
Lemma acts_packs e h : forall c c', packs (pd_slots (f_pdp c)) -> Forall keeps_profiles h -> acts e h c = Val c' -> packs (pd_slots (f_pdp c')).
Proof.
  induction h as [|a h IH]; intros c c' P F; cbn [acts]; [intros [= <-]; auto|]. inversion F as [|? ? Ha Hl]; subst.
  destruct (act_run e c a) as [c1|] eqn:R; [|discriminate]. cbn [mbind]. apply IH; auto. destruct a as [n ws|n ws|p]; cbn [act_run keeps_profiles] in *.
  - pose proof (exec_packs e true n ws c Ha P) as X. destruct (exec e true n ws c); try discriminate R; injection R as <-; auto.
  - pose proof (exec_packs e false n ws c Ha P) as X. destruct (exec e false n ws c); try discriminate R; injection R as <-; auto.
  - injection R as <-. auto.
Qed.
Lemma keeps_packed e h c : Forall keeps_profiles h -> acts e h conf0 = Val c -> packed (f_pdp c).
Proof.
  intros F X. apply packs_packed. apply (acts_packs e h conf0 c); auto. exists [], (repeat (mk_pslot 0 None) MAX_PDP). split; [reflexivity|]. split; [constructor|].
  rewrite Forall_forall. intros s I. apply repeat_spec in I. subst. reflexivity.
Qed.
