(** Proofs about the mDNS server and client of the HLR. *)
From Verif Require MdnsThms.
From Verif Require Import Base PeerId Db Auth Gsup Router Hlr UssdCfg SmsCfg MsLookup Mdns Proxy MsServer PeerSpec MsServerSpec Ctrl Config ConfigSpec ConfigThms ConfigThms2 ConfigThms3 DgsmRun DgsmRunSpec.
Local Open Scope string_scope.
Local Open Scope list_scope.

Lemma sa_eqb_eq a b : sa_eqb a b = true <-> a = b.
Proof.
  destruct a as [|i p|i p], b as [|j r|j r]; cbn [sa_eqb]; try (split; congruence); [|];
    rewrite andb_true_iff, N.eqb_eq; (split; [intros [E ->]; apply MdnsThms.octets_eqb_eq in E; congruence|intros [= -> ->]; split; auto; apply MdnsThms.octets_eqb_refl]).
Qed.
Lemma sa_eqb_refl a : sa_eqb a a = true. Proof. apply sa_eqb_eq. reflexivity. Qed.

(** ** The functions that start and stop *)
(** should the server run *)
Definition sw (s : drun) : bool := dr_allow s && sr_on (f_srv (dr_conf s)) && sr_mdns (f_srv (dr_conf s)).
Definition cw (s : drun) : bool := dr_allow s && cl_on (f_cli (dr_conf s)) && cl_mdns (f_cli (dr_conf s)).
Definition srv_at (s : drun) : sa * string := (sr_bind (f_srv (dr_conf s)), sr_suffix (f_srv (dr_conf s))).
Definition cli_at (s : drun) : sa * string * nat := (cl_query (f_cli (dr_conf s)), cl_suffix (f_cli (dr_conf s)), dr_gen s).
(** the server and the client agree with the configuration *)
Definition srv_ok (s : drun) : Prop := dr_srv s = None \/ (sw s = true /\ dr_srv s = Some (srv_at s)).
Definition cli_ok (s : drun) : Prop := dr_cli s = None \/ (cw s = true /\ dr_cli s = Some (cli_at s)).
Definition frame_srv (s s' : drun) : Prop := dr_conf s' = dr_conf s /\ dr_allow s' = dr_allow s /\ dr_gen s' = dr_gen s /\ dr_cli s' = dr_cli s.
Definition frame_cli (s s' : drun) : Prop := dr_conf s' = dr_conf s /\ dr_allow s' = dr_allow s /\ dr_gen s' = dr_gen s /\ dr_srv s' = dr_srv s.

Lemma apply_srv_spec o s : let s' := apply_srv o s in
  frame_srv s s' /\ srv_ok s' /\ (sw s = true -> sock_init o (fst (srv_at s)) = true -> dr_srv s' = Some (srv_at s)) /\
  (sw s = true -> dr_srv s = Some (srv_at s) -> s' = s) /\ (exists n, dr_log s' = n ++ dr_log s /\ forallb on_srv n = true).
Proof.
  unfold apply_srv. fold (sw s). set (c := f_srv (dr_conf s)). unfold srv_at at 1. fold c.
  assert (F : forall x n, frame_srv s (dr_with_srv s x n)) by (intros; repeat split).
  destruct (dr_srv s) as [[a w]|] eqn:E.
  - destruct (negb (sw s) || negb (sa_eqb (sr_bind c) a) || negb (sr_suffix c =? w)) eqn:Q.
    + cbn [dr_srv dr_with_srv]. destruct (sw s) eqn:W.
      * assert (D : dr_srv s <> Some (srv_at s)).
        { rewrite E. unfold srv_at. fold c. intros X. injection X as -> ->. rewrite sa_eqb_refl, String.eqb_refl in Q. discriminate. }
        destruct (sock_init o (sr_bind c)) eqn:I; cbv zeta.
        -- split; [repeat split|]. split; [right; split; [exact W|reflexivity]|]. split; [reflexivity|]. split; [intros _ X; rewrite <- E in X; contradiction|]. exists [SrvStart (sr_bind c) (sr_suffix c); SrvStop]; split; reflexivity.
        -- split; [repeat split|]. split; [left; reflexivity|]. split; [intros _ X; change (fst (sr_bind c, sr_suffix c)) with (sr_bind c) in X; congruence|]. split; [intros _ X; rewrite <- E in X; contradiction|]. exists [SrvFail (sr_bind c); SrvStop]. split; reflexivity.
      * split; [apply F|]. split; [left; reflexivity|]. split; [discriminate|]. split; [discriminate|]. exists [SrvStop]. split; reflexivity.
    + rewrite E. rewrite !orb_false_iff, !negb_false_iff in Q. destruct Q as [[W A] B]. apply sa_eqb_eq in A. apply String.eqb_eq in B. subst a w.
      split; [repeat split|]. split; [right; split; [exact W|rewrite E; reflexivity]|]. split; [intros _ _; rewrite E; reflexivity|]. split; [reflexivity|]. exists []. split; reflexivity.
  - rewrite E. destruct (sw s) eqn:W.
    + destruct (sock_init o (sr_bind c)) eqn:I.
      * split; [repeat split|]. split; [right; split; [exact W|reflexivity]|]. split; [reflexivity|]. split; [discriminate|]. exists [SrvStart (sr_bind c) (sr_suffix c)]; split; reflexivity.
      * split; [repeat split|]. split; [left; reflexivity|]. split; [intros _ X; cbn [fst] in X; congruence|]. split; [discriminate|]. exists [SrvFail (sr_bind c)]; split; reflexivity.
    + split; [repeat split|]. split; [left; exact E|]. split; [discriminate|]. split; [discriminate|]. exists []. split; reflexivity.
Qed.
Definition text_gone (s : drun) : Prop := exists a w g, dr_cli s = Some (a, w, g) /\ cw s = true /\ a = cl_query (f_cli (dr_conf s)) /\ g <> dr_gen s.
Lemma apply_cli_spec o s :
  (apply_cli o s = Bad /\ text_gone s) \/
  exists s', apply_cli o s = Val s' /\ ~ text_gone s /\ frame_cli s s' /\ cli_ok s' /\ (cw s = true -> os_rand o = true -> sock_init o (fst (fst (cli_at s))) = true -> dr_cli s' = Some (cli_at s)) /\
    (cw s = true -> dr_cli s = Some (cli_at s) -> s' = s) /\ (exists n, dr_log s' = n ++ dr_log s /\ forallb (fun x => negb (on_srv x)) n = true).
Proof.
  unfold apply_cli. fold (cw s). set (c := f_cli (dr_conf s)).
  assert (Go : forall st n, (forall a w g, dr_cli s = Some (a, w, g) -> ~ text_gone s) -> st = dr_with_cli s None n -> forallb (fun x => negb (on_srv x)) n = true -> (cw s = true -> dr_cli s <> Some (cli_at s)) ->
    (cw s = false -> n = [] -> dr_cli s = None) ->
    exists s', Val (match dr_cli st with None => if cw s then if os_rand o && sock_init o (cl_query c) then dr_with_cli st (Some (cl_query c, cl_suffix c, dr_gen st)) [CliStart (cl_query c) (cl_suffix c)] else dr_with_cli st None [CliFail (cl_query c)] else st | Some _ => st end) = Val s' /\
      ~ text_gone s /\ frame_cli s s' /\ cli_ok s' /\ (cw s = true -> os_rand o = true -> sock_init o (fst (fst (cli_at s))) = true -> dr_cli s' = Some (cli_at s)) /\
      (cw s = true -> dr_cli s = Some (cli_at s) -> s' = s) /\ (exists n', dr_log s' = n' ++ dr_log s /\ forallb (fun x => negb (on_srv x)) n' = true)).
  { intros st n T -> N D _. assert (T' : ~ text_gone s) by (intros X; destruct X as (a & w & g & H & R); apply (T a w g H); exists a, w, g; auto).
    cbn [dr_cli dr_with_cli]. destruct (cw s) eqn:W.
    - destruct (os_rand o && sock_init o (cl_query c)) eqn:I.
      + eexists. split; [reflexivity|]. split; [exact T'|]. split; [repeat split|]. split; [right; split; [exact W|reflexivity]|]. split; [reflexivity|]. split; [intros _ X; destruct (D eq_refl X)|].
        exists (CliStart (cl_query c) (cl_suffix c) :: n). split; [reflexivity|exact N].
      + eexists. split; [reflexivity|]. split; [exact T'|]. split; [repeat split|]. split; [left; reflexivity|]. split; [intros _ X Y; cbn in Y; fold c in Y; rewrite X, Y in I; discriminate|]. split; [intros _ X; destruct (D eq_refl X)|].
        exists (CliFail (cl_query c) :: n). split; [reflexivity|exact N].
    - eexists. split; [reflexivity|]. split; [exact T'|]. split; [repeat split|]. split; [left; reflexivity|]. split; [discriminate|]. split; [discriminate|]. exists n. split; [reflexivity|exact N]. }
  destruct (dr_cli s) as [[[a w] g]|] eqn:E.
  - destruct (negb (cw s) || negb (sa_eqb (cl_query c) a)) eqn:Q.
    + right. cbn [mbind]. eapply Go with (n := [CliStop]); [|reflexivity|reflexivity| |intros _ X; discriminate X].
      * intros a' w' g' X (a2 & w2 & g2 & Y & W & A & _). rewrite E in Y. injection Y as <- <- <-. fold c in A. subst a. rewrite W, sa_eqb_refl in Q. discriminate.
      * intros W X. unfold cli_at in X. fold c in X. injection X as -> -> ->. rewrite W, sa_eqb_refl in Q. discriminate.
    + rewrite orb_false_iff, !negb_false_iff in Q. destruct Q as [W A]. apply sa_eqb_eq in A. subst a. destruct (g =? dr_gen s)%nat eqn:G; cbn [negb].
      * apply Nat.eqb_eq in G. subst g. right.
        destruct (cl_suffix c =? w) eqn:S; cbn [negb mbind].
        -- apply String.eqb_eq in S. subst w. rewrite E. eexists. split; [reflexivity|].
           assert (T' : ~ text_gone s) by (intros (a2 & w2 & g2 & Y & _ & _ & N); rewrite E in Y; injection Y as <- <- <-; contradiction).
           split; [exact T'|]. split; [repeat split|]. split; [right; split; [exact W|rewrite E; reflexivity]|]. split; [intros _ _ _; rewrite E; reflexivity|]. split; [reflexivity|]. exists []. split; reflexivity.
        -- eapply Go with (n := [CliStop]); [|reflexivity|reflexivity| |intros _ X; discriminate X].
           ++ intros a' w' g' X (a2 & w2 & g2 & Y & _ & _ & N). rewrite E in Y. injection Y as <- <- <-. contradiction.
           ++ intros _ X. unfold cli_at in X. fold c in X. injection X as ->. rewrite String.eqb_refl in S. discriminate.
      * left. split; [reflexivity|]. exists (cl_query c), w, g. split; [exact E|]. split; [exact W|]. split; [reflexivity|]. apply Nat.eqb_neq. exact G.
  - right. cbn [mbind]. assert (Ed : s = dr_with_cli s None []) by (destruct s; cbn in E; subst; reflexivity).
    eapply Go with (n := []); [discriminate|exact Ed|reflexivity|discriminate|auto].
Qed.

(** ** Commands *)
(** what a command leaves as it was *)
Definition srv_key (c : conf) := (sr_on (f_srv c), sr_mdns (f_srv c), sr_bind (f_srv c), sr_suffix (f_srv c)).
Definition cli_key (c : conf) := (cl_on (f_cli c), cl_mdns (f_cli c), cl_query (f_cli c), cl_suffix (f_cli c)).
Definition ca_all (c c' : conf) (k : calls) : Prop :=
  (ca_srv k = false -> srv_key c' = srv_key c) /\ (ca_cli k = false -> cli_key c' = cli_key c) /\ (ca_text k = false -> cl_suffix (f_cli c') = cl_suffix (f_cli c)) /\ (ca_text k = true -> ca_cli k = true).
Definition xall (c : conf) (k : calls) (r : xres) : Prop := match r with XWarn c' | XOk c' _ => ca_all c c' k | _ => True end.
Lemma same_all c k : (ca_text k = true -> ca_cli k = true) -> ca_all c c k. Proof. intros H. repeat split; auto. Qed.
Lemma args_kw e k p ws v : args e (K k :: p) ws = Some v -> exists r, ws = k :: r /\ args e p r = Some v.
Proof.
  rewrite args_eq. destruct ws as [|w r]; [discriminate|]. cbn [fits is_kw]. destruct (String.eqb_spec w k) as [->|]; [|discriminate].
  destruct (args e p r) as [x|] eqn:A; [|discriminate]. intros E. injection E as <-. exists r. auto.
Qed.
Lemma args_opts e r v : args e [Opt Any; Opt Port] r = Some v -> v = r.
Proof.
  rewrite args_eq. destruct r as [|w r]; [cbn; intros E; injection E as <-; reflexivity|]. cbn [fits is_kw]. rewrite args_eq. destruct r as [|w' r]; [cbn; intros E; injection E as <-; reflexivity|].
  change (fits e (Opt Port) w') with (fits e Port w'). destruct (fits e Port w'); [|discriminate]. rewrite args_eq. destruct r; [|discriminate]. intros E. injection E as <-. reflexivity.
Qed.
Lemma key_srv_bind e c v : fst (srv_bind e c v) = false -> snd (srv_bind e c v) = c. Proof. unfold srv_bind. destruct (sa_nonzero _); [discriminate|reflexivity]. Qed.
Lemma key_cli_bind e c v : fst (cli_bind e c v) = false -> snd (cli_bind e c v) = c. Proof. unfold cli_bind. destruct (sa_nonzero _); [discriminate|reflexivity]. Qed.
Lemma key_srv_bind' e c v : f_cli (snd (srv_bind e c v)) = f_cli c. Proof. unfold srv_bind. destruct (sa_nonzero _); reflexivity. Qed.
Lemma key_cli_bind' e c v : f_srv (snd (cli_bind e c v)) = f_srv c /\ cl_suffix (f_cli (snd (cli_bind e c v))) = cl_suffix (f_cli c). Proof. unfold cli_bind. destruct (sa_nonzero _); split; reflexivity. Qed.
Lemma xall_answer c k r : ca_all c (snd r) k -> xall c k (answer_of r). Proof. unfold answer_of. destruct (fst r); auto. Qed.
Definition keeps_ms (c : conf) (r : xres) : Prop := match r with XWarn c' | XOk c' _ => srv_key c' = srv_key c /\ cli_key c' = cli_key c | _ => True end.
Lemma keeps_all c k r : keeps_ms c r -> k = no_calls -> xall c k r.
Proof. intros H ->. destruct r; cbn in *; auto; destruct H as [A B]; (split; [auto|split; [auto|split; [intros _; injection B; auto|discriminate]]]). Qed.
Lemma keeps_ussd c x ch : keeps_ms c (ussd_do c x ch). Proof. unfold ussd_do. destruct (ucmd_ok _ _); split; reflexivity. Qed.
Lemma keeps_smsc c x ch : keeps_ms c (smsc_do c x ch). Proof. unfold smsc_do. destruct (ucmd_ok _ _); split; reflexivity. Qed.
Lemma keeps_svc c x ch : keeps_ms c (svc_do c x ch). Proof. unfold svc_do. destruct (vcmd_run _ _) as [[[] l]|]; try exact Logic.I; split; reflexivity. Qed.
Lemma keeps_svcs e c n p h v : In (p, h) (svc_cmds e c n) -> keeps_ms c (h v).
Proof. cbn [svc_cmds In]. intros [[= <- <-]|[[= <- <-]|[[= <- <-]|[]]]]; apply keeps_svc. Qed.
Lemma keeps_apn c n a : srv_key (slot_apn c n a) = srv_key c /\ cli_key (slot_apn c n a) = cli_key c. Proof. unfold slot_apn. destruct (nth_error _ _); split; reflexivity. Qed.
Lemma exec_calls e f n ws c : xall c (calls_of e c n ws) (exec e f n ws c).
Proof.
  destruct (dispatch_inv e ws (cmds e f c n) _ eq_refl) as [E|(p & h & v & J & A & E)]; unfold exec; rewrite E; [exact Logic.I|]. clear E.
  destruct n as [| | | | | | |m| | | |k]; cbn [cmds] in J.
  - apply keeps_all; [|reflexivity]. cbn [In] in J. repeat (destruct J as [[= <- <-]|J]; [split; reflexivity|]). destruct J.
  - apply keeps_all; [|reflexivity]. cbn [In] in J. repeat match type of J with _ \/ _ => destruct J as [[= <- <-]|J] end; try (destruct J; fail); try apply keeps_ussd; try apply keeps_smsc; try (split; reflexivity).
    unfold reject_do. destruct (cause_of _); [|exact Logic.I]. cbn [keeps_ms]. destruct (_ =? "not-found"); split; reflexivity.
  - apply keeps_all; [|reflexivity]. cbn [In] in J. destruct J as [[= <- <-]|[[= <- <-]|[]]]; [split; reflexivity|]. destruct f; split; reflexivity.
  - destruct J.
  - destruct J.
  - cbn [In] in J. destruct J as [[= <- <-]|J].
    { apply args_kw in A as (r & -> & A). apply args_kw in A as (r' & -> & A). apply args_opts in A. subst r'. cbn zeta.
      change (calls_of e c NdMs ("mdns" :: "bind" :: v)) with (let r := srv_bind e c v in mk_calls false (fst r) (fst (cli_bind e (snd r) v))). cbv zeta.
      apply xall_answer. cbn [snd]. destruct (key_cli_bind' e (snd (srv_bind e c v)) v) as [B1 B2]. split; [|split; [|split]]; cbn [ca_srv ca_cli ca_text].
      - intros Q. unfold srv_key. rewrite B1, (key_srv_bind _ _ _ Q). reflexivity.
      - intros Q. unfold cli_key. rewrite (key_cli_bind _ _ _ Q), key_srv_bind'. reflexivity.
      - intros _. rewrite B2, key_srv_bind'. reflexivity.
      - discriminate. }
    repeat match type of J with _ \/ _ => destruct J as [[= <- <-]|J]; [repeat (let r := fresh "r" in apply args_kw in A as (r & -> & A)); cbn; split; [|split; [|split]]; first [reflexivity|discriminate|intros; reflexivity]|] end. destruct J.
  - apply in_app_or in J as [J|J].
    + cbn [In] in J. destruct J as [[= <- <-]|J].
      { apply args_kw in A as (r & -> & A). apply args_kw in A as (r' & -> & A). apply args_opts in A. subst r'.
        change (calls_of e c NdServer ("mdns" :: "bind" :: v)) with (mk_calls false (fst (srv_bind e c v)) false). apply xall_answer. split; [|split; [|split]]; cbn [ca_srv ca_cli ca_text].
        - intros Q. rewrite (key_srv_bind _ _ _ Q). reflexivity.
        - intros _. unfold cli_key. rewrite key_srv_bind'. reflexivity.
        - intros _. rewrite key_srv_bind'. reflexivity.
        - discriminate. }
      destruct J as [[= <- <-]|[[= <- <-]|[[= <- <-]|[]]]]; repeat (let r := fresh "r" in apply args_kw in A as (r & -> & A)).
      * cbn; split; [|split; [|split]]; first [reflexivity|discriminate|intros; reflexivity].
      * cbn; split; [|split; [|split]]; first [reflexivity|discriminate|intros; reflexivity].
      * apply keeps_all; [apply keeps_svc|reflexivity].
    + assert (C : calls_of e c NdServer ws = no_calls).
      { cbn [svc_cmds In] in J. destruct J as [[= <- <-]|[[= <- <-]|[[= <- <-]|[]]]]; apply args_kw in A as (r & -> & A); [reflexivity| |]; apply args_kw in A as (r' & -> & A); reflexivity. }
      apply keeps_all; [eapply keeps_svcs; eauto|exact C].
  - apply keeps_all; [eapply keeps_svcs; eauto|reflexivity].
  - cbn [In] in J. destruct J as [[= <- <-]|[[= <- <-]|J]].
    + apply args_kw in A as (r & -> & A). apply keeps_all; [split; reflexivity|reflexivity].
    + apply args_kw in A as (r & -> & A). apply args_kw in A as (r' & -> & A). apply args_opts in A. subst r'.
      change (calls_of e c NdClient ("mdns" :: "bind" :: v)) with (mk_calls false false (fst (cli_bind e c v))). apply xall_answer. destruct (key_cli_bind' e c v) as [B1 B2]. split; [|split; [|split]]; cbn [ca_srv ca_cli ca_text].
      * intros _. unfold srv_key. rewrite B1. reflexivity.
      * intros Q. rewrite (key_cli_bind _ _ _ Q). reflexivity.
      * intros _. exact B2.
      * discriminate.
    + destruct J as [[= <- <-]|[[= <- <-]|[[= <- <-]|[[= <- <-]|[]]]]]; repeat (let r := fresh "r" in apply args_kw in A as (r & -> & A)).
      * cbn; split; [|split; [|split]]; first [reflexivity|discriminate|intros; reflexivity].
      * cbn; split; [|split; [|split]]; first [reflexivity|discriminate|intros; reflexivity].
      * apply keeps_all; [|reflexivity]. destruct (sa_nonzero _); split; reflexivity.
      * apply keeps_all; [split; reflexivity|reflexivity].
  - apply keeps_all; [|reflexivity]. cbn [In] in J. destruct J as [[= <- <-]|[[= <- <-]|[]]]; split; reflexivity.
  - apply keeps_all; [|reflexivity]. cbn [In] in J. destruct J as [[= <- <-]|[[= <- <-]|[]]].
    + unfold profile_enter. destruct (slot_of _ _); [split; reflexivity|]. destruct (slot_of 0 _); split; reflexivity.
    + unfold profile_del. destruct (slot_of _ _); split; reflexivity.
  - apply keeps_all; [|reflexivity]. cbn [In] in J. destruct J as [[= <- <-]|[[= <- <-]|[]]].
    + unfold profile_apn. destruct (_ <? _)%nat; [split; reflexivity|]. destruct (v_apn e _); apply keeps_apn.
    + apply keeps_apn.
Qed.
