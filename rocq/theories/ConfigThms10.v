(** Proofs for C56: services in a configuration; comments. *)
From Verif Require Import Base PeerId Db Auth Gsup Router Hlr UssdCfg SmsCfg MsLookup Mdns Proxy MsServer PeerSpec MsServerSpec MsServerThms Ctrl CtrlSpec CtrlThms CtrlThms4 Config ConfigSpec ConfigSpec2 ConfigThms ConfigThms2 ConfigThms3 ConfigThms5 ConfigThms6 ConfigThms9.
Local Open Scope string_scope. Local Open Scope list_scope.

Lemma port_is w p : port_text w p <-> in_range 1 65535 w = true /\ port_arg w = p.
Proof.
  unfold port_text, in_range, port_arg. split.
  - intros [U [A B]]. destruct (numeral_digits _ _ U) as (D & NE & _). apply String.eqb_neq in NE. rewrite NE, D. cbn [negb andb].
    rewrite (numeral_atoi w (Z.of_N p)) by (auto; lia). rewrite N2Z.id. split; auto. apply andb_true_iff. split; apply Z.leb_le; lia.
  - rewrite andb_true_iff, negb_true_iff, String.eqb_neq. intros [[N R] E]. destruct (all_digits w 0) as [v|] eqn:A; [|discriminate].
    apply andb_true_iff in R as [R1 R2]. apply Z.leb_le in R1. apply Z.leb_le in R2. pose proof (digits_numeral w v N A) as U. rewrite (numeral_atoi w v) in E by (auto; lia).
    subst p. rewrite Z2N.id by lia. split; auto. lia.
Qed.
Lemma exec_says e f n ws x c : says e n ws x -> exists ch, exec e f n ws c = svc_do c x ch.
Proof.
  intros Y. destruct Y as [ws NE|n o s ip w p [|m] P|n o s [|m]|n o s ip w p [|m] P]; try (apply port_is in P as [R <-]).
  - destruct ws as [|w ws]; [congruence|]. eexists. reflexivity.
  - eexists. unfold exec. cbn [cmds svc_cmds app dispatch args fits is_kw String.eqb Ascii.eqb Bool.eqb Port]. rewrite R. reflexivity.
  - eexists. unfold exec. cbn [cmds svc_cmds app dispatch args fits is_kw String.eqb Ascii.eqb Bool.eqb Port]. rewrite R. reflexivity.
  - eexists. reflexivity.
  - eexists. reflexivity.
  - eexists. unfold exec. cbn [cmds svc_cmds app dispatch args fits is_kw String.eqb Ascii.eqb Bool.eqb Port]. rewrite R. reflexivity.
  - eexists. unfold exec. cbn [cmds svc_cmds app dispatch args fits is_kw String.eqb Ascii.eqb Bool.eqb Port]. rewrite R. reflexivity.
Qed.
Lemma args_any e p ws v : args e (Any :: p) ws = Some v -> exists w r x, ws = w :: r /\ v = w :: x /\ args e p r = Some x.
Proof. destruct ws as [|w r]; cbn [args fits is_kw]; [discriminate|]. destruct (args e p r) as [x|] eqn:A; [|discriminate]. intros [= <-]. exists w, r, x. auto. Qed.
Lemma args_port e ws v : args e [Port] ws = Some v -> exists w, ws = [w] /\ v = [w] /\ in_range 1 65535 w = true.
Proof.
  destruct ws as [|w r]; cbn [args fits is_kw Port]; [discriminate|]. destruct (in_range 1 65535 w) eqn:R; [|discriminate]. destruct r; [|discriminate]. intros [= <-]. exists w. auto.
Qed.
Lemma args_nil e ws v : args e [] ws = Some v -> ws = [] /\ v = [].
Proof. destruct ws; cbn; [intros [= <-]; auto|discriminate]. Qed.
Lemma args_rest e ws v : args e [Rest] ws = Some v -> ws <> [] /\ v = ws.
Proof. destruct ws; cbn; [discriminate|intros [= <-]; split; [discriminate|auto]]. Qed.
Local Ltac kw A := repeat (let r := fresh "r" in apply args_kw in A as (r & -> & A)).
Local Ltac anys A := repeat first [let w := fresh "w" in let r := fresh "r" in let x := fresh "x" in apply args_any in A as (w & r & x & -> & -> & A) | let r := fresh "r" in apply args_kw in A as (r & -> & A)].

Lemma svc_says e c n o p h v ws : whose n o -> In (p, h) (svc_cmds e c o) -> args e p ws = Some v -> exists x, says e n ws x.
Proof.
  intros W J A. cbn [svc_cmds In] in J. destruct J as [[= <- <-]|[[= <- <-]|[[= <- <-]|[]]]]; anys A.
  - apply args_port in A as (w' & -> & -> & R). eexists. eapply sy_set; eauto. apply port_is. auto.
  - apply args_nil in A as [-> ->]. eexists. eapply sy_no; eauto.
  - apply args_port in A as (w' & -> & -> & R). eexists. eapply sy_no_at; eauto. apply port_is. auto.
Qed.
Local Ltac no_says := intros y Y; inversion Y; try match goal with H : whose _ _ |- _ => inversion H end; congruence.
Lemma about_where n ws : about n ws SServer -> n = NdMs \/ exists o, whose n o.
Proof.
  intros A. remember SServer as s eqn:E. induction A; try discriminate; auto.
  - right. eexists. constructor.
  - right. eexists. constructor.
Qed.
Lemma mdns_mscs e c v d : to_conf (let r1 := srv_bind e c v in let r2 := cli_bind e (snd r1) v in answer_of (fst r1 && fst r2, snd r2)) = Some d ->
  sr_mscs (f_srv d) = sr_mscs (f_srv c).
Proof.
  unfold srv_bind, cli_bind, answer_of. cbv zeta. destruct (sa_nonzero (mdns_addr e (sr_bind (f_srv c)) v)); cbn [fst snd];
    match goal with |- context [sa_nonzero ?x] => destruct (sa_nonzero x) end; cbn; intros [= <-]; reflexivity.
Qed.
Lemma srv_bind_mscs e c v d : to_conf (answer_of (srv_bind e c v)) = Some d -> sr_mscs (f_srv d) = sr_mscs (f_srv c).
Proof. unfold srv_bind, answer_of. cbv zeta. destruct (sa_nonzero _); cbn; intros [= <-]; reflexivity. Qed.
Lemma exec_cases e f n ws c d : to_conf (exec e f n ws c) = Some d ->
  (exists x, says e n ws x) \/ ((forall x, ~ says e n ws x) /\ sr_mscs (f_srv d) = sr_mscs (f_srv c)).
Proof.
  intros E.
  assert (O : (forall o, ~ whose n o) -> n <> NdMs -> (exists x, says e n ws x) \/ ((forall x, ~ says e n ws x) /\ sr_mscs (f_srv d) = sr_mscs (f_srv c))).
  { intros W M. right. split.
    - intros x Y. destruct Y; try (eapply W; eauto; fail). apply (W None). constructor.
    - f_equal. apply (others e f n ws c d SServer E). intros A. destruct (about_where _ _ A) as [->|[o Wo]]; [congruence|exact (W o Wo)]. }
  assert (D : exists p h v, In (p, h) (cmds e f c n) /\ args e p ws = Some v /\ to_conf (h v) = Some d).
  { unfold exec in E. destruct (dispatch_in e ws (cmds e f c n) _ eq_refl) as (p & h & v & J & A & R); [intros X; rewrite X in E; discriminate|].
    exists p, h, v. rewrite <- R. auto. }
  destruct D as (p & h & v & J & A & R). clear E.
  destruct n; try (apply O; [intros o X; inversion X; fail|discriminate]); clear O; cbn [cmds] in J.
  - right. split; [intros x Y; inversion Y; try match goal with H : whose _ _ |- _ => inversion H end|]. cbn [In] in J.
    destruct J as [[= <- <-]|J]; [exact (mdns_mscs _ _ _ _ R)|].
    repeat (destruct J as [[= <- <-]|J]; [cbn in R; injection R as <-; reflexivity|]). destruct J.
  - apply in_app_or in J as [J|J]; [|left; exact (svc_says e c NdServer None p h v ws wh_server J A)]. cbn [In] in J.
    destruct J as [[= <- <-]|[[= <- <-]|[[= <- <-]|[[= <- <-]|[]]]]].
    + right. split; [|exact (srv_bind_mscs _ _ _ _ R)]. kw A. intros x Y. inversion Y.
    + right. split; [|cbn in R; injection R as <-; reflexivity]. kw A. intros x Y. inversion Y.
    + right. split; [|cbn in R; injection R as <-; reflexivity]. kw A. intros x Y. inversion Y.
    + left. kw A. apply args_rest in A as [NE ->]. eexists. constructor. auto.
  - left. exact (svc_says e c (NdMsc name) (Some name) p h v ws (wh_msc name) J A).
Qed.
Lemma act_step e a c c' : act_run e c a = Val c' ->
  (exists x b, act_says e a x /\ vcmd_run (sr_mscs (f_srv c)) x = Val (b, sr_mscs (f_srv c'))) \/
  ((forall x, ~ act_says e a x) /\ sr_mscs (f_srv c') = sr_mscs (f_srv c)).
Proof.
  assert (X : forall f n ws, match exec e f n ws c with XNo => Val c | XWarn c' => Val c' | XOk c' _ => Val c' | XUb => Bad end = Val c' ->
    (exists x b, says e n ws x /\ vcmd_run (sr_mscs (f_srv c)) x = Val (b, sr_mscs (f_srv c'))) \/ ((forall x, ~ says e n ws x) /\ sr_mscs (f_srv c') = sr_mscs (f_srv c))).
  { intros f n ws R.
    assert (Y : (exists x, says e n ws x) \/ ((forall x, ~ says e n ws x) /\ sr_mscs (f_srv c') = sr_mscs (f_srv c))).
    { destruct (exec e f n ws c) as [|w|w ch|] eqn:E; try discriminate; injection R as <-.
      - right. split; auto. intros x Y. destruct (exec_says e f n ws x c Y) as (ch & E2). rewrite E in E2. unfold svc_do in E2. destruct (vcmd_run _ x) as [[[] ?]|]; discriminate.
      - apply (exec_cases e f n ws c w). rewrite E. reflexivity.
      - apply (exec_cases e f n ws c w). rewrite E. reflexivity. }
    destruct Y as [[x Y]|Y]; [left|right; auto]. destruct (exec_says e f n ws x c Y) as (ch & E). rewrite E in R. unfold svc_do in R.
    destruct (vcmd_run (sr_mscs (f_srv c)) x) as [[b l]|] eqn:V; [|discriminate]. exists x, b. split; auto. rewrite V. destruct b; injection R as <-; reflexivity. }
  destruct a as [n ws|n ws|p]; cbn [act_run act_says]; [apply X|apply X|]. intros [= <-]. right. split; auto.
Qed.
Lemma acts_said e h : forall c c', acts e h c = Val c' -> exists l, said e h l /\ vcmds (sr_mscs (f_srv c)) l = Val (sr_mscs (f_srv c')).
Proof.
  induction h as [|a h IH]; intros c c'; cbn [acts]; [intros [= <-]; exists []; split; [constructor|reflexivity]|].
  destruct (act_run e c a) as [c1|] eqn:R; [|discriminate]. cbn [mbind]. intros H. destruct (IH c1 c' H) as (l & L & V).
  destruct (act_step e a c c1 R) as [(x & b & Y & X)|[N E]].
  - exists (x :: l). split; [constructor; auto|]. cbn [vcmds]. rewrite X. exact V.
  - exists l. split; [apply sd_other; auto|]. rewrite <- E. exact V.
Qed.
Lemma says_plain e n ws x : ConfigSpec.line_ok n ws -> says e n ws x -> plain_node (node_of x).
Proof.
  intros (_ & NO & MS) Y.
  assert (P : forall o, whose n o -> plain_node o) by (intros o W; inversion W; subst; [exact Logic.I|]; cbn [node_ok] in NO; destruct NO as (vs & -> & M); exact (name_plain vs M)).
  destruct Y; cbn [node_of]; auto. apply name_plain. apply MS; auto.
Qed.
Lemma said_plain e h l : said e h l -> Forall act_ok h -> Forall (fun x => plain_node (node_of x)) l.
Proof.
  induction 1 as [|a h x l Y S IH|a h l N S IH]; intros F; [constructor| |]; inversion F as [|? ? Fa Fh]; subst; auto. constructor; auto.
  destruct a as [n ws|n ws|p]; cbn [act_says act_ok] in *; try contradiction; eapply says_plain; eauto.
Qed.
Lemma services e h c : Forall act_ok h -> acts e h conf0 = Val c ->
  exists l, said e h l /\ forall n s f a, plain_node n -> (found (sr_mscs (f_srv c)) n s f a <-> mapped (rev l) n s f a).
Proof.
  intros F A. destruct (acts_said e h conf0 c A) as (l & S & V). exists l. split; auto. destruct (c48 l (said_plain e h l S F)) as (m & V2 & _ & M).
  change (vcmds [] l = Val (sr_mscs (f_srv c))) in V. rewrite V in V2. injection V2 as <-. exact M.
Qed.

(** comments *)
Lemma read_skip e l : no_command l -> forall a b st c, read e (a ++ l :: b) st c = read e (a ++ b) st c.
Proof.
  intros N. induction a as [|x a IH]; intros b st c; cbn [List.app read].
  - destruct (words l) as [|w ws] eqn:W; auto. destruct (N w ws W) as (k & t & -> & [-> | ->]); reflexivity.
  - destruct (words x) as [|w ws]; [apply IH|]. destruct (is_comment w); [apply IH|]. destruct (settle _ _) as [[|[i n] r]|]; auto.
    destruct (exec e true n (w :: ws) c) as [|w'|w' ch|]; auto.
Qed.
Lemma read_first e l b c : read_file e (l :: b) = Val (Some c) -> words l <> [] -> ~ no_command l -> exists ws, words l = "hlr" :: ws \/ words l = "mslookup" :: ws.
Proof.
  unfold read_file. cbn [read]. destruct (words l) as [|w ws] eqn:W; [congruence|]. intros R _ N. destruct (is_comment w) eqn:C.
  - exfalso. apply N. intros w' ws' H; rewrite W in H; injection H as <- <-. destruct w as [|k t].
    + exfalso. assert (J : In "" (words l)) by (rewrite W; now left). apply filter_In in J as [_ J]. discriminate.
    + exists k, t. split; auto. cbn in C. apply orb_true_iff in C as [C|C]; apply Ascii.eqb_eq in C; auto.
  - destruct (settle (indent l) [(Some 0%nat, NdConfig)]) as [[|[i n] r]|] eqn:S; try discriminate.
    assert (n = NdConfig) as -> by (cbn [settle] in S; destruct (0 =? indent l)%nat; [injection S as _ <- _; auto|]; destruct (indent l <? 0)%nat; discriminate).
    unfold exec in R. cbn [cmds dispatch] in R. destruct (args e [K "hlr"] (w :: ws)) eqn:A; [apply args_kw in A as (q & E & _); injection E as -> ->; eauto|].
    destruct (args e [K "mslookup"] (w :: ws)) eqn:B; [apply args_kw in B as (q & E & _); injection E as -> ->; eauto|discriminate].
Qed.

(** ** Entities and routes *)
Lemma find_prefix_iff u p : is_some (find_prefix u p) = true <-> routed u p.
Proof.
  unfold find_prefix, routed. destruct (find _ (u_routes u)) as [[q a]|] eqn:F; cbn [is_some].
  - apply find_some in F as [J E]. cbn in E. apply String.eqb_eq in E. subst q. split; eauto.
  - split; [discriminate|]. intros (a & J). apply (find_none _ _ F) in J. cbn in J. rewrite String.eqb_refl in J. discriminate.
Qed.
Lemma euse_find_iff u n : is_some (euse_find u n) = true <-> entity u n.
Proof.
  unfold euse_find, entity. destruct (find _ (u_euses u)) as [x|] eqn:F; cbn [is_some].
  - apply find_some in F as [J E]. apply String.eqb_eq in E. split; eauto.
  - split; [discriminate|]. intros (x & J & E). apply (find_none _ _ F) in J. cbn in J. rewrite E, String.eqb_refl in J. discriminate.
Qed.
Lemma ucmd_ok_iff u x : NoDup (map e_name (u_euses u)) -> (ucmd_ok u x = true <-> accepted u x).
Proof.
  intros ND. destruct x as [p i|p n|p|n| |n|n]; cbn [ucmd_ok accepted]; rewrite ?negb_true_iff, ?andb_true_iff, ?negb_true_iff, ?find_prefix_iff, ?euse_find_iff; try tauto.
  - rewrite <- find_prefix_iff. destruct (is_some _); split; congruence.
  - rewrite <- find_prefix_iff. destruct (is_some _); split; intros [A B]; split; auto; congruence.
  - destruct (euse_find u n) as [y|] eqn:F.
    + pose proof F as F'. apply find_some in F as [J E]. apply String.eqb_eq in E. rewrite negb_true_iff. split.
      * intros D. exists y. split; auto. split; auto. intros X. rewrite X, Nat.eqb_refl in D. discriminate.
      * intros (z & Jz & Ez & Dz). assert (z = y) as ->.
        { clear - ND J Jz E Ez. induction (u_euses u) as [|w l IH]; [destruct J|]. cbn in ND. inversion ND as [|? ? N1 N2]; subst.
          destruct J as [->|J], Jz as [->|Jz]; auto; exfalso; apply N1; [rewrite <- Ez|rewrite Ez]; apply in_map; auto. }
        destruct (u_default u) as [d|]; auto. apply Nat.eqb_neq. congruence.
    + split; [discriminate|]. intros (z & J & E & _). apply (find_none _ _ F) in J. cbn in J. rewrite E, String.eqb_refl in J. discriminate.
Qed.
Lemma refused_same u x : ucmd_ok u x = false -> ucmd_run u x = u.
Proof.
  destruct x as [p i|p n|p|n| |n|n]; cbn [ucmd_ok ucmd_run]; try discriminate.
  - destruct (find_prefix u p); [auto|discriminate].
  - destruct (find_prefix u p); [auto|]. destruct (euse_find u n); [discriminate|auto].
  - destruct (find_prefix u p); [discriminate|auto].
  - destruct (euse_find u n); [discriminate|auto].
  - destruct (euse_find u n) as [y|]; [|auto]. destruct (match u_default u with Some d => _ | None => false end); [auto|discriminate].
Qed.
Lemma set_ussd_id c : set_ussd c (f_ussd c) = c. Proof. destruct c; reflexivity. Qed.
Lemma set_smsc_id c : set_smsc c (f_smsc c) = c. Proof. destruct c; reflexivity. Qed.
Lemma ussd_exec e f ws x c : ussd_line ws x -> exists ch, exec e f NdHlr ws c = ussd_do c x ch.
Proof. intros [n|n|p|p|p|p n|p|n|]; eexists; reflexivity. Qed.
Lemma smsc_exec e f ws x c : smsc_line ws x -> exists y ch, x = as_ucmd y /\ exec e f NdHlr ws c = smsc_do c y ch.
Proof.
  intros [n|n|a n|a|n|]; [exists (SEntity n)|exists (SNoEntity n)|exists (SRoute a n)|exists (SNoRoute a)|exists (SDefault n)|exists SNoDefault]; eexists; split; reflexivity.
Qed.
Lemma entities e f h c ws x : Forall act_ok h -> acts e h conf0 = Val c ->
  (ussd_line ws x -> (accepted (f_ussd c) x /\ exists d ch, exec e f NdHlr ws c = XOk d ch /\ f_ussd d = ucmd_run (f_ussd c) x) \/ (~ accepted (f_ussd c) x /\ exec e f NdHlr ws c = XWarn c)) /\
  (smsc_line ws x -> (accepted (f_smsc c) x /\ exists d ch, exec e f NdHlr ws c = XOk d ch /\ f_smsc d = ucmd_run (f_smsc c) x) \/ (~ accepted (f_smsc c) x /\ exec e f NdHlr ws c = XWarn c)).
Proof.
  intros F A. pose proof (acts_inv e h conf0 c (cinv0 e) F A) as I. split.
  - intros L. destruct (ussd_exec e f ws x c L) as (ch & E). assert (ND : NoDup (map e_name (u_euses (f_ussd c)))) by apply (i_ussd _ _ I).
    rewrite E. unfold ussd_do. destruct (ucmd_ok (f_ussd c) x) eqn:K.
    + left. split; [apply ucmd_ok_iff; auto|]. do 2 eexists. split; reflexivity.
    + right. split; [rewrite <- ucmd_ok_iff by auto; congruence|]. rewrite (refused_same _ _ K), set_ussd_id. reflexivity.
  - intros L. destruct (smsc_exec e f ws x c L) as (y & ch & -> & E). assert (ND : NoDup (map e_name (u_euses (f_smsc c)))) by apply (i_smsc _ _ I).
    rewrite E. unfold smsc_do. destruct (ucmd_ok (f_smsc c) (as_ucmd y)) eqn:K.
    + left. split; [apply ucmd_ok_iff; auto|]. do 2 eexists. split; reflexivity.
    + right. split; [rewrite <- ucmd_ok_iff by auto; congruence|]. rewrite (refused_same _ _ K), set_smsc_id. reflexivity.
Qed.
