(** Networks of HLRs: where what they say comes from *)
From Verif Require Import Base PeerId Db DbSpec DbProofs DbThms DbThms2 DbThms3 Auth AuthSpec AuthThms AuthThms2 AuthThms3 Gsup Router Hlr PeerSpec PeerThms HlrSpec HlrThms RouterThms HlrThms2 HlrThms3 HlrStep HlrThms4 HlrThms5 HlrThms6 ContentSpec ContentThms Mdns Proxy Dgsm ContentThms2 NetSpec NetThms NetThms2.

(** ** Answers of the proxy are no Update Location Results *)
Definition n6 (y : dout) : Prop := match y with DAns y => forall m, message y = Some m -> g_type m <> 6 | _ => True end.
Lemma six_n6 o : sixes None [] o -> Forall n6 (map DAns o).
Proof. intros H. rewrite Forall_map. eapply Forall_impl; [|exact H]. cbn. intros y S m M T. destruct (S m M T) as [(g & [=] & _)|(l & [] & _)]. Qed.
Lemma err_n6 tx q c : Forall n6 (map DAns (respond_err tx q c)). Proof. apply six_n6, err_six. Qed.
Lemma app_n6 o o' : Forall n6 o -> Forall n6 o' -> Forall n6 (o ++ o'). Proof. intros. apply Forall_app. auto. Qed.
Local Hint Resolve err_n6 app_n6 : core.
Section P.
Context (k : cfg) (x : dworld) (s : hst).
Lemma gf_n6 a q : Forall n6 (gsup_forward k s a q).
Proof. unfold gsup_forward. destruct (negb _); auto. destruct (k_enc _ _); auto. repeat constructor. Qed.
Lemma cr_n6 z q r : Forall n6 (connect_result k s z q r).
Proof. unfold connect_result. destruct r as [[a [] n]|]; try apply gf_n6; destruct (_ =? _); auto; apply six_n6; apply respond_six; cbn; discriminate. Qed.
Lemma pop_n6 z i r : Forall n6 (snd (pop k s z i r)).
Proof. unfold pop. cbn [snd]. induction (filter _ _) as [|q l IH]; cbn; [constructor|]. apply app_n6; auto. apply cr_n6. Qed.
Lemma ccb_n6 l : forall z a r, Forall n6 (snd (connect_cb k s z l a r)).
Proof.
  induction l as [|e l IH]; intros z a r; cbn [connect_cb]; [constructor|]. destruct (if sa_eqb _ _ then _ else _) as [z1 o1] eqn:E.
  specialize (IH z1 a r). destruct (connect_cb k s z1 l a r) as [z2 o2]. cbn [snd] in *. apply app_n6; auto. destruct (sa_eqb _ _); [|injection E as <- <-; constructor].
  pose proof (pop_n6 z (ps_imsi (pe_sub e)) r) as P. rewrite E in P. exact P.
Qed.
Lemma connect_n6 z a : Forall n6 (snd (connect k x s z a)).
Proof. unfold connect. destruct (find_rem z a) as [r|]; [destruct (rm_up r); [apply ccb_n6|constructor]|]. destruct (dw_ok x a); [constructor|apply ccb_n6]. Qed.
Lemma del_n6 z i : Forall n6 (snd (subscr_del k s z i)).
Proof. unfold subscr_del. pose proof (pop_n6 z i None) as P. destruct (pop _ _ _ _ _) as [z' o]. cbn [snd] in *. apply app_n6; auto. repeat constructor. Qed.
Lemma ftr_n6 z p q : Forall n6 (snd (fst (forward_to_remote k x s z p q))).
Proof.
  unfold forward_to_remote. destruct (ack_to_remote _ _ _ _ _) as [z'|]; [|cbn; auto]. destruct (negb _); [repeat constructor|].
  destruct (is_up _); [cbn [fst snd]; constructor; [exact I|apply cr_n6]|]. pose proof (connect_n6 (defer z' q) (ps_addr p)) as P. destruct (connect _ _ _ _ _) as [z2 o]. cbn [fst snd] in *. constructor; [exact I|auto].
Qed.
Lemma resolved_n6 z p a : Forall n6 (snd (resolved k x s z p a)).
Proof. unfold resolved. destruct (_ && _); [constructor|]. destruct (waiting _ _); [apply connect_n6|constructor]. Qed.
Lemma look_n6 z i r : Forall n6 (snd (lookup_result k x s z i r)).
Proof.
  unfold lookup_result. destruct (negb _); [constructor|]. destruct (match r with Some _ => _ | None => _ end); [|apply del_n6].
  destruct (cache_by_imsi _ _); [apply resolved_n6|constructor].
Qed.
Lemma check_n6 z q : all_rets (fun y => Forall n6 (snd (fst y))) (check_forward k x s z q).
Proof.
  unfold check_forward. apply all_rets_bind, all_rets_true. intros rc. destruct (rc =? 0); [constructor|]. destruct (cache_by_imsi _ _) as [p|].
  - pose proof (ftr_n6 z p q) as P. destruct (forward_to_remote _ _ _ _ _ _) as [[z' o] b]. exact P.
  - destruct (sa_nonzero _).
    + pose proof (resolved_n6 (store k x z (mk_psub (g_imsi (q_gsup q)) "" SaNone pdom0 pdom0)) (mk_psub (g_imsi (q_gsup q)) "" SaNone pdom0 pdom0) (z_gw (store k x z (mk_psub (g_imsi (q_gsup q)) "" SaNone pdom0 pdom0)))) as P1.
      destruct (resolved _ _ _ _ _ _) as [z1 o1]. cbn [snd] in P1. destruct (cache_by_imsi _ _) as [p|]; [|cbn; auto].
      pose proof (ftr_n6 z1 p q) as P. destruct (forward_to_remote _ _ _ _ _ _) as [[z' o] b]. cbn in *. auto.
    + destruct (negb _); [constructor|]. match goal with |- context [forward_to_remote k x s ?z ?p q] => pose proof (ftr_n6 z p q) as P end.
      destruct (forward_to_remote _ _ _ _ _ _) as [[z' o] []]; [destruct (imsi_valid _); [exact P|exact I]|exact P].
Qed.
Lemma up_n6 n : forall z a r, Forall n6 (snd (call_cbs k s n z a r)).
Proof.
  induction n as [|n IH]; intros z a r; cbn [call_cbs]; [constructor|]. pose proof (ccb_n6 (z_cache z) z a (Some r)) as P. destruct (connect_cb _ _ _ _ _ _) as [z1 o1].
  specialize (IH z1 a r). destruct (call_cbs _ _ _ _ _ _) as [z2 o2]. cbn [snd] in *. auto.
Qed.
End P.
Lemma n6_loc o : Forall n6 (map DLoc o). Proof. rewrite Forall_map. apply Forall_forall. intros; exact I. Qed.
Lemma dhandle_n6 k x s z e : all_rets (fun y => Forall n6 (snd y)) (dhandle k x s z e).
Proof.
  destruct e as [e|b gw c|i r|a|a|a|a g|]; cbn [dhandle].
  - assert (H : all_rets (fun y : hst * dgst * list dout => Forall n6 (snd y)) (do y <- handle k (dw_w x) s e;; Ret (fst y, z, map DLoc (snd y)))).
    { apply all_rets_bind, all_rets_true. intros y. apply n6_loc. }
    destruct e; try exact H. destruct (find_conn _ _); [|constructor]. unfold dread. destruct (conn_rx _ _ _ _ _) as [v r]. cbv zeta.
    assert (LOC : forall p : prog (hst * list out), all_rets (fun y : hst * dgst * list dout => Forall n6 (snd y)) (do y <- p;; Ret (fst y, z, DLoc (ORx (t_nr s) c g) :: map DLoc (snd y)))).
    { intros p. apply all_rets_bind, all_rets_true. intros y. cbn [all_rets snd]. constructor; [exact Logic.I|apply n6_loc]. }
    destruct r as [q|o]; [|apply (LOC (Ret (_, o)))].
    set (s1 := mk_hst _ _ _ _).
    assert (HERE : all_rets (fun y => Forall n6 (snd y)) (if z_active z || sa_nonzero (z_gw z) then
      do y <- check_forward k x s1 z q;;
      let '(z', o, handled) := y in
      if handled : bool then Ret (s1, z', DLoc (ORx (t_nr s) c g) :: o)
      else do y <- dispatch k (dw_w x) s1 q;; Ret (fst y, z', DLoc (ORx (t_nr s) c g) :: o ++ map DLoc (snd y))
    else do y <- dispatch k (dw_w x) s1 q;; Ret (fst y, z, DLoc (ORx (t_nr s) c g) :: map DLoc (snd y)))).
    { destruct (_ || _); [|apply LOC]. apply all_rets_bind. eapply all_rets_impl; [|apply check_n6]. intros [[z' o] b] P. cbn [fst snd] in P.
      destruct b; [cbn [all_rets snd]; constructor; [exact Logic.I|auto]|].
      apply all_rets_bind, all_rets_true. intros y. cbn [all_rets snd]. constructor; [exact Logic.I|]. apply Forall_app. split; auto. apply n6_loc. }
    destruct (g_dst g); [exact HERE|]. destruct (ipa_set_str _ _); [|exact Logic.I]. destruct (ipa_set _ _) as [rc dest]. destruct (_ && _); [|exact HERE]. apply LOC.
  - constructor.
  - cbn. apply look_n6.
  - cbn. unfold rem_up. destruct (find_rem z a) as [r|]; [|constructor]. cbv zeta. match goal with |- context [call_cbs k s ?n ?z ?a ?r] => pose proof (up_n6 k s n z a r) as P; destruct (call_cbs k s n z a r) as [z1 o1] end. exact P.
  - constructor.
  - constructor.
  - cbn. assert (E : forall up c, Forall n6 (err_reply k a up g c)).
    { intros up c. unfold err_reply. destruct (negb _); [constructor|]. destruct (_ && _); repeat constructor. }
    unfold remote_rx. destruct (find_rem z a) as [r|]; [|constructor]. destruct (negb _); [apply E|]. destruct (cache_by_imsi _ _) as [p|]; [|apply E].
    unfold forward_to_vlr. destruct (ipa_set _ _) as [rc dst]. destruct (negb _); [apply E|]. destruct (route_find _ _) as [c|]; [|apply E]. destruct (find_conn _ _) as [cn|]; [|apply E].
    destruct (ack_from_remote _ _ _ _ _ _ _) as [z'|]; [|apply E]. destruct (k_enc k g); [|apply E]. cbn. repeat constructor.
  - destruct (cache_clean _ _ _); [|exact Logic.I]. cbn. unfold gone. rewrite Forall_map. apply Forall_forall. intros e _. exact Logic.I.
Qed.

(** ** An event of the HLR with D-GSM is one without, unless the message is passed to the proxy *)
Definition like (a : outcome (hst * dgst * list dout)) (b : outcome (hst * list out)) : Prop :=
  match a, b with
  | Fin (s, _, o), Fin (s', o') => s = s' /\ o = map DLoc o'
  | Crashed, Crashed => True
  | Ub, Ub => True
  | _, _ => False
  end.
Definition aside (s : hst) (e : event) (a : outcome (hst * dgst * list dout)) : Prop :=
  match a with Fin (s', _, o) => inv s' /\ t_lus s' = t_lus s /\ (forall y, In (DLoc y) o -> message y = None) | _ => True end.
Lemma exists_run i f d a d' f' : run (db_subscr_exists_by_imsi i) f d = (a, d', f') -> d' = d.
Proof. unfold db_subscr_exists_by_imsi. cbn [run]. destruct f as [|[] f]; cbn; try destruct (existsb (by_imsi i) (d_sub d)); cbn; intros [= <- <- <-]; auto. Qed.
Lemma check_db k x s z q f d a d' f' : run (check_forward k x s z q) f d = (a, d', f') -> d' = d.
Proof.
  unfold check_forward. rewrite run_bind. destruct (run (db_subscr_exists_by_imsi _) f d) as [[r d1] f1] eqn:E. apply exists_run in E. subst d1.
  destruct r as [rc| |]; [|intros [= <- <- <-]; auto|intros [= <- <- <-]; auto].
  destruct (rc =? 0); [intros [= <- <- <-]; auto|]. destruct (cache_by_imsi _ _) as [p|].
  - destruct (forward_to_remote _ _ _ _ _ _) as [[z' o] b]. intros [= <- <- <-]; auto.
  - destruct (sa_nonzero _).
    + destruct (resolved _ _ _ _ _ _) as [z1 o1]. destruct (cache_by_imsi _ _) as [p|]; [|intros [= <- <- <-]; auto]. destruct (forward_to_remote _ _ _ _ _ _) as [[z' o] b]. intros [= <- <- <-]; auto.
    + destruct (negb _); [intros [= <- <- <-]; auto|]. destruct (forward_to_remote _ _ _ _ _ _) as [[z' o] []]; [destruct (imsi_valid _)|]; intros [= <- <- <-]; auto.
Qed.
Lemma check_false k x s z q : all_rets (fun y => snd y = false -> snd (fst y) = []) (check_forward k x s z q).
Proof.
  unfold check_forward. apply all_rets_bind, all_rets_true. intros rc. destruct (rc =? 0); [cbn; auto|]. destruct (cache_by_imsi _ _) as [p|].
  - destruct (forward_to_remote _ _ _ _ _ _) as [[z' o] b]. cbn. discriminate.
  - destruct (sa_nonzero _).
    + destruct (resolved _ _ _ _ _ _) as [z1 o1]. destruct (cache_by_imsi _ _) as [p|]; [|cbn; discriminate]. destruct (forward_to_remote _ _ _ _ _ _) as [[z' o] b]. cbn. discriminate.
    + destruct (negb _); [cbn; auto|]. destruct (forward_to_remote _ _ _ _ _ _) as [[z' o] []]; [destruct (imsi_valid _)|]; cbn; try discriminate; auto.
Qed.
Lemma sim k x s z e c d a d' c' : inv s -> run (dhandle k x s z (DHlr e)) c d = (a, d', c') ->
  (exists f b f', run (handle k (dw_w x) s e) f d = (b, d', f') /\ like a b) \/ (d' = d /\ aside s e a).
Proof.
  intros H. assert (G : run (do y <- handle k (dw_w x) s e;; Ret (fst y, z, map DLoc (snd y))) c d = (a, d', c') -> exists f b f', run (handle k (dw_w x) s e) f d = (b, d', f') /\ like a b).
  { rewrite run_bind. destruct (run (handle k (dw_w x) s e) c d) as [[b d1] f1] eqn:E. destruct b as [[s2 o2]| |]; cbn; intros [= <- <- <-]; exists c; do 2 eexists; (split; [exact E|cbn; auto]). }
  destruct e; try (intros R; left; apply G; exact R). clear G. cbn [dhandle handle]. destruct (find_conn (t_srv s) c0) eqn:Fc.
  2:{ intros [= <- <- <-]. left. exists [], (Fin (s, [])), []. cbn. auto. }
  unfold dread, read_cb, read_msg. destruct (conn_rx (k_enc k) (t_srv s) (t_nr s) c0 g) as [v r] eqn:E. cbv zeta.
  set (s1 := mk_hst v (t_lus s) (t_ss s) (S (t_nr s))).
  assert (I1 : inv s1). { split; [apply hinv_srv; [apply H|lia]|]. cbn. pose proof (conn_rx_srv (k_enc k) (t_srv s) (t_nr s) c0 g (proj2 H)) as X. rewrite E in X. apply X. }
  set (RX := ORx (t_nr s) c0 g).
  assert (LOC : forall (p : prog (hst * list out)) z' f, run (do y <- p;; Ret (fst y, z', DLoc RX :: map DLoc (snd y))) f d = (a, d', c') ->
     exists f b f', run (do y <- p;; Ret (fst y, RX :: snd y)) f d = (b, d', f') /\ like a b).
  { intros p z' f. rewrite run_bind. destruct (run p f d) as [[b d1] f1] eqn:Ep. destruct b as [y| |]; cbn; intros [= <- <- <-]; exists f; rewrite run_bind, Ep; cbn; do 2 eexists; (split; [reflexivity|cbn; auto]). }
  destruct r as [q|o]; [|intros R; left; apply (LOC (Ret (s1, o)) z c); exact R].
  assert (HERE : run (if z_active z || sa_nonzero (z_gw z) then
      do y <- check_forward k x s1 z q;;
      let '(z', o, handled) := y in
      if handled : bool then Ret (s1, z', DLoc RX :: o)
      else do y <- dispatch k (dw_w x) s1 q;; Ret (fst y, z', DLoc RX :: o ++ map DLoc (snd y))
    else do y <- dispatch k (dw_w x) s1 q;; Ret (fst y, z, DLoc RX :: map DLoc (snd y))) c d = (a, d', c') ->
    (exists f b f', run (do y <- dispatch k (dw_w x) s1 q;; Ret (fst y, RX :: snd y)) f d = (b, d', f') /\ like a b) \/ (d' = d /\ aside s (ERx c0 g) a)).
  { destruct (_ || _); [|intros R; left; eapply LOC; exact R]. rewrite run_bind. destruct (run (check_forward k x s1 z q) c d) as [[b d1] f1] eqn:Ec.
    pose proof (check_db _ _ _ _ _ _ _ _ _ _ Ec) as ->. destruct b as [[[z' o] b]| |]; [|intros [= <- <- <-]; right; cbn; auto|intros [= <- <- <-]; right; cbn; auto].
    apply run_outE in Ec. destruct b.
    - apply (all_rets_run _ _ (check_pk k x s1 z q)) in Ec. cbn in Ec. intros [= <- <- <-]. right. split; auto. cbn. split; auto. split; auto. intros y [[= <-]|Iy]; [reflexivity|].
      rewrite Forall_forall in Ec. apply Ec in Iy. destruct Iy.
    - pose proof (all_rets_run _ _ (check_false k x s1 z q) _ _ _ Ec eq_refl) as Eo. cbn in Eo. rewrite Eo. cbn [app]. intros R. left. eapply (LOC _ z' f1). exact R. }
  destruct (g_dst g); [exact HERE|]. destruct (ipa_set_str _ _); [|intros [= <- <- <-]; right; cbn; auto]. destruct (ipa_set _ _) as [rc dest]. destruct (_ && _); [|exact HERE].
  intros R. left. eapply LOC. exact R.
Qed.

(** ** One node *)
Definition node_ok (y : dstate) : Prop := let '(s, _, d, _) := y in inv s /\ fine d /\ Forall lu_ok (t_lus s).
Lemma run_step k s d w e f s' o d' f' : run (handle k w s e) f d = (Fin (s', o), d', f') -> step k (s, d) (w, e, f) = Some (s', d', o).
Proof. intros R. unfold step. cbn [fst snd]. rewrite R. reflexivity. Qed.
Lemma dstep_node k s z d l x e c s' z' d' l' : node_ok (s, z, d, l) -> dstep k (s, z, d, l) (x, e, c) = Some (s', z', d', l') ->
  node_ok (s', z', d', l') /\
  forall u, In u (t_lus s') -> In u (t_lus s) \/ exists n g, e = DHlr (ERx n g) /\ q_gsup (l_req u) = g /\ accepted (t_srv s) d' n g.
Proof.
  intros (H & F & LO) E.
  assert (SAME : s' = s /\ d' = d -> node_ok (s', z', d', l') /\ forall u, In u (t_lus s') -> In u (t_lus s) \/ exists n g, e = DHlr (ERx n g) /\ q_gsup (l_req u) = g /\ accepted (t_srv s) d' n g).
  { intros [-> ->]. split; [split; auto|]. auto. }
  assert (REST : fine d' -> s' = restart s -> node_ok (s', z', d', l') /\ forall u, In u (t_lus s') -> In u (t_lus s) \/ exists n g, e = DHlr (ERx n g) /\ q_gsup (l_req u) = g /\ accepted (t_srv s) d' n g).
  { intros Fd ->. split; [|intros u []]. split; [split; [apply hinv_restart|apply sinv_restart]|]. split; auto. constructor. }
  unfold dstep in E. destruct e as [e|b gw cc|i r|a|a|a|a g|].
  - destruct (run (dhandle k x s z (DHlr e)) c d) as [[a d1] c1] eqn:R. destruct (sim _ _ _ _ _ _ _ _ _ _ H R) as [(f & b & f' & Rh & L)|(-> & A)].
    + destruct a as [[[s2 z2] o2]| |]; [| |discriminate]; injection E as <- <- <- <-; destruct b as [[s3 o3]| |]; cbn in L; try tauto.
      * destruct L as [<- ->]. pose proof (run_step _ _ _ _ _ _ _ _ _ _ Rh) as St. split.
        -- split; [apply (proj1 (step_ltr _ _ _ _ _ _ _ _ _ H St))|]. split; [eapply step_fine; eauto|eapply step_lu_ok; eauto].
        -- intros u Iu. destruct (new_lu _ _ _ _ _ _ _ _ _ _ _ H F LO Rh Iu) as [?|(n & g & -> & P)]; auto. right. eauto.
      * apply REST; auto. eapply (step_fine k s d (dw_w x) e f (restart s) d1 []); auto. unfold step. cbn [fst snd]. rewrite Rh. reflexivity.
    + destruct a as [[[s2 z2] o2]| |]; [| |discriminate]; injection E as <- <- <- <-; [|apply REST; auto].
      destruct A as (A1 & A2 & _). split; [split; auto; split; auto; rewrite A2; auto|]. rewrite A2. auto.
  - injection E as <- <- <- <-. apply SAME; auto.
  - injection E as <- <- <- <-. apply SAME; auto.
  - injection E as <- <- <- <-. apply SAME; auto.
  - injection E as <- <- <- <-. apply SAME; auto.
  - injection E as <- <- <- <-. apply SAME; auto.
  - injection E as <- <- <- <-. apply SAME; auto.
  - cbn [dhandle] in E. destruct (cache_clean _ _ _); [|discriminate]. injection E as <- <- <- <-. apply SAME; auto.
Qed.
Lemma dstep_said k s z d l x e c s' z' d' o y : node_ok (s, z, d, l) -> dstep k (s, z, d, l) (x, e, c) = Some (s', z', d', l ++ o) -> In y o ->
  match y with
  | DLoc y0 => message y0 = None \/ exists e' f o0 f', e = DHlr e' /\ run (handle k (dw_w x) s e') f d = (Fin (s', o0), d', f') /\ In y0 o0
  | DAns y0 => forall m, message y0 = Some m -> g_type m <> 6 /\ x_vecs (g_x m) = [] /\ x_msisdn (g_x m) = None
  | DTx a _ m => e = DRx a m
  | _ => True
  end.
Proof.
  intros (H & F & LO) E I. pose proof (dstep_dk _ _ _ _ _ _ _ _ _ _ _ _ E) as DK. rewrite Forall_forall in DK. specialize (DK y I).
  assert (N6 : n6 y).
  { unfold dstep in E. pose proof (all_rets_run _ _ (dhandle_n6 k x s z e) c d) as R. unfold run_out in R. destruct (run _ _ _) as [[[[[s2 z2] o2]| |] d2] c2]; [| |discriminate].
    - injection E as <- <- <- E. apply app_inv_head in E. subst o2. specialize (R _ eq_refl). cbn in R. rewrite Forall_forall in R. auto.
    - assert (Q : [] = l ++ o) by congruence. destruct l, o; try discriminate. destruct I. }
  destruct y as [y|q|n a g|y|a n m|a m|i]; auto.
  - destruct DK as (e' & -> & _). unfold dstep in E. destruct (run (dhandle k x s z (DHlr e')) c d) as [[a d1] c1] eqn:R.
    destruct (sim _ _ _ _ _ _ _ _ _ _ H R) as [(f & b & f' & Rh & L)|(-> & A)].
    + destruct a as [[[s2 z2] o2]| |]; [| |discriminate].
      * injection E as <- <- <- E. apply app_inv_head in E. subst o2. destruct b as [[s3 o3]| |]; cbn in L; try tauto. destruct L as [<- ->]. right.
        exists e', f, o3, f'. split; auto. split; auto. apply in_map_iff in I as (y' & [= ->] & I). auto.
      * assert (Q : [] = l ++ o) by congruence. destruct l, o; try discriminate. destruct I.
    + destruct a as [[[s2 z2] o2]| |]; [| |discriminate].
      * injection E as <- <- <- E. apply app_inv_head in E. subst o2. left. apply A. auto.
      * assert (Q : [] = l ++ o) by congruence. destruct l, o; try discriminate. destruct I.
  - intros m M. split; [apply N6; auto|]. cbn in DK. unfold ans_ok in DK. rewrite M in DK. destruct DK as [-> |[_ ->]]; auto.
Qed.

(** ** Networks *)
Section Net.
Context (ks : nat -> cfg) (addr : nat -> sa).
Notation net := (network ks addr).
Lemma net_last en tr st : net (en :: tr) st -> exists st0 c, net tr st0 /\ heard addr tr (en_ev en) /\
  dstep (ks (en_node en)) (en_pre en) (en_world en, en_ev en, c) = Some (en_post en) /\ en_pre en = st0 (en_node en) /\
  forall j, st j = if (j =? en_node en)%nat then en_post en else st0 j.
Proof. intros N. inversion N as [|tr0 st0 i x e c y st' N0 H D U]; subst. exists st0, c. auto. Qed.
Lemma net_suffix t1 : forall t2 st, net (t1 ++ t2) st -> exists st0, net t2 st0.
Proof. induction t1 as [|en t1 IH]; intros t2 st N; [exists st; exact N|]. apply net_last in N as (st0 & c & N & _). eapply IH; eauto. Qed.
Lemma taken_accepted en s z d l c g : en_pre en = (s, z, d, l) -> comes en c g -> accepted (t_srv s) (db_of (en_post en)) c g -> taken_up en (g_imsi g) (g_src g).
Proof. intros E C (T & x & r & A1 & A2 & A3 & A4 & A5). exists c, g, x, r. unfold srv_of. rewrite E. cbn. auto 10. Qed.
Lemma net_nodes tr st : net tr st -> forall i, node_ok (st i) /\
  forall u, In u (t_lus (fst (fst (fst (st i))))) -> exists en, In en tr /\ taken_up en (g_imsi (q_gsup (l_req u))) (g_src (q_gsup (l_req u))).
Proof.
  revert st. induction tr as [|en tr IH]; intros st N i.
  - inversion N as [ds D|]; subst. split; [|intros u []]. destruct (D i) as [A B]. split; [apply inv0|]. split; [split; [apply db_ok_inv; auto|auto]|constructor].
  - apply net_last in N as (st0 & c & N & _ & D & E0 & U). rewrite U. destruct (Nat.eqb_spec i (en_node en)) as [->|].
    + destruct (IH _ N (en_node en)) as [K L]. rewrite <- E0 in K, L. destruct (en_pre en) as [[[s z] d] l] eqn:Ep, (en_post en) as [[[s' z'] d'] l'] eqn:Eq.
      destruct (dstep_node _ _ _ _ _ _ _ _ _ _ _ _ K D) as [K' L']. split; auto. cbn [fst] in *. intros u Iu. destruct (L' u Iu) as [Iu'|(n & g & Ee & Eg & A)].
      * destruct (L u Iu') as (en' & I & T). exists en'. cbn. auto.
      * exists en. split; [left; auto|]. rewrite Eg. eapply taken_accepted; [exact Ep|exact Ee|]. rewrite Eq. exact A.
    + destruct (IH _ N i) as [K L]. split; auto. intros u Iu. destruct (L u Iu) as (en' & I & T). exists en'. cbn. auto.
Qed.
(** what is said is said by the HLR itself, or was said by a remote one *)
Inductive voice (en : entry) (m : gsup) : Prop :=
| vo_own s z d l s' z' d' l' e f o f' y : en_pre en = (s, z, d, l) -> en_post en = (s', z', d', l') -> en_ev en = DHlr e -> run (handle (ks (en_node en)) (dw_w (en_world en)) s e) f d = (Fin (s', o), d', f') ->
    In y o -> message y = Some m -> voice en m
| vo_proxy : g_type m <> 6 -> x_vecs (g_x m) = [] -> x_msisdn (g_x m) = None -> voice en m
| vo_remote a : en_ev en = DRx a m -> voice en m.
Lemma on_message y n m : on_conn y n m -> match y with DLoc y | DAns y => message y = Some m | DTx _ _ m' => m' = m | _ => False end.
Proof. destruct y as [y|q|nr a g|y|a nr g|a g|i]; cbn; try tauto; destruct y as [ | | | ]; cbn; try tauto; try (intros [_ ->]; auto); destruct conn; try tauto; intros [_ ->]; auto. Qed.
Lemma says_voice en tr st n m : net (en :: tr) st -> says en n m -> voice en m.
Proof.
  intros N (y & (l0 & El & Iy) & On). apply net_last in N as (st0 & c & N & _ & D & E0 & _). pose proof (proj1 (net_nodes _ _ N (en_node en))) as K. rewrite <- E0 in K.
  destruct (en_pre en) as [[[s z] d] l] eqn:Ep, (en_post en) as [[[s' z'] d'] l'] eqn:Eq. unfold log_of in El. cbn [snd] in El. subst l'.
  pose proof (dstep_said _ _ _ _ _ _ _ _ _ _ _ _ _ K D Iy) as S. apply on_message in On. destruct y as [y|q|nr a g|y|a nr g|a g|i]; try tauto.
  - destruct S as [S|(e & f & o & f' & Ee & R & Io)]; [congruence|]. eapply vo_own; eauto.
  - destruct (S _ On) as (A & B & C). apply vo_proxy; auto.
  - subst g. eapply vo_remote; eauto.
Qed.
Lemma origin (P : gsup -> Prop) (Q : entry -> gsup -> Prop) :
  (forall en tr st c m, net (en :: tr) st -> says en c m -> P m -> (exists en', In en' (en :: tr) /\ Q en' m) \/ exists a, en_ev en = DRx a m) ->
  forall tr en st c m, net (en :: tr) st -> says en c m -> P m -> exists en', In en' (en :: tr) /\ Q en' m.
Proof.
  intros H tr. remember (length tr) as n eqn:L. assert (Ln : (length tr <= n)%nat) by lia. clear L. revert tr Ln.
  induction n as [|n IH]; intros tr Ln en st c m N S Pm; destruct (H _ _ _ _ _ N S Pm) as [?|(a & Ea)]; auto;
    destruct (net_last _ _ _ N) as (st0 & f & N0 & Hd & _); rewrite Ea in Hd; destruct Hd as (en0 & c0 & I0 & _ & S0).
  - destruct tr; [destruct I0|cbn in Ln; lia].
  - apply in_split in I0 as (t1 & t2 & ->). destruct (net_suffix _ _ _ N0) as (st1 & N1). rewrite app_length in Ln. cbn in Ln.
    destruct (IH t2 ltac:(lia) en0 st1 c0 m N1 S0 Pm) as (en' & I' & Q'). exists en'. split; auto. right. apply in_or_app. right. auto.
Qed.
Lemma pre_node en tr st : net (en :: tr) st -> forall s z d l, en_pre en = (s, z, d, l) -> inv s /\ fine d /\ forall u, In u (t_lus s) -> exists en', In en' tr /\ taken_up en' (g_imsi (q_gsup (l_req u))) (g_src (q_gsup (l_req u))).
Proof.
  intros N s z d l E. apply net_last in N as (st0 & c & N & _ & _ & E0 & _). destruct (net_nodes _ _ N (en_node en)) as [K L]. rewrite <- E0, E in K, L. destruct K as (A & B & _). auto.
Qed.

Theorem c65_confirmed en tr st c m : net (en :: tr) st -> says en c m -> g_type m = 6 -> exists en', In en' (en :: tr) /\ (made_up en' m \/ taken_up en' (g_imsi m) (g_dst m)).
Proof.
  intros N S T. revert en tr st c m N S T. intros en tr st c m. apply (origin (fun m => g_type m = 6) (fun en' m => made_up en' m \/ taken_up en' (g_imsi m) (g_dst m))). clear en tr st c m.
  intros en tr st c m N S T. destruct (says_voice _ _ _ _ _ N S) as [s z d l s' z' d' l' e f o f' y Ep Eq Ee R Iy M|A|a Ea]; [|tauto|right; eauto].
  left. destruct (pre_node _ _ _ N _ _ _ _ Ep) as (H & F & L). destruct (step6 _ _ _ _ _ _ _ _ _ _ _ (run_step _ _ _ _ _ _ _ _ _ _ R) Iy M T) as [(n & g & -> & P)|(u & Iu & A & B)].
  - exists en. split; [left; auto|]. left. exists n, g. auto.
  - destruct (L u Iu) as (en' & I' & K). exists en'. split; [right; auto|]. right. rewrite A, B. auto.
Qed.
Theorem c65_vectors en tr st c m : net (en :: tr) st -> says en c m -> x_vecs (g_x m) <> [] -> exists en', In en' (en :: tr) /\ (made_up en' m \/ auth_asked en' (g_imsi m)).
Proof.
  intros N S T. revert en tr st c m N S T. intros en tr st c m. apply (origin (fun m => x_vecs (g_x m) <> []) (fun en' m => made_up en' m \/ auth_asked en' (g_imsi m))). clear en tr st c m.
  intros en tr st c m N S T. destruct (says_voice _ _ _ _ _ N S) as [s z d l s' z' d' l' e f o f' y Ep Eq Ee R Iy M|A B|a Ea]; [|tauto|right; eauto].
  left. destruct (pre_node _ _ _ N _ _ _ _ Ep) as (H & F & L). destruct (own_vectors _ _ _ _ _ _ _ _ _ _ _ _ H F R Iy M T) as (n & g & -> & [P|(P1 & P2 & id & P3)]); exists en; (split; [left; auto|]).
  - left. exists n, g. auto.
  - right. exists n, g, id. unfold db_of. rewrite Eq. cbn. repeat (split; auto).
Qed.
Theorem c65_number en tr st c m x : net (en :: tr) st -> says en c m -> x_msisdn (g_x m) = Some x -> exists en', In en' (en :: tr) /\ (made_up en' m \/ number_told en' (g_imsi m) x).
Proof.
  intros N S T. revert en tr st c m N S T. intros en tr st c m. apply (origin (fun m => x_msisdn (g_x m) = Some x) (fun en' m => made_up en' m \/ number_told en' (g_imsi m) x)). clear en tr st c m.
  intros en tr st c m N S T. destruct (says_voice _ _ _ _ _ N S) as [s z d l s' z' d' l' e f o f' y Ep Eq Ee R Iy M|A B C|a Ea]; [|congruence|right; eauto].
  left. destruct (pre_node _ _ _ N _ _ _ _ Ep) as (H & F & L).
  exists en. split; [left; auto|]. destruct (own_number _ _ _ _ _ _ _ _ _ _ _ _ _ H F R Iy M T) as [(n & g & -> & P)|[(n & g & -> & P1 & P2 & r & P3)|(se & v & -> & P)]].
  - left. exists n, g. auto.
  - right. exists r, d'. destruct P3 as (Q1 & Q2 & Q3). repeat (split; [assumption|]). left. exists n, g. unfold db_of. rewrite Eq. auto.
  - right. destruct v as [v|].
    + destruct P as [-> (r & Q1 & Q2 & Q3)]. exists r, d'. repeat (split; [assumption|]). right. left. exists se, v. unfold db_of. rewrite Eq. auto.
    + destruct P as (r & Q1 & Q2 & Q3). exists r, d. repeat (split; [assumption|]). right. right. exists se. unfold db_of. rewrite Ep. auto.
Qed.
End Net.
