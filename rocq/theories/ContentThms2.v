(** C64 with D-GSM *)
From Verif Require Import Base PeerId Db DbSpec DbProofs DbThms2 Auth AuthThms3 Gsup Router Hlr PeerSpec PeerThms HlrSpec HlrThms RouterThms HlrThms2 HlrThms4 ContentSpec ContentThms Mdns Proxy Dgsm.

Definition ack : gext := mk_ext None None 0 0 [] None true None [] PlNone None None None [].
Definition ek (s : hst) (e : event) (y : out) : Prop := ekind s e [y].
Lemma ekind_all s e o : ekind s e o <-> Forall (ek s e) o.
Proof.
  assert (A : forall P : out -> Prop, Forall P o <-> Forall (fun y => Forall P [y]) o).
  { intros P. split; intros H; eapply Forall_impl; try exact H; cbn; intros y Y; [constructor; auto|inversion Y; auto]. }
  destruct e; apply A.
Qed.
(** messages that end requests of the proxy *)
Definition ans_ok (y : out) : Prop := match message y with Some m => g_x m = bare \/ g_type m = 50 /\ g_x m = ack | None => True end.
Definition dk (s : hst) (e : devent) (y : dout) : Prop :=
  match y with
  | DLoc y => exists e', e = DHlr e' /\ ek s e' y
  | DAns y => ans_ok y
  | DTx a _ m => e = DRx a m
  | DErr a m => g_x m = bare
  | _ => True
  end.
(** what the proxy does *)
Definition pk (y : dout) : Prop := match y with DLoc _ | DTx _ _ _ | DErr _ _ => False | DAns y => ans_ok y | _ => True end.
Lemma pk_dk s e o : Forall pk o -> Forall (dk s e) o.
Proof. intros H. eapply Forall_impl; [|exact H]. intros [] P; cbn in *; auto; destruct P. Qed.
Lemma ans_err tx q c : Forall pk (map DAns (respond_err tx q c)).
Proof. pose proof (kinds_bares tx q c) as B. rewrite Forall_map. eapply Forall_impl; [|exact B]. cbn. unfold ans_ok. intros y H. destruct (message y); auto. Qed.
Lemma ans_resp tx q m e f : g_x m = bare \/ g_type m = 50 /\ g_x m = ack -> Forall pk (map DAns (snd (respond tx q m e f))).
Proof.
  intros H. unfold respond. destruct (make_response _ _ _ _) as [rc r] eqn:E. destruct (rc =? 0); cbn [snd map]; [|destruct f; repeat constructor].
  constructor; [|constructor]. cbn. unfold ans_ok. cbn. unfold make_response in E. injection E as _ <-. cbn. destruct H as [H|[H H']]; auto. right. rewrite H. cbn. auto.
Qed.
Local Hint Resolve ans_err : core.
Lemma papp o o' : Forall pk o -> Forall pk o' -> Forall pk (o ++ o').
Proof. intros. apply Forall_app. auto. Qed.
Local Hint Resolve papp : core.
Section P.
Context (k : cfg) (x : dworld) (s : hst).
Lemma gf_pk a q : Forall pk (gsup_forward k s a q).
Proof. unfold gsup_forward. destruct (negb _); auto. destruct (k_enc _ _); auto. repeat constructor. Qed.
Lemma cr_pk z q r : Forall pk (connect_result k s z q r).
Proof. unfold connect_result. destruct r as [[a [] n]|]; try apply gf_pk; destruct (_ =? _); auto; apply ans_resp; right; auto. Qed.
Lemma pop_pk z i r : Forall pk (snd (pop k s z i r)).
Proof. unfold pop. cbn [snd]. induction (filter _ _) as [|q l IH]; cbn; [constructor|]. apply papp; auto. apply cr_pk. Qed.
Lemma ccb_pk l : forall z a r, Forall pk (snd (connect_cb k s z l a r)).
Proof.
  induction l as [|e l IH]; intros z a r; cbn [connect_cb]; [constructor|]. destruct (if sa_eqb _ _ then _ else _) as [z1 o1] eqn:E.
  specialize (IH z1 a r). destruct (connect_cb k s z1 l a r) as [z2 o2]. cbn [snd] in *. apply papp; auto. destruct (sa_eqb _ _); [|injection E as <- <-; constructor].
  pose proof (pop_pk z (ps_imsi (pe_sub e)) r) as P. rewrite E in P. exact P.
Qed.
Lemma connect_pk z a : Forall pk (snd (connect k x s z a)).
Proof. unfold connect. destruct (find_rem z a) as [r|]; [destruct (rm_up r); [apply ccb_pk|constructor]|]. destruct (dw_ok x a); [constructor|apply ccb_pk]. Qed.
Lemma del_pk z i : Forall pk (snd (subscr_del k s z i)).
Proof. unfold subscr_del. pose proof (pop_pk z i None) as P. destruct (pop _ _ _ _ _) as [z' o]. cbn [snd] in *. apply papp; auto. repeat constructor. Qed.
Lemma ftr_pk z p q : Forall pk (snd (fst (forward_to_remote k x s z p q))).
Proof.
  unfold forward_to_remote. destruct (ack_to_remote _ _ _ _ _) as [z'|]; [|cbn; auto]. destruct (negb _); [repeat constructor|].
  destruct (is_up _); [cbn [fst snd]; constructor; [exact I|apply cr_pk]|]. pose proof (connect_pk (defer z' q) (ps_addr p)) as P. destruct (connect _ _ _ _ _) as [z2 o]. cbn [fst snd] in *. constructor; [exact I|auto].
Qed.
Lemma resolved_pk z p a : Forall pk (snd (resolved k x s z p a)).
Proof. unfold resolved. destruct (_ && _); [constructor|]. destruct (waiting _ _); [apply connect_pk|constructor]. Qed.
Lemma look_pk z i r : Forall pk (snd (lookup_result k x s z i r)).
Proof.
  unfold lookup_result. destruct (negb _); [constructor|]. destruct (match r with Some _ => _ | None => _ end); [|apply del_pk].
  destruct (cache_by_imsi _ _); [apply resolved_pk|constructor].
Qed.
Lemma check_pk z q : all_rets (fun y => Forall pk (snd (fst y))) (check_forward k x s z q).
Proof.
  unfold check_forward. apply all_rets_bind, all_rets_true. intros rc. destruct (rc =? 0); [constructor|]. destruct (cache_by_imsi _ _) as [p|].
  - pose proof (ftr_pk z p q) as P. destruct (forward_to_remote _ _ _ _ _ _) as [[z' o] b]. exact P.
  - destruct (sa_nonzero _).
    + pose proof (resolved_pk (store k x z (mk_psub (g_imsi (q_gsup q)) "" SaNone pdom0 pdom0)) (mk_psub (g_imsi (q_gsup q)) "" SaNone pdom0 pdom0) (z_gw (store k x z (mk_psub (g_imsi (q_gsup q)) "" SaNone pdom0 pdom0)))) as P1.
      destruct (resolved _ _ _ _ _ _) as [z1 o1]. cbn [snd] in P1. destruct (cache_by_imsi _ _) as [p|]; [|cbn; auto].
      pose proof (ftr_pk z1 p q) as P. destruct (forward_to_remote _ _ _ _ _ _) as [[z' o] b]. cbn in *. auto.
    + destruct (negb _); [constructor|]. match goal with |- context [forward_to_remote k x s ?z ?p q] => pose proof (ftr_pk z p q) as P end.
      destruct (forward_to_remote _ _ _ _ _ _) as [[z' o] []]; [destruct (imsi_valid _); [exact P|exact I]|exact P].
Qed.
Lemma up_pk n : forall z a r, Forall pk (snd (call_cbs k s n z a r)).
Proof.
  induction n as [|n IH]; intros z a r; cbn [call_cbs]; [constructor|]. pose proof (ccb_pk (z_cache z) z a (Some r)) as P. destruct (connect_cb _ _ _ _ _ _) as [z1 o1].
  specialize (IH z1 a r). destruct (call_cbs _ _ _ _ _ _) as [z2 o2]. cbn [snd] in *. auto.
Qed.
End P.
Lemma rx_dk k x s z a g : Forall (dk s (DRx a g)) (snd (remote_rx k x s z a g)).
Proof.
  assert (E : forall up c, Forall (dk s (DRx a g)) (err_reply k a up g c)).
  { intros up c. unfold err_reply. destruct (negb _); [constructor|]. destruct (_ && _); repeat constructor. }
  unfold remote_rx. destruct (find_rem z a) as [r|]; [|constructor]. destruct (negb _); [apply E|]. destruct (cache_by_imsi _ _) as [p|]; [|apply E].
  unfold forward_to_vlr. destruct (ipa_set _ _) as [rc dst]. destruct (negb _); [apply E|]. destruct (route_find _ _) as [c|]; [|apply E]. destruct (find_conn _ _) as [cn|]; [|apply E].
  destruct (ack_from_remote _ _ _ _ _ _ _) as [z'|]; [|apply E]. destruct (k_enc k g); [|apply E]. cbn. constructor; [reflexivity|constructor].
Qed.
Lemma loc_dk s e o : ekind s e o -> Forall (dk s (DHlr e)) (map DLoc o).
Proof. intros H. apply ekind_all in H. rewrite Forall_map. eapply Forall_impl; [|exact H]. intros y Y. cbn. eauto. Qed.
Lemma read_dk k x s z c g : all_rets (fun y => Forall (dk s (DHlr (ERx c g))) (snd y)) (dread k x s z c g).
Proof.
  unfold dread. destruct (conn_rx _ _ _ _ _) as [v r] eqn:E. apply conn_rx_kind in E. set (s1 := mk_hst _ _ _ _). cbv zeta.
  assert (RX : dk s (DHlr (ERx c g)) (DLoc (ORx (t_nr s) c g))). { exists (ERx c g). split; auto. constructor; [constructor; reflexivity|constructor]. }
  assert (LOC : forall p : prog (hst * list out), all_rets (khst g (t_nr s)) p ->
    all_rets (fun y : hst * dgst * list dout => Forall (dk s (DHlr (ERx c g))) (snd y)) (do y <- p;; Ret (fst y, z, DLoc (ORx (t_nr s) c g) :: map DLoc (snd y)))).
  { intros p H. apply all_rets_bind. eapply all_rets_impl; [|exact H]. intros y Y. cbn [all_rets snd]. constructor; [exact RX|]. apply loc_dk. exact Y. }
  destruct r as [q|o]; [|apply (LOC (Ret (s1, o))); exact E]. destruct E as (<- & Nr & V).
  pose proof (dispatch_kinds k (dw_w x) s1 q (valid_nonempty _ V)) as D. rewrite Nr in D.
  assert (HERE : all_rets (fun y => Forall (dk s (DHlr (ERx c (q_gsup q)))) (snd y)) (if z_active z || sa_nonzero (z_gw z) then
      do y <- check_forward k x s1 z q;;
      let '(z', o, handled) := y in
      if handled : bool then Ret (s1, z', DLoc (ORx (t_nr s) c (q_gsup q)) :: o)
      else do y <- dispatch k (dw_w x) s1 q;; Ret (fst y, z', DLoc (ORx (t_nr s) c (q_gsup q)) :: o ++ map DLoc (snd y))
    else do y <- dispatch k (dw_w x) s1 q;; Ret (fst y, z, DLoc (ORx (t_nr s) c (q_gsup q)) :: map DLoc (snd y)))).
  { destruct (_ || _); [|apply LOC; exact D]. apply all_rets_bind. eapply all_rets_impl; [|apply check_pk]. intros [[z' o] b] P. cbn [fst snd] in P.
    apply pk_dk with (s := s) (e := DHlr (ERx c (q_gsup q))) in P. destruct b; [cbn [all_rets snd]; constructor; auto|].
    apply all_rets_bind. eapply all_rets_impl; [|exact D]. intros y Y. cbn [all_rets snd]. constructor; [exact RX|]. apply Forall_app. split; auto. apply loc_dk. exact Y. }
  destruct (g_dst (q_gsup q)); [exact HERE|]. destruct (ipa_set_str _ _); [|exact I]. destruct (ipa_set _ _) as [rc dest]. destruct (_ && _); [|exact HERE].
  apply LOC. apply same_kinds, forward_kinds.
Qed.
Lemma dhandle_dk k x s z e : all_rets (fun y => Forall (dk s e) (snd y)) (dhandle k x s z e).
Proof.
  destruct e as [e|b gw c|i r|a|a|a|a g|]; cbn [dhandle].
  - assert (H : all_rets (fun y : hst * dgst * list dout => Forall (dk s (DHlr e)) (snd y)) (do y <- handle k (dw_w x) s e;; Ret (fst y, z, map DLoc (snd y)))).
    { apply all_rets_bind. eapply all_rets_impl; [|apply handle_kinds]. intros y Y. cbn [all_rets snd]. apply loc_dk. exact Y. }
    destruct e; try exact H. destruct (find_conn _ _); [apply read_dk|constructor].
  - constructor.
  - cbn. apply pk_dk, look_pk.
  - cbn. apply pk_dk. unfold rem_up. destruct (find_rem z a) as [r|]; [|constructor]. cbv zeta. match goal with |- context [call_cbs k s ?n ?z ?a ?r] => pose proof (up_pk k s n z a r) as P; destruct (call_cbs k s n z a r) as [z1 o1] end. exact P.
  - constructor.
  - constructor.
  - cbn. apply rx_dk.
  - destruct (cache_clean _ _ _); [|exact I]. cbn. unfold gone. rewrite Forall_map. apply Forall_forall. intros e _. exact I.
Qed.
Lemma dstep_dk k s z d l x e c s' z' d' o : dstep k (s, z, d, l) (x, e, c) = Some (s', z', d', l ++ o) -> Forall (dk s e) o.
Proof.
  intros E. unfold dstep in E. pose proof (all_rets_run _ _ (dhandle_dk k x s z e) c d) as R. unfold run_out in R. destruct (run _ _ _) as [[[[[s2 z2] o2]| |] d2] c2].
  - injection E as <- <- <- E. apply app_inv_head in E. subst o2. apply (R _ eq_refl).
  - assert (Q : [] = l ++ o) by congruence. destruct l, o; try discriminate. constructor.
  - discriminate.
Qed.

Theorem c64_dgsm k s z d l x e c s' z' d' o : dstep k (s, z, d, l) (x, e, c) = Some (s', z', d', l ++ o) ->
  (forall y m, In (DLoc y) o -> message y = Some m -> (exists c g, e = DHlr (ERx c g) /\ passed_on g m) \/ own_contents m) /\
  (forall y m, In (DLoc y) o -> message y = Some m -> x_vecs (g_x m) <> [] ->
     exists c g, e = DHlr (ERx c g) /\ g_imsi m = g_imsi g /\ (passed_on g m \/ g_type g = 8 /\ exists co, y = OResp (t_nr s) m true co)) /\
  (forall y m, In (DAns y) o -> message y = Some m -> own_contents m /\ x_vecs (g_x m) = [] /\ x_msisdn (g_x m) = None /\ x_ss (g_x m) = PlNone) /\
  (forall a n m, In (DTx a n m) o -> e = DRx a m) /\
  (forall a m, In (DErr a m) o -> own_contents m /\ x_vecs (g_x m) = [] /\ x_msisdn (g_x m) = None /\ x_ss (g_x m) = PlNone).
Proof.
  intros E. apply dstep_dk in E. rewrite Forall_forall in E.
  assert (BO : forall m, g_x m = bare -> own_contents m /\ x_vecs (g_x m) = [] /\ x_msisdn (g_x m) = None /\ x_ss (g_x m) = PlNone).
  { intros m X. split; [apply bare_own; auto|]. rewrite X. auto. }
  repeat apply conj.
  - intros y m I M. apply E in I. destruct I as (e' & -> & K). destruct (ek_contents s e' [y] y m K (or_introl eq_refl) M) as [(c1 & g & -> & P)|P]; eauto.
  - intros y m I M V. apply E in I. destruct I as (e' & -> & K). destruct (ek_vectors s e' [y] y m K (or_introl eq_refl) M V) as (c1 & g & -> & P). eauto.
  - intros y m I M. apply E in I. cbn in I. unfold ans_ok in I. rewrite M in I. destruct I as [I|[T I]]; auto. split; [constructor; rewrite ?I, ?T; cbn; intuition congruence|]. rewrite I. auto.
  - intros a n m I. apply E in I. exact I.
  - intros a m I. apply E in I. auto.
Qed.
From Verif Require DgsmThms5.
Theorem c64_forwarded k s z d l x e c s' z' d' o nr a m : DgsmSpec.dreached k (s, z, d, l) -> dstep k (s, z, d, l) (x, e, c) = Some (s', z', d', l ++ o) -> In (DFwd nr a m) o ->
  exists q, In (DTake q) (l ++ o) /\ q_nr q = nr /\ passed_on (q_gsup q) m.
Proof.
  intros R E I. destruct (DgsmThms5.c39_outs k s z d l x e c s' z' d' (l ++ o) R E) as [N|(o' & Q & F & _)].
  - destruct l, o; try discriminate. destruct I.
  - apply app_inv_head in Q. subst o'. destruct (F _ _ _ I) as (q & p & T & Nr & M & _). exists q. split; [exact T|]. split; [exact Nr|]. subst m. repeat split.
Qed.
