From Verif Require Import Base PeerId PeerSpec PeerThms Db DbSpec DbProofs DbThms2 Auth AuthThms3 Gsup Router RouterThms Hlr HlrSpec HlrThms2
  Mdns Proxy MsServerSpec MsServerThms Dgsm DgsmSpec.

(** * Shape of a step *)
(** what dgsm_check_forward_gsup_msg does with a request for a subscriber that is not in the database *)
Definition cf (k : cfg) (x : dworld) (s : hst) (z : dgst) (q : req) : dgst * list dout :=
  let imsi := g_imsi (q_gsup q) in
  match cache_by_imsi (z_cache z) imsi with
  | Some p => fst (forward_to_remote k x s z p q)
  | None =>
      let p := mk_psub imsi "" SaNone pdom0 pdom0 in
      let z := store k x z p in
      if sa_nonzero (z_gw z) then
        let '(z, o1) := resolved k x s z p (z_gw z) in
        match cache_by_imsi (z_cache z) imsi with
        | None => (z, o1 ++ map DAns (respond_err (tx k s) q CAUSE_NET_FAIL))
        | Some p => let '(z, o2, _) := forward_to_remote k x s z p q in (z, o1 ++ o2)
        end
      else let '(z, o, _) := forward_to_remote k x s z p q in (z_with_look z (imsi :: z_look z), o)
  end.

Record fresh_req (s : hst) (c : nat) (g : gsup) (q : req) : Prop := {
  fr_nr : q_nr q = t_nr s; fr_gsup : q_gsup q = g; fr_ipa : p_type (q_src q) = PT_IPA; fr_wf : ipa_wf (p_ipa (q_src q));
  fr_imsi : imsi_valid (g_imsi g) = true }.

Inductive shape (k : cfg) (x : dworld) (s : hst) (z : dgst) : devent -> hst -> dgst -> list dout -> Prop :=
| sh_loc e s' o : sinv (t_srv s') -> (t_nr s <= t_nr s')%nat -> shape k x s z (DHlr e) s' z (map DLoc o)
| sh_cf c g s' q z' o : sinv (t_srv s') -> t_nr s' = S (t_nr s) -> fresh_req s c g q -> z_active z = true \/ sa_nonzero (z_gw z) = true ->
    cf k x s' z q = (z', o) -> shape k x s z (DHlr (ERx c g)) s' z' (DLoc (ORx (t_nr s) c g) :: o)
| sh_set b gw c : shape k x s z (DSet b gw c) s (mk_dgst (z_cache z) (z_wait z) (z_rems z) (z_look z) b gw c) []
| sh_look i r z' o : lookup_result k x s z i r = (z', o) -> shape k x s z (DLook i r) s z' o
| sh_up a z' o : rem_up k s z a = (z', o) -> shape k x s z (DUp a) s z' o
| sh_down a : shape k x s z (DDown a) s (rem_down z a) []
| sh_lost a : shape k x s z (DLost a) s (rem_lost z a) []
| sh_rx a g z' o : remote_rx k x s z a g = (z', o) -> shape k x s z (DRx a g) s z' o
| sh_clean c : cache_clean (z_cache z) (stamp k x) FRESH = Val c -> shape k x s z DClean s (z_with_cache z c) (gone (z_cache z) c).

Lemma conn_rx_fresh k s c g v q : sinv (t_srv s) -> conn_rx (k_enc k) (t_srv s) (t_nr s) c g = (v, inl q) -> fresh_req s c g q.
Proof.
  intros S E. unfold conn_rx in E. destruct (find_conn (t_srv s) c) as [cn|] eqn:F; [|discriminate].
  assert (W : ipa_wf (c_name cn)). { apply (si_wf _ S). apply in_map. apply find_some in F. tauto. }
  assert (G : forall tx q', req_new tx (t_nr s) c (mk_peer PT_IPA (c_name cn)) g = inl q' -> fresh_req s c g q').
  { intros tx q' R. unfold req_new in R. destruct (g_src g) as [|y l] eqn:Eg.
    - destruct (imsi_valid (g_imsi g)) eqn:Im; [|discriminate]. injection R as <-. split; auto.
    - unfold peer_set in R. cbn [p_ipa] in R. destruct (ipa_set (c_name cn) (Some (y :: l))) as [rc src] eqn:Es.
      destruct (ipa_set_bytes _ _ _ _ W Es) as (W2 & _). destruct (negb (rc =? 0)); [discriminate|].
      destruct (negb (peer_cmp _ _ =? 0)); destruct (imsi_valid (g_imsi g)) eqn:Im; try discriminate; injection R as <-; split; auto. }
  destruct (req_new _ _ _ _ _) as [q'|o] eqn:R; [|discriminate]. pose proof (G _ _ R) as FR. destruct (negb _).
  - destruct (route_add _ _ _) as [rc v']. destruct (negb _); [discriminate|]. injection E as <- <-. auto.
  - injection E as <- <-. auto.
Qed.

(** request numbers *)
Definition keeps_nr (s : hst) (x : hst * list out) : Prop := t_nr (fst x) = t_nr s.
Lemma same_nr s p : all_rets (keeps_nr s) (same s p).
Proof. unfold same. apply all_rets_bind, all_rets_true. intros o. reflexivity. Qed.
Lemma lu_start_nr k w s q : all_rets (keeps_nr s) (lu_start k w s q).
Proof.
  assert (R : forall o, keeps_nr s (s, o)) by (intros; reflexivity).
  unfold lu_start. destruct (peer_is_empty (q_src q)); [apply R|].
  apply all_rets_bind, all_rets_true. intros [rc sub]. destruct (rc <? 0); [apply R|].
  destruct sub as [h|]; [|exact I].
  destruct (_ && _); [apply R|]. destruct (_ && _); [apply R|]. destruct (_ || _); [apply R|].
  apply all_rets_bind, all_rets_true. intros rc2. destruct (negb (rc2 =? 0)); [apply R|].
  destruct (isd_msg _ _ _ _) as [isd|] eqn:E; [|apply R].
  destruct (respond (tx k s) q isd false false) as [rc3 o]. destruct (negb (rc3 =? 0)); [apply R|reflexivity].
Qed.
Lemma dispatch_ss_nr k s z fe g r : all_rets (fun x => t_nr (fst (fst x)) = t_nr s) (ss_dispatch k s z fe g r).
Proof.
  unfold ss_dispatch, handle_ss, handle_ussd. destruct (op_is_ussd _).
  - destruct (z_hdl z); destruct fe; try exact I;
      try (apply all_rets_bind, all_rets_true; intros; reflexivity).
    + apply all_rets_bind, all_rets_true. intros x. destruct (_ =? _); reflexivity.
    + destruct (route_find _ _); [reflexivity|apply all_rets_bind, all_rets_true; intros; reflexivity].
  - apply all_rets_bind, all_rets_true; intros; reflexivity.
Qed.
Lemma proc_ss_nr k s q : all_rets (keeps_nr s) (rx_proc_ss_req k s q).
Proof.
  unfold keeps_nr, rx_proc_ss_req. destruct (negb (is_ipa _)); [reflexivity|].
  destruct (match pl_octets _ with [] => _ | _ => _ end) as [r|]; [|reflexivity].
  destruct (_ =? SS_BEGIN).
  { destruct (ss_find _ _ _); [reflexivity|]. destruct (ss_handler _ _ _ _); [|exact I]. cbv zeta.
    apply all_rets_bind. eapply all_rets_impl; [|apply dispatch_ss_nr]. intros x E. exact E. }
  destruct (_ =? SS_CONTINUE).
  { destruct (ss_find _ _ _); [|reflexivity]. apply all_rets_bind. eapply all_rets_impl; [|apply dispatch_ss_nr]. intros x E. exact E. }
  destruct (_ =? SS_END); [|reflexivity]. destruct (ss_find _ _ _); [|reflexivity].
  apply all_rets_bind. eapply all_rets_impl with (P := fun x => t_nr (fst (fst x)) = t_nr s).
  - intros x E. destruct (snd (fst x)); [exact I|]. unfold ss_free. cbn. exact E.
  - destruct (pl_octets _); [reflexivity|apply dispatch_ss_nr].
Qed.
Lemma dispatch_nr k w s q : all_rets (keeps_nr s) (dispatch k w s q).
Proof.
  assert (R : forall o, keeps_nr s (s, o)) by (intros; reflexivity).
  unfold dispatch. destruct (_ =? _); [apply same_nr|].
  destruct (_ =? _). { unfold rx_upd_loc_req. apply all_rets_bind, all_rets_true. intros _. eapply all_rets_impl; [|apply lu_start_nr]. intros y E. exact E. }
  destruct (_ =? _); [apply same_nr|]. destruct (_ || _); [apply R|].
  destruct (_ || _); [apply proc_ss_nr|].
  destruct (_ =? MSGT_PROC_SS_ERROR); [apply R|].
  destruct (_ || _). { cbn [all_rets]. unfold keeps_nr, lu_rx. destruct (find _ _); auto. destruct (_ =? _); auto. destruct (_ =? _); auto. }
  destruct (_ =? MSGT_CHECK_IMEI_REQUEST); [apply same_nr|].
  destruct (_ =? MSGT_MO_FORWARD_SM_REQUEST); [apply same_nr|].
  destruct (_ =? MSGT_MT_FORWARD_SM_REQUEST); [apply same_nr|].
  destruct (_ =? MSGT_READY_FOR_SM_REQUEST); [apply same_nr|apply R].
Qed.

Lemma all_rets_and2 {A} (P Q : A -> Prop) (p : prog A) : all_rets P p -> all_rets Q p -> all_rets (fun a => P a /\ Q a) p.
Proof. induction p as [a|st kk IH|]; cbn; auto. Qed.
Lemma local_shape k x s z e s1 (p : prog (hst * list out)) pre :
  sinv (t_srv s1) -> (t_nr s <= t_nr s1)%nat -> all_rets (keeps_srv s1) p -> all_rets (keeps_nr s1) p ->
  all_rets (fun y => shape k x s z (DHlr e) (fst (fst y)) (snd (fst y)) (snd y))
    (do y <- p;; Ret (fst y, z, DLoc pre :: map DLoc (snd y))).
Proof.
  intros S L A B. apply all_rets_bind. eapply all_rets_impl; [|exact (all_rets_and2 _ _ _ A B)].
  intros [s2 o] [K1 K2]. cbn. change (DLoc pre :: map DLoc o) with (map DLoc (pre :: o)).
  apply sh_loc; [eapply srv_same_sinv; eauto|]. unfold keeps_nr in K2. cbn in K2. lia.
Qed.

Lemma cf_check k x s z q : imsi_valid (g_imsi (q_gsup q)) = true -> p_type (q_src q) = PT_IPA -> z_active z = true \/ sa_nonzero (z_gw z) = true ->
  all_rets (fun y => y = (z, [], false) \/ y = (cf k x s z q, true)) (check_forward k x s z q).
Proof.
  intros V T A. unfold check_forward, cf. apply all_rets_bind, all_rets_true. intros rc. destruct (rc =? 0); [left; reflexivity|].
  destruct (cache_by_imsi _ _) as [p|].
  { destruct (forward_to_remote k x s z p q) as [[z' o] b]. cbn. auto. }
  change (z_gw (store k x z _)) with (z_gw z). change (z_active (store k x z _)) with (z_active z).
  destruct (sa_nonzero (z_gw z)) eqn:G.
  - destruct (resolved _ _ _ _ _ _) as [z' o1]. destruct (cache_by_imsi (z_cache z') _) as [p|]; [|cbn; auto].
    destruct (forward_to_remote _ _ _ _ _ _) as [[z2 o2] b]. cbn; auto.
  - destruct A as [A|A]; [|discriminate]. rewrite A. cbn [negb].
    destruct (forward_to_remote _ _ _ _ _ _) as [[z2 o2] b] eqn:F.
    assert (b = true) as ->.
    { unfold forward_to_remote in F. destruct (ack_to_remote _ _ _ _ _) as [z'|] eqn:Ak.
      - cbn [ps_addr sa_nonzero negb] in F. injection F as _ _ <-. reflexivity.
      - unfold ack_to_remote, is_ipa in Ak. rewrite T in Ak. cbn [negb] in Ak. destruct (_ =? _); [destruct (_ || _)|]; discriminate. }
    rewrite V. cbn. auto.
Qed.


Lemma dread_shape k x s z c g : sinv (t_srv s) ->
  all_rets (fun y => shape k x s z (DHlr (ERx c g)) (fst (fst y)) (snd (fst y)) (snd y)) (dread k x s z c g).
Proof.
  intros S. unfold dread. pose proof (conn_rx_srv (k_enc k) (t_srv s) (t_nr s) c g S) as CS.
  pose proof (fun v q => conn_rx_fresh k s c g v q S) as FR.
  destruct (conn_rx _ _ _ _ _) as [v r]. cbn [fst] in CS. destruct CS as (S1 & _).
  set (s1 := mk_hst v (t_lus s) (t_ss s) (Datatypes.S (t_nr s))).
  assert (N1 : (t_nr s <= t_nr s1)%nat) by (cbn; lia).
  assert (LS : forall p, all_rets (keeps_srv s1) p -> all_rets (keeps_nr s1) p ->
    all_rets (fun y => shape k x s z (DHlr (ERx c g)) (fst (fst y)) (snd (fst y)) (snd y))
      (do y <- p;; Ret (fst y, z, DLoc (ORx (t_nr s) c g) :: map DLoc (snd y)))) by (intros p; apply local_shape; auto).
  destruct r as [q|o]; [|apply LS; [apply srv_same_refl|reflexivity]].
  specialize (FR _ _ eq_refl).
  cbv zeta beta. match goal with |- all_rets ?P (match g_dst g with [] => ?h | _ :: _ => _ end) =>
    assert (H : all_rets P h) end.
  { destruct (z_active z || sa_nonzero (z_gw z)) eqn:A.
    - apply Bool.orb_true_iff in A. apply all_rets_bind.
      eapply all_rets_impl; [|apply cf_check; [rewrite (fr_gsup _ _ _ _ FR); apply FR|apply FR|exact A]].
      intros y [-> | ->].
      + apply LS; [apply dispatch_srv|apply dispatch_nr].
      + destruct (cf k x s1 z q) as [z' o] eqn:C. cbn. eapply sh_cf; eauto.
    - apply LS; [apply dispatch_srv|apply dispatch_nr]. }
  destruct (g_dst g) as [|d0 dl]; [exact H|].
  destruct (ipa_set_str _ _); [|exact I]. destruct (ipa_set _ _) as [rc dest]. destruct (_ && _); [|exact H].
  apply LS; [apply same_srv|apply same_nr].
Qed.

Lemma handle_nr k w s e : (forall c g, e <> ERx c g) -> all_rets (keeps_nr s) (handle k w s e).
Proof.
  intros N. destruct e; cbn [handle]; try reflexivity.
  - destruct (N _ _ eq_refl).
  - unfold lu_timeout. destruct (find _ _); reflexivity.
  - unfold ss_timeout. destruct (ss_find _ _ _); reflexivity.
  - apply same_nr.
  - apply same_nr.
  - apply all_rets_bind, all_rets_true. intros o. reflexivity.
Qed.

Lemma dhandle_shape k x s z e : sinv (t_srv s) ->
  all_rets (fun y => shape k x s z e (fst (fst y)) (snd (fst y)) (snd y)) (dhandle k x s z e).
Proof.
  intros S. destruct e as [e|b gw c|i r|a|a|a|a g|].
  - assert (G : (forall c g, e <> ERx c g) -> all_rets (fun y => shape k x s z (DHlr e) (fst (fst y)) (snd (fst y)) (snd y))
      (do y <- handle k (dw_w x) s e;; Ret (fst y, z, map DLoc (snd y)))).
    { intros N. apply all_rets_bind. eapply all_rets_impl; [|exact (all_rets_and2 _ _ _ (handle_sinv k (dw_w x) s e S) (handle_nr k (dw_w x) s e N))].
      intros [s2 o] [K1 K2]. cbn in *. apply sh_loc; auto. unfold keeps_nr in K2. cbn in K2. lia. }
    destruct e; try (apply G; discriminate). cbn [dhandle]. destruct (find_conn _ _); [apply dread_shape; auto|].
    cbn. apply (sh_loc k x s z (ERx c g) s []); auto.
  - constructor.
  - cbn. destruct (lookup_result k x s z i r) eqn:E. constructor; auto.
  - cbn. destruct (rem_up k s z a) eqn:E. constructor; auto.
  - constructor.
  - constructor.
  - cbn. destruct (remote_rx k x s z a g) eqn:E. constructor; auto.
  - cbn. destruct (cache_clean _ _ _) eqn:E; [constructor; auto|exact I].
Qed.

Lemma shape_sinv k x s z e s' z' o : shape k x s z e s' z' o -> sinv (t_srv s) -> sinv (t_srv s') /\ (t_nr s <= t_nr s')%nat.
Proof. intros H S. destruct H; auto; split; auto; lia. Qed.

(** induction over the runs of a process *)
Lemma dreach_ind k (P : hst -> dgst -> list dout -> Prop) :
  P hst0 dgst0 [] ->
  (forall s z l, sinv (t_srv s) -> P s z l -> P (restart s) (mk_dgst [] [] [] [] (z_active z) (z_gw z) (z_cause z)) []) ->
  (forall x s z l e s' z' o, sinv (t_srv s) -> P s z l -> shape k x s z e s' z' o -> P s' z' (l ++ o)) ->
  forall s z d l, dreached k (s, z, d, l) -> sinv (t_srv s) /\ P s z l.
Proof.
  intros P0 PC PS s z d l (d0 & es & H).
  assert (G : forall es s0 z0 d1 l0, sinv (t_srv s0) -> P s0 z0 l0 -> dhist k (s0, z0, d1, l0) es = Some (s, z, d, l) -> sinv (t_srv s) /\ P s z l).
  { clear H. induction es0 as [|[[x e] c] es0 IH]; intros s0 z0 d1 l0 S Q E.
    - injection E as <- <- <- <-. auto.
    - cbn [dhist] in E. unfold dstep in E.
      destruct (run (dhandle k x s0 z0 e) c d1) as [[r d2] c2] eqn:R. destruct r as [[[s1 z1] o]| |]; [| |discriminate].
      + pose proof (all_rets_run _ _ (dhandle_shape k x s0 z0 e S) c d1 (s1, z1, o)) as SH.
        unfold run_out in SH. rewrite R in SH. specialize (SH eq_refl). cbn in SH.
        eapply IH; [|eapply PS; eauto|exact E]. eapply shape_sinv; eauto.
      + eapply IH; [| |exact E]; [apply sinv_restart|]. eapply PC; eauto. }
  exact (G es hst0 dgst0 d0 [] sinv0 P0 H).
Qed.
