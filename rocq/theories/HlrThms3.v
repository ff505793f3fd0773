From Coq Require Import Permutation.
From Verif Require Import Base PeerId Db DbSpec DbProofs DbThms2 Auth AuthThms3 Gsup Router Hlr PeerSpec PeerThms HlrSpec HlrThms RouterThms HlrThms2.

(** * C26 *)
Lemma step_opens_sub k s d w e f s' d' o : inv s -> step k (s, d) (w, e, f) = Some (s', d', o) ->
  (forall p, In p (opens s') -> In p (opens s) \/ q_nr p = t_nr s) /\ (t_nr s <= t_nr s')%nat /\
  (forall nr r ff c, (nr < t_nr s)%nat -> In (OResp nr r ff c) o -> exists q, In q (opens s) /\ q_nr q = nr /\ c = tx k s' q r).
Proof.
  intros H E. destruct (step_cases _ _ _ _ _ _ _ _ _ H E) as [V|(-> & -> & _)].
  2:{ cbn. repeat split; auto; tauto. }
  destruct V as [(c1 & g & o1 & -> & E1 & q & (Q1 & Q2 & Q3) & (T1 & T2 & T3) & _)|(T1 & T2 & T3)]; cbn [fst snd] in *.
  - repeat split; [|lia|].
    + intros p Ip. destruct (trans_sub _ _ _ _ T3) as [y P]. assert (I : In p (q :: opens s)) by (rewrite P; apply in_or_app; auto).
      destruct I as [<-|I]; auto.
    + intros nr r ff c L I. subst o. destruct I as [I|I]; [discriminate|]. destruct (trans_in _ _ _ _ _ _ _ _ T3 I) as (p & Ip & Np & Ec).
      exists p. destruct Ip as [<-|Ip]; [lia|auto].
  - repeat split; [|lia|].
    + intros p Ip. destruct (trans_sub _ _ _ _ T3) as [y P]. left. rewrite P. apply in_or_app; auto.
    + intros nr r ff c L I. eapply trans_in; eauto.
Qed.

Definition gone_or_home (s : hst) (q : req) (c : nat) : Prop :=
  (q_nr q < t_nr s)%nat /\ homes (t_srv s) q c /\ forall p, In p (opens s) -> q_nr p = q_nr q -> p = q.
Lemma c26_later k q c es : forall s d s' d' o, inv s -> hist k (s, d) es = Some (s', d', o) -> quiet c es ->
  gone_or_home s q c -> only_to (q_nr q) c o.
Proof.
  induction es as [|[[w e] f] es IH]; intros s d s' d' o H; cbn [hist].
  - intros [= <- <- <-] _ _ r f c' [].
  - destruct (step k (s, d) (w, e, f)) as [[[s1 d1] o1]|] eqn:E; [|discriminate].
    destruct (hist k (s1, d1) es) as [[[s2 d2] o2]|] eqn:E2; [|discriminate]. intros [= <- <- <-] Q (L & Hm & U).
    destruct (Q w e f) as [T NC]; [left; auto|]. destruct (step_ltr _ _ _ _ _ _ _ _ _ H E) as [H1 _].
    destruct (step_opens_sub _ _ _ _ _ _ _ _ _ H E) as (A & B & C).
    assert (Hm1 : homes (t_srv s1) q c).
    { destruct Hm as [Hm1 Hm2]. split; [|intros Hv; specialize (Hm2 Hv)]; eapply step_leads; eauto; apply H. }
    intros r f' c' I. apply in_app_iff in I. destruct I as [I|I].
    + destruct (C _ _ _ _ L I) as (p & Ip & Np & Ec). rewrite (U p Ip Np) in Ec. symmetry in Ec. eapply tx_homes; [apply H1| |exact Ec]. auto.
    + eapply (IH s1); eauto.
      * intros w0 e0 f0 I0. eapply Q. right; exact I0.
      * split; [lia|]. split; auto. intros p Ip Np. destruct (A p Ip) as [I0|N0]; auto. lia.
Qed.

Lemma c26_same_connection k d es s d1 o w c g f s2 d2 o2 es' s3 d3 o3 nr :
  hist k (hst0, d) es = Some (s, d1, o) ->
  step k (s, d1) (w, ERx c g, f) = Some (s2, d2, o2) -> In (ORx nr c g) o2 ->
  identified (t_srv s) c -> imsi_valid (g_imsi g) = true \/ (forall c', leads (t_srv s) (g_src g) c' -> c' = c) ->
  quiet c es' -> hist k (s2, d2) es' = Some (s3, d3, o3) ->
  forall r fin c', In (OResp nr r fin (Some c')) (o2 ++ o3) -> c' = c.
Proof.
  intros E St Hr D Hi Q E3. destruct (hist_ltr _ _ _ _ _ _ _ inv0 E) as [H _]. destruct (step_ltr _ _ _ _ _ _ _ _ _ H St) as [H2 _].
  destruct (step_cases _ _ _ _ _ _ _ _ _ H St) as [V|(-> & -> & _)]; [|destruct Hr].
  assert (exists q, q_nr q = nr /\ nr = t_nr s /\ t_nr s2 = S (t_nr s) /\ only_to nr c o2 /\
     (homes (t_srv s2) q c \/ opens s2 = opens s) /\ (exists X o', o2 = ORx nr c g :: o' /\ trans X (q :: opens s) o' (opens s2))) as (q & Nq & Ns & Nn & O & HH & X & o' & Eo & T).
  { destruct V as [(c1 & g1 & o1 & Ee & E1 & q & (Q1 & Q2 & Q3) & (T1 & T2 & T3) & T4 & T5)|(T1 & T2 & T3)]; cbn [fst snd] in *.
    - injection Ee as -> ->. subst o2. destruct Hr as [Hr|Hr].
      + injection Hr as <-. exists q. repeat split; auto.
        * intros r ff c' [I|I]; [discriminate|]. eapply T4; eauto. split; auto.
        * exists (tx k s2), o1. auto.
      + exfalso. clear -T3 Hr. revert Hr. induction T3; cbn; try tauto; intros [I|I]; auto; discriminate.
    - exfalso. clear -T3 Hr. revert Hr. induction T3; cbn; try tauto; intros [I|I]; auto; discriminate. }
  intros r fin c' I. apply in_app_iff in I. destruct I as [I|I]; [eapply O; eauto|]. rewrite <- Nq in I, Ns.
  destruct HH as [HH|HH].
  - eapply (c26_later k q c es'); eauto. split; [lia|]. split; auto.
    intros p Ip Np. destruct (trans_sub _ _ _ _ T) as [y P]. assert (Ip' : In p (q :: opens s)) by (rewrite P; apply in_or_app; auto).
    destruct Ip' as [<-|Ip']; auto. exfalso. destruct H as [[_ L _] _]. rewrite Forall_forall in L. apply L in Ip'. lia.
  - exfalso. destruct (hist_ltr _ _ _ _ _ _ _ H2 E3) as [_ L].
    apply (ltr_gone _ _ _ _ _ (q_nr q) L) in I; [cbn in I; congruence|lia|].
    rewrite HH. intros J. apply in_map_iff in J. destruct J as (p & Ep & Ip). destruct H as [[_ F _] _]. rewrite Forall_forall in F. apply F in Ip. lia.
Qed.

(** * C49 *)
Lemma last_firstn (b : list ascii) : forall l a z, (l < length b)%nat -> last (firstn (S l) b) a = nth l b z.
Proof.
  induction b as [|x b IH]; intros l a z H; cbn in H; [lia|]. destruct l as [|l]; [reflexivity|].
  destruct b as [|y b]; [cbn in H; lia|]. rewrite firstn_cons. change (nth (S l) (x :: y :: b) z) with (nth l (y :: b) z). rewrite <- (IH l a z) by (cbn in *; lia).
  rewrite firstn_cons. reflexivity.
Qed.
Lemma send_to_ok v n g : sinv v -> ipa_wf n -> ipa_bytes n <> [] ->
  exists rc o, send_to v n g = Some (rc, o) /\
    ((rc = 0 /\ exists c, o = [OTx c g] /\ leads v (addr_of (ipa_bytes n)) c) \/
     (rc <> 0 /\ o = [] /\ ((forall c, ~ leads v (addr_of (ipa_bytes n)) c) \/ (128 < length (addr_of (ipa_bytes n)))%nat))).
Proof.
  intros SV [W1 W2] N. unfold send_to. destruct (in_len n) as [|l] eqn:El.
  { exfalso. apply N. unfold ipa_bytes. rewrite El. reflexivity. }
  assert (La : last (ipa_bytes n) "a"%char = nth l (in_val n) nul).
  { unfold ipa_bytes. rewrite El. assert (H : (l < length (in_val n))%nat) by lia. apply last_firstn; auto. }
  unfold addr_of. rewrite La.
  assert (A : forall a, exists rc o, Some (match route_find (v_routes v) a with Some c => (0, [OTx c g]) | None => (- ENODEV, []) end) = Some (rc, o) /\
     ((rc = 0 /\ exists c, o = [OTx c g] /\ leads v a c) \/ (rc <> 0 /\ o = [] /\ forall c, ~ leads v a c))).
  { intros a. destruct (route_find _ _) as [c|] eqn:F.
    - do 2 eexists. split; [reflexivity|]. left. split; auto. exists c. split; auto. apply route_find_some; auto.
    - do 2 eexists. split; [reflexivity|]. right. split; [discriminate|]. split; auto. intros c L. apply route_find_none in F. apply F. apply (in_map rt_addr) in L. auto. }
  destruct (nth l (in_val n) nul =? nul)%char.
  - destruct (A (ipa_bytes n)) as (rc & o & E & [H|(H1 & H2 & H3)]); exists rc, o; split; auto.
  - destruct (Nat.leb_spec IPA_MAX (S l)).
    + do 2 eexists. split; [reflexivity|]. right. split; [discriminate|]. split; auto. right. rewrite app_length. cbn.
      unfold ipa_bytes. rewrite firstn_length, El, W1. unfold IPA_MAX in *. lia.
    + destruct (A (ipa_bytes n ++ [nul])) as (rc & o & E & [H1|(H1 & H2 & H3)]); exists rc, o; split; auto.
Qed.

Definition is_routing_error (g : gsup) (r : gsup) : Prop := g_type r = MSGT_ROUTING_ERROR /\ repeats g r.

Lemma routing_error_resp tx q m e : g_type m = MSGT_ROUTING_ERROR -> g_imsi m = "" -> g_class m = 0 -> g_mr m = None -> g_sid m = 0 -> g_dst m = [] -> g_ss m = SS_NONE ->
  exists r, snd (respond tx q m e true) = [OResp (q_nr q) r true (tx q r)] /\ is_routing_error (q_gsup q) r.
Proof.
  intros T I C M D Ds Ss. unfold respond. destruct (make_response m (q_gsup q) e true) as [rc r] eqn:E.
  assert (R : rc = 0).
  { unfold make_response in E. injection E as <- _. rewrite I, C, M, D. cbn. rewrite String.eqb_refl, !Z.eqb_refl. destruct (g_mr (q_gsup q)); cbn; auto.
    rewrite Z.eqb_refl. reflexivity. }
  rewrite R in *. cbn. exists r. split; auto. split.
  - unfold make_response in E. injection E as _ <-. cbn. rewrite T. reflexivity.
  - eapply make_response_repeats; eauto. repeat split; auto.
    + rewrite T. intros H. exfalso. revert H. apply not_error. reflexivity.
    + rewrite T. discriminate.
Qed.

Definition c49_outcome (g : gsup) (nr c : nat) (s' : hst) (rest : list out) : Prop :=
  (exists c', rest = [OTx c' g; OFree nr] /\ leads (t_srv s') (addr_of (g_dst g)) c' /\ g_src g <> [] /\
     (leads (t_srv s') (g_src g) c \/ exists x, In x (v_conns (t_srv s')) /\ c_id x = c /\ ipa_bytes (c_name x) = g_src g)) \/
  (exists r co, rest = [OResp nr r true co] /\ is_routing_error g r /\
     (g_src g = [] \/ (length (g_src g) > 128)%nat \/ (exists c', c' <> c /\ leads (t_srv s') (g_src g) c') \/
      (128 < length (addr_of (g_dst g)))%nat \/ forall c', ~ leads (t_srv s') (addr_of (g_dst g)) c')).

Lemma conn_rx_valid enc v nr c g x : sinv v -> find_conn v c = Some x -> imsi_valid (g_imsi g) = true -> ipa_bytes (c_name x) <> [] ->
  forall v' r, conn_rx enc v nr c g = (v', r) -> v_conns v' = v_conns v /\ sinv v' /\
  match r with
  | inl q => q_nr q = nr /\ q_gsup q = g /\ (g_src g = [] \/ leads v' (g_src g) c \/ ipa_bytes (c_name x) = g_src g)
  | inr o => exists r co, o = [OResp nr r true co] /\ is_routing_error g r /\
       ((length (g_src g) > 128)%nat \/ exists c', c' <> c /\ leads v' (g_src g) c')
  end.
Proof.
  intros S F Im N v' r E. unfold conn_rx in E. rewrite F in E.
  assert (W : ipa_wf (c_name x)). { apply (si_wf _ S). apply in_map. apply find_some in F. tauto. }
  assert (I : In c (map c_id (v_conns v))) by (apply find_conn_iff; congruence).
  unfold req_new in E. rewrite Im in E. cbn [negb] in E.
  destruct (g_src g) as [|y l] eqn:Eg.
  { cbn [peer_is_empty q_via p_type peer_zero negb] in E. injection E as <- <-. cbn; auto 10. }
  unfold peer_set in E. cbn [p_ipa] in E.
  destruct (ipa_set (c_name x) (Some (y :: l))) as [rc src] eqn:Es.
  destruct (ipa_set_bytes _ _ _ _ W Es) as (W2 & [(-> & B)|(-> & -> & B)]).
  - cbn [negb Z.eqb] in E. destruct (peer_cmp _ _ =? 0) eqn:C; cbn [negb] in E.
    + injection E as <- <-. split; auto. split; auto. split; auto. split; auto. right. right. cbn in C. apply Z.eqb_eq in C. apply c27_spec in C; auto. congruence.
    + cbn [q_via q_src p_ipa] in E. assert (V : peer_is_empty (mk_peer PT_IPA (c_name x)) = false).
      { unfold peer_is_empty, ipa_is_empty. cbn. apply Nat.eqb_neq. intros Z. apply N. unfold ipa_bytes. rewrite Z. reflexivity. }
      rewrite V in E. cbn [negb] in E. rewrite B in E. destruct (route_add _ _ _) as [rc v2] eqn:A.
      destruct (route_add_ok _ _ _ _ _ A S I) as (S2 & C2 & N2 & I2 & _ & L0 & L1).
      destruct (rc =? 0) eqn:Rc; cbn [negb] in E; injection E as <- <-.
      * apply Z.eqb_eq in Rc. split; auto. split; auto. cbn [q_nr q_gsup]. auto 10.
      * apply Z.eqb_neq in Rc. destruct (L1 Rc) as (Ev & c2 & Nc & Lc). subst v2. split; auto. split; auto.
        set (q := mk_req _ _ _ _ _). destruct (routing_error_resp (srv_tx enc v) q (msg0 MSGT_ROUTING_ERROR) (is_error MSGT_ROUTING_ERROR)) as (r & Er & Hr); try reflexivity.
        exists r. eexists. split; [exact Er|]. split; [exact Hr|]. right. exists c2. auto.
  - change (- ENOSPC =? 0) with false in E. cbn [negb] in E. injection E as <- <-. split; auto. split; auto.
    set (q := mk_req _ _ _ _ _). destruct (routing_error_resp (srv_tx enc v) q (msg0 MSGT_ROUTING_ERROR) (is_error MSGT_ROUTING_ERROR)) as (r & Er & Hr); try reflexivity.
    exists r. eexists. split; [exact Er|]. split; [exact Hr|]. left. exact B.
Qed.

Lemma c49_forward k s d w c g f s' d' o x :
  inv s -> find_conn (t_srv s) c = Some x -> ipa_bytes (c_name x) <> [] -> imsi_valid (g_imsi g) = true ->
  g_dst g <> [] -> (length (g_dst g) <= 128)%nat -> g_dst g <> own_name k ->
  step k (s, d) (w, ERx c g, f) = Some (s', d', o) ->
  d' = d /\ t_lus s' = t_lus s /\ t_ss s' = t_ss s /\
  exists rest, o = ORx (t_nr s) c g :: rest /\ c49_outcome g (t_nr s) c s' rest.
Proof.
  intros [H SV] F Nn Im Nd Ld Ns E. unfold step in E. cbn [fst snd handle] in E. rewrite F in E.
  unfold read_cb, read_msg in E. destruct (conn_rx (k_enc k) (t_srv s) (t_nr s) c g) as [v r] eqn:C.
  destruct (conn_rx_valid _ _ _ _ _ _ SV F Im Nn _ _ C) as (Cv & Sv & R).
  assert (Ix : In x (v_conns v)). { rewrite Cv. apply find_some in F. tauto. }
  assert (Cx : c_id x = c). { apply find_some in F. destruct F as [_ F]. apply Nat.eqb_eq in F. auto. }
  destruct r as [q|o1].
  - destruct R as (R1 & R2 & R3). destruct (g_dst g) as [|y l] eqn:Ed; [tauto|]. rewrite <- Ed in *.
    destruct (ipa_set_str ipa_empty (Some (k_serno k))) as [my|] eqn:Em; [|cbn in E; discriminate].
    destruct (ipa_set_str_bytes _ _ _ ipa_empty_wf Em) as (Wm & Bm).
    destruct (ipa_set ipa_empty (Some (g_dst g))) as [rc dest] eqn:Es.
    destruct (ipa_set_bytes _ _ _ _ ipa_empty_wf Es) as (W2 & [(-> & B)|(_ & _ & B)]); [|exfalso; unfold IPA_MAX in B; lia].
    assert (Cm : ipa_cmp dest my =? 0 = false).
    { apply Z.eqb_neq. intros Z. apply c27_spec in Z; auto. apply Ns. rewrite <- B, Z. exact Bm. }
    rewrite Cm in E. cbn [negb andb Z.eqb] in E.
    set (s1 := mk_hst v (t_lus s) (t_ss s) (S (t_nr s))) in *.
    assert (RE : forall e, exists r, snd (respond (tx k s1) q (with_src (msg0 MSGT_ROUTING_ERROR) (g_dst (q_gsup q))) e true) = [OResp (q_nr q) r true (tx k s1 q r)] /\ is_routing_error (q_gsup q) r).
    { intros e. apply routing_error_resp; reflexivity. }
    unfold same, read_cb_forward in E. rewrite R2 in E.
    destruct (g_src g) as [|a l2] eqn:Eg.
    + cbn in E. destruct (RE true) as (r & Er & Hr). rewrite R2 in Er, Hr. fold s1 in E. 
      injection E as <- <- <-. repeat split; auto. eexists. split; [reflexivity|]. right.
      exists r. eexists. split; [|split; [exact Hr|]]. { rewrite <- R1. exact Er. } auto.
    + rewrite <- Eg in *. destruct (send_to_ok v dest g Sv W2) as (rc & o2 & E2 & R4); [rewrite B; auto|].
      change (t_srv s1) with v in E. rewrite E2 in E. rewrite B in R4.
      destruct R4 as [(-> & c' & -> & L)|(Nrc & -> & L)].
      * cbn in E. injection E as <- <- <-. repeat split; auto. eexists. split; [reflexivity|]. left. exists c'. rewrite R1. repeat split; auto.
        { congruence. } destruct R3 as [R3|[R3|R3]]; [congruence|auto|]. right. exists x. auto.
      * apply Z.eqb_neq in Nrc. rewrite Nrc in E. cbn in E. destruct (RE true) as (r & Er & Hr). rewrite R2 in Er, Hr.
        injection E as <- <- <-. repeat split; auto. eexists. split; [reflexivity|]. right.
        exists r. eexists. split; [|split; [exact Hr|]]. { rewrite <- R1. exact Er. } destruct L; auto.
  - destruct R as (r & co & -> & Hr & Hs). cbn in E. injection E as <- <- <-. repeat split; auto. eexists. split; [reflexivity|]. right.
    exists r, co. repeat split; auto; try apply Hr. destruct Hs as [Hs|Hs]; auto.
Qed.
