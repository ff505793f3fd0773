(** Proofs about the lookup tool, continued: runs (C58). *)
From Verif Require Import Base PeerId DbProofs Db Auth Gsup Router Ctrl MsLookup Mdns MsClient MsClientSpec MsClientThms MsClientThms2 MsTool MsToolSpec MsToolThms MsToolThms2 MsToolThms3 MsToolThms4 MsToolThms5 MsToolThms6.
Local Open Scope N_scope.

Lemma cstep_uid c e c' : cstep c e = Val c' -> c_uid c <= c_uid c'.
Proof.
  intros E. destruct e as [q mn tm|h| |h rc x|q x|u|ms]; cbn [cstep] in E.
  - injection E as <-. unfold request. destruct (negb _ || negb _); [lia|]. cbv zeta. destruct (find _ _); cbn; lia.
  - injection E as <-. destruct (get_request c h); cbn; lia.
  - destruct (c_stack c) as [|f st]; [injection E as <-; lia|]. unfold return_cb in E.
    assert (U : c_uid (if f_finish f then cancel (c_with_stack c st) (f_handle f) else c_with_stack c st) = c_uid c) by (destruct (f_finish f); [unfold cancel; destruct (get_request _ _)|]; reflexivity).
    destruct (f_after f); [injection E as <-; lia| |injection E as <-; cbn; lia]. destruct (find _ _); [|discriminate]. injection E as <-. cbn. lia.
  - destruct (c_stack c); injection E as <-; [|lia]. unfold rx_result. destruct (get_request c h) as [r|]; [|lia]. destruct rc; cbn; try lia. destruct (match q_rc r with RcResult => _ | _ => false end); cbn; [lia|]. destruct (lr_age x =? 0); [|destruct (q_waiting r)]; cbn; lia.
  - destruct (c_stack c); injection E as <-; [|lia]. unfold rx_answer. destruct (find _ _) as [[h q']|]; [|lia]. unfold rx_result. destruct (get_request c h) as [r|]; [|lia]. destruct (match q_rc r with RcResult => _ | _ => false end); cbn; [lia|]. destruct (lr_age x =? 0); [|destruct (q_waiting r)]; cbn; lia.
  - destruct (c_stack c); [|injection E as <-; lia]. destruct (find _ _) as [r|]; [|injection E as <-; lia]. destruct (q_timer r); [|injection E as <-; lia]. destruct (_ <=? _); injection E as <-; [|lia].
    unfold timeout. cbn [q_waiting q_with_timer]. destruct (q_waiting r); [|cbn; lia]. cbn [q_tmo q_min q_with_waiting q_with_timer]. destruct (_ <=? _); cbn [q_rc q_with_waiting q_with_timer]; destruct (q_rc r); cbn; lia.
  - destruct (c_stack c); injection E as <-; cbn; lia.
Qed.
Lemma crun2_uid c e c' : crun c [e; CReturn] = Val c' -> c_uid c <= c_uid c'.
Proof.
  cbn [crun]. destruct (cstep c e) as [c1|] eqn:E1; [|discriminate]. cbn [mbind]. destruct (cstep c1 CReturn) as [c2|] eqn:E2; [|discriminate]. cbn [mbind]. intros E. injection E as <-. apply cstep_uid in E1, E2. lia.
Qed.
Definition client_ev (e : tev) : option cev := match e with EAnswer q x => Some (CAnswer q x) | ETimer u => Some (CTimer u) | ETick ms => Some (CTick ms) | _ => None end.
Lemma tstep_client o s e ce s' : binv s -> client_ev e = Some ce -> tstep o s e = Val s' -> told_step o s s' /\ crun (t_cl s) [ce; CReturn] = Val (t_cl s').
Proof.
  intros B E St. assert (P : plain_ev ce) by (destruct e; try discriminate; injection E as <-; exact Logic.I). destruct (settle_told o s ce B P) as (s1 & E1 & Td & _ & _ & _ & _ & _ & Cr).
  destruct e; try discriminate; injection E as <-; cbn [tstep] in St; rewrite E1 in St; injection St as <-; auto.
Qed.
Lemma tstep_uid o s e s' : tinv s -> c_uid (t_cl s) + cost e <= 4294967295 -> tstep o s e = Val s' -> c_uid (t_cl s) <= c_uid (t_cl s').
Proof.
  intros T L E. pose proof T as [B W]. destruct (client_ev e) as [ce|] eqn:Ce; [destruct (tstep_client _ _ _ _ _ B Ce E) as [_ Cr]; exact (crun2_uid _ _ _ Cr)|].
  destruct e; try discriminate; cbn [tstep cost] in *.
  - injection E as <-. unfold socket_accept. destruct (o_fmt o); [destruct (o_head o)|]; cbn; lia.
  - destruct (socket_read_spec o s i b T ltac:(lia)) as (s1 & E1 & R & _). rewrite E in E1. injection E1 as <-. destruct R as [_ ->|d C As ->|d q C Ne As ->|q s1 x C As St -> _]; try (cbn; lia).
    destruct St as [->|qq h mn tm F1 F2 F3 F4 F5 F6 F7 F8 F9 F10]; cbn [t_cl t_put]; [|rewrite F8; cbn; lia].
    assert (B1 : binv (set_str s i q)) by (eapply set_binv; eauto). pose proof (respond_spec o (set_str s i q) q None (v_ids _ B1)) as [R1 _ _ _ _ _ _ _ _ _]. rewrite R1. cbn. lia.
  - injection E as <-. destruct (find _ _); cbn; lia.
Qed.
(** what has been sent stays sent *)
Lemma respond_out o s q r : exists a, t_out (respond o s q r) = (a ++ t_out s)%list.
Proof.
  unfold respond. set (s1 := t_put s _).
  assert (G : forall l q text fin s, exists a, t_out (respond_clients l q text fin s) = (a ++ t_out s)%list).
  { induction l as [|k l IH]; intros q0 text fin s0; cbn [respond_clients]; [exists []; auto|]. destruct (q0 =? k_str k)%string; auto.
    destruct fin; [destruct (IH q0 text true (close_client (t_put s0 (OMsg (k_id k) text)) (k_id k))) as (a & ->); exists (a ++ [OClose (k_id k); OMsg (k_id k) text])%list|destruct (IH q0 text false (t_put s0 (OMsg (k_id k) text))) as (a & ->); exists (a ++ [OMsg (k_id k) text])%list]; rewrite <- app_assoc; reflexivity. }
  destruct (G (t_cls s1) q (format o q r) (is_final r) s1) as (a & E). exists (a ++ [OLine (format o q r)])%list. rewrite <- app_assoc. destruct (is_final r); exact E.
Qed.
Lemma tstep_out o s e s' : tinv s -> c_uid (t_cl s) + cost e <= 4294967295 -> tstep o s e = Val s' -> exists a, t_out s' = (a ++ t_out s)%list.
Proof.
  intros T L E. destruct (tstep_kind _ _ _ _ T L E) as [-> ->|i b -> R|i -> R|Td].
  - unfold socket_accept. destruct (o_fmt o); [destruct (o_head o)|]; cbn; [exists [OMsg (t_next s) CSV_HEADERS]|exists []|exists []]; auto.
  - destruct R as [_ ->|d C As ->|d q C Ne As ->|q s1 x C As St -> _]; cbn; [exists []; auto|exists [OClose i]; auto|exists [OMsg i (format o q None)]; auto|].
    destruct St as [->|qq h mn tm F1 F2 F3 F4 F5 F6 F7 F8 F9 F10]; [|exists [OLine x]; rewrite F4; auto]. destruct (respond_out o (set_str s i q) q None) as (a & ->). exists (OLine x :: a). auto.
  - destruct R as [->| ->]; [exists []|exists [OClose i]]; auto.
  - destruct Td as [Q1 Q2 Q3 Q4 Q5 Q6|u h q d r Kk Id Qi E1 E2 E3 E4 E5 E6 E7]; [exists []; auto|]. rewrite E2. apply respond_out.
Qed.
Lemma trun_out o l : forall s s', tinv s -> c_uid (t_cl s) + N.of_nat (packets l) <= 4294967295 -> trun o s l = Val s' -> exists a, t_out s' = (a ++ t_out s)%list.
Proof.
  induction l as [|e l IH]; intros s s' T L E; cbn [trun] in E; [injection E as <-; exists []; auto|]. rewrite packets_cost in L. destruct (tstep_total o s e T) as (s1 & E1 & T1 & L1); [lia|]. rewrite E1 in E. cbn [mbind] in E.
  destruct (tstep_out o s e s1 T) as (a & Ea); [lia|auto|]. destruct (IH s1 s' T1) as (a' & Ea'); [lia|auto|]. exists (a' ++ a)%list. rewrite Ea', Ea. apply app_assoc.
Qed.
Lemma sent_app i a b : sent i (a ++ b) = (sent i a ++ sent i b)%list.
Proof. induction a as [|[t|j t|j] a IH]; cbn; auto. destruct (j =? i); cbn; rewrite IH; auto. Qed.
Lemma sent_none i a : (forall t, ~ In (OMsg i t) a) -> sent i a = [].
Proof.
  induction a as [|[t|j t|j] a IH]; cbn; auto; intros H.
  - apply IH. intros t' X. apply (H t'). auto.
  - destruct (N.eqb_spec j i) as [->|]; [exfalso; apply (H t); auto|]. apply IH. intros t' X. apply (H t'). auto.
  - apply IH. intros t' X. apply (H t'). auto.
Qed.
Lemma closed_silent o l s s' i : tinv s -> c_uid (t_cl s) + N.of_nat (packets l) <= 4294967295 -> trun o s l = Val s' -> closed i s -> sent i (t_out s') = sent i (t_out s) /\ closed i s'.
Proof.
  intros T L E C. destruct (trun_out o l s s' T L E) as (a & Ea). destruct (trun_total o l s T L) as (s1 & E1 & T1 & _). rewrite E in E1. injection E1 as <-. destruct T1 as [B1 _]. pose proof (v_out _ B1) as O.
  split; [|unfold closed; rewrite Ea; apply in_app_iff; auto]. rewrite Ea, sent_app, sent_none; auto. intros t X. apply in_split in C as (b1 & b2 & Eb). rewrite Ea, Eb, app_assoc in O. destruct (out_ok_split _ _ _ O) as [_ Y]. apply (Y t). apply in_app_iff. auto.
Qed.
(** ** A query that only one client asks *)
Lemma alone_run o i d u base l : d <> "" -> forall s s', tinv s -> c_uid (t_cl s) + N.of_nat (packets l) <= 4294967295 -> alone o i d u base s -> Forall (apart i d) l -> trun o s l = Val s' -> alone o i d u base s'.
Proof.
  intros D. induction l as [|e l IH]; intros s s' T L A F E; cbn [trun] in E; [injection E as <-; auto|]. inversion F as [|? ? F1 F2]; subst. rewrite packets_cost in L. destruct (tstep_total o s e T) as (s1 & E1 & T1 & L1); [lia|]. rewrite E1 in E. cbn [mbind] in E.
  apply (IH s1); auto; [lia|]. apply (alone_step o i d u base s e); auto; [|apply tstep_kind; auto; lia]. apply (tstep_uid o s e); auto. lia.
Qed.
Lemma alone_closed o i d u base s : binv s -> alone o i d u base s -> closed i s <-> final_call u (c_trace (t_cl s)).
Proof.
  intros B [A1 A2 A3]. rewrite <- ended_final. destruct A3 as [(C & Ne & _)|(C & E & _)]; [|tauto]. split; [|contradiction]. intros X. exfalso. eapply connected_open; eauto.
Qed.
Lemma calls_old c u : cinv c -> c_uid c <= u -> calls u (c_trace c) = [].
Proof.
  intros I L. assert (G : forall tr, (forall n, In n tr -> note_uid n < u) -> calls u tr = []); [|apply G; intros n H; pose proof (i_note_lt _ I _ H); lia].
  induction tr as [|n tr IH]; cbn; auto. intros H. assert (Hn : note_uid n < u) by (apply H; auto). destruct n; try (apply IH; intros m X; apply H; auto). cbn in Hn. destruct (N.eqb_spec u0 u); [lia|]. apply IH. intros m X; apply H; auto.
Qed.
Lemma c58_own o args p s i b d l s2 : reached o args p s -> N.of_nat (length args + packets p + packets (EPacket i b :: l)) <= 4294967295 ->
  connected s i "" -> asked b = Some d -> d <> "" -> unasked s d -> trun o s (EPacket i b :: l) = Val s2 -> Forall (apart i d) l ->
  (sent i (t_out s2) = format o d None :: sent i (t_out s) /\ closed i s2) \/
  (exists u q, c_uid (t_cl s) = u /\ query_init d = inl q /\
     sent i (t_out s2) = (map (fun r => format o d (Some r)) (calls u (c_trace (t_cl s2))) ++ sent i (t_out s))%list /\ (closed i s2 <-> final_call u (c_trace (t_cl s2)))).
Proof.
  intros R L C As D [Un1 Un2] E F. destruct (reached_tinv _ _ _ _ R) as [T Lu]. pose proof T as [B W]. cbn [packets] in L. cbn [trun] in E.
  destruct (tstep_total o s (EPacket i b) T) as (s1 & E1 & T1 & L1); [cbn [cost]; lia|]. rewrite E1 in E. cbn [mbind] in E. cbn [cost] in L1.
  pose proof (creach_inv _ (v_reach _ B)) as I. cbn [tstep] in E1. destruct (socket_read_spec o s i b T ltac:(lia)) as (s3 & E3 & Rd & _). rewrite E1 in E3. injection E3 as <-.
  assert (L2 : c_uid (t_cl s1) + N.of_nat (packets l) <= 4294967295) by lia.
  destruct Rd as [X _|d' C' X _|d' q C' Ne X _|q s4 x C' X St X4 _]; [destruct (X _ C)|congruence|destruct Ne; eapply connected_one; eauto|].
  assert (q = d) by congruence. subst q. pose proof (set_cls s i d (mk_tclient i "") (v_ids _ B) C eq_refl) as Sc. cbn [k_id] in Sc.
  assert (B1 : binv (set_str s i d)) by (eapply set_binv; eauto). assert (C1 : connected (set_str s i d) i d) by (apply Sc; auto).
  destruct St as [->|qq h mn tm F1 F2 F3 F4 F5 F6 F7 F8 F9 F10].
  - left. pose proof (respond_spec o (set_str s i d) d None (v_ids _ B1)) as [R1 R2 R3 R4 _ R6 R7 R8 _ _]. destruct (closed_silent o l s1 s2 i T1 L2 E) as [H1 H2].
    { subst s1. right. apply R8. right. auto. }
    split; auto. rewrite H1, X4. cbn. exact (R6 (mk_tclient i d) C1 eq_refl).
  - right. exists (c_uid (t_cl s)), qq. split; auto. split; auto.
    assert (A1 : alone o i d (c_uid (t_cl s)) (sent i (t_out s)) s1).
    { subst s1. constructor.
      - cbn. rewrite F4, F7. cbn. rewrite (calls_old _ _ I); [reflexivity|lia].
      - cbn. rewrite F5. exact (v_lt _ B _ C).
      - left. unfold connected, ended. cbn. rewrite F2, F3, F6, F7. split; auto. split.
        + intros (r & H & _). cbn in H. rewrite (calls_old _ _ I) in H; [destruct H|lia].
        + exists h, qq. split; [apply in_app_iff; right; left; reflexivity|]. split; [left; auto|]. split.
          * intros h' [H|H]; [congruence|]. destruct (Un2 _ H).
          * intros j H. apply Sc in H as [H|[H _]]; [injection H as ->; auto|]. destruct (Un1 _ H). }
    pose proof (alone_run o i d _ _ l D s1 s2 T1 L2 A1 F E) as A2. destruct (trun_total o l s1 T1 L2) as (s5 & E5 & [B5 _] & _). rewrite E in E5. injection E5 as <-.
    split; [exact (a_sent _ _ _ _ _ _ A2)|exact (alone_closed _ _ _ _ _ _ B5 A2)].
Qed.
