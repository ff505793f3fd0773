(** Proofs about the lookup tool, continued: a query that only one client asks, and the end of every query (C58). *)
From Verif Require Import Base PeerId DbProofs Db Auth Gsup Router Ctrl MsLookup Mdns MsClient MsClientSpec MsClientThms MsClientThms2 MsTool MsToolSpec MsToolThms MsToolThms2 MsToolThms3 MsToolThms4 MsToolThms5.
Local Open Scope N_scope.

Definition ended (u : N) (tr : list note) : Prop := exists r, In r (calls u tr) /\ r_last r = true.
Lemma ended_final u tr : ended u tr <-> final_call u tr.
Proof.
  unfold ended, final_call. induction tr as [|n tr IH]; cbn; [split; [intros (r & [] & _)|intros (rc & x & t & [])]|].
  assert (X : (exists rc x t, n = TCall u rc x true t \/ In (TCall u rc x true t) tr) <-> (exists rc x t, n = TCall u rc x true t) \/ exists rc x t, In (TCall u rc x true t) tr).
  { split; [intros (rc & x & t & [H|H]); [left|right]; eauto|intros [(rc & x & t & H)|(rc & x & t & H)]; eauto 6]. }
  rewrite X, <- IH. destruct n as [v q mn tm t|v q rc x t|v rc x last t|v t]; try (split; [auto|intros [(rc' & x' & t' & H)|H]; [discriminate|auto]]).
  destruct (N.eqb_spec v u) as [->|D].
  - cbn. split.
    + intros (r & [<-|H] & E); [left; cbn in E; subst last; eauto|right; eauto].
    + intros [(rc' & x' & t' & H)|(r & H & E)]; [injection H as -> -> -> ->; eexists; split; [left; reflexivity|reflexivity]|exists r; auto].
  - split; auto. intros [(rc' & x' & t' & H)|H]; auto. injection H as -> _ _ _. contradiction.
Qed.
(** the query [d] of client [i], which has request [u], while no other asks for it *)
Record alone (o : topts) (i : N) (d : string) (u : N) (base : list string) (s : tst) : Prop := mk_alone {
  a_sent : sent i (t_out s) = (map (fun r => format o d (Some r)) (calls u (c_trace (t_cl s))) ++ base)%list;
  a_known : i < t_next s;
  a_state : (connected s i d /\ ~ ended u (c_trace (t_cl s)) /\ exists h q, In (u, h, q) (keys (t_cl s)) /\ In (h, d) (t_qs s) /\ (forall h', In (h', d) (t_qs s) -> h' = h) /\ forall j, connected s j d -> j = i) \/
            (closed i s /\ ended u (c_trace (t_cl s)) /\ u < c_uid (t_cl s) /\ forall h q, ~ In (u, h, q) (keys (t_cl s))) }.
Lemma alone_frame o i d u base s s' : alone o i d u base s -> sent i (t_out s') = sent i (t_out s) -> (closed i s -> closed i s') -> i < t_next s' -> calls u (c_trace (t_cl s')) = calls u (c_trace (t_cl s)) -> c_uid (t_cl s) <= c_uid (t_cl s') ->
  (forall h q, In (u, h, q) (keys (t_cl s)) -> In (u, h, q) (keys (t_cl s'))) -> (u < c_uid (t_cl s) -> forall h q, In (u, h, q) (keys (t_cl s')) -> In (u, h, q) (keys (t_cl s))) ->
  (connected s i d -> connected s' i d) -> (forall j, connected s' j d -> connected s j d) -> (forall h q, In (u, h, q) (keys (t_cl s)) -> In (h, d) (t_qs s) -> In (h, d) (t_qs s')) -> (forall h, In (h, d) (t_qs s') -> In (h, d) (t_qs s)) -> alone o i d u base s'.
Proof.
  intros [A1 A2 A3] E1 E2 E3 E4 E5 E6 E7 E8 E9 E10 E11. constructor; auto; [rewrite E1, E4; auto|]. unfold ended in *. rewrite E4. destruct A3 as [(C & Ne & h & q & K & Q & U & J)|(C & E & L & K)].
  - left. split; auto. split; auto. exists h, q. split; auto. split; [eauto|]. split; auto.
  - right. split; auto. split; auto. split; [lia|]. intros h q H. eapply K. eauto.
Qed.
Lemma sent_other_msg i j t l : j <> i -> sent i (OMsg j t :: l) = sent i l.
Proof. intros D. cbn. destruct (N.eqb_spec j i); [contradiction|auto]. Qed.
Lemma alone_step o i d u base s e s' : d <> "" -> tinv s -> alone o i d u base s -> apart i d e -> c_uid (t_cl s) <= c_uid (t_cl s') -> step_kind o s e s' -> alone o i d u base s'.
Proof.
  intros D0 T A Ap Le K. pose proof T as [B W]. pose proof (creach_inv _ (v_reach _ B)) as I. pose proof (a_known _ _ _ _ _ _ A) as Li. destruct K as [-> ->|j b -> R|j -> R|Td].
  - unfold socket_accept in *. set (s1 := mk_tst _ _ _ _ _ _) in *.
    assert (A1 : alone o i d u base s1). { apply (alone_frame o i d u base s); auto; try (cbn; lia). - intros C. right. exact C. - intros j [C|C]; [injection C as _ <-; contradiction|auto]. }
    destruct (o_fmt o); auto. destruct (o_head o); auto. apply (alone_frame o i d u base s1); auto; try (cbn; lia). + cbn. destruct (N.eqb_spec (t_next s) i); [lia|auto]. + intros C. right. auto.
  - destruct Ap as [Ji Jd]. destruct R as [_ ->|d' C As ->|d' q C Ne As ->|q s1 x C As St -> _]; auto.
    + apply (alone_frame o i d u base s); auto; try (cbn; lia).
      * intros C'. right. auto.
      * intros C'. apply filter_In. split; auto. cbn. apply negb_true_iff, N.eqb_neq. auto.
      * intros k C'. apply filter_In in C' as [C' _]. auto.
    + apply (alone_frame o i d u base s); auto; try (cbn; lia); [apply sent_other_msg; auto|intros C'; right; auto].
    + assert (Q : q <> d) by (intros ->; apply Jd; auto). pose proof (set_cls s j q (mk_tclient j "") (v_ids _ B) C eq_refl) as Sc. cbn [k_id] in Sc.
      assert (B1 : binv (set_str s j q)) by (eapply set_binv; eauto).
      assert (A1 : alone o i d u base (set_str s j q)).
      { apply (alone_frame o i d u base s); auto; try (cbn; lia). - intros C'. apply Sc. right. auto. - intros k C'. apply Sc in C' as [C'|[C' _]]; auto. injection C' as _ C'. congruence. }
      assert (A2 : alone o i d u base s1).
      { destruct St as [->|qq h mn tm E1 E2 E3 E4 E5 E6 E7 E8 E9 E10].
        - pose proof (respond_spec o (set_str s j q) q None (v_ids _ B1)) as [R1 R2 R3 R4 _ _ R7 R8 _ _]. apply (alone_frame o i d u base (set_str s j q)); auto; try (rewrite R1; auto; lia); try (rewrite R2; auto).
          + apply R7. intros X. destruct A1 as [_ _ [(C1 & _)|(C1 & _)]]; [pose proof (connected_one _ _ _ _ B1 C1 X); congruence|]. destruct (v_gone _ B1 _ C1) as [_ Y]. exact (Y _ X).
          + intros X. apply R8. auto.
          + rewrite R3. exact Li.
          + intros X. apply R4. split; auto. intros (_ & Z & _). cbn in Z. congruence.
          + intros k X. apply R4 in X as [X _]. auto.
        - apply (alone_frame o i d u base (set_str s j q)); auto; unfold connected, closed; rewrite ?E2, ?E3, ?E4, ?E5, ?E6; auto; try (cbn; lia).
          + intros h' q' H. apply in_app_iff. auto.
          + intros Lu h' q' H. apply in_app_iff in H as [H|[H|[]]]; auto. injection H as H _ _. cbn in H, Lu. lia.
          + intros h' _ _ H. right. auto.
          + intros h' [H|H]; auto. injection H as _ H. contradiction. }
      apply (alone_frame o i d u base s1); auto; try (cbn; lia). * intros C'. right. auto. * exact (a_known _ _ _ _ _ _ A2).
  - cbn in Ap. destruct R as [->| ->]; auto. apply (alone_frame o i d u base s); auto; try (cbn; lia).
    + intros C'. right. auto.
    + intros C'. apply filter_In. split; auto. cbn. apply negb_true_iff, N.eqb_neq. auto.
    + intros k C'. apply filter_In in C' as [C' _]. auto.
  - destruct Td as [Q1 Q2 Q3 Q4 Q5 Q6|u' h' q' d' r Kk Id Qi E1 E2 E3 E4 E5 E6 E7].
    + apply (alone_frame o i d u base s); auto; unfold connected, closed; rewrite ?Q1, ?Q2, ?Q3, ?Q4, ?Q5; auto.
    + pose proof (respond_spec o s d' (Some r) (v_ids _ B)) as [R1 R2 R3 R4 _ R6 R7 R8 _ _].
      destruct (string_dec d' d) as [->|Dd].
      * destruct A as [A1 A2 [(C & Ne & h & q & K & Q & U & J)|(C & E & L & K)]].
        -- assert (h' = h) by auto. subst h'. destruct (keys_handle _ _ _ _ _ _ I K Kk) as [-> ->]. constructor; [|rewrite E3; auto|].
           ++ rewrite E2, E6. cbn. rewrite <- A1. exact (R6 (mk_tclient i d) C eq_refl).
           ++ destruct (r_last r) eqn:La.
              ** right. split; [unfold closed; rewrite E2; apply R8; right; auto|]. split; [exists r; rewrite E6; cbn; auto|]. split.
                 { apply N.lt_le_trans with (c_uid (t_cl s)); auto. unfold keys in K. apply in_map_iff in K as (rq & Ek & Irq). unfold key in Ek. injection Ek as <- _ _. exact (i_uid_lt _ I _ Irq). }
                 intros h2 q2. rewrite E5. intros H. apply filter_In in H as [_ H]. cbn in H. rewrite N.eqb_refl in H. discriminate.
              ** left. rewrite E4, E5. unfold connected. rewrite E1. split; [apply R4; split; auto; intros (Z & _); cbn in Z; congruence|]. split.
                 { intros (r' & H & X). rewrite E6 in H. destruct H as [<-|H]; [congruence|]. apply Ne. exists r'. auto. }
                 exists h, q. split; auto. split; auto. split; auto. intros j X. apply R4 in X as [X _]. auto.
        -- assert (Du : u' <> u) by (intros ->; exact (K _ _ Kk)). constructor; [|rewrite E3; auto|].
           ++ rewrite (E7 u), E2 by auto. rewrite <- A1. apply R7. intros X. destruct (v_gone _ B _ C) as [_ Y]. exact (Y _ X).
           ++ right. split; [unfold closed; rewrite E2; apply R8; auto|]. split; [unfold ended; rewrite (E7 u); auto|]. split; [lia|]. intros h2 q2. rewrite E5. intros H. destruct (r_last r); [apply filter_In in H as [H _]|]; exact (K _ _ H).
      * assert (Du : u' <> u). { intros ->. destruct A as [_ _ [(C & Ne & h & q & K & Q & U & J)|(C & E & L & K)]]; [|exact (K _ _ Kk)]. destruct (keys_uid _ _ _ _ _ _ I K Kk) as [-> ->].
          assert (X : (h, d') = (h, d)) by (apply (nodup_inj fst (t_qs s)); auto; exact (v_nd _ B)). injection X as X. contradiction. }
        apply (alone_frame o i d u base s); auto; unfold connected, closed; rewrite ?E1, ?E2, ?E3, ?E4, ?E5; auto.
        -- apply R7. intros X. destruct A as [_ _ [(C1 & _)|(C1 & _)]]; [pose proof (connected_one _ _ _ _ B C1 X); congruence|]. destruct (v_gone _ B _ C1) as [_ Y]. exact (Y _ X).
        -- intros X. apply R8. auto.
        -- intros h q H. destruct (r_last r); auto. apply filter_In. split; auto. cbn. apply negb_true_iff, N.eqb_neq. auto.
        -- intros _ h q H. destruct (r_last r); auto. apply filter_In in H as [H _]. auto.
        -- intros X. apply R4. split; auto. intros (_ & Z & _). cbn in Z. congruence.
        -- intros j X. apply R4 in X as [X _]. auto.
        -- intros h q K X. destruct (r_last r); auto. apply query_del_in; [exact (v_nd _ B)|]. split; auto. cbn. intros ->. destruct (keys_handle _ _ _ _ _ _ I K Kk). contradiction.
        -- intros h X. destruct (r_last r); auto. apply query_del_in in X as [X _]; auto. exact (v_nd _ B).
Qed.
