(** Proofs about the lookup tool, continued: what a socket client gets (C58). *)
From Verif Require Import Base PeerId DbProofs Db Auth Gsup Router Ctrl MsLookup Mdns MsClient MsClientSpec MsClientThms MsClientThms2 MsTool MsToolSpec MsToolThms MsToolThms2 MsToolThms3 MsToolThms4.
Local Open Scope N_scope.

(** steps, by what they do *)
Inductive step_kind (o : topts) (s : tst) (e : tev) (s' : tst) : Prop :=
| sk_accept : e = EAccept -> s' = socket_accept o s -> step_kind o s e s'
| sk_read : forall i b, e = EPacket i b -> read_step o s i b s' -> step_kind o s e s'
| sk_hang : forall i, e = EHangup i -> s' = s \/ (s' = close_client s i) -> step_kind o s e s'
| sk_told : told_step o s s' -> step_kind o s e s'.
Lemma tstep_kind o s e s' : tinv s -> c_uid (t_cl s) + cost e <= 4294967295 -> tstep o s e = Val s' -> step_kind o s e s'.
Proof.
  intros T L E. pose proof T as [B W]. destruct e as [|i b|i|q x|u|ms]; cbn [tstep cost] in *.
  - injection E as <-. apply sk_accept; auto.
  - destruct (socket_read_spec o s i b T ltac:(lia)) as (s1 & E1 & R & _). rewrite E in E1. injection E1 as <-. eapply sk_read; eauto.
  - injection E as <-. eapply sk_hang; [reflexivity|]. destruct (find _ _); auto.
  - destruct (settle_told o s (CAnswer q x) B Logic.I) as (s1 & E1 & Td & _). rewrite E in E1. injection E1 as <-. apply sk_told. auto.
  - destruct (settle_told o s (CTimer u) B Logic.I) as (s1 & E1 & Td & _). rewrite E in E1. injection E1 as <-. apply sk_told. auto.
  - destruct (settle_told o s (CTick ms) B Logic.I) as (s1 & E1 & Td & _). rewrite E in E1. injection E1 as <-. apply sk_told. auto.
Qed.
Lemma connected_one s i d d' : binv s -> connected s i d -> connected s i d' -> d' = d.
Proof. intros B C C'. assert (E : mk_tclient i d' = mk_tclient i d) by (apply (nodup_inj k_id (t_cls s)); auto; exact (v_ids _ B)). injection E. auto. Qed.
Lemma connected_open s i d : binv s -> connected s i d -> ~ closed i s.
Proof. intros B C X. destruct (v_gone _ B _ X) as [_ Y]. exact (Y _ C). Qed.

(** ** Nobody is sent another's query *)
Definition may_get (o : topts) (p : list tev) (i : N) (t : string) : Prop :=
  t = CSV_HEADERS \/ (exists b q r, In (EPacket i b) p /\ asked b = Some q /\ t = format o q r) \/ t = format o "" None.
Record named (o : topts) (p : list tev) (s : tst) : Prop := mk_named {
  n_msg : forall i t, In (OMsg i t) (t_out s) -> may_get o p i t;
  n_str : forall i d, connected s i d -> d <> "" -> exists b, In (EPacket i b) p /\ asked b = Some d }.
Lemma may_get_app o p e i t : may_get o p i t -> may_get o (p ++ [e]) i t.
Proof. intros [H|[(b & q & r & I & H)|H]]; [left; auto| |right; right; auto]. right. left. exists b, q, r. split; auto. apply in_app_iff. auto. Qed.
Lemma named_app o p e s : named o p s -> named o (p ++ [e]) s.
Proof. intros [A B]. constructor; [intros i t H; apply may_get_app; auto|]. intros i d C Ne. destruct (B _ _ C Ne) as (b & I & E). exists b. split; auto. apply in_app_iff. auto. Qed.
Lemma named_respond o p s q r : binv s -> named o p s -> (q = "" -> r = None) -> named o p (respond o s q r).
Proof.
  intros B [A1 A2] Q. pose proof (respond_spec o s q r (v_ids _ B)) as [_ _ _ R4 _ _ _ _ R9 _]. constructor.
  - intros i t H. apply R9 in H as [H|[-> H]]; auto. destruct (string_dec q "") as [E|Ne]; [right; right; rewrite E, (Q E); auto|]. destruct (A2 _ _ H Ne) as (b & I & E). right. left. exists b, q, r. auto.
  - intros i d C Ne. apply R4 in C as [C _]. apply A2; auto.
Qed.
Lemma named_started o p s d s' : binv s -> named o p s -> started o s d s' -> named o p s'.
Proof.
  intros B N [->|qq h mn tm E1 E2 E3 E4 E5 E6 E7 E8 E9 E10]; [apply named_respond; auto|]. destruct N as [A1 A2]. constructor; [intros i t; rewrite E4; auto|]. unfold connected. rewrite E3. auto.
Qed.
Lemma query_init_empty : query_init "" = inr (-2)%Z.
Proof. reflexivity. Qed.
Lemma named_step o p s e s' : tinv s -> named o p s -> step_kind o s e s' -> named o (p ++ [e]) s'.
Proof.
  intros T N K. pose proof T as [B W]. destruct K as [-> ->|i b -> R|i -> R|Td].
  - pose proof (named_app _ _ EAccept _ N) as [A1 A2]. unfold socket_accept. set (s1 := mk_tst _ _ _ _ _ _).
    assert (N1 : named o (p ++ [EAccept]) s1). { constructor; [exact A1|]. intros i d [C|C] Ne; [injection C as _ <-; contradiction|]. apply A2; auto. }
    destruct (o_fmt o); auto. destruct (o_head o); auto. destruct N1 as [C1 C2]. constructor; [|exact C2]. intros i t [H|H]; [injection H as _ <-; left; auto|]. apply C1. auto.
  - pose proof (named_app _ _ (EPacket i b) _ N) as N'. assert (Ip : In (EPacket i b) (p ++ [EPacket i b])) by (apply in_app_iff; right; left; auto).
    destruct R as [_ ->|d C As ->|d q C Ne As ->|q s1 x C As St -> _]; auto.
    + destruct N' as [A1 A2]. constructor; [intros j t [H|H]; [discriminate|auto]|]. intros j d' C'. apply A2. unfold connected in *. cbn in C'. apply filter_In in C' as [C' _]. auto.
    + destruct N' as [A1 A2]. constructor; [|exact A2]. intros j t [H|H]; [injection H as <- <-; right; left; exists b, q, None; auto|]. apply A1. auto.
    + assert (B1 : binv (set_str s i q)) by (eapply set_binv; eauto).
      assert (N1 : named o (p ++ [EPacket i b]) (set_str s i q)).
      { destruct N' as [A1 A2]. constructor; [exact A1|]. intros j d C' Ne. apply (set_cls s i q (mk_tclient i "") (v_ids _ B) C eq_refl) in C' as [C'|[C' _]]; [injection C' as -> ->; eauto|]. apply A2; auto. }
      destruct (named_started _ _ _ _ _ B1 N1 St) as [A1 A2]. constructor; [|exact A2]. intros j t [H|H]; [discriminate|auto].
  - pose proof (named_app _ _ (EHangup i) _ N) as N'. destruct R as [->| ->]; auto. destruct N' as [A1 A2]. constructor; [intros j t [H|H]; [discriminate|auto]|]. intros j d' C'. apply A2. unfold connected in *. cbn in C'. apply filter_In in C' as [C' _]. auto.
  - pose proof (named_app _ _ e _ N) as N'. destruct Td as [Q1 Q2 Q3 Q4 Q5 Q6|u h q d r Kk Id Qi E1 E2 E3 E4 E5 E6 E7].
    + destruct N' as [A1 A2]. constructor; [intros j t; rewrite Q3; auto|]. unfold connected. rewrite Q2. auto.
    + assert (Ne : d = "" -> Some r = None) by (intros ->; rewrite query_init_empty in Qi; discriminate).
      destruct (named_respond o _ s d (Some r) B N' Ne) as [A1 A2]. constructor; [intros j t; rewrite E2; auto|]. unfold connected in *. rewrite E1. auto.
Qed.
Lemma named_run o l : forall p s s', tinv s -> c_uid (t_cl s) + N.of_nat (packets l) <= 4294967295 -> named o p s -> trun o s l = Val s' -> named o (p ++ l) s'.
Proof.
  induction l as [|e l IH]; intros p s s' T L N E; cbn [trun] in E; [injection E as <-; rewrite app_nil_r; auto|]. rewrite packets_cost in L. destruct (tstep_total o s e T) as (s1 & E1 & T1 & L1); [lia|]. rewrite E1 in E. cbn [mbind] in E.
  replace (p ++ e :: l)%list with ((p ++ [e]) ++ l)%list by (rewrite <- app_assoc; reflexivity). apply (IH (p ++ [e])%list s1); auto; [lia|]. apply (named_step o p s); auto. apply tstep_kind; auto. lia.
Qed.
Lemma named_start o args s : N.of_nat (length args) <= 4294967295 -> start o args = Val s -> named o [] s /\ t_cls s = [] /\ t_next s = 0.
Proof.
  intros L. unfold start. set (s0 := match o_fmt o with Csv => _ | Json => _ end).
  assert (G : forall l s s', tinv s -> c_uid (t_cl s) + N.of_nat (length l) <= 4294967295 -> named o [] s /\ t_cls s = [] /\ t_next s = 0 -> start_queries o l s = Val s' -> named o [] s' /\ t_cls s' = [] /\ t_next s' = 0).
  { induction l as [|q l IH]; intros s1 s' T L' N E; cbn [start_queries] in E; [injection E as <-; auto|]. cbn [length] in *. rewrite Nat2N.inj_succ in *.
    destruct T as [B W]. destruct (start_query_spec o s1 q B) as (s2 & E2 & St & T2 & L2); [intros k Ik Ne _; apply W; auto|lia|]. rewrite E2 in E. cbn [mbind] in E. apply (IH s2); auto; [lia|].
    destruct N as (N1 & N2 & N3). split; [eapply named_started; eauto|]. destruct St as [->|]; [|split; congruence].
    pose proof (respond_spec o s1 (domain_of q) None (v_ids _ B)) as [_ _ R3 R4 _ _ _ _ _ _]. split; [|congruence]. destruct (t_cls (respond o s1 (domain_of q) None)) as [|k r]; auto. exfalso. assert (X : In k (k :: r)) by (left; auto). apply R4 in X as [X _]. rewrite N2 in X. destruct X. }
  intros E. apply (G args s0); auto; [apply init_tinv|unfold s0; destruct (o_fmt o); [destruct (o_head o)|]; cbn; lia|].
  unfold s0. destruct (o_fmt o); [destruct (o_head o)|]; (split; [constructor; cbn; [intros j t H; repeat (destruct H as [H|H]; [discriminate|]); destruct H|intros j d C; destruct C]|split; reflexivity]).
Qed.
Lemma c58_names o args l s i t : reached o args l s -> In (OMsg i t) (t_out s) -> may_get o l i t.
Proof.
  intros (L & s0 & E & Er) H. destruct (start_total o args) as (s1 & E1 & T1 & L1); [lia|]. rewrite E in E1. injection E1 as <-. destruct (named_start o args s0) as (N & _); auto; [lia|].
  destruct (named_run o l [] s0 s T1) as [A1 _]; auto. lia.
Qed.
(** ** Nothing is sent after the end *)
Lemma out_ok_split a i b : out_ok (a ++ OClose i :: b) -> ~ In (OClose i) a /\ forall t, ~ In (OMsg i t) a.
Proof.
  induction a as [|x a IH]; cbn; [intros _; split; auto|]. intros H.
  assert (O : out_ok (a ++ OClose i :: b)) by (destruct x; tauto). destruct (IH O) as [X Y]. assert (Z : In (OClose i) (a ++ OClose i :: b)) by (apply in_app_iff; right; left; auto).
  split.
  - intros [->|K]; auto. destruct H as [H _]. contradiction.
  - intros t [->|K]; [|exact (Y _ K)]. destruct H as [H _]. contradiction.
Qed.
Lemma c58_end o args l s a i b : reached o args l s -> t_out s = a ++ OClose i :: b -> ~ In (OClose i) a /\ (forall t, ~ In (OMsg i t) a) /\ forall d, ~ connected s i d.
Proof.
  intros R E. destruct (reached_tinv _ _ _ _ R) as [[B _] _]. pose proof (v_out _ B) as O. rewrite E in O. destruct (out_ok_split _ _ _ O) as [X Y]. split; auto. split; auto.
  apply (v_gone _ B i). unfold closed. rewrite E. apply in_app_iff. right. left. auto.
Qed.
