(** Lemmas for C75. *)
From Verif Require Import Base Gsup Client CtrlSpec Ctrl CtrlThms TestClient TestSpec.
Local Open Scope Z_scope.

(** *** The numbers *)
Lemma opt_z_eq (a : option Z) b : match a with Some v => v =? b | None => false end = true -> a = Some b.
Proof. destruct a; [|discriminate]. intros E. apply Z.eqb_eq in E. congruence. Qed.
Definition at_check (i : N) : bool :=
  match all_digits (imsi_at i) 0 with Some v => v =? Z.of_N (901790000000000 + i) | None => false end && (String.length (imsi_at i) =? 15)%nat.
(** all numbers from [i] on, [2 ^ d] of them *)
Fixpoint all_from (d : nat) (i : N) : bool :=
  match d with O => if (i <? 10000)%N then at_check i else true | S e => all_from e i && all_from e (i + 2 ^ N.of_nat e)%N end.
Lemma all_from_ok d : forall i k, all_from d i = true -> (i <= k < i + 2 ^ N.of_nat d)%N -> (k < 10000)%N -> at_check k = true.
Proof.
  induction d as [|d IH]; intros i k H L M.
  - cbn [all_from] in H. change (2 ^ N.of_nat 0)%N with 1%N in L. assert (k = i) by lia. subst k. apply N.ltb_lt in M. rewrite M in H. exact H.
  - cbn [all_from] in H. apply andb_true_iff in H as [A B]. rewrite Nat2N.inj_succ, N.pow_succ_r' in L.
    destruct (N.lt_ge_cases k (i + 2 ^ N.of_nat d)); [apply (IH i); auto; lia|apply (IH (i + 2 ^ N.of_nat d)%N); auto; lia].
Qed.
Lemma at_checked : all_from 14 0 = true.
Proof. vm_compute. reflexivity. Qed.
Lemma imsi_at_ok i : (i < 10000)%N -> imsi_of i (imsi_at i).
Proof.
  intros L. assert (C : at_check i = true).
  { apply (all_from_ok 14 0 i at_checked); [|exact L]. change (2 ^ N.of_nat 14)%N with 16384%N. lia. }
  unfold at_check in C. apply andb_true_iff in C as [A B]. apply opt_z_eq in A. apply Nat.eqb_eq in B. split; [|exact B]. apply digits_numeral; [|exact A].
  intros E. rewrite E in B. discriminate.
Qed.
Lemma some_eq (a b : Z) : Some a = Some b -> a = b.
Proof. congruence. Qed.
Lemma imsi_at_inj i j : (i < 10000)%N -> (j < 10000)%N -> imsi_at i = imsi_at j -> i = j.
Proof.
  intros L M E. destruct (imsi_at_ok i L) as [A _]. destruct (imsi_at_ok j M) as [B _]. rewrite E in A.
  destruct (numeral_digits _ _ A) as (A1 & _). destruct (numeral_digits _ _ B) as (B1 & _). rewrite A1 in B1. apply some_eq in B1. lia.
Qed.
Lemma take_id n : forall s, (String.length s <= n)%nat -> str_take n s = s.
Proof.
  induction n as [|n IH]; intros [|c s] L; try reflexivity; cbn [String.length] in L; [lia|].
  change (String c (str_take n s) = String c s). rewrite IH by lia. reflexivity.
Qed.

(** *** The GSUP client *)
Definition conn_ok (c : client) : Prop := c_conn c = true <-> c_link c = LUp.
Lemma connect_conn now v c rc c' o : c_conn c = false -> c_link c <> LUp -> gsup_client_connect now v c = (rc, c', o) -> c_conn c' = false /\ c_link c' <> LUp.
Proof.
  intros F L. unfold gsup_client_connect. rewrite F. unfold conn_open. destruct (v_open v <? 0).
  - destruct (0 <=? v_open v); [|destruct (_ || _ || _ || _)]; intros [= <- <- <-]; cbn; auto.
  - destruct (0 <=? v_open v); [|destruct (_ || _ || _ || _)]; intros [= <- <- <-]; cbn; split; auto; discriminate.
Qed.
Lemma down_ok c : c_conn c = false -> c_link c <> LUp -> conn_ok c.
Proof. intros A B. split; congruence. Qed.
Lemma cstep_conn now v e c c' o : conn_ok c -> cstep now v e c = Some (c', o) -> conn_ok c'.
Proof.
  intros K H.
  assert (T : forall c2, c_link c2 = c_link c -> c_conn c2 = c_conn c -> conn_ok c2) by (unfold conn_ok; intros c2 -> ->; exact K).
  assert (D : c_conn c = false -> c_link c <> LUp) by (intros F U; apply K in U; congruence).
  destruct e; cbn [cstep] in H.
  - destruct (c_link c); try discriminate. injection H as H. unfold gsup_client_updown_cb, start_test_procedure, conn_send in H.
    destruct (v_oap v); injection H as <- <-; split; reflexivity.
  - destruct (c_link c); try discriminate. unfold conn_close, gsup_client_updown_cb in H. destruct (v_cb v) as [[|]|]; injection H as <- <-; apply down_ok; cbn; congruence.
  - destruct (c_link c); try discriminate. unfold conn_close, gsup_client_updown_cb in H. destruct (v_cb v) as [[|]|]; injection H as <- <-; apply down_ok; cbn; congruence.
  - destruct (c_link c) eqn:E; try discriminate. injection H as <- <-. apply T; cbn; auto.
  - destruct (c_link c); try discriminate. injection H as <- <-. apply down_ok; cbn; congruence.
  - destruct (c_link c) eqn:E; try discriminate. injection H as <- <-. apply T; auto.
  - destruct (c_link c) eqn:E; try discriminate. injection H as <- <-. apply T; auto.
  - destruct (c_link c) eqn:E; try discriminate. injection H as <- <-. apply T; auto.
  - destruct (c_link c) eqn:E; try discriminate. destruct (v_oap v); injection H as <- <-; apply T; cbn; auto.
  - destruct (c_ct c); try discriminate. destruct (_ <=? now); try discriminate. injection H as H. unfold connect_timer_cb in H. cbn [c_conn set_ct] in H.
    destruct (c_conn c) eqn:E; [injection H as <- <-; apply T; cbn; auto|].
    destruct (gsup_client_connect now v (set_ct c None)) as [[rc c2] o2] eqn:G.
    apply connect_conn in G as [G1 G2]; cbn; auto. destruct (v_cb v) as [[|]|]; injection H as <- <-; try (apply down_ok; auto; fail); apply T; cbn; auto.
  - destruct (c_pt c); try discriminate. destruct (_ <=? now); try discriminate. injection H as H. unfold ping_timer_cb in H. cbn [c_pong set_pt] in H.
    destruct (c_pong c); [unfold start_test_procedure, conn_send in H; injection H as <- <-; apply T; cbn; auto|].
    unfold conn_close in H. destruct (gsup_client_connect now v _) as [[rc c2] o2] eqn:G.
    apply connect_conn in G as [G1 G2]; cbn; auto; [|discriminate]. injection H as <- <-. apply down_ok; auto.
  - destruct (c_link c) eqn:E; try discriminate. destruct (c_q c) as [|[n i] q]; injection H as <- <-; apply T; cbn; auto.
  - injection H as H. unfold osmo_gsup_client_send, conn_send in H. destruct (c_conn c) eqn:E; injection H as <- <-; apply T; cbn; auto.
Qed.
Lemma create_conn now v c o : client_create now v = Some (c, o) -> conn_ok c /\ c_conn c = false.
Proof.
  unfold client_create. destruct (gsup_client_connect now v client0) as [[rc c2] o2] eqn:G. apply connect_conn in G as [G1 G2]; [|reflexivity|discriminate].
  destruct (rc <? 0); [discriminate|]. intros [= <- <-]. split; auto. apply down_ok; auto.
Qed.

(** *** Operations *)
Lemma is_op_iff x t o : is_op x t o = true <-> o = mk_op x t.
Proof.
  destruct o as [i u]. unfold is_op. cbn [p_imsi p_type]. rewrite andb_true_iff, String.eqb_eq. split.
  - intros [-> E]. destruct u, t; try discriminate; reflexivity.
  - intros [= -> ->]. split; auto. destruct t; reflexivity.
Qed.
Lemma find_some_op x t s io : imsi_op_find x t s = Some io -> io = mk_op x t /\ In io (t_ops s).
Proof. unfold imsi_op_find. intros H. apply find_some in H as [A B]. apply is_op_iff in B. auto. Qed.
Lemma find_none_op x t s : imsi_op_find x t s = None <-> ~ In (mk_op x t) (t_ops s).
Proof.
  unfold imsi_op_find. split.
  - intros H M. eapply find_none in H; eauto. assert (is_op x t (mk_op x t) = true) by now apply is_op_iff. congruence.
  - intros N. destruct (find _ _) as [o|] eqn:E; auto. apply find_some in E as [A B]. apply is_op_iff in B. subst. contradiction.
Qed.
Lemma find_in_op x t s : In (mk_op x t) (t_ops s) -> imsi_op_find x t s = Some (mk_op x t).
Proof.
  intros M. destruct (imsi_op_find x t s) as [io|] eqn:E; [apply find_some_op in E as [-> _]; auto|]. now apply find_none_op in E.
Qed.
Lemma drop_in x t l o : NoDup l -> (In o (drop_op (is_op x t) l) <-> In o l /\ o <> mk_op x t).
Proof.
  induction l as [|a l IH]; intros D; cbn [drop_op]; [cbn; tauto|]. inversion D as [|? ? NA D']; subst. destruct (is_op x t a) eqn:E.
  - apply is_op_iff in E. subst a. cbn [In]. split; [intros M; split; auto; intros ->; auto|]. intros [[<-|M] N]; auto. congruence.
  - assert (a <> mk_op x t) by (intros ->; rewrite (proj2 (is_op_iff x t _) eq_refl) in E; discriminate). cbn [In]. rewrite IH by auto.
    split; [intros [<-|[M N]]; auto|]. intros [[<-|M] N]; auto.
Qed.
Lemma drop_nodup f l : NoDup l -> NoDup (drop_op f l).
Proof.
  induction l as [|a l IH]; intros D; cbn; auto. inversion D as [|? ? NA D']; subst. destruct (f a); auto. constructor; auto.
  intros M. apply NA. clear - M. induction l as [|b l IH]; cbn in *; auto. destruct (f b); cbn in *; auto. destruct M; auto.
Qed.

(** *** Histories *)
Lemma tried_app t a b : tried t (a ++ b) = tried t a ++ tried t b.
Proof. apply flat_map_app. Qed.
Lemma given_app t a b : given t (a ++ b) = given t a ++ given t b.
Proof. apply flat_map_app. Qed.
Lemma handled_snoc ts tr x : handled ts (tr ++ [x]) = (handled ts tr + if took ts x then 1 else 0)%nat.
Proof. unfold handled. rewrite filter_app, app_length. cbn. destruct (took ts x); reflexivity. Qed.
Lemma tried_snoc t tr e o : tried t (tr ++ [(e, o)]) = tried t tr ++ tried_out t o.
Proof. rewrite tried_app. cbn. now rewrite app_nil_r. Qed.
Lemma given_snoc t tr e o : given t (tr ++ [(e, o)]) = given t tr ++ sent_out t o.
Proof. rewrite given_app. cbn. now rewrite app_nil_r. Qed.
Lemma counts_inc n k : counts n k -> counts (inc n) (k + 1).
Proof. unfold counts, inc. intros ->. rewrite Nat2N.inj_add. rewrite N.add_mod_idemp_l by lia. reflexivity. Qed.
Lemma counts_same n k : counts n k -> counts n (k + 0).
Proof. now rewrite Nat.add_0_r. Qed.
Lemma counts0 : counts 0 0.
Proof. reflexivity. Qed.

Lemma awaits_none x tr e o : tried_out 4 o = [] -> (awaits_update x (tr ++ [(e, o)]) <-> awaits_update x tr /\ ~ lu_answer x e).
Proof.
  intros E. split.
  - intros (a & e' & o' & b & H & I & F). destruct (exists_last (l := (e', o') :: b) ltac:(discriminate)) as (b' & y & Q).
    rewrite Q, app_assoc in H. apply app_inj_tail in H as [H <-]. destruct b' as [|z b'].
    + cbn in Q. injection Q as -> -> ->. rewrite E in I. destruct I.
    + cbn in Q. injection Q as Q ->. subst z. split.
      * exists a, e', o', b'. split; auto. split; auto. intros y M. apply F. apply in_or_app. now left.
      * apply (F (e, o)). apply in_or_app. right. now left.
  - intros [(a & e' & o' & b & -> & I & F) N]. exists a, e', o', (b ++ [(e, o)]). split; [now rewrite <- app_assoc|]. split; auto.
    intros y M. apply in_app_or in M as [M|[<-|[]]]; auto.
Qed.
Lemma awaits_some x y tr e o : tried_out 4 o = [y] -> (forall z, ~ lu_answer z e) -> (awaits_update x (tr ++ [(e, o)]) <-> x = y \/ awaits_update x tr).
Proof.
  intros E NL. split.
  - intros (a & e' & o' & b & H & I & F). destruct (exists_last (l := (e', o') :: b) ltac:(discriminate)) as (b' & z & Q).
    rewrite Q, app_assoc in H. apply app_inj_tail in H as [H <-]. destruct b' as [|z b'].
    + cbn in Q. injection Q as -> -> ->. rewrite E in I. destruct I as [<-|[]]. now left.
    + cbn in Q. injection Q as Q ->. subst z. right. exists a, e', o', b'. split; auto. split; auto. intros w M. apply F. apply in_or_app. now left.
  - intros [->|(a & e' & o' & b & -> & I & F)].
    + exists tr, e, o, []. split; auto. split; [rewrite E; now left|]. intros z [].
    + exists a, e', o', (b ++ [(e, o)]). split; [now rewrite <- app_assoc|]. split; auto. intros w M. apply in_app_or in M as [M|[<-|[]]]; auto.
Qed.
Lemma awaits_tried x tr : awaits_update x tr -> In x (tried 4 tr).
Proof. intros (a & e & o & b & -> & I & _). rewrite tried_app. apply in_or_app. right. cbn. apply in_or_app. now left. Qed.
Lemma not_awaits_tried x tr : ~ In x (tried 4 tr) -> ~ awaits_update x tr.
Proof. intros N A. apply N. now apply awaits_tried. Qed.
