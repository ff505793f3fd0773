(** Sequence numbers over the end of the range (C11). *)
From Verif Require Import Base PeerId Db DbSpec DbProofs DbThms DbThms2 DbThms3 Auth AuthSpec AuthThms AuthThms2.

(** the numbers in the vectors are the lower 48 bits of increasing numbers above [q] and up to [q'] *)
Definition within (vs : list vec) (q q' : N) : Prop :=
  exists us, sqns vs = map (fun u => u mod 2 ^ 48)%N us /\ increasing us /\ forall u, In u us -> (q < u <= q')%N.
Lemma within_nil q q' : within [] q q'.
Proof. exists []. split; [reflexivity|]. split; [constructor|intros u []]. Qed.
Lemma within_cons w vs q q0 q' : v_sqn w = Some (q0 mod 2 ^ 48)%N -> (q < q0 <= q')%N -> within vs q0 q' -> within (w :: vs) q q'.
Proof.
  intros Ew B (us & E & I & J). exists (q0 :: us). split.
  - change (sqns (w :: vs)) with (match v_sqn w with Some q => [q] | None => [] end ++ sqns vs). rewrite Ew, E. reflexivity.
  - split; [apply increasing_cons; auto; intros y Hy; apply J in Hy; lia|]. intros u [<-|Hu]; [lia|]. apply J in Hu. lia.
Qed.
Lemma within_app vs1 vs2 q q1 q2 : within vs1 q q1 -> within vs2 q1 q2 -> (q <= q1 <= q2)%N -> within (vs1 ++ vs2) q q2.
Proof.
  intros (u1 & E1 & I1 & J1) (u2 & E2 & I2 & J2) B. exists (u1 ++ u2). split; [now rewrite sqns_app, E1, E2, map_app|]. split.
  - apply increasing_app with (m := q1); auto; intros x Hx; [apply J1 in Hx|apply J2 in Hx]; lia.
  - intros x Hx. apply in_app_or in Hx as [Hx|Hx]; [apply J1 in Hx|apply J2 in Hx]; lia.
Qed.

Lemma gen_loop_wide cr f alg n : forall i g ua,
  sqn_contract cr alg f -> u_algo ua = alg -> (u_sqn ua + N.of_nat n * (2 * 2 ^ Z.to_N (u_bitlen ua)) < 2 ^ 64)%N ->
  exists vs q, gen_loop cr n i g (Some ua) None = (vs, Some q) /\
    (u_sqn ua <= q <= u_sqn ua + N.of_nat n * (2 * 2 ^ Z.to_N (u_bitlen ua)))%N /\
    within vs (u_sqn ua) q.
Proof.
  induction n as [|n IH]; intros i g ua Hc Ha Hb; cbn [gen_loop].
  { exists [], (u_sqn ua). split; [auto|]. split; [lia|]. apply within_nil. }
  set (W := (2 * 2 ^ Z.to_N (u_bitlen ua))%N) in *.
  assert (HW : (W <> 0)%N) by (unfold W; assert (2 ^ Z.to_N (u_bitlen ua) <> 0)%N by (apply N.pow_nonzero; lia); lia).
  destruct (c_rand cr i) as [rnd|].
  2:{ exists [], (u_sqn ua). split; [auto|]. split; [lia|]. apply within_nil. }
  replace (match i with O => c_gen3 cr ua rnd | S _ => c_gen3 cr ua rnd end) with (c_gen3 cr ua rnd) by (destruct i; auto).
  destruct (c_gen3 cr ua rnd) as [[v|] q0] eqn:Eg.
  2:{ apply (sc_gen_fail _ _ _ Hc) in Eg; auto. subst q0.
      exists [], (u_sqn ua). split; [auto|]. split; [lia|]. apply within_nil. }
  destruct (sc_gen _ _ _ Hc _ _ _ _ Ha Eg) as (Hi & Hq & Hs).
  pose proof (next_gt (u_bitlen ua) (u_sqn ua) (u_ind ua)) as G1.
  pose proof (next_le (u_bitlen ua) (u_sqn ua) (u_ind ua) Hi) as G2. fold W in G2.
  rewrite N.mod_small in Hq by nia.
  assert (Bq : (u_sqn ua < q0 <= u_sqn ua + W)%N) by lia.
  assert (Hb' : (u_sqn (with_sqn ua q0) + N.of_nat n * (2 * 2 ^ Z.to_N (u_bitlen (with_sqn ua q0))) < 2 ^ 64)%N)
    by (cbn [with_sqn u_sqn u_bitlen]; fold W; nia).
  assert (STEP : forall w, v_sqn w = v_sqn v ->
     exists vs q, (let '(vs, q') := gen_loop cr n (S i) g (Some (with_sqn ua q0)) None in (w :: vs, q')) = (vs, Some q) /\
       (u_sqn ua <= q <= u_sqn ua + N.of_nat (S n) * W)%N /\
       within vs (u_sqn ua) q).
  { intros w Hw. destruct (IH (S i) g (with_sqn ua q0) Hc Ha Hb') as (vs & q & E & B1 & I1).
    rewrite E. exists (w :: vs), q. split; auto. cbn [with_sqn u_sqn u_bitlen] in *. fold W in B1.
    split; [nia|].
    apply (within_cons w vs (u_sqn ua) q0 q); [congruence|lia|exact I1]. }
  destruct g as [ga|]; [|now apply STEP].
  destruct (c_gen2 cr ga rnd) as [w|]; [now apply STEP|].
  exists [], q0. split; auto. split; [nia|]. apply within_nil.
Qed.

Lemma step_wide imsi d o id al b q :
  db_inv d -> keys_wellformed d -> al <> 0 -> tracked d imsi id al b q ->
  keeps_key id o -> plain_request imsi al o ->
  (q + asked imsi o * (2 * 2 ^ Z.to_N b) < 2 ^ 64)%N ->
  exists q', tracked (fst (op_step imsi d o)) imsi id al b q' /\
    (q <= q' <= q + asked imsi o * (2 * 2 ^ Z.to_N b))%N /\
    within (snd (op_step imsi d o)) q q'.
Proof.
  intros Hd Hk Hal HT Hkk Hpl Hb. destruct o as [a c|cr i ind n ra au sep c]; cbn [op_step fst snd asked] in *.
  - exists q. split; [|split; [lia|apply within_nil]].
    unfold run_db. apply (run_inv (fun d => tracked d imsi id al b q) (stmt_keeps id)); auto.
    + intros s d0. apply tracked_exec.
    + eapply api_stmt_keeps; eauto.
  - destruct (String.eqb_spec i imsi) as [->|Hne].
    + destruct (Hpl eq_refl) as (-> & f & Hcon).
      destruct HT as [Hi (a & Hka & E1 & E2 & E3)].
      assert (HT : tracked d imsi id al b q) by (split; auto; exists a; auto).
      destruct (auc_run_3g cr imsi ind n ra None sep c d id a Hd Hk Hi Hka ltac:(congruence)) as (u & res & Eu & Er & Hrun).
      destruct (read_3g_fields a u Eu) as (F1 & F2 & F3).
      destruct Hrun as [(rc & Eo & _ & ->)|[[Eo ->]|[Eo ->]]]; rewrite Eo.
      * exists q. split; auto. split; [lia|]. apply within_nil.
      * exists q. split; auto. split; [lia|]. apply within_nil.
      * destruct res as [[vs oq]|].
        2:{ exists (a3_sqn a). split; [eapply set_tracked; eauto|]. rewrite E3. split; [lia|]. apply within_nil. }
        symmetry in Er. unfold auc_compute_vectors in Er. cbn [use_3g u_algo] in Er.
        replace (u_algo u =? ALG_NONE) with false in Er by (unfold ALG_NONE; lia).
        set (ua := mk_aud3 _ _ _ _ _ _ _ _) in Er.
        assert (Eg : gen_loop cr n 0 (use_2g (read_2g (stored2 d id))) (Some ua) None = (vs, oq)).
        { destruct (use_2g _); destruct ra; try discriminate Er; injection Er; auto. }
        destruct (gen_loop_wide cr f al n 0 (use_2g (read_2g (stored2 d id))) ua Hcon) as (vs' & q' & Eg' & B & I1).
        { cbn. congruence. }
        { cbn. rewrite F2, F3, E2, E3. exact Hb. }
        rewrite Eg in Eg'. injection Eg' as -> ->. cbn [ua u_sqn u_bitlen] in B, I1. rewrite F2, F3, E2, E3 in B. rewrite F2, E3 in I1.
        exists q'. split; [eapply set_tracked; eauto|]. auto.
    + exists q. split; [|split; [lia|apply within_nil]].
      destruct (auc_run_any cr i ind n ra au sep c d) as [->|(id' & q' & Hs' & ->)]; auto.
      apply tracked_exec; auto. cbn. intros E. subst id'.
      exact (id_of_imsi d i imsi id id Hd Hs' (proj1 HT) Hne eq_refl).
Qed.

Lemma hist_wide imsi h : forall d id al b q,
  db_inv d -> keys_wellformed d -> al <> 0 -> tracked d imsi id al b q ->
  Forall (keeps_key id) h -> Forall (plain_request imsi al) h ->
  (q + total_asked imsi h * (2 * 2 ^ Z.to_N b) < 2 ^ 64)%N ->
  exists q', tracked (fst (op_hist imsi d h)) imsi id al b q' /\
    (q <= q' <= q + total_asked imsi h * (2 * 2 ^ Z.to_N b))%N /\
    within (snd (op_hist imsi d h)) q q'.
Proof.
  induction h as [|o h IH]; intros d id al b q Hd Hk Hal HT Hf Hp Hb.
  - exists q. cbn. split; auto. split; [lia|]. apply within_nil.
  - inversion Hf as [|? ? F1 F2]; subst. inversion Hp as [|? ? P1 P2]; subst.
    change (total_asked imsi (o :: h)) with (asked imsi o + total_asked imsi h)%N in *.
    set (W := (2 * 2 ^ Z.to_N b)%N) in *.
    destruct (step_wide imsi d o id al b q Hd Hk Hal HT F1 P1) as (q1 & T1 & B1 & I1); [fold W; nia|].
    fold W in B1. destruct (op_inv imsi d o (conj Hd Hk)) as [Hd1 Hk1].
    cbn [op_hist]. destruct (op_step imsi d o) as [d1 vs1]. cbn [fst snd] in *.
    destruct (IH d1 id al b q1 Hd1 Hk1 Hal T1 F2 P2) as (q2 & T2 & B2 & I2); [fold W; nia|]. fold W in B2.
    destruct (op_hist imsi d1 h) as [d2 vs2]. cbn [fst snd] in *.
    exists q2. split; auto. split; [nia|]. eapply within_app; eauto; lia.
Qed.

Lemma c11_lower_bits imsi h d id a :
  db_ok d -> keys_wellformed d -> is_subscriber d imsi id -> key3 d id a -> a3_algo a <> 0 ->
  Forall (keeps_key id) h -> Forall (plain_request imsi (a3_algo a)) h ->
  (a3_sqn a + total_asked imsi h * (2 * 2 ^ Z.to_N (a3_ind_bitlen a)) < 2 ^ 64)%N ->
  exists us, sqns (snd (op_hist imsi d h)) = map (fun u => u mod 2 ^ 48)%N us /\ increasing us /\
    forall u, In u us -> (a3_sqn a < u <= a3_sqn a + total_asked imsi h * (2 * 2 ^ Z.to_N (a3_ind_bitlen a)))%N.
Proof.
  intros Hd Hk Hs Ha Hal Hf Hp Hb. apply db_ok_inv in Hd.
  destruct (hist_wide imsi h d id (a3_algo a) (a3_ind_bitlen a) (a3_sqn a) Hd Hk Hal) as (q & _ & B & us & E & I & J); auto.
  { split; auto. exists a. auto. }
  exists us. split; [exact E|]. split; [exact I|]. intros u Hu. apply J in Hu. lia.
Qed.

Lemma mod_apart M q L u v : (M <> 0)%N -> (q < u <= q + L)%N -> (q < v <= q + L)%N -> (L <= M)%N -> (u mod M = v mod M)%N -> u = v.
Proof.
  intros HM Hu Hv HL E. pose proof (N.div_mod u M HM). pose proof (N.div_mod v M HM).
  assert (u / M = v / M)%N by nia. congruence.
Qed.

Lemma c11_distinct imsi h d id a :
  db_ok d -> keys_wellformed d -> is_subscriber d imsi id -> key3 d id a -> a3_algo a <> 0 ->
  Forall (keeps_key id) h -> Forall (plain_request imsi (a3_algo a)) h ->
  (total_asked imsi h * (2 * 2 ^ Z.to_N (a3_ind_bitlen a)) <= 2 ^ 48)%N -> (a3_sqn a < 2 ^ 63)%N ->
  NoDup (sqns (snd (op_hist imsi d h))).
Proof.
  intros Hd Hk Hs Ha Hal Hf Hp Hb Hq. set (L := (total_asked imsi h * (2 * 2 ^ Z.to_N (a3_ind_bitlen a)))%N) in *.
  assert (P1 : (2 ^ 63 + 2 ^ 48 < 2 ^ 64)%N) by reflexivity.
  destruct (c11_lower_bits imsi h d id a Hd Hk Hs Ha Hal Hf Hp) as (us & E & I & J); [fold L; lia|]. fold L in J. rewrite E.
  apply increasing_nodup in I. assert (HM : (2 ^ 48 <> 0)%N) by (apply N.pow_nonzero; lia). revert HM Hb. generalize (2 ^ 48)%N as M. intros M HM Hb.
  clear - I J HM Hb. induction I as [|x l Hx I IH]; cbn [map]; constructor.
  - intros Hin. apply in_map_iff in Hin as (y & Ey & Hy). apply Hx.
    rewrite <- (mod_apart M (a3_sqn a) L y x HM); auto; apply J; [now right|now left].
  - apply IH. intros u Hu. apply J. now right.
Qed.
