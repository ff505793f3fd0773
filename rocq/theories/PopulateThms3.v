(** Proofs for C77: a database that is filled without a fault; faults. *)
From Verif Require Import Base PeerId Db DbSpec DbProofs DbThms Populate PopulateSpec PopulateThms PopulateThms2.

Definition all_well : N -> fates := fun _ => mk_fates true true true.
Definition top (d : db) : Z := fold_right Z.max 0 (map s_id (d_sub d)).
Definition pl_row (m : Z) (i : N) : sub_row := set_msisdn (Some (pl_msisdn (pl_imsi i))) (new_row (m + 1 + Z.of_N i) (pl_imsi i) true true).
Definition nums (n : nat) : list N := map N.of_nat (seq 0 n).
Definition filled_db (d : db) (n : nat) : db :=
  mk_db (d_sub d ++ map (pl_row (top d)) (nums n)) (d_auc2 d ++ map (fun i => pl_2g (top d + 1 + Z.of_N i)) (nums n))
        (d_auc3 d ++ map (fun i => pl_3g (top d + 1 + Z.of_N i)) (nums n)) (d_ind d).

Lemma nums_S n : nums (S n) = nums n ++ [N.of_nat n].
Proof. unfold nums. rewrite seq_S, map_app. reflexivity. Qed.
Lemma in_nums n i : In i (nums n) <-> (i < N.of_nat n)%N.
Proof.
  unfold nums. rewrite in_map_iff. split.
  - intros (x & <- & I). apply in_seq in I. lia.
  - intros L. exists (N.to_nat i). split; [lia|]. apply in_seq. lia.
Qed.
Lemma fold_max_app a b : fold_right Z.max 0 (a ++ b) = Z.max (fold_right Z.max 0 a) (fold_right Z.max 0 b).
Proof. induction a as [|x a IH]; cbn [app fold_right]; [|rewrite IH; lia]. assert (0 <= fold_right Z.max 0 b) by (induction b; cbn; lia). lia. Qed.
Lemma top_max d r : In r (d_sub d) -> s_id r <= top d.
Proof. unfold top. intros I. apply (in_map s_id) in I. induction (map s_id (d_sub d)) as [|x l IH]; [destruct I|]. cbn. destruct I as [->|I]; [lia|]. specialize (IH I). lia. Qed.
Lemma top_pos d : 0 <= top d.
Proof. unfold top. induction (map s_id (d_sub d)); cbn; lia. Qed.
Lemma rowid_filled d n : next_rowid (map s_id (d_sub (filled_db d n))) = top d + 1 + Z.of_nat n.
Proof.
  unfold next_rowid. cbn [d_sub filled_db]. rewrite map_app, fold_max_app. fold (top d).
  assert (E : Z.max (top d) (fold_right Z.max 0 (map s_id (map (pl_row (top d)) (nums n)))) = top d + Z.of_nat n).
  { pose proof (top_pos d). induction n as [|n IH]; [cbn; lia|]. rewrite nums_S, !map_app, fold_max_app, Z.max_assoc, IH.
    cbn [map fold_right]. change (s_id (pl_row (top d) (N.of_nat n))) with (top d + 1 + Z.of_N (N.of_nat n)). lia. }
  rewrite E. lia.
Qed.

Lemma loop_filled d : db_inv d -> keys_owned d -> forall n, (N.of_nat n <= 10 ^ 10)%N -> unused (N.of_nat n) d ->
  p_db (pl_loop all_well n d) = filled_db d n.
Proof.
  intros V [O2 O3]. induction n as [|n IH]; intros L U.
  - unfold filled_db. cbn. rewrite !app_nil_r. destruct d; reflexivity.
  - cbn [pl_loop]. assert (E : p_db (pl_loop all_well n d) = filled_db d n).
    { apply IH; [lia|]. intros i im ms r Li. apply U. lia. }
    clear IH. set (p := pl_loop all_well n d) in *. set (i := N.of_nat n) in *. assert (Li : (i < 10 ^ 10)%N) by lia.
    unfold pl_subscr, all_well. cbn [f_base f_3g f_2g].
    assert (F : existsb (by_imsi (pl_imsi i)) (d_sub (p_db p)) = false /\ existsb (by_msisdn (pl_msisdn (pl_imsi i))) (d_sub (p_db p)) = false).
    { rewrite E. cbn [d_sub filled_db]. rewrite !existsb_false. split; intros r I; apply in_app_iff in I as [I|I].
      - destruct (U i _ _ r ltac:(lia) (pl_nth i Li) I) as [A _]. unfold by_imsi. now apply String.eqb_neq.
      - apply in_map_iff in I as (j & <- & I). apply in_nums in I. unfold by_imsi. apply String.eqb_neq.
        change (pl_imsi j <> pl_imsi i). intros A. apply pl_imsi_inj in A; lia.
      - destruct (U i _ _ r ltac:(lia) (pl_nth i Li) I) as [_ A]. unfold by_msisdn, str_opt_is. destruct (s_msisdn r) as [m|]; [|reflexivity].
        unfold opt_eqb. apply String.eqb_neq. congruence.
      - apply in_map_iff in I as (j & <- & I). apply in_nums in I. unfold by_msisdn, str_opt_is.
        change (opt_eqb String.eqb (Some (pl_msisdn (pl_imsi j))) (Some (pl_msisdn (pl_imsi i))) = false). unfold opt_eqb. apply String.eqb_neq.
        intros A. apply pl_msisdn_inj in A; lia. }
    destruct F as [F1 F2]. unfold pl_base. rewrite F1, F2. cbn [negb orb]. rewrite E, rowid_filled. cbn [p_last p_db].
    set (id := top d + 1 + Z.of_nat n).
    assert (Ei : id = top d + 1 + Z.of_N i) by (unfold id, i; lia).
    unfold ins_3g. cbn [p_db p_last]. cbn [negb orb]. cbn [d_auc3 filled_db with_sub].
    assert (F3 : existsb (fun a => a3_id a =? a3_id (pl_3g id)) (d_auc3 d ++ map (fun i => pl_3g (top d + 1 + Z.of_N i)) (nums n)) = false).
    { rewrite existsb_false. intros a I. apply Z.eqb_neq. change (a3_id (pl_3g id)) with id. apply in_app_iff in I as [I|I].
      - destruct (O3 a I) as (r & Ir & <-). pose proof (top_max d r Ir). unfold id. lia.
      - apply in_map_iff in I as (j & <- & I). apply in_nums in I. cbn. unfold id. lia. }
    rewrite F3. unfold ins_2g. cbn [p_db p_last negb orb d_auc2 with_sub with_auc3 filled_db].
    assert (F4 : existsb (fun a => a2_id a =? a2_id (pl_2g id)) (d_auc2 d ++ map (fun i => pl_2g (top d + 1 + Z.of_N i)) (nums n)) = false).
    { rewrite existsb_false. intros a I. apply Z.eqb_neq. change (a2_id (pl_2g id)) with id. apply in_app_iff in I as [I|I].
      - destruct (O2 a I) as (r & Ir & <-). pose proof (top_max d r Ir). unfold id. lia.
      - apply in_map_iff in I as (j & <- & I). apply in_nums in I. cbn. unfold id. lia. }
    rewrite F4. cbn [p_db]. unfold filled_db, with_sub, with_auc2, with_auc3. cbn [d_sub d_auc2 d_auc3 d_ind].
    rewrite nums_S, !map_app, !app_assoc. cbn [map]. fold i. rewrite Ei. reflexivity.
Qed.

Lemma find_app_r {A} (f : A -> bool) l m x : (forall y, In y l -> f y = false) -> find f m = Some x -> find f (l ++ m) = Some x.
Proof. intros H F. induction l as [|y l IH]; [exact F|]. cbn. rewrite (H y (or_introl eq_refl)). apply IH. intros z I. apply H. now right. Qed.
Lemma find_map_nums {A} (g : N -> A) (f : A -> bool) n i : (i < N.of_nat n)%N -> f (g i) = true -> (forall j, (j < N.of_nat n)%N -> f (g j) = true -> j = i) ->
  find f (map g (nums n)) = Some (g i).
Proof.
  intros L T U. destruct (find f (map g (nums n))) as [x|] eqn:E.
  - apply find_some in E as [I Fx]. apply in_map_iff in I as (j & <- & I). apply in_nums in I. now rewrite (U j I Fx).
  - exfalso. rewrite (find_none _ _ E (g i)) in T; [discriminate|]. apply in_map, in_nums. exact L.
Qed.

Lemma filled_facts d n : db_inv d -> keys_owned d -> (N.of_nat n <= 10 ^ 10)%N -> unused (N.of_nat n) d ->
  let d' := filled_db d n in
  (length (d_sub d') = length (d_sub d) + n)%nat /\ keys_owned d' /\
  forall i imsi msisdn, (i < N.of_nat n)%N -> nth_subscr i imsi msisdn ->
    exists id, exec (SEL_BY_MSISDN msisdn) d' = (RSub (mk_sub id imsi (Some msisdn) None None None true true false false None None None None), d') /\
      exec (AUC_BY_IMSI imsi) d' = (RAuc id (Some (pl_2g id)) (Some (pl_3g id)), d').
Proof.
  intros V Ow CS U. cbv zeta.
  split; [|split].
  - cbn [d_sub filled_db]. rewrite app_length, map_length. unfold nums. now rewrite map_length, seq_length.
  - destruct Ow as [O2 O3]. split; intros a I; cbn [d_auc2 d_auc3 filled_db] in I; apply in_app_iff in I as [I|I].
    + destruct (O2 a I) as (r & Ir & E). exists r. split; auto. apply in_or_app. now left.
    + apply in_map_iff in I as (j & <- & I). exists (pl_row (top d) j). split; [|reflexivity]. apply in_or_app. right. apply in_map. exact I.
    + destruct (O3 a I) as (r & Ir & E). exists r. split; auto. apply in_or_app. now left.
    + apply in_map_iff in I as (j & <- & I). exists (pl_row (top d) j). split; [|reflexivity]. apply in_or_app. right. apply in_map. exact I.
  - intros i im ms Li Hi. assert (Lt : (i < 10 ^ 10)%N) by lia. pose proof Hi as Hi'. apply (nth_is i im ms Lt) in Hi' as [Ei Em].
    exists (top d + 1 + Z.of_N i).
    assert (R : forall f, (forall r, In r (d_sub d) -> f r = false) -> f (pl_row (top d) i) = true ->
      (forall j, (j < N.of_nat n)%N -> f (pl_row (top d) j) = true -> j = i) -> find f (d_sub (filled_db d n)) = Some (pl_row (top d) i)).
    { intros f A B C. cbn [d_sub filled_db]. apply find_app_r; auto. apply (find_map_nums (pl_row (top d))); auto. }
    assert (FM : find (by_msisdn ms) (d_sub (filled_db d n)) = Some (pl_row (top d) i)).
    { apply R.
      - intros r Ir. destruct (U i im ms r Li Hi Ir) as [_ A]. unfold by_msisdn, str_opt_is. destruct (s_msisdn r) as [m|]; [|reflexivity]. unfold opt_eqb. apply String.eqb_neq. congruence.
      - unfold by_msisdn, str_opt_is. change (opt_eqb String.eqb (Some (pl_msisdn (pl_imsi i))) (Some ms) = true). rewrite <- Em. apply String.eqb_refl.
      - intros j Lj A. unfold by_msisdn, str_opt_is in A. change (opt_eqb String.eqb (Some (pl_msisdn (pl_imsi j))) (Some ms) = true) in A.
        unfold opt_eqb in A. apply String.eqb_eq in A. rewrite Em in A. apply pl_msisdn_inj in A; lia. }
    assert (FI : find (by_imsi im) (d_sub (filled_db d n)) = Some (pl_row (top d) i)).
    { apply R.
      - intros r Ir. destruct (U i im ms r Li Hi Ir) as [A _]. unfold by_imsi. now apply String.eqb_neq.
      - unfold by_imsi. apply String.eqb_eq. symmetry. exact Ei.
      - intros j Lj A. unfold by_imsi in A. apply String.eqb_eq in A. change (pl_imsi j = im) in A. rewrite Ei in A. apply pl_imsi_inj in A; lia. }
    assert (Rw : pl_row (top d) i = mk_sub (top d + 1 + Z.of_N i) im (Some ms) None None None true true false false None None None None).
    { unfold pl_row. rewrite <- Em, <- Ei. reflexivity. }
    split.
    + cbn [exec]. unfold sel. rewrite FM, Rw. reflexivity.
    + cbn [exec]. rewrite FI. destruct Ow as [O2 O3]. change (s_id (pl_row (top d) i)) with (top d + 1 + Z.of_N i).
      assert (G2 : find (fun a => a2_id a =? top d + 1 + Z.of_N i) (d_auc2 (filled_db d n)) = Some (pl_2g (top d + 1 + Z.of_N i))).
      { cbn [d_auc2 filled_db]. apply find_app_r.
        - intros a Ia. destruct (O2 a Ia) as (r & Ir & <-). pose proof (top_max d r Ir). apply Z.eqb_neq. lia.
        - apply (find_map_nums (fun i => pl_2g (top d + 1 + Z.of_N i))); auto; [apply Z.eqb_refl|]. intros j _ A. apply Z.eqb_eq in A. cbn in A. lia. }
      assert (G3 : find (fun a => a3_id a =? top d + 1 + Z.of_N i) (d_auc3 (filled_db d n)) = Some (pl_3g (top d + 1 + Z.of_N i))).
      { cbn [d_auc3 filled_db]. apply find_app_r.
        - intros a Ia. destruct (O3 a Ia) as (r & Ir & <-). pose proof (top_max d r Ir). apply Z.eqb_neq. lia.
        - apply (find_map_nums (fun i => pl_3g (top d + 1 + Z.of_N i))); auto; [apply Z.eqb_refl|]. intros j _ A. apply Z.eqb_eq in A. cbn in A. lia. }
      rewrite G2, G3. reflexivity.
Qed.

Lemma c77_filled d : db_ok d -> keys_owned d -> unused 1000000 d ->
  let d' := populate all_well true None d in
  (length (d_sub d') = length (d_sub d) + PL_COUNT)%nat /\ keys_owned d' /\
  forall i imsi msisdn, (i < 1000000)%N -> nth_subscr i imsi msisdn ->
    exists id, exec (SEL_BY_MSISDN msisdn) d' = (RSub (mk_sub id imsi (Some msisdn) None None None true true false false None None None None), d') /\
      exec (AUC_BY_IMSI imsi) d' = (RAuc id (Some (mk_auc2 id ALG_COMP128v1 "000102030405060708090a0b0c0d0e0f"))
        (Some (mk_auc3 id ALG_MILENAGE "000102030405060708090a0b0c0d0e0f" (Some "00102030405060708090a0b0c0d0e0f0"%string) None 0%N 5)), d').
Proof.
  intros Hok Ow U. pose proof (proj1 (db_ok_inv d) Hok) as V. cbv zeta. unfold populate.
  rewrite <- count_is in U. rewrite (loop_filled d V Ow PL_COUNT count_small U).
  pose proof (filled_facts d PL_COUNT V Ow count_small U) as H. cbv zeta in H. rewrite count_is in H. exact H.
Qed.
