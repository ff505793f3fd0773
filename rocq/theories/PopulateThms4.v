(** Proofs for C77: hlr_data.sql; what goes wrong. *)
From Verif Require Import Base PeerId Db DbSpec DbProofs DbThms PeerThms Populate PopulateSpec PopulateThms PopulateThms2 PopulateThms3.

Lemma one_count : (1 <= PL_COUNT)%nat.
Proof. pose proof count_is as H. lia. Qed.
Lemma populate_first d : only_added (p_db (pl_loop all_well 1 d)) (populate all_well true None d).
Proof. unfold populate. apply loop_more, one_count. Qed.

Lemma ins_sub_added id im p : only_added (p_db p) (p_db (ins_sub id im p)).
Proof. unfold ins_sub. destruct (_ || _); [apply added_refl|]. eexists [_], [], []. cbn. rewrite !app_nil_r. auto. Qed.
Lemma data_added d : only_added d (hlr_data d).
Proof.
  unfold hlr_data. eapply added_trans; [apply (ins_sub_added 1 "901990000000001" (mk_plc d 0))|].
  eapply added_trans; [apply ins_2g_added|]. eapply added_trans; [apply ins_sub_added|]. eapply added_trans; [apply ins_3g_added|].
  eapply added_trans; [apply ins_sub_added|]. eapply added_trans; [apply ins_2g_added|]. apply ins_3g_added.
Qed.

Lemma data_fresh d :
  (forall r, In r (d_sub d) -> 3 < s_id r /\ ~ In (s_imsi r) ["901990000000001"; "901990000000002"; "901990000000003"]%string) ->
  (forall a, In a (d_auc2 d) -> 3 < a2_id a) -> (forall a, In a (d_auc3 d) -> 3 < a3_id a) ->
  hlr_data d = mk_db (d_sub d ++ [new_row 1 "901990000000001" true true; new_row 2 "901990000000002" true true; new_row 3 "901990000000003" true true])
    (d_auc2 d ++ [data_2g 1; data_2g 3]) (d_auc3 d ++ [data_3g 2; data_3g 3]) (d_ind d).
Proof.
  intros S A B.
  assert (I : forall i l, 1 <= i <= 3 -> existsb (by_id i) (d_sub d ++ l) = existsb (by_id i) l).
  { intros i l L. rewrite existsb_app. replace (existsb (by_id i) (d_sub d)) with false; [reflexivity|]. symmetry. apply existsb_false.
    intros r Ir. destruct (S r Ir) as [G _]. unfold by_id. apply Z.eqb_neq. lia. }
  assert (J : forall im l, In im ["901990000000001"; "901990000000002"; "901990000000003"]%string -> existsb (by_imsi im) (d_sub d ++ l) = existsb (by_imsi im) l).
  { intros im l L. rewrite existsb_app. replace (existsb (by_imsi im) (d_sub d)) with false; [reflexivity|]. symmetry. apply existsb_false.
    intros r Ir. destruct (S r Ir) as [_ G]. unfold by_imsi. apply String.eqb_neq. congruence. }
  assert (K2 : forall i l, 1 <= i <= 3 -> existsb (fun a => a2_id a =? i) (d_auc2 d ++ l) = existsb (fun a => a2_id a =? i) l).
  { intros i l L. rewrite existsb_app. replace (existsb _ (d_auc2 d)) with false; [reflexivity|]. symmetry. apply existsb_false.
    intros a Ia. specialize (A a Ia). apply Z.eqb_neq. lia. }
  assert (K3 : forall i l, 1 <= i <= 3 -> existsb (fun a => a3_id a =? i) (d_auc3 d ++ l) = existsb (fun a => a3_id a =? i) l).
  { intros i l L. rewrite existsb_app. replace (existsb _ (d_auc3 d)) with false; [reflexivity|]. symmetry. apply existsb_false.
    intros a Ia. specialize (B a Ia). apply Z.eqb_neq. lia. }
  assert (E1 : ins_sub 1 "901990000000001" (mk_plc d 0) = mk_plc (mk_db (d_sub d ++ [new_row 1 "901990000000001" true true]) (d_auc2 d) (d_auc3 d) (d_ind d)) 1).
  { unfold ins_sub. cbn [p_db]. pose proof (I 1 [] ltac:(lia)) as X. pose proof (J "901990000000001"%string [] ltac:(now left)) as Y. rewrite app_nil_r in X, Y. rewrite X, Y. reflexivity. }
  unfold hlr_data. rewrite E1. clear E1.
  assert (E2 : forall s c u l, ins_2g true (data_2g 1) (mk_plc (mk_db s (d_auc2 d) c u) l) = mk_plc (mk_db s (d_auc2 d ++ [data_2g 1]) c u) 1).
  { intros. unfold ins_2g. cbn [p_db d_auc2]. pose proof (K2 1 [] ltac:(lia)) as X. rewrite app_nil_r in X. change (a2_id (data_2g 1)) with 1. rewrite X. reflexivity. }
  rewrite E2. clear E2.
  assert (ES : forall i im s b c u l, 1 <= i <= 3 -> In im ["901990000000001"; "901990000000002"; "901990000000003"]%string -> existsb (by_id i) s = false -> existsb (by_imsi im) s = false ->
    ins_sub i im (mk_plc (mk_db (d_sub d ++ s) b c u) l) = mk_plc (mk_db (d_sub d ++ s ++ [new_row i im true true]) b c u) i).
  { intros i im s b c u l L Q F G. unfold ins_sub. cbn [p_db d_sub]. rewrite (I i s L), (J im s Q), F, G. cbn [orb]. unfold with_sub. cbn [d_sub d_auc2 d_auc3 d_ind]. now rewrite <- app_assoc. }
  rewrite ES by (lia || (right; left; reflexivity) || reflexivity).
  assert (E3 : forall s b u l, ins_3g true (data_3g 2) (mk_plc (mk_db s b (d_auc3 d) u) l) = mk_plc (mk_db s b (d_auc3 d ++ [data_3g 2]) u) 2).
  { intros. unfold ins_3g. cbn [p_db d_auc3]. pose proof (K3 2 [] ltac:(lia)) as X. rewrite app_nil_r in X. change (a3_id (data_3g 2)) with 2. rewrite X. reflexivity. }
  rewrite E3. clear E3.
  rewrite ES by (lia || (right; right; left; reflexivity) || reflexivity). cbn [app].
  assert (E4 : forall s c u l, ins_2g true (data_2g 3) (mk_plc (mk_db s (d_auc2 d ++ [data_2g 1]) c u) l) = mk_plc (mk_db s (d_auc2 d ++ [data_2g 1; data_2g 3]) c u) 3).
  { intros. unfold ins_2g. cbn [p_db d_auc2]. change (a2_id (data_2g 3)) with 3. rewrite K2 by lia. cbn [negb orb existsb]. change (a2_id (data_2g 1) =? 3) with false.
    cbn [orb]. unfold with_auc2. cbn [d_sub d_auc2 d_auc3 d_ind]. now rewrite <- app_assoc. }
  rewrite E4. clear E4.
  assert (E5 : forall s b u l, ins_3g true (data_3g 3) (mk_plc (mk_db s b (d_auc3 d ++ [data_3g 2]) u) l) = mk_plc (mk_db s b (d_auc3 d ++ [data_3g 2; data_3g 3]) u) 3).
  { intros. unfold ins_3g. cbn [p_db d_auc3]. change (a3_id (data_3g 3)) with 3. rewrite K3 by lia. cbn [negb orb existsb]. change (a3_id (data_3g 2) =? 3) with false.
    cbn [orb]. unfold with_auc3. cbn [d_sub d_auc2 d_auc3 d_ind]. now rewrite <- app_assoc. }
  rewrite E5. reflexivity.
Qed.

Lemma find_app_l {A} (f : A -> bool) l m x : find f l = Some x -> find f (l ++ m) = Some x.
Proof. induction l as [|y l IH]; cbn; [discriminate|]. destruct (f y); auto. Qed.

(** whoever has the number 1 and no 2G key is given the one of the file *)
Lemma data_given d r : db_ok d -> In r (d_sub d) -> s_id r = 1 -> (forall a, In a (d_auc2 d) -> a2_id a <> 1) ->
  exists a3, exec (AUC_BY_IMSI (s_imsi r)) (hlr_data d) = (RAuc 1 (Some (mk_auc2 1 ALG_COMP128v1 "000102030405060708090a0b0c0d0e0f")) a3, hlr_data d).
Proof.
  intros Hok Ir E N. pose proof (proj1 (db_ok_inv d) Hok) as V.
  assert (F : find (by_imsi (s_imsi r)) (d_sub (hlr_data d)) = Some r).
  { destruct (data_added d) as (a & _ & _ & -> & _). apply find_app_l. exact (find_by_imsi d r V Ir). }
  assert (P : exists rest, d_auc2 (hlr_data d) = d_auc2 d ++ data_2g 1 :: rest).
  { set (p1 := ins_2g true (data_2g 1) (ins_sub 1 "901990000000001" (mk_plc d 0))).
    assert (X : d_auc2 (p_db p1) = d_auc2 d ++ [data_2g 1]).
    { unfold p1, ins_sub. cbn [p_db]. replace (existsb (by_id 1) (d_sub d)) with true.
      - cbn [orb]. unfold ins_2g. cbn [p_db]. replace (existsb (fun a => a2_id a =? a2_id (data_2g 1)) (d_auc2 d)) with false; [reflexivity|].
        symmetry. apply existsb_false. intros a Ia. apply Z.eqb_neq. exact (N a Ia).
      - symmetry. apply existsb_exists. exists r. split; auto. unfold by_id. now apply Z.eqb_eq. }
    assert (Y : only_added (p_db p1) (hlr_data d)).
    { unfold hlr_data. fold p1. eapply added_trans; [apply ins_sub_added|]. eapply added_trans; [apply ins_3g_added|].
      eapply added_trans; [apply ins_sub_added|]. eapply added_trans; [apply ins_2g_added|]. apply ins_3g_added. }
    destruct Y as (_ & b & _ & _ & Y & _). rewrite X in Y. exists b. rewrite Y, <- app_assoc. reflexivity. }
  destruct P as (rest & P). cbn [exec]. rewrite F, E, P. eexists. 
  rewrite (find_app_r _ (d_auc2 d) (data_2g 1 :: rest) (data_2g 1)); [reflexivity| |reflexivity].
  intros a Ia. apply Z.eqb_neq. exact (N a Ia).
Qed.
