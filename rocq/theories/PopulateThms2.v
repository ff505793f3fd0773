(** Proofs for C77: what is added. *)
From Coq Require Import Permutation.
From Verif Require Import Base PeerId Db DbSpec DbProofs DbThms Populate PopulateSpec PopulateThms.

(** ** Whose keys are added *)
(** a number for keys: 0, or that of a subscriber that was not in [d] *)
Definition whose (d e : db) (i : Z) : Prop := i = 0 \/ (In i (map s_id (d_sub e)) /\ ~ In i (map s_id (d_sub d))).
Definition added_keys (d e : db) : Prop :=
  (forall k, In k (d_auc2 e) -> In k (d_auc2 d) \/ exists i, k = pl_2g i /\ whose d e i) /\
  (forall k, In k (d_auc3 e) -> In k (d_auc3 d) \/ exists i, k = pl_3g i /\ whose d e i).
Definition last_ok (d : db) (p : plc) : Prop :=
  db_inv (p_db p) /\ incl (map s_id (d_sub d)) (map s_id (d_sub (p_db p))) /\ whose d (p_db p) (p_last p) /\ added_keys d (p_db p).

Lemma rowid_new l : ~ In (next_rowid l) l.
Proof.
  unfold next_rowid. assert (H : forall x, In x l -> x <= fold_right Z.max 0 l).
  { induction l as [|y l IH]; cbn; [intros ? []|]. intros x [->|I]; [lia|]. specialize (IH x I). lia. }
  intros I. specialize (H _ I). lia.
Qed.
Lemma rowid_pos l : 0 < next_rowid l.
Proof. unfold next_rowid. induction l; cbn; lia. Qed.
Lemma NoDup_snoc {A} (l : list A) x : NoDup l -> ~ In x l -> NoDup (l ++ [x]).
Proof.
  intros H N. apply (Permutation_NoDup (l := x :: l)); [|constructor; auto].
  apply Permutation_cons_append.
Qed.

Lemma imsi_15 i : (i < 10 ^ 10)%N -> imsi_valid (pl_imsi i) = true /\ msisdn_valid (pl_msisdn (pl_imsi i)) = true.
Proof.
  intros L. pose proof (udigits_sf 10 i L) as H. pose proof (sf_len _ _ _ H) as Ln. pose proof (sf_digits _ _ _ H) as D.
  change (pl_msisdn (pl_imsi i)) with ("49" ++ udigits 10 i)%string. unfold pl_imsi. remember (udigits 10 i) as t. clear - Ln D.
  unfold imsi_valid, msisdn_valid, is_n_digits. cbn [append String.length str_forall]. rewrite Ln, D. split; reflexivity.
Qed.

Lemma base_inv ok i p : (i < 10 ^ 10)%N -> db_inv (p_db p) -> db_inv (p_db (pl_base ok (pl_imsi i) p)).
Proof.
  intros L V. unfold pl_base. destruct (negb ok || _ || _) eqn:E; [exact V|].
  apply orb_false_iff in E as [E Em]. apply orb_false_iff in E as [_ Ei]. rewrite existsb_false in Ei, Em.
  destruct (imsi_15 i L) as [Vi Vm]. destruct V. constructor; cbn [p_db with_sub d_sub d_auc2 d_auc3 d_ind]; auto.
  - rewrite map_app. apply NoDup_snoc; auto. apply rowid_new.
  - rewrite map_app. apply NoDup_snoc; auto. intros I. apply in_map_iff in I as (r & Er & Ir). specialize (Ei r Ir). unfold by_imsi in Ei.
    assert (Er' : s_imsi r = pl_imsi i) by exact Er. rewrite Er', String.eqb_refl in Ei. discriminate.
  - assert (M : msisdns (d_sub (p_db p) ++ [set_msisdn (Some (pl_msisdn (pl_imsi i))) (new_row (next_rowid (map s_id (d_sub (p_db p)))) (pl_imsi i) true true)]) =
      msisdns (d_sub (p_db p)) ++ [pl_msisdn (pl_imsi i)]).
    { unfold msisdns. rewrite flat_map_app. reflexivity. }
    rewrite M. apply NoDup_snoc; auto. intros I. unfold msisdns in I. apply in_flat_map in I as (r & Ir & I).
    specialize (Em r Ir). unfold by_msisdn, str_opt_is in Em. destruct (s_msisdn r) as [m|]; [|destruct I]. destruct I as [I|[]]. rewrite I in Em.
    unfold opt_eqb in Em. rewrite String.eqb_refl in Em. discriminate.
  - apply Forall_app. split; auto. constructor; [|constructor]. split; [exact Vi|]. intros m Em'. apply (f_equal (fun o => match o with Some x => x | None => ""%string end)) in Em'.
    change (pl_msisdn (pl_imsi i) = m) in Em'. now rewrite <- Em'.
  - apply Forall_app. split; auto. constructor; [|constructor]. apply rowid_pos.
Qed.
Lemma ins_2g_inv ok r p : db_inv (p_db p) -> db_inv (p_db (ins_2g ok r p)).
Proof.
  intros V. unfold ins_2g. destruct (negb ok || _) eqn:E; [exact V|]. apply orb_false_iff in E as [_ E]. rewrite existsb_false in E.
  destruct V. constructor; cbn; auto. rewrite map_app. apply NoDup_snoc; auto. intros I. apply in_map_iff in I as (x & Ex & Ix).
  specialize (E x Ix). rewrite Ex, Z.eqb_refl in E. discriminate.
Qed.
Lemma ins_3g_inv ok r p : db_inv (p_db p) -> db_inv (p_db (ins_3g ok r p)).
Proof.
  intros V. unfold ins_3g. destruct (negb ok || _) eqn:E; [exact V|]. apply orb_false_iff in E as [_ E]. rewrite existsb_false in E.
  destruct V. constructor; cbn; auto. rewrite map_app. apply NoDup_snoc; auto. intros I. apply in_map_iff in I as (x & Ex & Ix).
  specialize (E x Ix). rewrite Ex, Z.eqb_refl in E. discriminate.
Qed.

Lemma keys_more d e e' : (forall i, whose d e i -> whose d e' i) -> d_auc2 e' = d_auc2 e -> d_auc3 e' = d_auc3 e -> added_keys d e -> added_keys d e'.
Proof.
  intros W A B [H K]. split; intros k I; rewrite ?A, ?B in I.
  - destruct (H k I) as [?|(i & ? & ?)]; [now left|right; eauto].
  - destruct (K k I) as [?|(i & ? & ?)]; [now left|right; eauto].
Qed.
Lemma base_last d ok i p : (i < 10 ^ 10)%N -> last_ok d p -> last_ok d (pl_base ok (pl_imsi i) p).
Proof.
  intros L H. pose proof (base_inv ok i p L (proj1 H)) as V. revert V. unfold pl_base. destruct (negb ok || _ || _); [intros _; exact H|].
  destruct H as (_ & I & W & K). intros V. split; [exact V|]. cbn [p_db p_last d_sub with_sub].
  set (id := next_rowid _) in *. rewrite map_app. cbn [map].
  assert (N : ~ In id (map s_id (d_sub (p_db p)))) by apply rowid_new.
  assert (M : forall j, whose d (p_db p) j -> whose d (with_sub (p_db p) (d_sub (p_db p) ++ [set_msisdn (Some (pl_msisdn (pl_imsi i))) (new_row id (pl_imsi i) true true)])) j).
  { intros j [->|[A B]]; [now left|]. right. split; auto. cbn. rewrite map_app. apply in_or_app. now left. }
  split; [intros x Hx; apply in_or_app; left; auto|]. split.
  - right. cbn. rewrite map_app. split; [apply in_or_app; right; left; reflexivity|]. intros A. apply N. auto.
  - apply (keys_more d (p_db p)); auto.
Qed.
Lemma ins_3g_last d ok j p : whose d (p_db p) j -> last_ok d p -> last_ok d (ins_3g ok (pl_3g j) p) /\ whose d (p_db (ins_3g ok (pl_3g j) p)) j.
Proof.
  intros Wj H. pose proof (ins_3g_inv ok (pl_3g j) p (proj1 H)) as V. revert V. unfold ins_3g. destruct (negb ok || _); [intros _; split; auto|].
  destruct H as (_ & I & W & [K2 K3]). intros V. split; [|exact Wj]. split; [exact V|]. split; [exact I|]. split; [exact Wj|]. split; [exact K2|].
  cbn. intros k Hk. apply in_app_iff in Hk as [Hk|[<-|[]]]; [apply K3; exact Hk|]. right. exists j. split; auto.
Qed.
Lemma ins_2g_last d ok j p : whose d (p_db p) j -> last_ok d p -> last_ok d (ins_2g ok (pl_2g j) p).
Proof.
  intros Wj H. pose proof (ins_2g_inv ok (pl_2g j) p (proj1 H)) as V. revert V. unfold ins_2g. destruct (negb ok || _); [intros _; auto|].
  destruct H as (_ & I & W & [K2 K3]). intros V. split; [exact V|]. split; [exact I|]. split; [exact Wj|]. split; [|exact K3].
  cbn. intros k Hk. apply in_app_iff in Hk as [Hk|[<-|[]]]; [apply K2; exact Hk|]. right. exists j. split; auto.
Qed.
Lemma loop_last fs d : db_inv d -> forall n, (N.of_nat n <= 10 ^ 10)%N -> last_ok d (pl_loop fs n d).
Proof.
  intros V. induction n as [|n IH]; intros L.
  - split; [exact V|]. split; [intros x Hx; exact Hx|]. split; [now left|]. split; intros k Hk; now left.
  - cbn [pl_loop]. unfold pl_subscr. set (p := pl_loop fs n d) in *.
    assert (H : last_ok d (pl_base (f_base (fs (N.of_nat n))) (pl_imsi (N.of_nat n)) p)) by (apply base_last; [lia|apply IH; lia]).
    set (q := pl_base _ _ p) in *. destruct (ins_3g_last d (f_3g (fs (N.of_nat n))) (p_last q) q (proj1 (proj2 (proj2 H))) H) as [H3 W3].
    apply ins_2g_last; auto.
Qed.
Lemma count_small : (N.of_nat PL_COUNT <= 10 ^ 10)%N.
Proof. unfold PL_COUNT. rewrite N2Nat.id. apply N.leb_le. reflexivity. Qed.
Lemma count_is : N.of_nat PL_COUNT = 1000000%N. Proof. unfold PL_COUNT. apply N2Nat.id. Qed.

(** nobody who was a subscriber before is given a key; the database keeps its constraints *)
Lemma c77_not_others fs ok k d : db_ok d ->
  let d' := populate fs ok k d in
  db_ok d' /\
  (forall a r, In a (d_auc2 d') -> In r (d_sub d) -> a2_id a = s_id r -> In a (d_auc2 d)) /\
  (forall a r, In a (d_auc3 d') -> In r (d_sub d) -> a3_id a = s_id r -> In a (d_auc3 d)).
Proof.
  intros Hok. pose proof (proj1 (db_ok_inv d) Hok) as V. cbv zeta. unfold populate.
  assert (Id : db_ok d /\ (forall a r, In a (d_auc2 d) -> In r (d_sub d) -> a2_id a = s_id r -> In a (d_auc2 d)) /\
     (forall a r, In a (d_auc3 d) -> In r (d_sub d) -> a3_id a = s_id r -> In a (d_auc3 d))) by auto.
  destruct k; [exact Id|]. destruct ok; [|exact Id]. clear Id.
  pose proof (loop_last fs d V PL_COUNT count_small) as (V' & _ & _ & [K2 K3]).
  assert (P : forall r, In r (d_sub d) -> 0 < s_id r) by (apply Forall_forall; apply V).
  split; [now apply db_ok_inv|]. split.
  - intros a r Ia Ir E. destruct (K2 a Ia) as [?|(i & -> & [->|[_ N]])]; auto; cbn in E; exfalso.
    + specialize (P r Ir). lia.
    + apply N. rewrite E. now apply in_map.
  - intros a r Ia Ir E. destruct (K3 a Ia) as [?|(i & -> & [->|[_ N]])]; auto; cbn in E; exfalso.
    + specialize (P r Ir). lia.
    + apply N. rewrite E. now apply in_map.
Qed.
