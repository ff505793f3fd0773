(** Proofs for C77. *)
From Verif Require Import Base PeerId Db DbSpec DbProofs DbThms Populate PopulateSpec.

(** ** Texts *)
Lemma sf_len w t i : stands_for w t i -> String.length t = w.
Proof.
  induction 1; [reflexivity|]. rewrite <- IHstands_for. clear. induction t; cbn; auto.
Qed.
Lemma snoc_inj : forall t u c e, (t ++ String c "")%string = (u ++ String e "")%string -> t = u /\ c = e.
Proof.
  induction t as [|a t IH]; intros [|b u] c e; cbn; intros H.
  - injection H as ->. auto.
  - injection H as _ H. destruct u; discriminate.
  - injection H as _ H. destruct t; discriminate.
  - injection H as -> H. destruct (IH u c e H) as [-> ->]. auto.
Qed.
Lemma sf_fun w t i : stands_for w t i -> forall j, stands_for w t j -> i = j.
Proof.
  induction 1 as [|w t i c k H IH K C]; intros j Hj.
  - inversion Hj; auto.
  - inversion Hj as [|w' t' i' c' k' H' K' C' E1 E2 E3]. subst. apply snoc_inj in E2 as [-> ->].
    rewrite (IH _ H'). lia.
Qed.
Lemma sf_inj w t i : stands_for w t i -> forall u, stands_for w u i -> t = u.
Proof.
  intros H. remember i as j eqn:E in |- *. assert (j = i) as Ej by auto. clear E. revert j Ej.
  induction H as [|w t i c k H IH K C]; intros j Ej u Hu; inversion Hu as [|w' t' i' c' k' H' K' C' E1 E2 E3]; subst; auto.
  assert (i' = i /\ k' = k) as [-> ->] by lia. f_equal; [apply (IH i eq_refl _ H')|].
  assert (c = c') as ->; [|reflexivity]. rewrite <- (ascii_N_embedding c), <- (ascii_N_embedding c'). congruence.
Qed.
Lemma udigits_sf : forall w i, (i < 10 ^ N.of_nat w)%N -> stands_for w (udigits w i) i.
Proof.
  induction w as [|w IH]; intros i L.
  - cbn in L. replace i with 0%N by lia. constructor.
  - rewrite Nat2N.inj_succ, N.pow_succ_r' in L. cbn [udigits].
    pose proof (N.div_mod i 10 ltac:(lia)) as E. pose proof (N.mod_lt i 10 ltac:(lia)) as M.
    rewrite E at 3. constructor; [apply IH|lia|].
    + apply N.div_lt_upper_bound; lia.
    + rewrite N_ascii_embedding by lia. reflexivity.
Qed.
Lemma pl_nth i : (i < 10 ^ 10)%N -> nth_subscr i (pl_imsi i) (pl_msisdn (pl_imsi i)).
Proof. intros L. exists (udigits 10 i). split; [apply (udigits_sf 10); exact L|]. split; reflexivity. Qed.
Lemma nth_is i im ms : (i < 10 ^ 10)%N -> nth_subscr i im ms -> im = pl_imsi i /\ ms = pl_msisdn (pl_imsi i).
Proof.
  intros L (t & H & -> & ->). rewrite (sf_inj _ _ _ H _ (udigits_sf 10 i L)). split; reflexivity.
Qed.
Lemma app_inj : forall p a b, (p ++ a)%string = (p ++ b)%string -> a = b.
Proof. induction p as [|c p IH]; intros a b H; [exact H|]. cbn in H. injection H as H. auto. Qed.
Lemma pl_imsi_inj i j : (i < 10 ^ 10)%N -> (j < 10 ^ 10)%N -> pl_imsi i = pl_imsi j -> i = j.
Proof.
  intros Li Lj E. unfold pl_imsi in E. apply app_inj in E.
  pose proof (udigits_sf 10 i Li) as A. rewrite E in A. exact (sf_fun _ _ _ A _ (udigits_sf 10 j Lj)).
Qed.
Lemma pl_msisdn_inj i j : (i < 10 ^ 10)%N -> (j < 10 ^ 10)%N -> pl_msisdn (pl_imsi i) = pl_msisdn (pl_imsi j) -> i = j.
Proof.
  intros Li Lj E. unfold pl_msisdn in E. apply app_inj in E.
  change (udigits 10 i = udigits 10 j) in E.
  pose proof (udigits_sf 10 i Li) as A. rewrite E in A. exact (sf_fun _ _ _ A _ (udigits_sf 10 j Lj)).
Qed.
Lemma sf_digits w t i : stands_for w t i -> str_forall is_digit t = true.
Proof.
  induction 1 as [|w t i c k H IH K C]; [reflexivity|]. clear H. induction t as [|a t It]; cbn [append str_forall] in *.
  - rewrite andb_true_r. unfold is_digit, acode. apply andb_true_iff. rewrite !N.leb_le, C. lia.
  - apply andb_true_iff in IH as [-> IH]. cbn. auto.
Qed.

(** ** Rows are only added *)
Lemma added_refl d : only_added d d.
Proof. exists [], [], []. rewrite !app_nil_r. auto. Qed.
Lemma added_trans d e f : only_added d e -> only_added e f -> only_added d f.
Proof.
  intros (a & b & c & A & B & C & D) (a' & b' & c' & A' & B' & C' & D'). exists (a ++ a'), (b ++ b'), (c ++ c').
  rewrite A', B', C', A, B, C, D', D, <- !app_assoc. auto.
Qed.
Lemma base_added ok im p : only_added (p_db p) (p_db (pl_base ok im p)).
Proof.
  unfold pl_base. destruct (_ || _); [apply added_refl|]. eexists [_], [], []. cbn. rewrite !app_nil_r. auto.
Qed.
Lemma ins_2g_added ok r p : only_added (p_db p) (p_db (ins_2g ok r p)).
Proof. unfold ins_2g. destruct (_ || _); [apply added_refl|]. exists [], [r], []. cbn. rewrite !app_nil_r. auto. Qed.
Lemma ins_3g_added ok r p : only_added (p_db p) (p_db (ins_3g ok r p)).
Proof. unfold ins_3g. destruct (_ || _); [apply added_refl|]. exists [], [], [r]. cbn. rewrite !app_nil_r. auto. Qed.
Lemma subscr_added f im p : only_added (p_db p) (p_db (pl_subscr f im p)).
Proof.
  unfold pl_subscr. eapply added_trans; [apply base_added|]. eapply added_trans; [apply ins_3g_added|]. apply ins_2g_added.
Qed.
Lemma loop_more fs n m d : (n <= m)%nat -> only_added (p_db (pl_loop fs n d)) (p_db (pl_loop fs m d)).
Proof.
  intros L. induction L; [apply added_refl|]. eapply added_trans; [exact IHL|]. cbn [pl_loop]. apply subscr_added.
Qed.
Lemma c77_only_added fs ok k d : only_added d (populate fs ok k d) /\ (k <> None \/ ok = false -> populate fs ok k d = d).
Proof.
  unfold populate. destruct k; [split; auto using added_refl|]. destruct ok; [|split; auto using added_refl].
  split; [apply (loop_more fs 0 PL_COUNT d); lia|]. intros [A|A]; [destruct A; reflexivity|discriminate].
Qed.
