(** Requests for authentication data (C13, C17). *)
From Verif Require Import Base PeerId Db DbSpec DbProofs DbThms DbThms2 DbThms3 Auth AuthSpec AuthThms AuthThms2 AuthThms3 AuthThms4 Gsup Router Hlr PeerSpec PeerThms HlrSpec HlrThms RouterThms HlrThms2 HlrThms3 HlrStep HlrThms4.

Definition fails_with (cr : crypto) (g : option aud2) (u : option aud3) (j : nat) : Prop :=
  (g = None /\ u = None) \/ round_fails cr j.
(** one vector per round; the list ends where a round fails *)
Lemma gen_loop_len cr n : forall i g u rs, (length (fst (gen_loop cr n i g u rs)) < n)%nat ->
  fails_with cr g u (i + length (fst (gen_loop cr n i g u rs))).
Proof.
  unfold fails_with, round_fails. induction n as [|n IH]; intros i g u rs; [cbn; lia|].
  cbn [gen_loop]. destruct (c_rand cr i) as [rnd|] eqn:R.
  2:{ intros _. right. destruct u; cbn; rewrite Nat.add_0_r, R; exact I. }
  destruct u as [ua|].
  - destruct (match i, rs with O, Some (a, r) => c_auts cr ua a r rnd | _, _ => c_gen3 cr ua rnd end) as [ov q] eqn:E.
    destruct ov as [v|].
    2:{ intros _. right. cbn. rewrite Nat.add_0_r, R. destruct i; [destruct rs as [[a r]|]|]; [right; left; exists ua, a, r|left; exists ua|left; exists ua]; rewrite E; reflexivity. }
    destruct g as [ga|].
    + destruct (c_gen2 cr ga rnd) as [w|] eqn:G.
      2:{ intros _. right. cbn. rewrite Nat.add_0_r, R. right; right. eauto. }
      specialize (IH (S i) (Some ga) (Some (with_sqn ua q)) rs). destruct (gen_loop cr n (S i) _ _ rs) as [vs q']. cbn [fst length] in *.
      intros H. destruct IH as [[? _]|IH]; [lia|discriminate|]. right. replace (i + S (length vs))%nat with (S i + length vs)%nat by lia. auto.
    + specialize (IH (S i) None (Some (with_sqn ua q)) rs). destruct (gen_loop cr n (S i) _ _ rs) as [vs q']. cbn [fst length] in *.
      intros H. destruct IH as [[_ ?]|IH]; [lia|discriminate|]. right. replace (i + S (length vs))%nat with (S i + length vs)%nat by lia. auto.
  - destruct g as [ga|]; [|auto]. destruct (c_gen2 cr ga rnd) as [w|] eqn:G.
    2:{ intros _. right. cbn. rewrite Nat.add_0_r, R. right; right. eauto. }
    specialize (IH (S i) (Some ga) None rs). destruct (gen_loop cr n (S i) _ _ rs) as [vs q']. cbn [fst length] in *.
    intros H. destruct IH as [[? _]|IH]; [lia|discriminate|]. right. replace (i + S (length vs))%nat with (S i + length vs)%nat by lia. auto.
Qed.


(** what is read from the key tables *)
Lemma read2_spec d id : db_inv d -> keys_wellformed d ->
  match read_2g (stored2 d id) with
  | Some g => exists a, key2 d id a /\ a2_algo a = g_algo g
  | None => ~ has_auc2 d id
  end.
Proof.
  intros Hd [K _]. unfold stored2, has_auc2, key2. destruct (find _ _) as [a|] eqn:F.
  - apply find_some in F as [I E]. destruct (read_2g_row a (K a I)) as (l & _ & _ & ->). exists a. repeat split; auto. lia.
  - cbn. intros (a & I & E). apply (find_none _ _ F) in I. lia.
Qed.
Lemma read3_spec d id : db_inv d -> keys_wellformed d ->
  match read_3g (stored3 d id) with
  | Some (Some u) => exists a, key3 d id a /\ a3_algo a = u_algo u /\ u_bitlen u = a3_ind_bitlen a
  | Some None => ~ has_auc3 d id
  | None => False
  end.
Proof.
  intros Hd K. destruct (read_3g_total d id K) as (u & E). rewrite E. revert E. unfold stored3, has_auc3, key3. destruct (find _ _) as [a|] eqn:F.
  - apply find_some in F as [I E]. intros R. destruct u as [u|].
    + destruct (read_3g_fields _ _ R) as (A & B & C). exists a. repeat split; auto. lia.
    + exfalso. unfold read_3g in R. destruct (hexparse_stmt _ _ _); [|discriminate]. destruct (a3_op a); destruct (hexparse_stmt _ _ _); discriminate.
  - intros [= <-] (a & I & E). apply (find_none _ _ F) in I. lia.
Qed.
Lemma uses2_iff d id : db_inv d -> keys_wellformed d -> (uses_2g d id <-> use_2g (read_2g (stored2 d id)) <> None).
Proof.
  intros Hd K. pose proof (read2_spec d id Hd K) as R. unfold uses_2g. destruct (read_2g (stored2 d id)) as [g|]; cbn.
  - destruct R as (a & [I E] & A). unfold ALG_NONE. destruct (g_algo g =? 0) eqn:Z0.
    + split; [|tauto]. intros (a' & [I' E'] & N). assert (a' = a) by (apply (NoDup_key_inj a2_id (d_auc2 d)); auto; [apply Hd|congruence]). subst. lia.
    + split; [discriminate|]. intros _. exists a. repeat split; auto. lia.
  - split; [|tauto]. intros (a & [I E] & _). exfalso. apply R. exists a. auto.
Qed.
Lemma uses3_iff d id u : db_inv d -> keys_wellformed d -> read_3g (stored3 d id) = Some u -> (uses_3g d id <-> use_3g u <> None).
Proof.
  intros Hd K Ru. pose proof (read3_spec d id Hd K) as R. rewrite Ru in R. unfold uses_3g. destruct u as [u|]; cbn.
  - destruct R as (a & [I E] & A & _). unfold ALG_NONE. destruct (u_algo u =? 0) eqn:Z0.
    + split; [|tauto]. intros (a' & [I' E'] & N). assert (a' = a) by (apply (NoDup_key_inj a3_id (d_auc3 d)); auto; [apply Hd|congruence]). subst. lia.
    + split; [discriminate|]. intros _. exists a. repeat split; auto. lia.
  - split; [|tauto]. intros (a & [I E] & _). exfalso. apply R. exists a. auto.
Qed.

(** when the computation is refused, and what it gives else *)
Lemma compute_cases cr n g u ra au :
  match auc_compute_vectors cr n g u ra au with
  | None => (use_2g g = None /\ use_3g u = None) \/ is_some ra <> is_some au \/ (is_some ra = true /\ use_3g u = None)
  | Some (vs, _) => (use_2g g <> None \/ use_3g u <> None) /\ ((length vs < n)%nat -> round_fails cr (length vs))
  end.
Proof.
  unfold auc_compute_vectors. set (g' := use_2g g). set (u' := use_3g u).
  pose proof (gen_loop_len cr n 0 g' u') as L. unfold fails_with in L.
  destruct g' as [g'|], u' as [u'|], ra as [ra|], au as [au|]; cbn [is_some]; auto; try (right; left; discriminate);
  match goal with |- context [gen_loop _ _ _ _ _ ?rs] => specialize (L rs); destruct (gen_loop cr n 0 _ _ rs) as [vs q] end;
  cbn [fst] in L; (split; [|intros H; destruct (L H) as [[? ?]|]; [discriminate|]; auto]); try (left; discriminate); right; discriminate.
Qed.

Lemma gen_loop_max cr n : forall i g u rs, (length (fst (gen_loop cr n i g u rs)) <= n)%nat.
Proof.
  induction n as [|n IH]; intros i g u rs; cbn [gen_loop]; [cbn; lia|].
  destruct (c_rand cr i) as [rnd|]; [|destruct u; cbn; lia]. destruct u as [ua|].
  - destruct (match i with O => _ | S _ => _ end) as [[v|] q]; [|cbn; lia].
    specialize (IH (S i) g (Some (with_sqn ua q)) rs). destruct g as [ga|]; [destruct (c_gen2 cr ga rnd); [|cbn; lia]|];
    destruct (gen_loop cr n (S i) _ _ rs); cbn [fst length] in *; lia.
  - destruct g as [ga|]; [|cbn; lia]. destruct (c_gen2 cr ga rnd); [|cbn; lia]. specialize (IH (S i) (Some ga) None rs).
    destruct (gen_loop cr n (S i) _ _ rs); cbn [fst length] in *; lia.
Qed.
Lemma compute_len cr n g u ra au : match auc_compute_vectors cr n g u ra au with Some (vs, _) => (length vs <= n)%nat | None => True end.
Proof.
  unfold auc_compute_vectors. pose proof (gen_loop_max cr n 0 (use_2g g) (use_3g u)) as L.
  destruct (use_2g g) as [g'|], (use_3g u) as [u'|], ra as [ra|], au as [au|]; cbn [is_some]; auto;
  match goal with |- context [gen_loop _ _ _ _ _ ?rs] => specialize (L rs); destruct (gen_loop cr n 0 _ _ rs) as [vs q] end; exact L.
Qed.
Definition auc_refused (d : db) (id : Z) (ra au : option (list N)) : Prop :=
  is_some ra <> is_some au \/ (is_some ra = true /\ ~ uses_3g d id) \/ (~ uses_2g d id /\ ~ uses_3g d id).
(** every way a request for vectors can end *)
Definition auc_end cr d imsi n ra au (fault : Prop) (rc : Z) (vs : list vec) : Prop :=
  (rc = Z.of_nat (length vs) /\ (0 < length vs <= n)%nat /\ (exists id, is_subscriber d imsi id /\ (uses_2g d id \/ uses_3g d id)) /\
   ((length vs < n)%nat -> round_fails cr (length vs))) \/
  (vs = [] /\
   ((rc = - ENOENT /\ ~ has_imsi d imsi) \/
    (rc = - ENOKEY /\ exists id, is_subscriber d imsi id /\ ~ has_auc2 d id /\ ~ has_auc3 d id) \/
    (rc = 0 /\ (exists id, is_subscriber d imsi id) /\ round_fails cr 0) \/
    ((rc = - EIO \/ rc = -1) /\ (fault \/ exists id, is_subscriber d imsi id /\ auc_refused d id ra au)))).

Lemma auc_end_in cr d imsi n ra au (F G : Prop) rc vs : (F -> G) -> auc_end cr d imsi n ra au F rc vs -> auc_end cr d imsi n ra au G rc vs.
Proof. unfold auc_end. intros H [|]; tauto. Qed.

Lemma auc_cases cr imsi ind n ra au sep c d o d' c' : db_inv d -> keys_wellformed d -> (0 < n)%nat ->
  run (db_get_auc cr imsi ind n ra au sep) c d = (o, d', c') ->
  o <> Ub /\ forall rc vs, o = Fin (rc, vs) -> auc_end cr d imsi n ra au (In EvFail c) rc vs.
Proof.
  intros Hd K Hn. unfold db_get_auc.
  set (KK := fun r : Z + auth_data => match r with inl rc => Ret (rc, @nil vec) | inr a => _ end).
  rewrite run_bind. unfold db_get_auth_data. cbn [run].
  pose (RD := fun r : res => match r with RDone _ => Ret (inl (- ENOENT)) | RAuc id a2 a3 => match read_3g a3 with None => Ret (inl (- EIO)) | Some u => match read_2g a2, u with None, None => Ret (inl (- ENOKEY)) | g, u => Ret (inr (mk_auth g u id)) end end | _ => Ret (inl (- EIO)) end). fold RD.
  assert (OK : forall c1, (forall x, In x c1 -> In x c) ->
     (let '(o1, d1, c2) := (let '(r, d2) := exec (AUC_BY_IMSI imsi) d in run (RD r) c1 d2) in
        match o1 with Fin a => run (KK a) c2 d1 | Crashed => (Crashed, d1, c2) | Ub => (Ub, d1, c2) end) = (o, d', c') ->
     o <> Ub /\ forall rc vs, o = Fin (rc, vs) -> auc_end cr d imsi n ra au (In EvFail c) rc vs).
  { intros c1 Sub. cbn [exec]. destruct (find (by_imsi imsi) (d_sub d)) as [r|] eqn:Fi.
    2:{ cbn. intros [= <- <- <-]. split; [discriminate|]. intros rc vs [= <- <-]. right. split; auto. left. split; auto.
        intros (r & I & E). apply (find_none _ _ Fi) in I. unfold by_imsi in I. rewrite E, String.eqb_refl in I. discriminate. }
    apply find_some in Fi as [Ir Er]. apply String.eqb_eq in Er.
    assert (IS : is_subscriber d imsi (s_id r)) by (exists r; auto). set (id := s_id r) in *.
    fold (stored2 d id) (stored3 d id). cbn [RD].
    pose proof (read2_spec d id Hd K) as R2. pose proof (read3_spec d id Hd K) as R3.
    pose proof (uses2_iff d id Hd K) as U2. pose proof (fun u => uses3_iff d id u Hd K) as U3.
    destruct (read_3g (stored3 d id)) as [u|]; [|contradiction]. specialize (U3 u eq_refl).
    set (g := read_2g (stored2 d id)) in *.
    assert (MAIN : run (KK (inr (mk_auth g u id))) c1 d = (o, d', c') ->
      o <> Ub /\ forall rc vs, o = Fin (rc, vs) -> auc_end cr d imsi n ra au (In EvFail c) rc vs).
    { subst KK. cbn [ad_3g ad_2g ad_id].
    assert (M : exists i, mask_ind (match u with Some u => u_bitlen u | None => 0 end) ind = Some i).
    { unfold mask_ind. destruct u as [u|]; [|eexists; reflexivity]. destruct R3 as (a & [Ia _] & _ & ->).
      destruct (proj2 K a Ia) as (_ & B & _). replace ((0 <=? a3_ind_bitlen a) && (a3_ind_bitlen a <? 32)) with true by lia. eauto. }
    destruct M as (i & ->). cbv zeta.
    set (uu := match u with Some u => Some (mk_aud3 _ _ _ _ _ _ _ _) | None => None end).
    assert (Uuu : use_3g uu = None <-> use_3g u = None).
    { unfold uu. destruct u as [u|]; cbn; [|tauto]. destruct (u_algo u =? ALG_NONE); split; auto; discriminate. }
    pose proof (compute_cases cr n g uu ra au) as CC.
    set (res := auc_compute_vectors cr n g uu ra au) in *.
    set (ret := match res with Some (vs, _) => (Z.of_nat (length vs), vs) | None => (-1, []) end).
    assert (NN2 : use_2g g = None <-> ~ uses_2g d id) by (rewrite U2; destruct (use_2g g); split; intros H; try discriminate; try (exfalso; apply H; discriminate); tauto).
    assert (NN3 : use_3g u = None <-> ~ uses_3g d id) by (rewrite U3; destruct (use_3g u); split; intros H; try discriminate; try (exfalso; apply H; discriminate); tauto).
    assert (LEN : match res with Some (vs, _) => (length vs <= n)%nat | None => True end).
    { pose proof (compute_len cr n g uu ra au) as L. fold res in L. exact L. }
    assert (RET : auc_end cr d imsi n ra au (In EvFail c) (fst ret) (snd ret)).
    { unfold ret. destruct res as [[vs q]|]; cbn [fst snd].
      - destruct CC as [CU CF]. destruct vs as [|v vs].
        + right. split; auto. right; right; left. split; [reflexivity|]. split; [eauto|]. apply CF. cbn. lia.
        + left. split; auto. split; [cbn [length] in *; lia|]. split; auto. exists id. split; auto. rewrite U2, U3. rewrite Uuu in CU. exact CU.
      - right. split; auto. right; right; right. split; auto. right. exists id. split; auto. unfold auc_refused.
        rewrite <- NN2, <- NN3, <- Uuu. tauto. }
    assert (P : forall c1, run (Ret ret) c1 d = (o, d', c') -> o <> Ub /\ forall rc vs, o = Fin (rc, vs) -> auc_end cr d imsi n ra au (In EvFail c) rc vs).
    { intros c2. cbn. intros [= <- <- <-]. split; [discriminate|]. intros rc vs [= E]. rewrite E in RET. exact RET. }
    unfold uu at 1. destruct u as [u|]; [|apply P]. cbn [u_algo]. destruct (u_algo u =? 0) eqn:A0; [apply P|].
    rewrite run_bind. unfold db_update_sqn. cbn [run u_sqn].
    set (q := match res with Some (_, Some q) => q | _ => u_sqn u end).
    destruct R3 as (a & [Ia Ea] & _).
    assert (C1 : fst (exec (AUC_UPD_SQN q id) d) = RDone 1).
    { cbn. rewrite (cnt_upd_key a3_id); auto; [apply Hd|eauto]. }
    destruct (exec (AUC_UPD_SQN q id) d) as [r0 d0]. cbn [fst snd] in *. subst r0.
    assert (Q : forall c1, run (Ret ret) c1 d0 = (o, d', c') -> o <> Ub /\ forall rc vs, o = Fin (rc, vs) -> auc_end cr d imsi n ra au (In EvFail c) rc vs).
    { intros c2. cbn. intros [= <- <- <-]. split; [discriminate|]. intros rc vs [= E]. rewrite E in RET. exact RET. }
    destruct c1 as [|[] c1]; [apply Q|apply Q| |].
    - cbn. intros [= <- <- <-]. split; [discriminate|]. intros rc vs [= <- <-]. right. split; auto. right; right; right. split; auto.
      left. apply Sub. now left.
    - intros [= <- <- <-]. split; [discriminate|]. intros rc vs [=]. }
    destruct g as [g0|], u as [u0|]; try exact MAIN.
    cbn. intros [= <- <- <-]. split; [discriminate|]. intros rc vs [= <- <-].
    right. split; auto. right; left. split; auto. exists id. auto. }
  destruct c as [|[] c1].
  - apply OK. auto.
  - apply OK. intros x I. now right.
  - cbn. intros [= <- <- <-]. split; [discriminate|]. intros rc vs [= <- <-]. right. split; auto. right; right; right. split; [auto|left; now left].
  - intros [= <- <- <-]. split; [discriminate|]. intros rc vs [=].
Qed.

(** * The request as a whole *)
(** the sequence number is all that changes in the key tables *)
Lemma sqn_same d id q : let d' := sqn_set d id q in
  d_sub d' = d_sub d /\ d_ind d' = d_ind d /\ (forall i, has_auc2 d' i <-> has_auc2 d i) /\ (forall i, has_auc3 d' i <-> has_auc3 d i) /\
  (forall i, uses_2g d' i <-> uses_2g d i) /\ (forall i, uses_3g d' i <-> uses_3g d i).
Proof.
  cbv zeta. split; [reflexivity|]. split; [reflexivity|]. split; [intros; apply iff_refl|].
  set (f := fun a => if a3_id a =? id then mk_auc3 (a3_id a) (a3_algo a) (a3_k a) (a3_op a) (a3_opc a) q (a3_ind_bitlen a) else a).
  assert (E : d_auc3 (sqn_set d id q) = map f (d_auc3 d)) by reflexivity.
  assert (Fi : forall a, a3_id (f a) = a3_id a) by (intros a; unfold f; destruct (_ =? _); auto).
  assert (Fa : forall a, a3_algo (f a) = a3_algo a) by (intros a; unfold f; destruct (_ =? _); auto).
  split; [|split; [intros; apply iff_refl|]]; intros i; unfold has_auc3, uses_3g, key3; rewrite E; split.
  - intros (a & I & Ei). apply in_map_iff in I as (b & <- & I). exists b. rewrite Fi in Ei. auto.
  - intros (a & I & Ei). exists (f a). rewrite Fi. split; auto. apply in_map. auto.
  - intros (a & [I Ei] & N). apply in_map_iff in I as (b & <- & I). exists b. rewrite Fi in Ei. rewrite Fa in N. auto.
  - intros (a & [I Ei] & N). exists (f a). rewrite Fi, Fa. split; auto. split; auto. apply in_map. auto.
Qed.

Lemma num_vectors_ok g n : (1 <= n <= num_vectors g)%nat -> vectors_allowed g n.
Proof.
  unfold num_vectors, vectors_allowed, MAX_AUTH_INFO. change (Z.of_nat 5) with 5.
  destruct (0 <? x_nvec (g_x g)) eqn:E1; destruct (x_nvec (g_x g) <=? 5) eqn:E2; cbn [andb]; intros H; (split; [|intros B]); lia.
Qed.
Lemma num_vectors_pos g : (0 < num_vectors g)%nat.
Proof. unfold num_vectors, MAX_AUTH_INFO. destruct ((0 <? x_nvec (g_x g)) && (x_nvec (g_x g) <=? Z.of_nat 5)) eqn:E; lia. Qed.

Lemma cod_fine k w imsi c d : fine d -> fine (run_db (create_on_demand k w imsi) c d).
Proof. apply fine_run; apply cod_stmts; cbn; auto. Qed.
Lemma ind_fine p c d : fine d -> fine (run_db (db_ind p) c d).
Proof. apply fine_run; apply ind_stmts; cbn; auto. Qed.
Lemma run_dbE {A} (p : prog A) c d o d' c' : run p c d = (o, d', c') -> run_db p c d = d'.
Proof. unfold run_db. intros ->. reflexivity. Qed.
Lemma run_outE {A} (p : prog A) c d o d' c' : run p c d = (o, d', c') -> run_out p c d = o.
Proof. unfold run_out. intros ->. reflexivity. Qed.
(** what the request leaves of the subscriber table *)
Definition sai_subs (k : cfg) (w : world) (d : db) (imsi : string) (d' : db) : Prop :=
  d_sub d' = d_sub d \/
  (k_cod k <> CodOff /\ ~ has_imsi d imsi /\
   exists id m, ~ has_id d id /\ d_sub d' = d_sub d ++ [cod_row k imsi m id] /\ (m = None \/ cod_number k w d imsi m)).

Lemma sai_run k w s q c d s' o d' c' : fine d -> g_type (q_gsup q) = MSGT_SEND_AUTH_INFO_REQUEST ->
  run (dispatch k w s q) c d = (Fin (s', o), d', c') ->
  s' = s /\ sai_subs k w d (g_imsi (q_gsup q)) d' /\ exists r, o = [OResp (q_nr q) r true (tx k s q r)] /\
    sai_answer k (w_crypto w) d' (In EvFail c) (q_gsup q) r /\
    (g_type r = MSGT_SEND_AUTH_INFO_RESULT ->
       ((length (x_vecs (g_x r)) < num_vectors (q_gsup q))%nat -> round_fails (w_crypto w) (length (x_vecs (g_x r)))) /\
       exists d2 d3 c2 c3 ind rc, run (db_get_auc (w_crypto w) (g_imsi (q_gsup q)) ind (num_vectors (q_gsup q)) (x_rand (g_x (q_gsup q))) (x_auts (g_x (q_gsup q)))
                            (x_rat (g_x (q_gsup q)) =? RAT_EUTRAN_SGS)) c2 d2 = (Fin (rc, x_vecs (g_x r)), d3, c3)).
Proof.
  intros F T. unfold dispatch. rewrite T, Z.eqb_refl. unfold same, rx_send_auth_info. set (g := q_gsup q) in *.
  intros R. apply fin_bind in R as (o1 & dx & cx & R & R'). apply fin_ret in R' as ([= -> ->] & -> & ->). split; auto.
  apply fin_bind in R as (rc0 & d1 & c1 & R1 & R). apply fin_bind in R as ([rc1 i] & d2 & c2 & R2 & R).
  apply fin_bind in R as ([rc vs] & d3 & c3 & R3 & R). apply fin_ret in R as (-> & -> & ->).
  pose proof (run_rest _ _ _ _ _ _ R1) as S1. pose proof (run_rest _ _ _ _ _ _ R2) as S2.
  assert (F1 : fine d1) by (rewrite <- (run_dbE _ _ _ _ _ _ R1); apply cod_fine; auto).
  assert (F2 : fine d2) by (rewrite <- (run_dbE _ _ _ _ _ _ R2); apply ind_fine; auto).
  assert (B1 : d_sub d2 = d_sub d1).
  { destruct (ind_run_spec (q_src q) c1 d1) as [X _]. rewrite (run_dbE _ _ _ _ _ _ R2) in X. destruct X as [->|(v & _ & _ & ->)]; reflexivity. }
  destruct (auc_cases _ _ _ _ _ _ _ _ _ _ _ _ (proj1 F2) (proj2 F2) (num_vectors_pos g) R3) as [_ AE]. specialize (AE _ _ eq_refl).
  assert (SM : d_sub d3 = d_sub d2 /\ (forall i, has_auc2 d3 i <-> has_auc2 d2 i) /\ (forall i, has_auc3 d3 i <-> has_auc3 d2 i) /\
    (forall i, uses_2g d3 i <-> uses_2g d2 i) /\ (forall i, uses_3g d3 i <-> uses_3g d2 i)).
  { destruct (auc_run_any (w_crypto w) (g_imsi g) (if rc1 =? 0 then i else 0%N) (num_vectors g) (x_rand (g_x g)) (x_auts (g_x g)) (x_rat (g_x g) =? RAT_EUTRAN_SGS) c2 d2) as [X|(id & q0 & _ & X)];
    rewrite (run_dbE _ _ _ _ _ _ R3) in X; rewrite X; [split; [auto|]; split; [|split; [|split]]; intros; apply iff_refl|].
    destruct (sqn_same d2 id q0) as (A & _ & B). split; auto. }
  destruct SM as (M1 & M2 & M3 & M4 & M5).
  split.
  { unfold sai_subs. rewrite M1, B1. destruct (cod_run _ _ _ _ _ _ _ _ R1) as [_ [->|(A & _ & B & id & m & C & -> & D)]]; auto.
    right. split; auto. split; auto. exists id, m. auto. }
  assert (SUB : forall im id, is_subscriber d2 im id -> is_subscriber d3 im id) by (unfold is_subscriber; rewrite M1; auto).
  assert (IM : forall im, has_imsi d3 im <-> has_imsi d2 im) by (unfold has_imsi; rewrite M1; intros; apply iff_refl).
  assert (RQ : is_request (g_type (q_gsup q)) = true) by (fold g; rewrite T; reflexivity).
  assert (TE : to_error (g_type (q_gsup q)) = 9) by (fold g; rewrite T; reflexivity).
  destruct AE as [(-> & L & (id & Is & U) & FL)|(-> & AE)].
  - replace (Z.of_nat (length vs) <=? 0) with false by lia. rewrite Nat2Z.id, firstn_all.
    set (m := with_ext (msg0 MSGT_SEND_AUTH_INFO_RESULT) _).
    destruct (respond_plain_out (tx k s) q m false true MSGT_SEND_AUTH_INFO_RESULT) as (r & Ro & Ty & Ca & Xt); [repeat split|reflexivity|discriminate|].
    exists r. split; [exact Ro|]. assert (V : x_vecs (g_x r) = vs) by (rewrite Xt; reflexivity). rewrite V. split.
    + apply sai_vectors with id; auto; [rewrite V; apply num_vectors_ok; lia|]. rewrite M4, M5. auto.
    + intros _. split; auto. exists d2, d3, c2, c3, (if rc1 =? 0 then i else 0%N), (Z.of_nat (length vs)). auto.
  - assert (NEG : rc <= 0) by (unfold ENOENT, ENOKEY, EIO in AE; lia).
    replace (rc <=? 0) with true by lia.
    destruct (respond_err_out (tx k s) q (if (rc =? 0) || (rc =? - ENOKEY) then CAUSE_IMSI_UNKNOWN else if rc =? - ENOENT then k_reject k else CAUSE_NET_FAIL) RQ)
      as (r & Ro & Ty & Ca & Xt).
    exists r. split; [exact Ro|]. rewrite TE in Ty. assert (V : x_vecs (g_x r) = []) by (rewrite Xt; reflexivity).
    split; [|rewrite Ty; intros X; discriminate X].
    destruct AE as [(-> & N)|[(-> & id & Is & N2 & N3)|[(-> & (id & Is) & RF)|(E & RS)]]].
    + apply sai_unknown; auto. rewrite IM. auto.
    + apply sai_no_keys with id; auto; rewrite ?M2, ?M3; auto.
    + apply sai_none_made with id; auto.
    + apply sai_internal; auto.
      * destruct RS as [RS|(id & Is & RS)]; [left; auto|right]. exists id. split; auto. unfold unservable. rewrite M4, M5. exact RS.
      * rewrite Ca. destruct E as [->| ->]; reflexivity.
Qed.

Lemma sai_step k s d w c g f s' d' o : inv s -> fine d -> for_us k (t_srv s) c g -> g_type g = MSGT_SEND_AUTH_INFO_REQUEST ->
  no_crash f -> step k (s, d) (w, ERx c g, f) = Some (s', d', o) ->
  exists r co, o = [ORx (t_nr s) c g; OResp (t_nr s) r true co] /\
    sai_answer k (w_crypto w) d' (In EvFail f) g r /\ sai_subs k w d (g_imsi g) d' /\ t_lus s' = t_lus s /\ t_ss s' = t_ss s.
Proof.
  intros H F U T NC E. destruct (rx_step _ _ _ _ _ _ _ _ _ _ H U E) as (s1 & q & R & [(o' & f' & -> & Rn)|(_ & _ & C & _)]); [|destruct (NC C)].
  rewrite <- (rr_gsup _ _ _ _ _ _ R) in T. destruct (sai_run _ _ _ _ _ _ _ _ _ _ F T Rn) as (-> & Sb & r & -> & A & _).
  exists r, (tx k s1 q r). rewrite (rr_nr _ _ _ _ _ _ R), (rr_gsup _ _ _ _ _ _ R) in *. split; auto. split; auto. split; auto.
  split; [apply (rr_lus _ _ _ _ _ _ R)|apply (rr_ss _ _ _ _ _ _ R)].
Qed.

(** ** the vectors are those of the first rounds *)
Lemma gen_loop_nth cr n : forall i g u rs j v, nth_error (fst (gen_loop cr n i g u rs)) j = Some v -> round_gives cr (i + j) v.
Proof.
  induction n as [|n IH]; intros i g u rs j v; cbn [gen_loop]; [destruct j; discriminate|].
  destruct (c_rand cr i) as [rnd|] eqn:R; [|destruct u; destruct j; discriminate]. destruct u as [ua|].
  - destruct (match i with O => _ | S _ => _ end) as [[v3|] q] eqn:E; [|destruct j; discriminate].
    assert (G3 : c_gen3 cr ua rnd = (Some v3, q) \/ exists a r, c_auts cr ua a r rnd = (Some v3, q)) by (destruct i; [destruct rs as [[a r]|]|]; eauto).
    specialize (IH (S i) g (Some (with_sqn ua q)) rs). destruct g as [ga|]; [destruct (c_gen2 cr ga rnd) as [w2|] eqn:G2; [|destruct j; discriminate]|];
    destruct (gen_loop cr n (S i) _ _ rs) as [vs q']; cbn [fst] in *; (destruct j as [|j]; [cbn; intros [= <-]|cbn; intros N; replace (i + S j)%nat with (S i + j)%nat by lia; auto]);
    rewrite Nat.add_0_r; exists rnd; (split; [auto|]); right; exists ua, v3, q; (split; [auto|]); auto.
    right. exists ga, w2. cbn. auto 10.
  - destruct g as [ga|]; [|destruct j; discriminate]. destruct (c_gen2 cr ga rnd) as [w2|] eqn:G2; [|destruct j; discriminate].
    specialize (IH (S i) (Some ga) None rs). destruct (gen_loop cr n (S i) _ _ rs) as [vs q']; cbn [fst] in *.
    destruct j as [|j]; [cbn; intros [= <-]|cbn; intros N; replace (i + S j)%nat with (S i + j)%nat by lia; auto].
    rewrite Nat.add_0_r. exists rnd. split; auto. left. eauto.
Qed.
Lemma compute_nth cr n g u ra au vs q j v : auc_compute_vectors cr n g u ra au = Some (vs, q) -> nth_error vs j = Some v -> round_gives cr j v.
Proof.
  unfold auc_compute_vectors. pose proof (gen_loop_nth cr n 0 (use_2g g) (use_3g u)) as L.
  destruct (use_2g g) as [g'|], (use_3g u) as [u'|], ra as [ra|], au as [au|]; cbn [is_some]; try discriminate; intros E; injection E as E;
  match type of E with gen_loop _ _ _ _ _ ?rs = _ => specialize (L rs j v); rewrite E in L end; exact L.
Qed.
Lemma auc_nth cr imsi ind n ra au sep c d rc vs d' c' : run (db_get_auc cr imsi ind n ra au sep) c d = (Fin (rc, vs), d', c') ->
  forall j v, nth_error vs j = Some v -> round_gives cr j v.
Proof.
  intros R. apply run_outE in R. revert c d rc vs R.
  assert (G : all_rets (fun x : Z * list vec => forall j v, nth_error (snd x) j = Some v -> round_gives cr j v) (db_get_auc cr imsi ind n ra au sep)).
  { unfold db_get_auc. apply all_rets_bind.
    assert (N : forall z, (fun x : Z * list vec => forall j v, nth_error (snd x) j = Some v -> round_gives cr j v) (z, [])) by (cbn; intros z [] v; discriminate).
    apply all_rets_true. intros [rc|a]; [exact (N rc)|]. destruct (mask_ind _ _) as [i|]; [|exact I]. cbv zeta.
    set (u := match ad_3g a with Some _ => _ | None => _ end). clearbody u.
    pose proof (compute_nth cr n (ad_2g a) u ra au) as L.
    assert (Rt : (fun x : Z * list vec => forall j v, nth_error (snd x) j = Some v -> round_gives cr j v)
        (match auc_compute_vectors cr n (ad_2g a) u ra au with Some (vs, _) => (Z.of_nat (length vs), vs) | None => (-1, []) end)).
    { destruct (auc_compute_vectors cr n (ad_2g a) u ra au) as [[vs q]|]; [|apply (N (-1))]. cbn. intros j v. eapply L; eauto. }
    destruct u as [u|]; [|exact Rt]. destruct (u_algo u =? 0); [exact Rt|].
    apply all_rets_bind, all_rets_true. intros r. destruct (r <? 0); [exact (N (-1))|exact Rt]. }
  intros c d rc vs R. exact (all_rets_run _ _ G _ _ _ R).
Qed.

Lemma asked_num g n : asked g n -> n = num_vectors g.
Proof.
  unfold asked, num_vectors, MAX_AUTH_INFO. change (Z.of_nat 5) with 5.
  destruct (0 <? x_nvec (g_x g)) eqn:E1; destruct (x_nvec (g_x g) <=? 5) eqn:E2; cbn [andb]; lia.
Qed.

Lemma c13_step k s d w c g f s' d' o : inv s -> fine d -> for_us k (t_srv s) c g -> g_type g = MSGT_SEND_AUTH_INFO_REQUEST ->
  no_crash f -> step k (s, d) (w, ERx c g, f) = Some (s', d', o) ->
  exists r co, o = [ORx (t_nr s) c g; OResp (t_nr s) r true co] /\
    (g_type r = MSGT_SEND_AUTH_INFO_RESULT \/ (g_type r = 9 /\ x_vecs (g_x r) = [])) /\
    (g_type r = MSGT_SEND_AUTH_INFO_RESULT ->
      vectors_allowed g (length (x_vecs (g_x r))) /\
      (forall j v, nth_error (x_vecs (g_x r)) j = Some v -> round_gives (w_crypto w) j v) /\
      (forall n, asked g n -> length (x_vecs (g_x r)) = n \/ ((length (x_vecs (g_x r)) < n)%nat /\ round_fails (w_crypto w) (length (x_vecs (g_x r)))))).
Proof.
  intros H F U T NC E. destruct (rx_step _ _ _ _ _ _ _ _ _ _ H U E) as (s1 & q & R & [(o' & f' & -> & Rn)|(_ & _ & C & _)]); [|destruct (NC C)].
  rewrite <- (rr_gsup _ _ _ _ _ _ R) in T. destruct (sai_run _ _ _ _ _ _ _ _ _ _ F T Rn) as (-> & Sb & r & -> & A & V).
  exists r, (tx k s1 q r). rewrite (rr_nr _ _ _ _ _ _ R), (rr_gsup _ _ _ _ _ _ R) in *. split; auto. split; [destruct A; auto|].
  intros Ty. destruct (V Ty) as (V1 & d2 & d3 & c2 & c3 & ind & rc & Ra). split; [destruct A as [? ? ?|T9|? T9|? T9|T9]; auto; rewrite Ty in T9; discriminate T9|].
  split; [exact (auc_nth _ _ _ _ _ _ _ _ _ _ _ _ _ Ra)|].
  intros n An. apply asked_num in An. subst n. destruct (auc_count _ _ _ _ _ _ _ _ _ _ _ (run_outE _ _ _ _ _ _ Ra)) as [L _].
  destruct (Nat.eq_dec (length (x_vecs (g_x r))) (num_vectors g)) as [->|N]; [auto|right]. split; [lia|apply V1; lia].
Qed.
(** under the contract every vector is filled in, with the random number of its round *)
Lemma round_filled cr j v : fill_contract cr -> round_gives cr j v -> exists rnd, c_rand cr j = Some rnd /\ v_rand v = rnd /\ (v_gsm v = true \/ v_umts v = true).
Proof.
  intros [F2 F3 Fa] (rnd & R & [(g & G)|(u & v3 & q & G3 & X)]); exists rnd; split; auto.
  - destruct (F2 _ _ _ G). auto.
  - assert (A : v_rand v3 = rnd /\ v_umts v3 = true) by (destruct G3 as [G3|(a & r & G3)]; eauto).
    destruct X as [->|(g & w & G2 & E)]; [tauto|]. destruct E as (-> & _ & _ & _ & _ & -> & _). tauto.
Qed.
