(** Proofs about authentication vectors (C11-C16). *)
From Verif Require Import Base PeerId Db DbSpec DbProofs DbThms DbThms2 DbThms3 Auth AuthSpec AuthThms.

(** ** arithmetic of sequence numbers *)
Lemma next_gt b q ind : (q < next_sqn b q ind)%N.
Proof.
  unfold next_sqn. set (B := (2 ^ Z.to_N b)%N). assert (HB : (B <> 0)%N) by (apply N.pow_nonzero; lia).
  pose proof (N.mul_succ_div_gt q B HB). nia.
Qed.
Lemma next_le b q ind : (ind < 2 ^ Z.to_N b)%N -> (next_sqn b q ind < q + 2 * 2 ^ Z.to_N b)%N.
Proof.
  unfold next_sqn. set (B := (2 ^ Z.to_N b)%N). assert (HB : (B <> 0)%N) by (apply N.pow_nonzero; lia).
  intros H. pose proof (N.mul_div_le q B HB). nia.
Qed.
Lemma next_mod b q ind : (next_sqn b q ind mod 2 ^ Z.to_N b = ind mod 2 ^ Z.to_N b)%N.
Proof.
  unfold next_sqn. set (B := (2 ^ Z.to_N b)%N). assert (HB : (B <> 0)%N) by (apply N.pow_nonzero; lia).
  rewrite N.add_comm, N.mod_add; auto.
Qed.
Lemma mod_mod_pow a x y : (x <= y)%N -> ((a mod 2 ^ y) mod 2 ^ x = a mod 2 ^ x)%N.
Proof.
  intros H. assert (Hx : (2 ^ x <> 0)%N) by (apply N.pow_nonzero; lia).
  assert (Hz : (2 ^ (y - x) <> 0)%N) by (apply N.pow_nonzero; lia).
  replace y with (x + (y - x))%N at 1 by lia. rewrite N.pow_add_r.
  rewrite N.mod_mul_r by auto. rewrite N.mul_comm, N.mod_add by auto. now apply N.mod_mod.
Qed.
(** numbers are generated modulo 2^48 consistently *)
Lemma next_mod48 b q ind : 0 <= b <= 28 ->
  (next_sqn b (q mod 2 ^ 48) ind mod 2 ^ 48 = next_sqn b q ind mod 2 ^ 48)%N.
Proof.
  intros Hb. unfold next_sqn. set (B := (2 ^ Z.to_N b)%N).
  assert (HB : (B <> 0)%N) by (apply N.pow_nonzero; lia).
  set (C := (2 ^ (48 - Z.to_N b))%N).
  assert (HC : (C <> 0)%N) by (apply N.pow_nonzero; lia).
  assert (E : (2 ^ 48 = B * C)%N) by (unfold B, C; rewrite <- N.pow_add_r; f_equal; lia).
  rewrite E, (N.mod_mul_r q B C) by auto. set (M := (B * C)%N).
  replace ((q mod B + B * ((q / B) mod C)) / B)%N with ((q / B) mod C)%N.
  2:{ rewrite N.mul_comm, N.div_add by auto. rewrite (N.div_small (q mod B) B); [lia|]. now apply N.mod_lt. }
  set (x := (q / B)%N).
  assert (HM : (M <> 0)%N) by (unfold M; lia).
  pose proof (N.div_mod x C HC) as D.
  replace ((x + 1) * B + ind)%N with (((x mod C) + 1) * B + ind + (x / C) * M)%N; [now rewrite N.mod_add|].
  unfold M. nia.
Qed.

Lemma increasing_app l1 l2 m :
  increasing l1 -> increasing l2 -> (forall x, In x l1 -> (x <= m)%N) -> (forall x, In x l2 -> (m < x)%N) ->
  increasing (l1 ++ l2).
Proof.
  induction 1 as [|x|x y l Hxy H IH]; intros H2 B1 B2; cbn; auto.
  - destruct l2 as [|y l2]; constructor; auto. specialize (B1 x (or_introl eq_refl)). specialize (B2 y (or_introl eq_refl)). lia.
  - constructor; auto. apply IH; auto. intros z Hz. apply B1. now right.
Qed.
Lemma increasing_cons x l : increasing l -> (forall y, In y l -> (x < y)%N) -> increasing (x :: l).
Proof. intros H B. destruct l; constructor; auto. apply B. now left. Qed.

(** ** the vector loop *)
Lemma gen_loop_plain cr f alg n : forall i g ua,
  sqn_contract cr alg f -> u_algo ua = alg -> (u_sqn ua + N.of_nat n * (2 * 2 ^ Z.to_N (u_bitlen ua)) < 2 ^ 48)%N ->
  exists vs q, gen_loop cr n i g (Some ua) None = (vs, Some q) /\
    (u_sqn ua <= q <= u_sqn ua + N.of_nat n * (2 * 2 ^ Z.to_N (u_bitlen ua)))%N /\
    increasing (sqns vs) /\ (forall x, In x (sqns vs) -> (u_sqn ua < x <= q)%N).
Proof.
  induction n as [|n IH]; intros i g ua Hc Ha Hb; cbn [gen_loop].
  { exists [], (u_sqn ua). repeat split; try constructor; try lia; destruct H. }
  set (W := (2 * 2 ^ Z.to_N (u_bitlen ua))%N) in *.
  assert (HW : (W <> 0)%N) by (unfold W; assert (2 ^ Z.to_N (u_bitlen ua) <> 0)%N by (apply N.pow_nonzero; lia); lia).
  destruct (c_rand cr i) as [rnd|].
  2:{ exists [], (u_sqn ua). repeat split; try constructor; try lia; destruct H. }
  replace (match i with O => c_gen3 cr ua rnd | S _ => c_gen3 cr ua rnd end) with (c_gen3 cr ua rnd) by (destruct i; auto).
  destruct (c_gen3 cr ua rnd) as [[v|] q0] eqn:Eg.
  2:{ apply (sc_gen_fail _ _ _ Hc) in Eg; auto. subst q0.
      exists [], (u_sqn ua). repeat split; try constructor; try lia; destruct H. }
  destruct (sc_gen _ _ _ Hc _ _ _ _ Ha Eg) as (Hi & Hq & Hs).
  pose proof (next_gt (u_bitlen ua) (u_sqn ua) (u_ind ua)) as G1.
  pose proof (next_le (u_bitlen ua) (u_sqn ua) (u_ind ua) Hi) as G2. fold W in G2.
  rewrite N.mod_small in Hq.
  2:{ assert (2 ^ 48 <= 2 ^ 64)%N by (apply N.pow_le_mono_r; lia). nia. }
  rewrite N.mod_small in Hs by nia.
  assert (Bq : (u_sqn ua < q0 <= u_sqn ua + W)%N) by lia.
  assert (Hb' : (u_sqn (with_sqn ua q0) + N.of_nat n * (2 * 2 ^ Z.to_N (u_bitlen (with_sqn ua q0))) < 2 ^ 48)%N)
    by (cbn [with_sqn u_sqn u_bitlen]; fold W; nia).
  assert (STEP : forall w, v_sqn w = v_sqn v ->
     exists vs q, (let '(vs, q') := gen_loop cr n (S i) g (Some (with_sqn ua q0)) None in (w :: vs, q')) = (vs, Some q) /\
       (u_sqn ua <= q <= u_sqn ua + N.of_nat (S n) * W)%N /\
       increasing (sqns vs) /\ (forall x, In x (sqns vs) -> (u_sqn ua < x <= q)%N)).
  { intros w Hw. destruct (IH (S i) g (with_sqn ua q0) Hc Ha Hb') as (vs & q & E & B1 & I1 & I2).
    rewrite E. exists (w :: vs), q. split; auto. cbn [with_sqn u_sqn u_bitlen] in *. fold W in B1.
    split; [nia|].
    assert (Es : sqns (w :: vs) = q0 :: sqns vs) by (unfold sqns; cbn [flat_map]; now rewrite Hw, Hs).
    rewrite Es. split.
    - apply increasing_cons; auto. intros y Hy. apply I2 in Hy. lia.
    - intros x [<-|Hx]; [lia|]. apply I2 in Hx. lia. }
  destruct g as [ga|]; [|now apply STEP].
  destruct (c_gen2 cr ga rnd) as [w|]; [now apply STEP|].
  exists [], q0. split; auto. split; [nia|]. split; [constructor|intros x []].
Qed.

(** ** running a request *)
Definition ask_3g (a : auc3_row) (u : aud3) (ind : N) (sep : bool) : aud3 :=
  mk_aud3 (u_algo u) (u_k u) (u_opc u) (u_is_op u) (a3_sqn a) (u_bitlen u) ind sep.

Lemma read_3g_fields a u : read_3g (Some a) = Some (Some u) ->
  u_algo u = a3_algo a /\ u_sqn u = a3_sqn a /\ u_bitlen u = a3_ind_bitlen a.
Proof.
  unfold read_3g. destruct (hexparse_stmt _ _ _); [|discriminate].
  destruct (a3_op a); destruct (hexparse_stmt _ _ _); try discriminate; intros E; inversion E; subst; cbn; auto.
Qed.

Lemma find_row {R} (key : R -> Z) (l : list R) id a :
  NoDup (map key l) -> In a l -> key a = id -> find (fun a => key a =? id) l = Some a.
Proof.
  intros Hn Ha <-. apply find_unique; auto; [apply Z.eqb_refl|].
  intros y Hy E. apply (NoDup_key_inj key l); auto. lia.
Qed.

(** set the number of [id] *)
Definition sqn_set (d : db) (id : Z) (q : N) : db := snd (exec (AUC_UPD_SQN q id) d).

(** every way a request for a known subscriber with a usable 3G key can end *)
Lemma auc_run_3g cr imsi ind n ra au sep c d id a :
  db_inv d -> keys_wellformed d -> is_subscriber d imsi id -> key3 d id a -> a3_algo a <> 0 ->
  let p := db_get_auc cr imsi ind n ra au sep in
  exists u res,
    read_3g (Some a) = Some (Some u) /\
    res = auc_compute_vectors cr n (read_2g (stored2 d id))
            (Some (mk_aud3 (u_algo u) (u_k u) (u_opc u) (u_is_op u) (u_sqn u) (u_bitlen u)
                           (ind mod 2 ^ Z.to_N (a3_ind_bitlen a)) sep)) ra au /\
    ((exists rc, run_out p c d = Fin (rc, []) /\ rc < 0 /\ run_db p c d = d) \/
     (run_out p c d = Crashed /\ run_db p c d = d) \/
     (run_out p c d = Fin (match res with Some (vs, _) => (Z.of_nat (length vs), vs) | None => (-1, []) end) /\
      run_db p c d = sqn_set d id (match res with Some (_, Some q) => q | _ => a3_sqn a end))).
Proof.
  intros Hd Hk Hs [Ha Eid] Hal p.
  destruct (find_by_imsi d imsi id Hd Hs) as (r & Hf & Er).
  assert (F3 : stored3 d id = Some a) by (apply (find_row a3_id); auto; apply Hd).
  destruct (read_3g_total d id Hk) as (u & Eu). rewrite F3 in Eu.
  assert (exists u', u = Some u') as (u' & ->).
  { revert Eu. unfold read_3g. destruct (hexparse_stmt _ _ _); [|discriminate].
    destruct (a3_op a); destruct (hexparse_stmt _ _ _); try discriminate; intros E; inversion E; eauto. }
  destruct (read_3g_fields a u' Eu) as (E1 & E2 & E3).
  exists u'. eexists. split; [exact Eu|]. split; [reflexivity|].
  destruct (proj2 Hk a Ha) as (_ & Hbl & _).
  assert (Em : mask_ind (u_bitlen u') ind = Some (ind mod 2 ^ Z.to_N (a3_ind_bitlen a))%N).
  { unfold mask_ind. rewrite E3. replace ((0 <=? a3_ind_bitlen a) && (a3_ind_bitlen a <? 32)) with true by lia.
    f_equal. rewrite <- N.land_ones. f_equal. rewrite N.ones_equiv. lia. }
  unfold p, db_get_auc, run_out, run_db.
  set (K := fun r : Z + auth_data => match r with inl rc => Ret (rc, []) | inr a => _ end).
  assert (First : forall c', run (do r <- db_get_auth_data imsi;; K r) c' d =
      match c' with
      | EvFail :: c'' => (Fin (- EIO, []), d, c'')
      | EvCrash :: c'' => (Crashed, d, c'')
      | EvOk :: c'' => run (K (inr (mk_auth (read_2g (stored2 d id)) (Some u') id))) c'' d
      | [] => run (K (inr (mk_auth (read_2g (stored2 d id)) (Some u') id))) [] d
      end).
  { intros c'. assert (EX : exec (AUC_BY_IMSI imsi) d = (RAuc id (stored2 d id) (Some a), d)).
    { cbn [exec]. rewrite Hf, Er. fold (stored2 d id) (stored3 d id). now rewrite F3. }
    assert (GG : forall c, run (match read_3g (Some a) with
        | None => Ret (inl (- EIO))
        | Some u => match read_2g (stored2 d id), u with
                    | None, None => Ret (inl (- ENOKEY))
                    | g, u => Ret (inr (mk_auth g u id))
                    end
        end) c d = (Fin (inr (mk_auth (read_2g (stored2 d id)) (Some u') id)), d, c)).
    { intros c0. rewrite Eu. destruct (read_2g _); reflexivity. }
    rewrite run_bind. unfold db_get_auth_data. cbn [run]. destruct c' as [|[] c'']; rewrite ?EX, ?GG; try reflexivity. }
  rewrite First. clear First.
  assert (Second : forall c', 
     let x := run (K (inr (mk_auth (read_2g (stored2 d id)) (Some u') id))) c' d in
     let res := auc_compute_vectors cr n (read_2g (stored2 d id))
            (Some (mk_aud3 (u_algo u') (u_k u') (u_opc u') (u_is_op u') (u_sqn u') (u_bitlen u')
                           (ind mod 2 ^ Z.to_N (a3_ind_bitlen a)) sep)) ra au in
     (fst (fst x) = Fin (-1, []) /\ snd (fst x) = d) \/
     (fst (fst x) = Crashed /\ snd (fst x) = d) \/
     (fst (fst x) = Fin (match res with Some (vs, _) => (Z.of_nat (length vs), vs) | None => (-1, []) end) /\
      snd (fst x) = sqn_set d id (match res with Some (_, Some q) => q | _ => a3_sqn a end))).
  { intros c'. subst K. cbn [ad_3g ad_2g ad_id]. cbv beta iota. rewrite Em. cbv zeta. cbn [u_algo u_sqn].
    replace (u_algo u' =? 0) with false by lia.
    set (res := auc_compute_vectors _ _ _ _ _ _). set (q := match res with Some (_, Some q) => q | _ => u_sqn u' end).
    replace (match res with Some (_, Some q) => q | _ => a3_sqn a end) with q by (unfold q; rewrite E2; destruct res as [[? []]|]; auto).
    set (ret := match res with Some (vs, _) => (Z.of_nat (length vs), vs) | None => (-1, []) end).
    rewrite run_bind. unfold db_update_sqn. cbn [run].
    assert (C1 : fst (exec (AUC_UPD_SQN q id) d) = RDone 1).
    { cbn. rewrite (cnt_upd_key a3_id); auto; [apply Hd|eauto]. }
    unfold sqn_set. destruct (exec (AUC_UPD_SQN q id) d) as [r0 d0]. cbn [fst snd] in *. subst r0.
    destruct c' as [|[] c'']; cbn; auto. }
  destruct c as [|[] c'']; cbn [fst snd].
  - destruct (Second []) as [[A B]|[A|A]]; auto. left. exists (-1). split; auto. split; auto. lia.
  - destruct (Second c'') as [[A B]|[A|A]]; auto. left. exists (-1). split; auto. split; auto. lia.
  - left. exists (- EIO). split; auto. split; auto. unfold EIO. lia.
  - auto.
Qed.

(** ** what a request can do to the database *)
Lemma auc_stmts (S : stmt -> Prop) cr imsi ind n ra au sep :
  S (AUC_BY_IMSI imsi) -> (forall q i, S (AUC_UPD_SQN q i)) -> all_stmts S (db_get_auc cr imsi ind n ra au sep).
Proof.
  intros H1 H2. unfold db_get_auc. apply all_stmts_bind.
  - cbn. split; auto. intros r. destruct r; cbn; auto. destruct (read_3g _) as [[]|]; cbn; auto; destruct (read_2g _); cbn; auto.
  - intros [rc|a]; cbn; auto. destruct (mask_ind _ _); cbn; auto.
    destruct (ad_3g a) as [u|]; cbn; auto. destruct (u_algo u =? 0); cbn; auto.
    split; auto. intros r. destruct (_ <? 0); cbn; auto.
Qed.

Lemma auc_run_any cr imsi ind n ra au sep c d :
  let p := db_get_auc cr imsi ind n ra au sep in
  run_db p c d = d \/ exists id q, is_subscriber d imsi id /\ run_db p c d = sqn_set d id q.
Proof.
  cbv zeta. unfold run_db, db_get_auc. rewrite run_bind.
  assert (E : forall c', exists o c'', run (db_get_auth_data imsi) c' d = (o, d, c'') /\
     match o with Fin (inr a) => is_subscriber d imsi (ad_id a) | _ => True end).
  { intros c'. unfold db_get_auth_data. cbn [run].
    assert (G : forall c'', exists o c3, run (match fst (exec (AUC_BY_IMSI imsi) d) with
        | RDone _ => Ret (inl (- ENOENT))
        | RAuc id a2 a3 =>
            match read_3g a3 with
            | None => Ret (inl (- EIO))
            | Some u => match read_2g a2, u with
                        | None, None => Ret (inl (- ENOKEY))
                        | g, u => Ret (inr (mk_auth g u id))
                        end
            end
        | _ => Ret (inl (- EIO))
        end) c'' (snd (exec (AUC_BY_IMSI imsi) d)) = (o, d, c3) /\
        match o with Fin (inr a) => is_subscriber d imsi (ad_id a) | _ => True end).
    { intros c''. cbn [exec]. destruct (find _ _) as [r|] eqn:Ef; cbn [fst snd].
      - apply find_some in Ef as [Hr Er]. unfold by_imsi in Er. apply String.eqb_eq in Er.
        destruct (read_3g _) as [[u|]|]; try destruct (read_2g _); cbn; eexists; eexists; (split; [reflexivity|]); cbn; auto; unfold is_subscriber; eauto.
      - cbn. eexists; eexists. split; [reflexivity|]. exact I. }
    destruct c' as [|[] c''].
    - specialize (G []). destruct (exec _ d). exact G.
    - specialize (G c''). destruct (exec _ d). exact G.
    - cbn. eexists; eexists. split; [reflexivity|]. exact I.
    - eexists; eexists. split; [reflexivity|]. exact I. }
  destruct (E c) as (o & c' & Eo & Ho). rewrite Eo.
  destruct o as [[rc|a]| |]; try (left; reflexivity).
  cbv beta iota zeta. destruct (mask_ind _ _); try (left; reflexivity).
  destruct (ad_3g a) as [u|]; cbn [u_algo]; [|left; reflexivity]. destruct (u_algo u =? 0); [left; reflexivity|].
  cbn [u_sqn]. set (q := match _ with Some (_, Some q) => q | _ => _ end). clearbody q.
  set (ret := match auc_compute_vectors _ _ _ _ _ _ with Some _ => _ | None => _ end). clearbody ret.
  rewrite run_bind. unfold db_update_sqn. cbn [run].
  assert (G : forall (r : res) (c1 : sched) (d1 : db), snd (fst (if upd_rc r <? 0 then (Fin (-1, @nil vec), d1, c1) else (Fin ret, d1, c1))) = d1)
    by (intros; destruct (_ <? 0); auto).
  destruct c' as [|[] c''].
  - right. exists (ad_id a), q. split; auto. unfold sqn_set. destruct (exec _ d) as [r0 d0]. cbn [run fst snd].
    destruct (upd_rc r0 <? 0); reflexivity.
  - right. exists (ad_id a), q. split; auto. unfold sqn_set. destruct (exec _ d) as [r0 d0]. cbn [run fst snd].
    destruct (upd_rc r0 <? 0); reflexivity.
  - left. cbn. reflexivity.
  - left. reflexivity.
Qed.

Definition tracked (d : db) (imsi : string) (id al b : Z) (q : N) : Prop :=
  is_subscriber d imsi id /\ exists a, key3 d id a /\ a3_algo a = al /\ a3_ind_bitlen a = b /\ a3_sqn a = q.

Definition stmt_keeps (id : Z) (s : stmt) : Prop :=
  match s with
  | DEL_BY_ID i | AUC_3G_DELETE i | AUC_UPD_SQN _ i => i <> id
  | _ => True
  end.

Lemma subscriber_upd d imsi id cond f :
  (forall r, s_id (f r) = s_id r /\ s_imsi (f r) = s_imsi r) ->
  is_subscriber d imsi id -> is_subscriber (snd (upd_sub cond f d)) imsi id.
Proof.
  intros Hf (r & Hr & E1 & E2). unfold upd_sub, is_subscriber. cbn.
  exists (if cond r then f r else r). split.
  - unfold upd. apply in_map_iff. exists r. auto.
  - destruct (cond r); auto. destruct (Hf r) as [-> ->]. auto.
Qed.

Lemma tracked_exec s d imsi id al b q : stmt_keeps id s -> tracked d imsi id al b q -> tracked (snd (exec s d)) imsi id al b q.
Proof.
  intros Hs [Hi (a & [Ha Ea] & Hp)].
  assert (U : forall cond f, (forall r, s_id (f r) = s_id r /\ s_imsi (f r) = s_imsi r) -> tracked (snd (upd_sub cond f d)) imsi id al b q).
  { intros cond f Hf. split; [now apply subscriber_upd|]. exists a. repeat split; tauto. }
  assert (T : tracked d imsi id al b q) by (split; auto; exists a; repeat split; tauto).
  destruct s; cbn [exec]; try exact T; try (apply U; intros []; cbn; auto);
    try (unfold sel; destruct (find _ _); exact T); try (destruct (existsb _ _); exact T).
  - split; auto. exists a. split; auto. split; auto. cbn. unfold upd. apply in_map_iff. exists a. split; auto.
    cbn in Hs. destruct (a3_id a =? id0) eqn:E; auto. lia.
  - destruct (existsb _ _); [exact T|]. split; [|exists a; repeat split; tauto].
    destruct Hi as (r & Hr & E). exists r. split; auto. cbn. apply in_or_app. auto.
  - split; [|exists a; repeat split; tauto]. destruct Hi as (r & Hr & E1 & E2). exists r. split; auto. cbn.
    unfold del. apply filter_In. split; auto. unfold by_id. cbn in Hs. apply negb_true_iff. lia.
  - destruct (_ && _); [exact T|]. apply U. intros []; cbn; auto.
  - destruct (existsb _ _); [exact T|]. split; auto. exists a. split; [|tauto]. split; auto. cbn. apply in_or_app. auto.
  - split; auto. exists a. split; [|tauto]. split; auto. cbn. apply (in_del a3_id). cbn in Hs. split; auto. congruence.
Qed.

Lemma api_stmt_keeps id a c : keeps_key id (OpApi a c) -> all_stmts (stmt_keeps id) (api_prog a).
Proof.
  intros H. destruct a; cbn [api_prog].
  - unfold db_subscr_create. destruct (imsi_valid imsi); cbn; auto.
  - cbn in H. unfold db_subscr_delete_by_id. cbn [all_stmts]. split; [exact H|].
    intros [| |n| | | |]; try exact I.
    apply all_stmts_bind.
    + destruct (aud_shape id0 (AudGsm ALG_NONE "")) as [[_ ->]|[_ ->]]; [|exact I].
      cbn. split; auto. intros r. destruct (_ && _); exact I.
    + intros rc2. apply all_stmts_bind; [|intros; exact I].
      destruct (aud_shape id0 (AudUmts ALG_NONE "" "" false 0)) as [[_ ->]|[_ ->]]; [|exact I].
      cbn. split; auto. intros r. destruct (_ && _); exact I.
  - destruct msisdn as [m|]; cbn; auto. destruct (msisdn_valid m); cbn; auto.
  - destruct (aud_shape id0 aud) as [[Hac ->]|[_ ->]]; [|exact I].
    destruct aud as [al ki|al k o b bl|]; cbn in H; [| |contradiction].
    + cbn. split; auto. intros r. destruct (_ && _); [exact I|]. unfold aud_ins_stmt. destruct (_ =? 0); cbn; auto.
    + cbn. split; auto. intros r. destruct (_ && _); [exact I|]. unfold aud_ins_stmt. destruct (_ =? 0); cbn; auto.
  - destruct imei as [m|]; cbn; auto. destruct (imei_valid14 m); cbn; auto.
  - destruct is_ps; cbn; auto.
  - destruct is_ps; cbn; auto.
  - unfold db_subscr_lu. destruct (ipa_cstr vlr); cbn; auto.
    destruct (lu_proxy via); cbn; auto.
    split; [destruct is_ps; exact I|]. intros r. destruct (upd_rc r =? 0); cbn; auto.
    destruct now; cbn; auto. split; [destruct is_ps; exact I|auto].
  - cbn; auto.
  - unfold db_ind. destruct (ind_vlr_name vlr); cbn; auto. split; auto.
    intros [| |n| | |i|]; cbn; auto; (split; [exact I|]); intros [| |m| | |j|]; cbn; auto;
      (split; [exact I|]); intros []; cbn; auto.
  - unfold db_ind_del. destruct (ind_vlr_name vlr); cbn; auto.
  - cbn. split; auto. intros []; cbn; auto. destruct (sub_of_row _ _); cbn; auto.
  - cbn. split; auto. intros []; cbn; auto. destruct (sub_of_row _ _); cbn; auto.
  - cbn. split; auto. intros []; cbn; auto. destruct (sub_of_row _ _); cbn; auto.
  - cbn. split; auto. intros []; cbn; auto. destruct (sub_of_row _ _); cbn; auto.
  - cbn; auto.
  - cbn; auto.
Qed.

Lemma id_of_imsi d imsi imsi' id id' : db_inv d -> is_subscriber d imsi id -> is_subscriber d imsi' id' -> imsi <> imsi' -> id <> id'.
Proof.
  intros Hd (r & Hr & E1 & E2) (r' & Hr' & E1' & E2') N E. apply N.
  assert (r = r') by (apply (NoDup_key_inj s_id (d_sub d)); auto; [apply Hd|congruence]). congruence.
Qed.

Lemma set_tracked d imsi id al b q0 q : tracked d imsi id al b q0 -> tracked (sqn_set d id q) imsi id al b q.
Proof.
  intros [Hi (a & [Ha Ea] & E1 & E2 & E3)]. split; [exact Hi|].
  eexists. split; [split|].
  - cbn. unfold upd. apply in_map_iff. exists a. split; [|exact Ha]. rewrite (proj2 (Z.eqb_eq _ _) Ea). reflexivity.
  - cbn. exact Ea.
  - cbn. auto.
Qed.

Lemma op_inv imsi d o : db_inv d /\ keys_wellformed d -> db_inv (fst (op_step imsi d o)) /\ keys_wellformed (fst (op_step imsi d o)).
Proof.
  intros [H1 H2]. destruct o as [a c|cr i ind n ra au sep c]; cbn [op_step fst].
  - split; [apply (run_inv db_inv stmt_ok)|apply (run_inv keys_wellformed stmt_keys_ok)]; auto using inv_exec, keys_exec, api_stmts_ok, api_keys_ok.
  - split; [apply (run_inv db_inv stmt_ok)|apply (run_inv keys_wellformed stmt_keys_ok)]; auto using inv_exec, keys_exec;
      apply auc_stmts; cbn; auto.
Qed.

Lemma step_inc imsi d o id al b q :
  db_inv d -> keys_wellformed d -> al <> 0 -> tracked d imsi id al b q ->
  keeps_key id o -> plain_request imsi al o ->
  (q + asked imsi o * (2 * 2 ^ Z.to_N b) < 2 ^ 48)%N ->
  exists q', tracked (fst (op_step imsi d o)) imsi id al b q' /\
    (q <= q' <= q + asked imsi o * (2 * 2 ^ Z.to_N b))%N /\
    increasing (sqns (snd (op_step imsi d o))) /\ (forall x, In x (sqns (snd (op_step imsi d o))) -> (q < x <= q')%N).
Proof.
  intros Hd Hk Hal HT Hkk Hpl Hb. destruct o as [a c|cr i ind n ra au sep c]; cbn [op_step fst snd asked] in *.
  - exists q. split; [|split; [lia|split; [constructor|intros x []]]].
    unfold run_db. apply (run_inv (fun d => tracked d imsi id al b q) (stmt_keeps id)); auto.
    + intros s d0. apply tracked_exec.
    + eapply api_stmt_keeps; eauto.
  - destruct (String.eqb_spec i imsi) as [->|Hne].
    + destruct (Hpl eq_refl) as (-> & f & Hcon).
      destruct HT as [Hi (a & Hka & E1 & E2 & E3)].
      assert (HT : tracked d imsi id al b q) by (split; auto; exists a; auto).
      destruct (auc_run_3g cr imsi ind n ra None sep c d id a Hd Hk Hi Hka ltac:(congruence)) as (u & res & Eu & Er & Hrun).
      destruct (read_3g_fields a u Eu) as (F1 & F2 & F3).
      destruct Hrun as [(rc & Eo & _ & ->)|[[Eo ->]|[Eo ->]]]; rewrite Eo.
      * exists q. split; auto. split; [lia|]. split; [constructor|intros x []].
      * exists q. split; auto. split; [lia|]. split; [constructor|intros x []].
      * destruct res as [[vs oq]|].
        2:{ exists (a3_sqn a). split; [eapply set_tracked; eauto|]. rewrite E3. split; [lia|]. split; [constructor|intros x []]. }
        symmetry in Er. unfold auc_compute_vectors in Er. cbn [use_3g u_algo] in Er.
        replace (u_algo u =? ALG_NONE) with false in Er by (unfold ALG_NONE; lia).
        set (ua := mk_aud3 _ _ _ _ _ _ _ _) in Er.
        assert (Eg : gen_loop cr n 0 (use_2g (read_2g (stored2 d id))) (Some ua) None = (vs, oq)).
        { destruct (use_2g _); destruct ra; try discriminate Er; injection Er; auto. }
        destruct (gen_loop_plain cr f al n 0 (use_2g (read_2g (stored2 d id))) ua Hcon) as (vs' & q' & Eg' & B & I1 & I2).
        { cbn. congruence. }
        { cbn. rewrite F2, F3, E2, E3. exact Hb. }
        rewrite Eg in Eg'. injection Eg' as -> ->. cbn [ua u_sqn u_bitlen] in B, I2. rewrite F2, F3, E2, E3 in B. rewrite F2, E3 in I2.
        exists q'. split; [eapply set_tracked; eauto|]. auto.
    + exists q. split; [|split; [lia|split; [constructor|intros x []]]].
      destruct (auc_run_any cr i ind n ra au sep c d) as [->|(id' & q' & Hs' & ->)]; auto.
      apply tracked_exec; auto. cbn. intros E. subst id'.
      exact (id_of_imsi d i imsi id id Hd Hs' (proj1 HT) Hne eq_refl).
Qed.

Lemma sqns_app l1 l2 : sqns (l1 ++ l2) = sqns l1 ++ sqns l2.
Proof. unfold sqns. apply flat_map_app. Qed.

Lemma hist_inc imsi h : forall d id al b q,
  db_inv d -> keys_wellformed d -> al <> 0 -> tracked d imsi id al b q ->
  Forall (keeps_key id) h -> Forall (plain_request imsi al) h ->
  (q + total_asked imsi h * (2 * 2 ^ Z.to_N b) < 2 ^ 48)%N ->
  exists q', tracked (fst (op_hist imsi d h)) imsi id al b q' /\
    (q <= q' <= q + total_asked imsi h * (2 * 2 ^ Z.to_N b))%N /\
    increasing (sqns (snd (op_hist imsi d h))) /\ (forall x, In x (sqns (snd (op_hist imsi d h))) -> (q < x <= q')%N).
Proof.
  induction h as [|o h IH]; intros d id al b q Hd Hk Hal HT Hf Hp Hb.
  - exists q. cbn. split; auto. split; [lia|]. split; [constructor|intros x []].
  - inversion Hf as [|? ? F1 F2]; subst. inversion Hp as [|? ? P1 P2]; subst.
    change (total_asked imsi (o :: h)) with (asked imsi o + total_asked imsi h)%N in *.
    set (W := (2 * 2 ^ Z.to_N b)%N) in *.
    destruct (step_inc imsi d o id al b q Hd Hk Hal HT F1 P1) as (q1 & T1 & B1 & I1 & J1); [fold W; nia|].
    fold W in B1. destruct (op_inv imsi d o (conj Hd Hk)) as [Hd1 Hk1].
    cbn [op_hist]. destruct (op_step imsi d o) as [d1 vs1]. cbn [fst snd] in *.
    destruct (IH d1 id al b q1 Hd1 Hk1 Hal T1 F2 P2) as (q2 & T2 & B2 & I2 & J2); [fold W; nia|]. fold W in B2.
    destruct (op_hist imsi d1 h) as [d2 vs2]. cbn [fst snd] in *.
    exists q2. split; auto. split; [nia|]. rewrite sqns_app. split.
    + apply increasing_app with (m := q1); auto; intros x Hx; [apply J1 in Hx|apply J2 in Hx]; lia.
    + intros x Hx. apply in_app_or in Hx as [Hx|Hx]; [apply J1 in Hx|apply J2 in Hx]; lia.
Qed.

Lemma c11_increasing imsi h d id a :
  db_ok d -> keys_wellformed d -> is_subscriber d imsi id -> key3 d id a -> a3_algo a <> 0 ->
  Forall (keeps_key id) h -> Forall (plain_request imsi (a3_algo a)) h ->
  (a3_sqn a + total_asked imsi h * (2 * 2 ^ Z.to_N (a3_ind_bitlen a)) < 2 ^ 48)%N ->
  increasing (sqns (snd (op_hist imsi d h))) /\
  (forall x, In x (sqns (snd (op_hist imsi d h))) -> (a3_sqn a < x)%N).
Proof.
  intros Hd Hk Hs Ha Hal Hf Hp Hb. apply db_ok_inv in Hd.
  destruct (hist_inc imsi h d id (a3_algo a) (a3_ind_bitlen a) (a3_sqn a) Hd Hk Hal) as (q & _ & _ & I & J); auto.
  { split; auto. exists a. auto. }
  split; auto. intros x Hx. apply J in Hx. lia.
Qed.

Lemma increasing_nodup l : increasing l -> NoDup l.
Proof.
  assert (G : forall l x, increasing (x :: l) -> forall y, In y l -> (x < y)%N).
  { clear l. induction l as [|z l IH]; intros x H y [].
    - subst. now inversion H.
    - inversion H; subst. specialize (IH z H5 y H0). lia. }
  induction l as [|x l IH]; intros H; constructor.
  - intros Hx. specialize (G l x H x Hx). lia.
  - apply IH. inversion H; subst; auto. constructor.
Qed.
