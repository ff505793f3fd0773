(** Proofs about the content of authentication vectors (C16). *)
From Verif Require Import Base PeerId Db DbSpec DbProofs DbThms DbThms2 DbThms3 Auth AuthSpec AuthThms AuthThms2 AuthThms3.

Definition made_of (cr : crypto) (g : option aud2) (u : option aud3) (v : vec) : Prop :=
  match u with
  | Some ua =>
      exists rnd q0 q v3,
        (c_gen3 cr (with_sqn ua q0) rnd = (Some v3, q) \/ exists au ra, c_auts cr (with_sqn ua q0) au ra rnd = (Some v3, q)) /\
        match g with
        | None => v = v3
        | Some ga => exists w, c_gen2 cr ga rnd = Some w /\ v = merge_2g v3 w
        end
  | None => match g with Some ga => exists rnd, c_gen2 cr ga rnd = Some v | None => False end
  end.

Lemma with_sqn_id u : with_sqn u (u_sqn u) = u.
Proof. now destruct u. Qed.

Lemma gen_loop_made cr n : forall i g u rs, Forall (made_of cr g u) (fst (gen_loop cr n i g u rs)).
Proof.
  induction n as [|n IH]; intros i g [ua|] rs; [constructor|constructor| |].
  - rewrite gen_loop_3g. destruct (c_rand cr i) as [rnd|]; [|constructor].
    destruct (gen3_step cr i rs ua rnd) as [[v|] q] eqn:E; [|constructor].
    assert (Hv : c_gen3 cr (with_sqn ua (u_sqn ua)) rnd = (Some v, q) \/ exists au ra, c_auts cr (with_sqn ua (u_sqn ua)) au ra rnd = (Some v, q)).
    { rewrite with_sqn_id. unfold gen3_step in E. destruct i; auto. destruct rs as [[]|]; eauto. }
    assert (IH' := IH (S i) g (Some (with_sqn ua q)) rs).
    assert (IH2 : Forall (made_of cr g (Some ua)) (fst (gen_loop cr n (S i) g (Some (with_sqn ua q)) rs))) by exact IH'.
    destruct (gen_loop cr n (S i) g (Some (with_sqn ua q)) rs) as [vs q'].
    destruct g as [ga|].
    + destruct (c_gen2 cr ga rnd) as [w|] eqn:Eg; [|constructor]. constructor; auto.
      exists rnd, (u_sqn ua), q, v. split; auto. exists w. auto.
    + constructor; auto. exists rnd, (u_sqn ua), q, v. auto.
  - cbn [gen_loop]. destruct (c_rand cr i) as [rnd|]; [|constructor]. destruct g as [ga|]; [|constructor].
    destruct (c_gen2 cr ga rnd) as [w|] eqn:Eg; [|constructor].
    assert (IH' := IH (S i) (Some ga) None rs). destruct (gen_loop cr n (S i) (Some ga) None rs) as [vs q'].
    constructor; auto. exists rnd. auto.
Qed.

(** a request that yields vectors found the subscriber and usable data *)
Lemma auc_vs cr imsi ind n ra au sep c d rc vs :
  run_out (db_get_auc cr imsi ind n ra au sep) c d = Fin (rc, vs) -> vs <> [] ->
  exists id u, is_subscriber d imsi id /\ read_3g (stored3 d id) = Some u /\
    Forall (made_of cr (use_2g (read_2g (stored2 d id)))
                    (use_3g (match u with
                             | Some u => Some (mk_aud3 (u_algo u) (u_k u) (u_opc u) (u_is_op u) (u_sqn u) (u_bitlen u)
                                                       (opt_default 0%N (mask_ind (u_bitlen u) ind)) sep)
                             | None => None
                             end))) vs.
Proof.
  intros H Hvs. unfold run_out, db_get_auc in H. rewrite run_bind in H.
  assert (F : exists c' o, run (db_get_auth_data imsi) c d = (o, d, c') /\
     match o with Fin (inr a) => exists u, is_subscriber d imsi (ad_id a) /\ read_3g (stored3 d (ad_id a)) = Some u /\
        ad_2g a = read_2g (stored2 d (ad_id a)) /\ ad_3g a = u | _ => True end).
  { clear H. unfold db_get_auth_data. cbn [run]. destruct c as [|[] c'].
    1,2: cbn [exec]; destruct (find _ _) as [r|] eqn:Ef; [|cbn; eexists; eexists; split; [reflexivity|exact I]].
    1,2: apply find_some in Ef as [Hr Er]; unfold by_imsi in Er; apply String.eqb_eq in Er;
        fold (stored2 d (s_id r)) (stored3 d (s_id r));
        destruct (read_3g (stored3 d (s_id r))) as [[u|]|] eqn:E3; [| |cbn; eexists; eexists; split; [reflexivity|exact I]];
        destruct (read_2g (stored2 d (s_id r))) eqn:E2; cbn; eexists; eexists; (split; [reflexivity|]); cbn; try exact I;
        eexists; rewrite E2, E3; repeat split; auto; exists r; auto.
    - cbn. eexists; eexists; split; [reflexivity|exact I].
    - eexists; eexists; split; [reflexivity|exact I]. }
  destruct F as (c' & o & Eo & Ho). rewrite Eo in H. destruct o as [[z|a]| |]; try discriminate H.
  { injection H as _ H. congruence. }
  destruct Ho as (u & Hs & E3 & E2 & Eu). exists (ad_id a), u. split; auto. split; auto.
  rewrite Eu in H. rewrite E2 in H.
  destruct (mask_ind _ ind) as [m|] eqn:Em; [|discriminate H]. cbv zeta in H.
  set (u' := match u with Some u => Some (mk_aud3 _ _ _ _ _ _ m sep) | None => None end) in H.
  replace (match u with Some u => Some _ | None => None end) with u'.
  2:{ unfold u'. destruct u; auto. now rewrite Em. }
  assert (X : exists q, auc_compute_vectors cr n (read_2g (stored2 d (ad_id a))) u' ra au = Some (vs, q)).
  { set (res := auc_compute_vectors _ _ _ _ _ _) in *.
    assert (Y : match res with Some (vs, _) => (Z.of_nat (length vs), vs) | None => (-1, []) end = (rc, vs) ->
                exists q, res = Some (vs, q)).
    { destruct res as [[x y]|]; intros E; injection E; intros; subst; eauto. congruence. }
    destruct u' as [ua|]; [|apply Y; cbn in H; congruence].
    destruct (u_algo ua =? 0); [apply Y; cbn in H; congruence|].
    rewrite run_bind in H. destruct (run (db_update_sqn _ _) c' d) as [[[z| |] d2] c2]; try discriminate H.
    destruct (z <? 0); cbn in H; [injection H as _ H; congruence|apply Y; congruence]. }
  destruct X as (q & X). unfold auc_compute_vectors in X.
  pose proof (gen_loop_made cr n 0 (use_2g (read_2g (stored2 d (ad_id a)))) (use_3g u')) as G.
  destruct (use_2g (read_2g (stored2 d (ad_id a)))), (use_3g u') as [u3|], ra as [ra|], au as [au|]; cbn [is_some] in X; try discriminate X;
    injection X as X;
    match type of X with gen_loop _ _ _ _ _ ?rs = _ => specialize (G rs) end; rewrite X in G; exact G.
Qed.

(** usable 2G / 3G key of a subscriber *)
Definition usable2 (d : db) (id : Z) (algo : Z) (ki : list N) : Prop :=
  exists r, key2 d id r /\ a2_algo r = algo /\ algo <> 0 /\ spells (a2_ki r) ki.
Definition usable3 (d : db) (id : Z) (u : aud3) : Prop :=
  exists r o, key3 d id r /\ a3_algo r = u_algo u /\ u_algo u <> 0 /\ spells (a3_k r) (u_k u) /\ spells o (u_opc u) /\
    (if u_is_op u then a3_op r = Some o else a3_opc r = Some o) /\ u_bitlen u = a3_ind_bitlen r.

Lemma c16_content cr imsi ind n ra au sep c d id rc vs :
  db_ok d -> keys_wellformed d -> is_subscriber d imsi id ->
  run_out (db_get_auc cr imsi ind n ra au sep) c d = Fin (rc, vs) ->
  Forall (fun v =>
    (exists u rnd q v3, usable3 d id u /\
       (c_gen3 cr u rnd = (Some v3, q) \/ exists a r, c_auts cr u a r rnd = (Some v3, q)) /\
       ((~ (exists al ki, usable2 d id al ki) /\ v = v3) \/
        (exists al ki w, usable2 d id al ki /\ c_gen2 cr (mk_aud2 al ki) rnd = Some w /\
           v_rand v = v_rand v3 /\ v_autn v = v_autn v3 /\ v_ck v = v_ck v3 /\ v_ik v = v_ik v3 /\ v_res v = v_res v3 /\
           v_umts v = v_umts v3 /\ v_kc v = v_kc w /\ v_sres v = v_sres w /\ v_gsm v = true)))
    \/
    (~ (exists u, usable3 d id u) /\
     exists al ki rnd, usable2 d id al ki /\ c_gen2 cr (mk_aud2 al ki) rnd = Some v)) vs.
Proof.
  intros Hd Hk Hs H. apply db_ok_inv in Hd.
  destruct vs as [|v0 vs0]; [constructor|]. set (vs := v0 :: vs0) in *.
  destruct (auc_vs _ _ _ _ _ _ _ _ _ _ _ H) as (id' & u & Hs' & E3 & Hm); [discriminate|].
  assert (id' = id) as ->.
  { destruct Hs as (r & A & B & C), Hs' as (r' & A' & B' & C').
    assert (r = r') by (apply (NoDup_key_inj s_imsi (d_sub d)); auto; [apply Hd|congruence]). congruence. }
  (* 2G *)
  assert (G2 : match use_2g (read_2g (stored2 d id)) with
               | Some g => usable2 d id (g_algo g) (g_ki g)
               | None => ~ exists al ki, usable2 d id al ki
               end).
  { unfold stored2. destruct (find _ (d_auc2 d)) as [r|] eqn:Ef.
    - apply find_some in Ef as [Hr Er]. destruct (read_2g_row r (proj1 Hk r Hr)) as (l & Sl & _ & ->). cbn.
      unfold ALG_NONE. destruct (a2_algo r =? 0) eqn:E0.
      + intros (al & ki & r' & [Hr' Er'] & A & B & _).
        assert (r' = r) by (apply (NoDup_key_inj a2_id (d_auc2 d)); auto; [apply Hd|lia]). subst. lia.
      + exists r. split; [split; auto; lia|]. cbn. split; auto. split; [lia|auto].
    - cbn. intros (al & ki & r' & [Hr' Er'] & _). apply (find_none _ _ Ef) in Hr'. lia. }
  (* 3G *)
  assert (G3 : match use_3g u with
               | Some u => forall q i s, usable3 d id (mk_aud3 (u_algo u) (u_k u) (u_opc u) (u_is_op u) q (u_bitlen u) i s)
               | None => ~ exists u, usable3 d id u
               end).
  { unfold stored3 in E3. destruct (find _ (d_auc3 d)) as [r|] eqn:Ef.
    - apply find_some in Ef as [Hr Er].
      assert (X : exists k o b, u = Some (mk_aud3 (a3_algo r) k o b (a3_sqn r) (a3_ind_bitlen r) 0 false) /\
                  exists os, spells (a3_k r) k /\ spells os o /\ (if b then a3_op r = Some os else a3_opc r = Some os)).
      { destruct (proj2 Hk r Hr) as (Hkk & _ & [(o & A & B & C)|(o & A & B & C)]).
        - destruct (read_3g_row r _ o true Hkk C eq_refl A) as (lk & lo & S1 & S2 & Er3); [discriminate|].
          rewrite Er3 in E3. injection E3 as <-. exists lk, lo, true. split; auto. exists o. auto.
        - destruct (read_3g_row r _ o false Hkk C eq_refl A) as (lk & lo & S1 & S2 & Er3); [auto|].
          rewrite Er3 in E3. injection E3 as <-. exists lk, lo, false. split; auto. exists o. auto. }
      destruct X as (k & o & b & -> & os & S1 & S2 & S3). cbn [use_3g u_algo]. unfold ALG_NONE.
      destruct (a3_algo r =? 0) eqn:E0.
      + intros (u & r' & o' & [Hr' Er'] & A & B & _).
        assert (r' = r) by (apply (NoDup_key_inj a3_id (d_auc3 d)); auto; [apply Hd|lia]). subst. lia.
      + intros q i s. exists r, os. cbn. split; [split; auto; lia|]. repeat split; auto; lia.
    - injection E3 as <-. cbn. intros (u & r' & o' & [Hr' Er'] & _). apply (find_none _ _ Ef) in Hr'. lia. }
  revert Hm. apply Forall_impl. intros v Hv. unfold made_of in Hv.
  destruct u as [u|]; cbn [use_3g u_algo] in *.
  - destruct (u_algo u =? ALG_NONE) eqn:E0.
    + right. split; auto. destruct (use_2g _) as [g|]; [|contradiction]. destruct Hv as (rnd & Hv).
      exists (g_algo g), (g_ki g), rnd. split; auto. now destruct g.
    + left. destruct Hv as (rnd & q0 & q & v3 & Hv3 & Hg).
      eexists _, rnd, q, v3. split; [|split; [exact Hv3|]]; [apply G3|].
      destruct (use_2g _) as [g|].
      * destruct Hg as (w & Hw & ->). right. exists (g_algo g), (g_ki g), w. split; auto. split; [now destruct g|]. cbn. auto 10.
      * left. auto.
  - right. split; auto. destruct (use_2g _) as [g|]; [|contradiction]. destruct Hv as (rnd & Hv).
    exists (g_algo g), (g_ki g), rnd. split; auto. now destruct g.
Qed.

(** what the two kinds of generator return (libosmocore: auth_types of the vector) *)
Definition types_contract (cr : crypto) : Prop :=
  (forall u rnd v q, c_gen3 cr u rnd = (Some v, q) -> v_umts v = true) /\
  (forall u a r rnd v q, c_auts cr u a r rnd = (Some v, q) -> v_umts v = true) /\
  (forall g rnd v, c_gen2 cr g rnd = Some v -> v_umts v = false).

Lemma c16_umts_iff cr imsi ind n ra au sep c d id rc vs :
  db_ok d -> keys_wellformed d -> is_subscriber d imsi id -> types_contract cr ->
  run_out (db_get_auc cr imsi ind n ra au sep) c d = Fin (rc, vs) ->
  forall v, In v vs -> (v_umts v = true <-> exists u, usable3 d id u).
Proof.
  intros Hd Hk Hs (T1 & T2 & T3) H v Hv.
  pose proof (c16_content _ _ _ _ _ _ _ _ _ _ _ _ Hd Hk Hs H) as G. rewrite Forall_forall in G.
  destruct (G v Hv) as [(u & rnd & q & v3 & Hu & Hg & Hx)|(Hn & al & ki & rnd & _ & Hg)].
  - assert (v_umts v3 = true) by (destruct Hg as [Hg|(a & r & Hg)]; eauto).
    split; [eauto|intros _]. destruct Hx as [[_ ->]|(al & ki & w & Hx)]; auto. destruct Hx as (_ & _ & _ & _ & _ & _ & _ & -> & _). auto.
  - apply T3 in Hg. split; [congruence|contradiction].
Qed.

(** a malformed 3G record makes the request fail; a malformed 2G record counts as absent *)
Lemma c16_malformed_3g cr imsi ind n ra au sep c d id a :
  db_ok d -> is_subscriber d imsi id -> key3 d id a -> (forall l, hexparse_stmt 16 32 (Some (a3_k a)) <> Some l) ->
  run_db (db_get_auc cr imsi ind n ra au sep) c d = d /\
  forall rc vs, run_out (db_get_auc cr imsi ind n ra au sep) c d = Fin (rc, vs) -> vs = [] /\ rc < 0.
Proof.
  intros Hd Hs [Ha Ea] Hbad. apply db_ok_inv in Hd.
  destruct (find_by_imsi d imsi id Hd Hs) as (r & Hf & Er).
  assert (F3 : stored3 d id = Some a) by (apply (find_row a3_id); auto; apply Hd).
  assert (EX : exec (AUC_BY_IMSI imsi) d = (RAuc id (stored2 d id) (Some a), d)).
  { cbn [exec]. rewrite Hf, Er. fold (stored2 d id) (stored3 d id). now rewrite F3. }
  assert (R : read_3g (Some a) = None).
  { unfold read_3g. destruct (hexparse_stmt _ _ _) eqn:E; auto. now destruct (Hbad l). }
  unfold run_db, run_out, db_get_auc. rewrite run_bind. unfold db_get_auth_data. cbn [run].
  destruct c as [|[] c']; rewrite ?EX; cbv beta iota; rewrite ?R; cbn; split; auto; intros rc vs E; try discriminate E; injection E as <- <-; auto; split; auto; lia.
Qed.

(** a malformed key string is one that is not 16..32 bytes of digits (white space apart) *)
Lemma short_is_malformed s : (String.length s < 32)%nat -> forall l, hexparse_stmt 16 32 (Some s) <> Some l.
Proof.
  intros H l. unfold hexparse_stmt.
  assert (String.length s / 2 < 16)%nat by (apply Nat.div_lt_upper_bound; lia).
  destruct (Nat.ltb_spec (String.length s / 2) 16); [discriminate|lia].
Qed.
Lemma nibbles_none s n c : String.get n s = Some c -> hex_val c = None -> is_hex_space c = false -> nibbles s = None.
Proof.
  revert n. induction s as [|x s IH]; intros n; [destruct n; discriminate|].
  destruct n as [|n]; cbn; intros E Hv Hs.
  - injection E as ->. now rewrite Hs, Hv.
  - rewrite (IH n E Hv Hs). destruct (is_hex_space x); auto. destruct (hex_val x); auto.
Qed.
Lemma garbage_is_malformed s n c : String.get n s = Some c -> hex_val c = None -> is_hex_space c = false ->
  forall l, hexparse_stmt 16 32 (Some s) <> Some l.
Proof.
  intros E Hv Hs l. unfold hexparse_stmt, hexparse. rewrite (nibbles_none s n c); auto. destruct (_ || _); discriminate.
Qed.
