(** Proofs about authentication vectors, continued (C12-C16). *)
From Verif Require Import Base PeerId Db DbSpec DbProofs DbThms DbThms2 DbThms3 Auth AuthSpec AuthThms AuthThms2.

(** the third generation step at position [i] *)
Definition gen3_step (cr : crypto) (i : nat) (resync : option (list N * list N)) (ua : aud3) (rnd : list N) : option vec * N :=
  match i, resync with
  | O, Some (auts, rand_auts) => c_auts cr ua auts rand_auts rnd
  | _, _ => c_gen3 cr ua rnd
  end.

Lemma gen_loop_3g cr n i g ua resync :
  gen_loop cr (S n) i g (Some ua) resync =
  match c_rand cr i with
  | None => ([], Some (u_sqn ua))
  | Some rnd =>
      match gen3_step cr i resync ua rnd with
      | (None, q) => ([], Some q)
      | (Some v, q) =>
          match g with
          | None => let '(vs, q') := gen_loop cr n (S i) g (Some (with_sqn ua q)) resync in (v :: vs, q')
          | Some ga =>
              match c_gen2 cr ga rnd with
              | None => ([], Some q)
              | Some w => let '(vs, q') := gen_loop cr n (S i) g (Some (with_sqn ua q)) resync in (merge_2g v w :: vs, q')
              end
          end
      end
  end.
Proof. cbn [gen_loop]. unfold gen3_step. destruct (c_rand cr i); [|reflexivity]. destruct (match i with O => _ | _ => _ end) as [[] ]; reflexivity. Qed.

(** the number of vectors *)
Lemma gen_loop_count cr n : forall i g u rs, (length (fst (gen_loop cr n i g u rs)) <= n)%nat.
Proof.
  induction n as [|n IH]; intros i g [ua|] rs; [cbn; lia|cbn; lia| |].
  - rewrite gen_loop_3g. destruct (c_rand cr i); [|cbn; lia]. destruct (gen3_step _ _ _ _ _) as [[v|] q]; [|cbn; lia].
    assert (IH' := IH (S i) g (Some (with_sqn ua q)) rs). destruct (gen_loop cr n (S i) g (Some (with_sqn ua q)) rs) as [vs q'].
    destruct g; [destruct (c_gen2 _ _ _)|]; cbn in *; lia.
  - cbn [gen_loop]. destruct (c_rand cr i); [|cbn; lia]. destruct g as [ga|]; [|cbn; lia].
    destruct (c_gen2 _ _ _); [|cbn; lia].
    assert (IH' := IH (S i) (Some ga) None rs). destruct (gen_loop cr n (S i) (Some ga) None rs). cbn in *; lia.
Qed.

Fixpoint all_rets {A} (P : A -> Prop) (p : prog A) : Prop :=
  match p with
  | Ret a => P a
  | Undef => True
  | Exec _ k => forall r, all_rets P (k r)
  end.
Lemma all_rets_run {A} (P : A -> Prop) (p : prog A) : all_rets P p -> forall c d a, run_out p c d = Fin a -> P a.
Proof.
  induction p as [x|s k IH|]; cbn; intros H c d a; unfold run_out in *; cbn.
  - intros E. injection E as <-. auto.
  - destruct c as [|[] c']; try (destruct (exec s d) as [r d']); intros E; try discriminate E; eapply IH; eauto.
  - discriminate.
Qed.
Lemma all_rets_bind {A B} (P : B -> Prop) (p : prog A) (f : A -> prog B) :
  all_rets (fun a => all_rets P (f a)) p -> all_rets P (bind p f).
Proof. induction p as [x|s k IH|]; cbn; auto. Qed.
Lemma all_rets_impl {A} (P Q : A -> Prop) (p : prog A) : (forall a, P a -> Q a) -> all_rets P p -> all_rets Q p.
Proof. induction p; cbn; auto. Qed.
Lemma all_rets_true {A} (P : A -> Prop) (p : prog A) : (forall a, P a) -> all_rets P p.
Proof. induction p; cbn; auto. Qed.

Lemma auc_count cr imsi ind n ra au sep c d rc vs :
  run_out (db_get_auc cr imsi ind n ra au sep) c d = Fin (rc, vs) ->
  (length vs <= n)%nat /\ (rc = Z.of_nat (length vs) \/ (rc < 0 /\ vs = [])).
Proof.
  revert c d rc vs.
  assert (G : all_rets (fun x : Z * list vec => (length (snd x) <= n)%nat /\ (fst x = Z.of_nat (length (snd x)) \/ (fst x < 0 /\ snd x = [])))
                (db_get_auc cr imsi ind n ra au sep)).
  { unfold db_get_auc. apply all_rets_bind.
    assert (N : forall z, z < 0 -> (fun x : Z * list vec => (length (snd x) <= n)%nat /\ (fst x = Z.of_nat (length (snd x)) \/ (fst x < 0 /\ snd x = []))) (z, []))
      by (intros z Hz; cbn; split; [lia|auto]).
    assert (M : all_rets (fun r : Z + auth_data => match r with inl z => z < 0 | inr _ => True end) (db_get_auth_data imsi)).
    { cbn. intros []; cbn; try (unfold EIO, ENOENT; lia).
      destruct (read_3g _) as [[]|]; try destruct (read_2g _); cbn; auto; unfold EIO, ENOKEY; lia. }
    revert M. apply all_rets_impl. intros [z|a] Hz; [now apply N|].
    destruct (mask_ind _ _); [|exact I]. cbv zeta.
    set (u := match ad_3g a with Some _ => _ | None => _ end). clearbody u.
    assert (R : (fun x : Z * list vec => (length (snd x) <= n)%nat /\ (fst x = Z.of_nat (length (snd x)) \/ (fst x < 0 /\ snd x = [])))
        (match auc_compute_vectors cr n (ad_2g a) u ra au with Some (vs, _) => (Z.of_nat (length vs), vs) | None => (-1, []) end)).
    { destruct (auc_compute_vectors cr n (ad_2g a) u ra au) as [[vs oq]|] eqn:E; [|apply N; lia]. cbn. split; auto.
      unfold auc_compute_vectors in E.
      assert (X : exists i g u rs, gen_loop cr n i g u rs = (vs, oq)).
      { destruct (use_2g _), (use_3g _), ra, au; cbn in E; try discriminate E; injection E as E; eauto. }
      destruct X as (i & g & u' & rs & X). pose proof (gen_loop_count cr n i g u' rs) as L. now rewrite X in L. }
    destruct u as [ua|]; [|exact R]. destruct (u_algo ua =? 0); [exact R|].
    apply all_rets_bind, all_rets_true. intros rc. destruct (rc <? 0); [apply N; lia|exact R]. }
  intros c d rc vs E. exact (all_rets_run _ _ G c d _ E).
Qed.

(** ** numbers: general form, with or without resynchronisation *)
Lemma step_contract cr alg f i rs ua rnd v q :
  sqn_contract cr alg f -> u_algo ua = alg -> gen3_step cr i rs ua rnd = (Some v, q) ->
  exists base, (u_ind ua < 2 ^ Z.to_N (u_bitlen ua))%N /\
    q = (next_sqn (u_bitlen ua) base (u_ind ua) mod 2 ^ 64)%N /\ v_sqn v = Some (q mod 2 ^ 48)%N /\
    (base = u_sqn ua /\ (i <> O \/ rs = None) \/ exists au ra, i = O /\ rs = Some (au, ra) /\ f ua au ra = Some base).
Proof.
  intros Hc Ha H. unfold gen3_step in H.
  destruct i as [|i]; [destruct rs as [[au ra]|]|].
  - destruct (sc_auts _ _ _ Hc _ _ _ _ _ _ Ha H) as (ms & E & A & B & C). exists ms. repeat split; auto. right. exists au, ra. auto.
  - destruct (sc_gen _ _ _ Hc _ _ _ _ Ha H) as (A & B & C). exists (u_sqn ua). auto 10.
  - destruct (sc_gen _ _ _ Hc _ _ _ _ Ha H) as (A & B & C). exists (u_sqn ua). repeat split; auto.
Qed.

(** number stored compared with that of the last vector handed out *)
Definition last_stored (b : Z) (ind : N) (vs : list vec) (q : N) : Prop :=
  forall l s, sqns vs = l ++ [s] -> (q mod 2 ^ 48 = s \/ q mod 2 ^ 48 = next_sqn b s ind mod 2 ^ 48)%N.

Lemma gen_loop_later cr f alg n : forall i g ua rs,
  sqn_contract cr alg f -> u_algo ua = alg -> 0 <= u_bitlen ua <= 28 -> (i <> O \/ rs = None) ->
  exists vs q, gen_loop cr n i g (Some ua) rs = (vs, Some q) /\ length (sqns vs) = length vs /\
    (forall s, In s (sqns vs) -> (s mod 2 ^ Z.to_N (u_bitlen ua) = u_ind ua)%N) /\
    last_stored (u_bitlen ua) (u_ind ua) vs q /\
    (vs = [] -> q = u_sqn ua \/ q = next_sqn (u_bitlen ua) (u_sqn ua) (u_ind ua) mod 2 ^ 64)%N.
Proof.
  induction n as [|n IH]; intros i g ua rs Hc Ha Hb Hi.
  { exists [], (u_sqn ua). cbn. repeat split; auto; try contradiction. intros [] s; discriminate. }
  rewrite gen_loop_3g.
  assert (TRIV : forall q, (q = u_sqn ua \/ q = next_sqn (u_bitlen ua) (u_sqn ua) (u_ind ua) mod 2 ^ 64)%N ->
     exists vs q', ([] : list vec, Some q) = (vs, Some q') /\ length (sqns vs) = length vs /\
    (forall s, In s (sqns vs) -> (s mod 2 ^ Z.to_N (u_bitlen ua) = u_ind ua)%N) /\
    last_stored (u_bitlen ua) (u_ind ua) vs q' /\
    (vs = [] -> q' = u_sqn ua \/ q' = next_sqn (u_bitlen ua) (u_sqn ua) (u_ind ua) mod 2 ^ 64)%N).
  { intros q Hq. exists [], q. cbn. repeat split; auto; try contradiction. intros [] s; discriminate. }
  destruct (c_rand cr i) as [rnd|]; [|apply TRIV; auto].
  destruct (gen3_step cr i rs ua rnd) as [[v|] q0] eqn:Eg.
  2:{ apply TRIV. left. unfold gen3_step in Eg. destruct Hi as [Hi|Hi]; [destruct i; [congruence|]|subst rs; destruct i];
        eapply sc_gen_fail; eauto. }
  destruct (step_contract _ _ _ _ _ _ _ _ _ Hc Ha Eg) as (base & HI & Hq & Hv & [[-> _]|(au & ra & E1 & E2 & _)]).
  2:{ exfalso. destruct Hi; congruence. }
  assert (STEP : forall w, v_sqn w = v_sqn v ->
     exists vs q', (let '(vs, q') := gen_loop cr n (S i) g (Some (with_sqn ua q0)) rs in (w :: vs, q')) = (vs, Some q') /\ length (sqns vs) = length vs /\
    (forall s, In s (sqns vs) -> (s mod 2 ^ Z.to_N (u_bitlen ua) = u_ind ua)%N) /\
    last_stored (u_bitlen ua) (u_ind ua) vs q' /\
    (vs = [] -> q' = u_sqn ua \/ q' = next_sqn (u_bitlen ua) (u_sqn ua) (u_ind ua) mod 2 ^ 64)%N).
  { intros w Hw. destruct (IH (S i) g (with_sqn ua q0) rs Hc Ha Hb) as (vs & q & E & L & M & LS & EM); [auto|].
    cbn [with_sqn u_bitlen u_ind u_sqn] in *. rewrite E. exists (w :: vs), q. split; auto.
    assert (Es : sqns (w :: vs) = (q0 mod 2 ^ 48)%N :: sqns vs) by (unfold sqns; cbn [flat_map]; now rewrite Hw, Hv).
    rewrite Es. split; [cbn; lia|]. split; [|split; [|discriminate]].
    - intros s [<-|Hs]; auto. rewrite Hq. rewrite !mod_mod_pow by lia. rewrite next_mod. now apply N.mod_small.
    - intros l s El. rewrite Es in El. destruct l as [|x l]; cbn in El.
      + injection El as <- El. assert (vs = []) as -> by (destruct vs; auto; rewrite El in L; discriminate).
        destruct (EM eq_refl) as [->| ->]; [now left|right].
        rewrite mod_mod_pow by lia. now rewrite next_mod48.
      + injection El as _ El. eapply LS; eauto. }
  destruct g as [ga|]; [|now apply STEP].
  destruct (c_gen2 cr ga rnd) as [w|]; [now apply STEP|]. apply TRIV. auto.
Qed.

(** the general request *)
Lemma gen_loop_any cr f alg n g ua rs :
  sqn_contract cr alg f -> u_algo ua = alg -> 0 <= u_bitlen ua <= 28 ->
  exists vs q, gen_loop cr n 0 g (Some ua) rs = (vs, Some q) /\ length (sqns vs) = length vs /\
    (forall s, In s (sqns vs) -> (s mod 2 ^ Z.to_N (u_bitlen ua) = u_ind ua)%N) /\
    last_stored (u_bitlen ua) (u_ind ua) vs q /\
    (vs = [] -> q = u_sqn ua \/ exists base, (base = u_sqn ua \/ exists au ra, rs = Some (au, ra) /\ f ua au ra = Some base) /\
       (q = base \/ q = next_sqn (u_bitlen ua) base (u_ind ua) mod 2 ^ 64)%N).
Proof.
  intros Hc Ha Hb. destruct rs as [[au ra]|].
  2:{ destruct (gen_loop_later cr f alg n 0 g ua None) as (vs & q & A & B & C & D & E); auto.
      exists vs, q. repeat split; auto. intros Hv. destruct (E Hv) as [->| ->]; eauto 10. }
  destruct n as [|n].
  { exists [], (u_sqn ua). cbn. repeat split; auto; try contradiction. intros [] s; discriminate. }
  rewrite gen_loop_3g.
  assert (TRIV : forall q, (q = u_sqn ua \/ exists base, (base = u_sqn ua \/ exists au' ra', Some (au, ra) = Some (au', ra') /\ f ua au' ra' = Some base) /\
       (q = base \/ q = next_sqn (u_bitlen ua) base (u_ind ua) mod 2 ^ 64)%N) ->
     exists vs q', ([] : list vec, Some q) = (vs, Some q') /\ length (sqns vs) = length vs /\
    (forall s, In s (sqns vs) -> (s mod 2 ^ Z.to_N (u_bitlen ua) = u_ind ua)%N) /\
    last_stored (u_bitlen ua) (u_ind ua) vs q' /\
    (vs = [] -> q' = u_sqn ua \/ exists base, (base = u_sqn ua \/ exists au' ra', Some (au, ra) = Some (au', ra') /\ f ua au' ra' = Some base) /\
       (q' = base \/ q' = next_sqn (u_bitlen ua) base (u_ind ua) mod 2 ^ 64)%N)).
  { intros q Hq. exists [], q. cbn. repeat split; auto; try contradiction. intros [] s; discriminate. }
  destruct (c_rand cr 0) as [rnd|]; [|apply TRIV; auto].
  destruct (gen3_step cr 0 (Some (au, ra)) ua rnd) as [[v|] q0] eqn:Eg.
  2:{ apply TRIV. cbn in Eg. destruct (sc_auts_fail _ _ _ Hc _ _ _ _ _ Ha Eg) as [->|E]; auto.
      right. exists q0. eauto 10. }
  destruct (step_contract _ _ _ _ _ _ _ _ _ Hc Ha Eg) as (base & HI & Hq & Hv & [[_ [X|X]]|(au' & ra' & _ & E2 & E3)]); try congruence.
  assert (STEP : forall w, v_sqn w = v_sqn v ->
     exists vs q', (let '(vs, q') := gen_loop cr n 1 g (Some (with_sqn ua q0)) (Some (au, ra)) in (w :: vs, q')) = (vs, Some q') /\ length (sqns vs) = length vs /\
    (forall s, In s (sqns vs) -> (s mod 2 ^ Z.to_N (u_bitlen ua) = u_ind ua)%N) /\
    last_stored (u_bitlen ua) (u_ind ua) vs q' /\
    (vs = [] -> q' = u_sqn ua \/ exists base, (base = u_sqn ua \/ exists au' ra', Some (au, ra) = Some (au', ra') /\ f ua au' ra' = Some base) /\
       (q' = base \/ q' = next_sqn (u_bitlen ua) base (u_ind ua) mod 2 ^ 64)%N)).
  { intros w Hw. destruct (gen_loop_later cr f alg n 1 g (with_sqn ua q0) (Some (au, ra)) Hc Ha Hb) as (vs & q & E & L & M & LS & EM); [auto|].
    cbn [with_sqn u_bitlen u_ind u_sqn] in *. rewrite E. exists (w :: vs), q. split; auto.
    assert (Es : sqns (w :: vs) = (q0 mod 2 ^ 48)%N :: sqns vs) by (unfold sqns; cbn [flat_map]; now rewrite Hw, Hv).
    rewrite Es. split; [cbn; lia|]. split; [|split; [|discriminate]].
    - intros s [<-|Hs]; auto. rewrite Hq. rewrite !mod_mod_pow by lia. rewrite next_mod. now apply N.mod_small.
    - intros l s El. rewrite Es in El. destruct l as [|x l]; cbn in El.
      + injection El as <- El. assert (vs = []) as -> by (destruct vs; auto; rewrite El in L; discriminate).
        destruct (EM eq_refl) as [->| ->]; [now left|right].
        rewrite mod_mod_pow by lia. now rewrite next_mod48.
      + injection El as _ El. eapply LS; eauto. }
  destruct g as [ga|]; [|now apply STEP].
  destruct (c_gen2 cr ga rnd) as [w|]; [now apply STEP|]. apply TRIV.
  right. exists base. split; [right; eauto|right; auto].
Qed.

(** ** sqn_set *)
Lemma sqn_set_same d id a : db_inv d -> key3 d id a -> sqn_set d id (a3_sqn a) = d.
Proof.
  intros Hd [Ha E]. unfold sqn_set. cbn [exec snd]. destruct d as [S A2 A3 I]. unfold with_auc3. cbn in *. f_equal.
  unfold upd. rewrite <- (map_id A3) at 2. apply map_ext_in. intros x Hx. destruct (a3_id x =? id) eqn:Ex; auto.
  assert (x = a) as -> by (apply (NoDup_key_inj a3_id A3); auto; [apply Hd|lia]). now destruct a.
Qed.

Lemma compute_3g cr n g ua ra au :
  u_algo ua <> 0 ->
  auc_compute_vectors cr n g (Some ua) ra au =
  match ra, au with
  | Some r, Some a => Some (gen_loop cr n 0 (use_2g g) (Some ua) (Some (a, r)))
  | None, None => Some (gen_loop cr n 0 (use_2g g) (Some ua) None)
  | _, _ => None
  end.
Proof.
  intros H. unfold auc_compute_vectors. cbn [use_3g]. replace (u_algo ua =? ALG_NONE) with false by (unfold ALG_NONE; lia).
  destruct (use_2g g), ra, au; reflexivity.
Qed.

(** C12: vectors leave only when a number covering them is stored *)
Lemma c12_stored cr f imsi ind n ra au sep c d id a rc vs :
  db_ok d -> keys_wellformed d -> is_subscriber d imsi id -> key3 d id a -> a3_algo a <> 0 ->
  sqn_contract cr (a3_algo a) f ->
  run_out (db_get_auc cr imsi ind n ra au sep) c d = Fin (rc, vs) -> vs <> [] ->
  exists a' l s, key3 (run_db (db_get_auc cr imsi ind n ra au sep) c d) id a' /\
    sqns vs = l ++ [s] /\ length (sqns vs) = length vs /\
    (a3_sqn a' mod 2 ^ 48 = s \/
     a3_sqn a' mod 2 ^ 48 = next_sqn (a3_ind_bitlen a) s (ind mod 2 ^ Z.to_N (a3_ind_bitlen a)) mod 2 ^ 48)%N.
Proof.
  intros Hd Hk Hs Ha Hal Hc Hrun Hvs. apply db_ok_inv in Hd.
  destruct (auc_run_3g cr imsi ind n ra au sep c d id a Hd Hk Hs Ha Hal) as (u & res & Eu & Er & [(rc' & Eo & _)|[[Eo _]|[Eo Ed]]]);
    rewrite Hrun in Eo; try (injection Eo as _ Eo; congruence); try discriminate Eo.
  destruct (read_3g_fields a u Eu) as (F1 & F2 & F3).
  rewrite compute_3g in Er by (cbn; congruence).
  destruct (proj2 Hk a (proj1 Ha)) as (_ & Hbl & _).
  set (ua := mk_aud3 _ _ _ _ _ _ _ _) in Er.
  assert (X : exists rs, res = Some (gen_loop cr n 0 (use_2g (read_2g (stored2 d id))) (Some ua) rs)).
  { destruct ra, au; subst res; eauto; injection Eo as _ Eo; congruence. }
  destruct X as (rs & X). rewrite X in Eo, Ed.
  destruct (gen_loop_any cr f (a3_algo a) n (use_2g (read_2g (stored2 d id))) ua rs Hc) as (vs' & q & E & L & M & LS & _).
  { cbn. congruence. } { cbn. rewrite F3. exact Hbl. }
  rewrite E in Eo, Ed. injection Eo as -> ->.
  assert (Hne : sqns vs' <> []) by (intros Z; rewrite Z in L; destruct vs'; [congruence|discriminate]).
  destruct (exists_last Hne) as (l & s & El).
  destruct (set_tracked d imsi id (a3_algo a) (a3_ind_bitlen a) (a3_sqn a) q) as [_ (a' & K' & _ & _ & Q')].
  { split; auto. exists a. auto. }
  exists a', l, s. rewrite Ed. split; auto. split; auto. split; auto. rewrite Q'.
  specialize (LS l s El). cbn [ua u_bitlen u_ind] in LS. now rewrite F3 in LS.
Qed.

(** storing fails: nothing leaves, nothing changed *)
Lemma c12_store_fails cr imsi ind n ra au sep d id a e c :
  db_ok d -> keys_wellformed d -> is_subscriber d imsi id -> key3 d id a -> a3_algo a <> 0 -> e <> EvOk ->
  let p := db_get_auc cr imsi ind n ra au sep in
  (run_out p (EvOk :: e :: c) d = Fin (-1, []) \/ run_out p (EvOk :: e :: c) d = Crashed) /\
  run_db p (EvOk :: e :: c) d = d.
Proof.
  intros Hd Hk Hs [Ha Ea] Hal He p. apply db_ok_inv in Hd.
  destruct (find_by_imsi d imsi id Hd Hs) as (r & Hf & Er).
  assert (F3 : stored3 d id = Some a) by (apply (find_row a3_id); auto; apply Hd).
  destruct (read_3g_total d id Hk) as (u & Eu). rewrite F3 in Eu.
  assert (exists u', u = Some u') as (u' & ->).
  { revert Eu. unfold read_3g. destruct (hexparse_stmt _ _ _); [|discriminate].
    destruct (a3_op a); destruct (hexparse_stmt _ _ _); try discriminate; intros E; inversion E; eauto. }
  destruct (read_3g_fields a u' Eu) as (E1 & E2 & E3).
  destruct (proj2 Hk a Ha) as (_ & Hbl & _).
  assert (Em : exists m, mask_ind (u_bitlen u') ind = Some m).
  { unfold mask_ind. rewrite E3. replace ((0 <=? a3_ind_bitlen a) && (a3_ind_bitlen a <? 32)) with true by lia. eauto. }
  destruct Em as (m & Em).
  assert (EX : exec (AUC_BY_IMSI imsi) d = (RAuc id (stored2 d id) (Some a), d)).
  { cbn [exec]. rewrite Hf, Er. fold (stored2 d id) (stored3 d id). now rewrite F3. }
  unfold p, db_get_auc, run_out, run_db. rewrite run_bind. unfold db_get_auth_data. cbn [run]. rewrite EX. cbv beta iota.
  rewrite Eu.
  replace (match read_2g (stored2 d id) with Some a0 => Ret (inr (mk_auth (Some a0) (Some u') id)) | None => Ret (inr (mk_auth None (Some u') id)) end)
    with (Ret (A := Z + auth_data) (inr (mk_auth (read_2g (stored2 d id)) (Some u') id))) by (destruct (read_2g _); auto).
  cbn [run]. cbn [ad_3g ad_2g ad_id]. rewrite Em. cbv zeta. cbn [u_algo].
  replace (u_algo u' =? 0) with false by lia. rewrite run_bind. unfold db_update_sqn. cbn [run].
  destruct e; [congruence| |]; cbn; auto.
Qed.

(** C14 *)
Lemma c14_ind cr f imsi ind n ra au sep c d id a rc vs :
  db_ok d -> keys_wellformed d -> is_subscriber d imsi id -> key3 d id a -> a3_algo a <> 0 ->
  sqn_contract cr (a3_algo a) f ->
  run_out (db_get_auc cr imsi ind n ra au sep) c d = Fin (rc, vs) ->
  length (sqns vs) = length vs /\
  forall s, In s (sqns vs) -> (s mod 2 ^ Z.to_N (a3_ind_bitlen a) = ind mod 2 ^ Z.to_N (a3_ind_bitlen a))%N.
Proof.
  intros Hd Hk Hs Ha Hal Hc Hrun. apply db_ok_inv in Hd.
  destruct (auc_run_3g cr imsi ind n ra au sep c d id a Hd Hk Hs Ha Hal) as (u & res & Eu & Er & [(rc' & Eo & _)|[[Eo _]|[Eo Ed]]]);
    rewrite Hrun in Eo; try discriminate Eo.
  { injection Eo as _ ->. split; auto. intros s []. }
  destruct (read_3g_fields a u Eu) as (F1 & F2 & F3).
  rewrite compute_3g in Er by (cbn; congruence).
  destruct (proj2 Hk a (proj1 Ha)) as (_ & Hbl & _).
  set (ua := mk_aud3 _ _ _ _ _ _ _ _) in Er.
  assert (X : res = None \/ exists rs, res = Some (gen_loop cr n 0 (use_2g (read_2g (stored2 d id))) (Some ua) rs)).
  { destruct ra, au; subst res; eauto. }
  destruct X as [->|(rs & X)].
  { injection Eo as _ ->. split; auto. intros s []. }
  rewrite X in Eo.
  destruct (gen_loop_any cr f (a3_algo a) n (use_2g (read_2g (stored2 d id))) ua rs Hc) as (vs' & q & E & L & M & LS & _).
  { cbn. congruence. } { cbn. rewrite F3. exact Hbl. }
  rewrite E in Eo. injection Eo as -> ->. cbn [ua u_bitlen u_ind] in M. rewrite F3 in M. auto.
Qed.

(** C15 *)
Lemma gen_loop_above cr f alg n : forall i g ua rs,
  sqn_contract cr alg f -> u_algo ua = alg -> (i <> O \/ rs = None) ->
  (u_sqn ua + N.of_nat n * (2 * 2 ^ Z.to_N (u_bitlen ua)) < 2 ^ 48)%N ->
  exists vs q, gen_loop cr n i g (Some ua) rs = (vs, Some q) /\ (u_sqn ua <= q)%N /\
    increasing (sqns vs) /\ (forall x, In x (sqns vs) -> (u_sqn ua < x <= q)%N).
Proof.
  induction n as [|n IH]; intros i g ua rs Hc Ha Hi Hb.
  { exists [], (u_sqn ua). cbn. repeat split; try constructor; try lia; try contradiction. }
  rewrite gen_loop_3g.
  set (W := (2 * 2 ^ Z.to_N (u_bitlen ua))%N) in *.
  assert (HW : (W <> 0)%N) by (unfold W; assert (2 ^ Z.to_N (u_bitlen ua) <> 0)%N by (apply N.pow_nonzero; lia); lia).
  assert (TRIV : forall q, (u_sqn ua <= q)%N -> exists vs q', ([] : list vec, Some q) = (vs, Some q') /\ (u_sqn ua <= q')%N /\
    increasing (sqns vs) /\ (forall x, In x (sqns vs) -> (u_sqn ua < x <= q')%N)).
  { intros q Hq. exists [], q. split; auto. split; auto. split; [constructor|intros x []]. }
  destruct (c_rand cr i) as [rnd|]; [|apply TRIV; lia].
  destruct (gen3_step cr i rs ua rnd) as [[v|] q0] eqn:Eg.
  2:{ apply TRIV. unfold gen3_step in Eg. assert (q0 = u_sqn ua); [|lia].
      destruct Hi as [Hi|Hi]; [destruct i; [congruence|]|subst rs; destruct i]; eapply sc_gen_fail; eauto. }
  destruct (step_contract _ _ _ _ _ _ _ _ _ Hc Ha Eg) as (base & HI & Hq & Hv & [[-> _]|(au & ra & E1 & E2 & _)]).
  2:{ exfalso. destruct Hi; congruence. }
  pose proof (next_gt (u_bitlen ua) (u_sqn ua) (u_ind ua)) as G1.
  pose proof (next_le (u_bitlen ua) (u_sqn ua) (u_ind ua) HI) as G2. fold W in G2.
  rewrite N.mod_small in Hq.
  2:{ assert (2 ^ 48 <= 2 ^ 64)%N by (apply N.pow_le_mono_r; lia). nia. }
  rewrite N.mod_small in Hv by nia.
  assert (STEP : forall w, v_sqn w = v_sqn v ->
     exists vs q, (let '(vs, q') := gen_loop cr n (S i) g (Some (with_sqn ua q0)) rs in (w :: vs, q')) = (vs, Some q) /\
       (u_sqn ua <= q)%N /\ increasing (sqns vs) /\ (forall x, In x (sqns vs) -> (u_sqn ua < x <= q)%N)).
  { intros w Hw. destruct (IH (S i) g (with_sqn ua q0) rs Hc Ha) as (vs & q & E & B1 & I1 & I2); [auto|cbn [with_sqn u_sqn u_bitlen]; fold W; nia|].
    rewrite E. exists (w :: vs), q. split; auto. cbn [with_sqn u_sqn u_bitlen] in *.
    split; [lia|].
    assert (Es : sqns (w :: vs) = q0 :: sqns vs) by (unfold sqns; cbn [flat_map]; now rewrite Hw, Hv).
    rewrite Es. split.
    - apply increasing_cons; auto. intros y Hy. apply I2 in Hy. lia.
    - intros x [<-|Hx]; [lia|]. apply I2 in Hx. lia. }
  destruct g as [ga|]; [|now apply STEP].
  destruct (c_gen2 cr ga rnd) as [w|]; [now apply STEP|]. apply TRIV. lia.
Qed.

(** the key data handed to the resynchronisation of this request *)
Definition asked_key (a : auc3_row) (u : aud3) : Prop := read_3g (Some a) = Some (Some u).

Lemma c15_valid cr f imsi ind n ra au sep c d id a u ms rc vs :
  db_ok d -> keys_wellformed d -> is_subscriber d imsi id -> key3 d id a -> a3_algo a <> 0 ->
  sqn_contract cr (a3_algo a) f -> asked_key a u ->
  f (mk_aud3 (u_algo u) (u_k u) (u_opc u) (u_is_op u) (u_sqn u) (u_bitlen u)
             (ind mod 2 ^ Z.to_N (a3_ind_bitlen a)) sep) au ra = Some ms ->
  (ms + N.of_nat n * (2 * 2 ^ Z.to_N (a3_ind_bitlen a)) < 2 ^ 48)%N ->
  run_out (db_get_auc cr imsi ind n (Some ra) (Some au) sep) c d = Fin (rc, vs) -> vs <> [] ->
  increasing (sqns vs) /\ length (sqns vs) = length vs /\
  (forall s, In s (sqns vs) -> (ms < s)%N) /\
  (exists s l, sqns vs = s :: l /\ s = next_sqn (a3_ind_bitlen a) ms (ind mod 2 ^ Z.to_N (a3_ind_bitlen a))) /\
  exists a', key3 (run_db (db_get_auc cr imsi ind n (Some ra) (Some au) sep) c d) id a' /\
    forall s, In s (sqns vs) -> (s <= a3_sqn a')%N.
Proof.
  intros Hd Hk Hs Ha Hal Hc Eu Hms Hb Hrun Hvs.
  destruct (c14_ind cr f _ _ _ _ _ _ _ _ _ _ _ _ Hd Hk Hs Ha Hal Hc Hrun) as [HL _].
  apply db_ok_inv in Hd.
  destruct (auc_run_3g cr imsi ind n (Some ra) (Some au) sep c d id a Hd Hk Hs Ha Hal) as (u' & res & Eu' & Er & [(rc' & Eo & _)|[[Eo _]|[Eo Ed]]]);
    rewrite Hrun in Eo; try (injection Eo as _ Eo; congruence); try discriminate Eo.
  unfold asked_key in Eu. rewrite Eu' in Eu. injection Eu as ->.
  destruct (read_3g_fields a u Eu') as (F1 & F2 & F3).
  rewrite compute_3g in Er by (cbn; congruence).
  set (ua := mk_aud3 _ _ _ _ _ _ _ _) in Er, Hms.
  set (W := (2 * 2 ^ Z.to_N (a3_ind_bitlen a))%N) in *.
  assert (HW : (W <> 0)%N) by (unfold W; assert (2 ^ Z.to_N (a3_ind_bitlen a) <> 0)%N by (apply N.pow_nonzero; lia); lia).
  assert (KEY : exists q, res = Some (vs, Some q) /\ increasing (sqns vs) /\
     (exists l, sqns vs = next_sqn (a3_ind_bitlen a) ms (ind mod 2 ^ Z.to_N (a3_ind_bitlen a)) :: l) /\
     forall s, In s (sqns vs) -> (ms < s <= q)%N).
  { destruct n as [|n].
    { subst res. cbn in Eo. injection Eo as _ Eo. congruence. }
    rewrite gen_loop_3g in Er. destruct (c_rand cr 0) as [rnd|].
    2:{ subst res. injection Eo as _ Eo. congruence. }
    destruct (gen3_step cr 0 (Some (au, ra)) ua rnd) as [[v|] q0] eqn:Eg.
    2:{ subst res. injection Eo as _ Eo. congruence. }
    assert (Hua : u_algo ua = a3_algo a) by (cbn; congruence).
    destruct (step_contract _ _ _ _ _ _ _ _ _ Hc Hua Eg) as (base & HI & Hq & Hv & [[_ [X|X]]|(au' & ra' & _ & E2 & E3)]); try congruence.
    injection E2 as <- <-. rewrite Hms in E3. injection E3 as <-.
    cbn [ua u_bitlen u_ind] in HI, Hq. rewrite F3 in HI, Hq.
    set (ix := (ind mod 2 ^ Z.to_N (a3_ind_bitlen a))%N) in *.
    pose proof (next_gt (a3_ind_bitlen a) ms ix) as G1.
    pose proof (next_le (a3_ind_bitlen a) ms ix HI) as G2. fold W in G2.
    rewrite N.mod_small in Hq.
    2:{ assert (2 ^ 48 <= 2 ^ 64)%N by (apply N.pow_le_mono_r; lia). nia. }
    rewrite N.mod_small in Hv by nia.
    assert (STEP : forall w, v_sqn w = v_sqn v ->
      exists vs q, (let '(vs, q') := gen_loop cr n 1 (use_2g (read_2g (stored2 d id))) (Some (with_sqn ua q0)) (Some (au, ra)) in (w :: vs, q')) = (vs, Some q) /\
       increasing (sqns vs) /\ (exists l, sqns vs = q0 :: l) /\ (forall x, In x (sqns vs) -> (ms < x <= q)%N)).
    { intros w Hw. destruct (gen_loop_above cr f (a3_algo a) n 1 (use_2g (read_2g (stored2 d id))) (with_sqn ua q0) (Some (au, ra)) Hc Hua) as (vs1 & q & E & B1 & I1 & I2); [auto|cbn [ua with_sqn u_sqn u_bitlen]; rewrite F3; fold W; nia|].
      rewrite E. exists (w :: vs1), q. split; auto. cbn [with_sqn u_sqn u_bitlen] in *.
      assert (Es : sqns (w :: vs1) = q0 :: sqns vs1) by (unfold sqns; cbn [flat_map]; now rewrite Hw, Hv).
      rewrite Es. split; [|split; [eauto|]].
      - apply increasing_cons; auto. intros y Hy. apply I2 in Hy. lia.
      - intros x [<-|Hx]; [lia|]. apply I2 in Hx. lia. }
    assert (Z : exists w vs1 q1, v_sqn w = v_sqn v /\ (let '(vs, q') := gen_loop cr n 1 (use_2g (read_2g (stored2 d id))) (Some (with_sqn ua q0)) (Some (au, ra)) in (w :: vs, q')) = (vs1, q1) /\ res = Some (vs1, q1)).
    { destruct (use_2g (read_2g (stored2 d id))) as [ga|].
      - destruct (c_gen2 cr ga rnd) as [w|]; [|subst res; injection Eo as _ Eo; congruence].
        exists (merge_2g v w). subst res. destruct (let '(_, _) := gen_loop _ _ _ _ _ _ in _) as [a1 b1]. exists a1, b1. auto.
      - exists v. subst res. destruct (let '(_, _) := gen_loop _ _ _ _ _ _ in _) as [a1 b1]. exists a1, b1. auto. }
    destruct Z as (w & vs1 & q1 & Hw & Ez & Eres).
    destruct (STEP w Hw) as (vs2 & q2 & Es & A & B & C). rewrite Ez in Es. injection Es as -> ->.
    rewrite Eres in Eo. injection Eo as _ ->. exists q2. rewrite <- Hq. auto. }
  destruct KEY as (q & -> & A & (l & B) & C).
  split; auto. split; auto. split; [intros s Hs'; now apply C|]. split; [eauto|].
  destruct (set_tracked d imsi id (a3_algo a) (a3_ind_bitlen a) (a3_sqn a) q) as [_ (a' & K' & _ & _ & Q')].
  { split; auto. exists a. auto. }
  exists a'. rewrite Ed. split; auto. intros s Hs'. rewrite Q'. now apply C.
Qed.

(** incomplete resync data: refused, number untouched *)
Lemma c15_incomplete cr imsi ind n ra au sep c d id a :
  db_ok d -> keys_wellformed d -> is_subscriber d imsi id -> key3 d id a -> a3_algo a <> 0 ->
  (ra = None /\ au <> None \/ ra <> None /\ au = None) ->
  let p := db_get_auc cr imsi ind n ra au sep in
  run_db p c d = d /\ (run_out p c d = Crashed \/ exists rc, run_out p c d = Fin (rc, []) /\ rc < 0).
Proof.
  intros Hd Hk Hs Ha Hal Hx p. apply db_ok_inv in Hd.
  destruct (auc_run_3g cr imsi ind n ra au sep c d id a Hd Hk Hs Ha Hal) as (u & res & Eu & Er & [(rc' & Eo & Hn & Ed)|[[Eo Ed]|[Eo Ed]]]).
  - split; auto. right. eauto.
  - auto.
  - destruct (read_3g_fields a u Eu) as (F1 & F2 & F3). rewrite compute_3g in Er by (cbn; congruence).
    assert (res = None) as -> by (destruct ra, au; subst res; auto; destruct Hx as [[]|[]]; congruence).
    unfold p. rewrite Ed, sqn_set_same by auto. split; auto. right. exists (-1). split; [exact Eo|lia].
Qed.

(** a resync token that does not authenticate: no vector, number untouched *)
Lemma c15_bad_token cr f imsi ind n ra au sep c d id a u :
  db_ok d -> keys_wellformed d -> is_subscriber d imsi id -> key3 d id a -> a3_algo a <> 0 ->
  sqn_contract cr (a3_algo a) f -> asked_key a u ->
  f (mk_aud3 (u_algo u) (u_k u) (u_opc u) (u_is_op u) (u_sqn u) (u_bitlen u)
             (ind mod 2 ^ Z.to_N (a3_ind_bitlen a)) sep) au ra = None ->
  let p := db_get_auc cr imsi ind n (Some ra) (Some au) sep in
  run_db p c d = d /\ (run_out p c d = Crashed \/ exists rc, run_out p c d = Fin (rc, []) /\ rc <= 0).
Proof.
  intros Hd Hk Hs Ha Hal Hc Eu Hms p. apply db_ok_inv in Hd.
  destruct (auc_run_3g cr imsi ind n (Some ra) (Some au) sep c d id a Hd Hk Hs Ha Hal) as (u' & res & Eu' & Er & [(rc' & Eo & Hn & Ed)|[[Eo Ed]|[Eo Ed]]]).
  - split; auto. right. exists rc'. split; auto. lia.
  - auto.
  - unfold asked_key in Eu. rewrite Eu' in Eu. injection Eu as ->.
    destruct (read_3g_fields a u Eu') as (F1 & F2 & F3). rewrite compute_3g in Er by (cbn; congruence).
    set (ua := mk_aud3 _ _ _ _ _ _ _ _) in Er, Hms.
    assert (R : res = Some ([], Some (a3_sqn a))).
    { subst res. f_equal. destruct n as [|n]; [cbn; now rewrite F2|]. rewrite gen_loop_3g.
      destruct (c_rand cr 0) as [rnd|]; [|cbn; now rewrite F2].
      destruct (gen3_step cr 0 (Some (au, ra)) ua rnd) as [[v|] q0] eqn:Eg.
      - assert (Hua : u_algo ua = a3_algo a) by (cbn; congruence).
        destruct (step_contract _ _ _ _ _ _ _ _ _ Hc Hua Eg) as (base & HI & Hq & Hv & [[_ [X|X]]|(au' & ra' & _ & E2 & E3)]); try congruence.
      - cbn in Eg. destruct (sc_auts_fail _ _ _ Hc ua _ _ _ _ ltac:(cbn; congruence) Eg) as [->|E]; [cbn; now rewrite F2|congruence]. }
    unfold p. rewrite Ed, R, sqn_set_same by auto. split; auto. right. exists 0. rewrite Eo, R. split; [reflexivity|lia].
Qed.

(** resync for a subscriber without 3G key *)
Lemma c15_no_3g cr imsi ind n ra au sep c d id :
  db_ok d -> is_subscriber d imsi id -> ~ has_auc3 d id ->
  let p := db_get_auc cr imsi ind n (Some ra) (Some au) sep in
  run_db p c d = d /\ (run_out p c d = Crashed \/ exists rc, run_out p c d = Fin (rc, []) /\ rc < 0).
Proof.
  intros Hd Hs Hno p. apply db_ok_inv in Hd.
  destruct (find_by_imsi d imsi id Hd Hs) as (r & Hf & Er).
  assert (F3 : stored3 d id = None).
  { unfold stored3. destruct (find _ (d_auc3 d)) as [a|] eqn:E; auto. apply find_some in E as [E1 E2]. exfalso. apply Hno. exists a. split; auto. lia. }
  assert (EX : exec (AUC_BY_IMSI imsi) d = (RAuc id (stored2 d id) None, d)).
  { cbn [exec]. rewrite Hf, Er. fold (stored2 d id) (stored3 d id). now rewrite F3. }
  unfold p, run_db, run_out, db_get_auc. rewrite run_bind. unfold db_get_auth_data. cbn [run].
  assert (G : forall c', let x := run (match match read_2g (stored2 d id) with
        | None => inl (- ENOKEY) | Some g => inr (mk_auth (Some g) None id) end with
      | inl rc => Ret (rc, [])
      | inr a => match mask_ind (match ad_3g a with Some u => u_bitlen u | None => 0 end) ind with
        | None => Undef
        | Some ind' => let u := match ad_3g a with Some u => Some (mk_aud3 (u_algo u) (u_k u) (u_opc u) (u_is_op u) (u_sqn u) (u_bitlen u) ind' sep) | None => None end in
          let res := auc_compute_vectors cr n (ad_2g a) u (Some ra) (Some au) in
          let ret := match res with Some (vs, _) => (Z.of_nat (length vs), vs) | None => (-1, []) end in
          match u with
          | Some ua => if u_algo ua =? 0 then Ret ret else
              let q := match res with Some (_, Some q) => q | _ => u_sqn ua end in
              do rc <- db_update_sqn (ad_id a) q;; if rc <? 0 then Ret (-1, []) else Ret ret
          | None => Ret ret
          end
        end
      end) c' d in
     snd (fst x) = d /\ (fst (fst x) = Crashed \/ exists rc, fst (fst x) = Fin (rc, []) /\ rc < 0)).
  { intros c'. destruct (read_2g (stored2 d id)) as [g|]; cbv zeta.
    - cbn [ad_3g ad_2g]. unfold auc_compute_vectors. cbn [use_3g is_some]. destruct (use_2g _); cbn; split; auto; right; exists (-1); split; auto; lia.
    - cbn. split; auto. right. exists (-126). split; auto; lia. }
  destruct c as [|[] c'].
  - rewrite EX. cbv beta iota. specialize (G []). unfold read_3g at 1. destruct (read_2g (stored2 d id)); exact G.
  - rewrite EX. cbv beta iota. specialize (G c'). unfold read_3g at 1. destruct (read_2g (stored2 d id)); exact G.
  - cbn. split; auto. right. exists (-5). split; auto; lia.
  - cbn. auto.
Qed.
