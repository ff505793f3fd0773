(** Location update (C18, C19). *)
From Verif Require Import Base PeerId Db DbSpec DbProofs DbThms DbThms2 DbThms3 Auth AuthSpec AuthThms AuthThms2 AuthThms3 Gsup Router Hlr PeerSpec PeerThms HlrSpec HlrThms RouterThms HlrThms2 HlrThms3 HlrStep HlrThms4 HlrThms5.

Lemma created_run k w imsi c d o d' c' : run (create_on_demand k w imsi) c d = (o, d', c') -> created k w d imsi d'.
Proof.
  intros R. destruct (cod_run _ _ _ _ _ _ _ _ R) as [_ [->|(A & _ & B & id & m & C & -> & D)]]; [left; auto|right].
  split; auto. split; auto. exists id, m. auto.
Qed.

(** reading a subscriber *)
Lemma get_imsi_run k imsi c d rc sub d' c' : run (db_subscr_get_by_imsi (k_tz k) imsi) c d = (Fin (rc, sub), d', c') ->
  d' = d /\
  ((rc = 0 /\ exists row h, sub = Some h /\ In row (d_sub d) /\ s_imsi row = imsi /\ sub_of_row (k_tz k) row = Some h) \/
   (rc = - ENOENT /\ ~ has_imsi d imsi) \/ (rc = - EIO /\ In EvFail c)).
Proof.
  unfold db_subscr_get_by_imsi, db_sel. intros R. apply fin_exec in R as [(c1 & _ & R)|(c1 & _ & F & R)].
  - cbn [exec] in R. unfold sel in R. destruct (find (by_imsi imsi) (d_sub d)) as [row|] eqn:E; cbn [fst snd] in R.
    + apply find_some in E as [I E]. apply String.eqb_eq in E. destruct (sub_of_row (k_tz k) row) as [h|] eqn:H; [|discriminate R].
      apply fin_ret in R as ([= -> ->] & -> & _). split; auto. left. split; auto. exists row, h. auto.
    + apply fin_ret in R as ([= -> ->] & -> & _). split; auto. right; left. split; auto.
      intros (r & I & Er). apply (find_none _ _ E) in I. unfold by_imsi in I. rewrite Er, String.eqb_refl in I. discriminate.
  - apply fin_ret in R as ([= -> ->] & -> & _). split; auto.
Qed.

Lemma sub_fields tz row h : sub_of_row tz row = Some h -> is_imsi (s_imsi row) -> (forall m, s_msisdn row = Some m -> is_msisdn m) ->
  h_id h = s_id row /\ h_imsi h = s_imsi row /\ h_msisdn h = (match s_msisdn row with Some m => m | None => "" end) /\
  h_nam_cs h = s_nam_cs row /\ h_nam_ps h = s_nam_ps row.
Proof.
  unfold sub_of_row. destruct (ipa_set_str _ _); [|discriminate]. destruct (ipa_set_str _ _); [|discriminate]. intros [= <-] I M.
  cbn [h_id h_imsi h_msisdn h_nam_cs h_nam_ps]. split; auto. cbn [text_to_buf Nat.sub].
  assert (T : forall t, (String.length t <= 15)%nat -> str_take 15 t = t) by (intros t L; apply str_take_all; lia).
  split; [apply T; destruct I as [L _]; lia|]. split; auto. destruct (s_msisdn row) as [m|]; auto. apply T. destruct (M m eq_refl) as [L _]. lia.
Qed.

Lemma cnt_upd_same {R} (cond : R -> bool) f l : (forall r, cond (f r) = cond r) -> cnt cond (upd cond f l) = cnt cond l.
Proof.
  intros H. induction l as [|r l IH]; auto. unfold cnt, upd in *. cbn [map filter]. destruct (cond r) eqn:E; [rewrite (H r), E|rewrite E]; cbn [length]; auto.
Qed.
(** storing the serving node *)
Lemma lu_run x d row vlr via now c rc d' c' : db_inv d -> In row (d_sub d) ->
  run (db_subscr_lu (s_id row) vlr (is_ps x) via now) c d = (Fin rc, d', c') ->
  only_domain_changed x (fun y => s_id y = s_id row) d d' /\
  (rc = 0 -> exists number row', ipa_cstr vlr = Some number /\ In row' (d_sub d') /\ s_id row' = s_id row /\ s_imsi row' = s_imsi row /\
     access x row' = access x row /\ purged x row' = purged x row /\ serving x row' = Some number) /\
  (rc <> 0 -> In EvFail c \/ now = None).
Proof.
  intros Hd I R. pose proof (run_dbE _ _ _ _ _ _ R) as Ed. pose proof (run_outE _ _ _ _ _ _ R) as Eo.
  pose proof (c05_lu x d (s_id row) vlr via now c) as OD. rewrite Ed in OD. split; auto. split.
  - intros ->. destruct (c05_lu_sets x d _ vlr via now c Eo) as (number & proxy & t & Cn & _ & _ & _ & F2). rewrite Ed in F2.
    destruct OD as [F1 _]. pose proof (Forall2_and _ _ _ _ F1 F2) as F. destruct (Forall2_In_l _ _ _ _ F I) as (row' & I' & (S1 & _) & S2).
    rewrite Z.eqb_refl in S2. exists number, row'. split; auto. split; auto.
    destruct x; cbn in *; unfold not_cs, not_ps in S1; injection S1; injection S2; intros; subst; repeat split; auto.
  - intros N. revert R. unfold db_subscr_lu. destruct (ipa_cstr vlr) as [number|]; [|discriminate]. destruct (lu_proxy via) as [proxy|]; [|discriminate].
    intros R. apply fin_exec in R as [(c1 & Sub & R)|(c1 & _ & F & _)]; [|auto].
    assert (C1 : forall y, In y [row] -> cnt (by_id (s_id row)) (d_sub d) = 1%nat).
    { intros _ _. apply (cnt_upd_key s_id); [apply Hd|]. eauto. }
    assert (E1 : exists n p, exec (if is_ps x then UPD_SGSN_BY_ID n p (s_id row) else UPD_VLR_BY_ID n p (s_id row)) d =
       upd_sub (by_id (s_id row)) (if is_ps x then set_sgsn n p else set_vlr n p) d /\ n = Some number /\ p = proxy) by (exists (Some number), proxy; destruct x; auto).
    destruct E1 as (n & p & E1 & -> & ->). rewrite E1 in R. unfold upd_sub in R. cbn [fst snd] in R. rewrite (C1 row (or_introl eq_refl)) in R. cbn [upd_rc] in R.
    cbn [negb Z.eqb] in R. destruct now as [t|]; [|auto].
    apply fin_exec in R as [(c2 & Sub2 & R)|(c2 & _ & F & _)]; [|left; auto]. exfalso. apply N. apply fin_ret in R as (-> & _).
    set (d1 := with_sub d _). assert (C2 : cnt (by_id (s_id row)) (d_sub d1) = 1%nat).
    { unfold d1. cbn [d_sub with_sub]. rewrite cnt_upd_same; [apply (C1 row); left; auto|]. destruct x; intros y; reflexivity. }
    destruct x; cbn [is_ps exec]; unfold upd_sub; cbn [fst]; rewrite C2; reflexivity.
Qed.

(** * The request *)
Lemma respond_isd tx q m : g_imsi m = g_imsi (q_gsup q) -> g_imsi m <> "" -> g_class m = 0 -> g_mr m = None -> g_sid m = 0 -> g_type m <> 0 ->
  exists r, respond tx q m false false = (0, [OResp (q_nr q) r false (tx q r)]) /\ g_type r = g_type m /\ g_x r = g_x m.
Proof.
  intros I N C M D T. unfold respond. destruct (make_response m (q_gsup q) false false) as [rc r] eqn:E.
  apply String.eqb_neq in N. apply Z.eqb_neq in T.
  assert (R : rc = 0).
  { unfold make_response in E. injection E as <- _. rewrite C, M, D, N, I, String.eqb_refl. cbn. rewrite !Z.eqb_refl.
    destruct (g_mr (q_gsup q)); cbn; auto. rewrite Z.eqb_refl. reflexivity. }
  subst rc. cbn. exists r. split; auto. unfold make_response in E. injection E as _ <-. cbn [g_type g_x]. rewrite T. auto.
Qed.

Lemma imsi_nonempty i : is_imsi i -> i <> "".
Proof. intros [L _] ->. cbn in L. lia. Qed.

Lemma lu_start_run k w s q x c d s' o d' c' : fine d -> is_imsi (g_imsi (q_gsup q)) -> p_type (q_src q) = PT_IPA -> ipa_wf (p_ipa (q_src q)) ->
  (peer_is_empty (q_via q) = true \/ p_type (q_via q) = PT_IPA) ->
  g_type (q_gsup q) = MSGT_UPDATE_LOCATION_REQUEST -> in_domain (q_gsup q) x ->
  run (lu_start k w s q) c d = (Fin (s', o), d', c') ->
  exists r fin, o = [OResp (q_nr q) r fin (tx k s q r)] /\
   (if fin then s' = s else exists h, s' = with_lus s (mk_lu q (is_ps x) h :: t_lus s) /\ h_imsi h = g_imsi (q_gsup q)) /\
   forall v n, (forall a, ipa_bytes (p_ipa (q_src q)) = a -> sends_as v n (q_gsup q) a) -> (forall a a', sends_as v n (q_gsup q) a -> sends_as v n (q_gsup q) a' -> a = a') ->
     lu_answer k w v n x d d' (In EvFail c) (q_gsup q) r fin.
Proof.
  intros F Im Ip Wf Via T Dom R. set (g := q_gsup q) in *.
  assert (RQ : is_request (g_type (q_gsup q)) = true) by (fold g; rewrite T; reflexivity).
  assert (TE : to_error (g_type (q_gsup q)) = 5) by (fold g; rewrite T; reflexivity).
  assert (ERR : forall ca c1, run (Ret (s, respond_err (tx k s) q ca)) c1 d' = (Fin (s', o), d', c') ->
    exists r, o = [OResp (q_nr q) r true (tx k s q r)] /\ s' = s /\ g_type r = 5 /\ g_cause r = ca).
  { intros ca c1 E. apply fin_ret in E as ([= -> ->] & _). destruct (respond_err_out (tx k s) q ca RQ) as (r & -> & Ty & Ca & _).
    exists r. rewrite TE in Ty. auto. }
  assert (PS' : negb (g_cn g =? CN_CS) = is_ps x).
  { destruct x; cbn in *; [rewrite Dom; reflexivity|]. apply Z.eqb_neq in Dom. rewrite Dom. reflexivity. }
  unfold lu_start in R. fold g in R. rewrite PS' in R.
  destruct (peer_is_empty (q_src q)) eqn:Emp.
  { assert (d' = d) by (apply fin_ret in R; tauto). subst d'. destruct (ERR _ _ R) as (r & -> & -> & Ty & Ca). exists r, true. split; auto. split; auto.
    intros v n Sd _. apply lu_nameless; auto. apply Sd. unfold peer_is_empty in Emp. rewrite Ip in Emp. unfold ipa_is_empty in Emp. apply Nat.eqb_eq in Emp.
    unfold ipa_bytes. rewrite Emp. reflexivity. }
  apply fin_bind in R as ([rc sub] & d1 & c1 & R1 & R). pose proof (run_rest _ _ _ _ _ _ R1) as S1.
  apply get_imsi_run in R1 as (-> & G).
  destruct G as [(-> & row & h & -> & I & Er & H)|G].
  2:{ assert (N : rc <? 0 = true) by (unfold ENOENT, EIO in G; lia). rewrite N in R.
      assert (d' = d) by (apply fin_ret in R; tauto). subst d'. destruct (ERR _ _ R) as (r & -> & -> & Ty & Ca). exists r, true. split; auto. split; auto.
      intros v n Sd _. destruct G as [(_ & G)|(_ & G)]; [apply lu_unknown|apply lu_read_failed]; auto. }
  cbn [Z.ltb Z.compare] in R.
  destruct (inv_wellformed _ (proj1 F) row I) as [Wi Wm]. destruct (sub_fields _ _ _ H Wi Wm) as (Hi & Hm & Hn & Hc & Hp).
  assert (BAR : (negb (is_ps x) && negb (h_nam_cs h) = true \/ (negb (is_ps x) && negb (h_nam_cs h) = false /\ is_ps x && negb (h_nam_ps h) = true)) <-> access x row = false).
  { destruct x; cbn; rewrite ?Hc, ?Hp; [destruct (s_nam_cs row)|destruct (s_nam_ps row)]; cbn; split; intros; try discriminate; auto; destruct H0 as [|[? ?]]; discriminate. }
  destruct (access x row) eqn:Ac.
  2:{ assert (E : run (Ret (s, respond_err (tx k s) q (barred_cause x))) c1 d = (Fin (s', o), d', c')).
      { rewrite <- R. destruct x; cbn in *; rewrite ?Hc, ?Hp, Ac; reflexivity. }
      assert (d' = d) by (apply fin_ret in E; tauto). subst d'. destruct (ERR _ _ E) as (r & -> & -> & Ty & Ca). exists r, true. split; auto. split; auto.
      intros v n Sd _. apply lu_barred with row; auto. }
  assert (B1 : negb (is_ps x) && negb (h_nam_cs h) = false) by (destruct x; cbn in *; rewrite ?Hc, ?Ac; auto).
  assert (B2 : is_ps x && negb (h_nam_ps h) = false) by (destruct x; cbn in *; rewrite ?Hp, ?Ac; auto).
  rewrite B1, B2 in R.
  assert (B3 : negb (is_ipa (q_src q)) || (negb (peer_is_empty (q_via q)) && negb (is_ipa (q_via q))) = false).
  { unfold is_ipa. rewrite Ip. cbn. destruct Via as [-> | ->]; cbn; auto. apply andb_false_r. }
  rewrite B3 in R. apply fin_bind in R as (rc & d2 & c2 & R2 & R). pose proof (run_rest _ _ _ _ _ _ R2) as S2.
  rewrite Hi in R2. destruct (lu_run _ _ _ _ _ _ _ _ _ _ (proj1 F) I R2) as (OD & OK & BAD).
  destruct (rc =? 0) eqn:Z0; cbn [negb] in R.
  2:{ assert (d' = d2) by (apply fin_ret in R; tauto). subst d'. destruct (ERR _ _ R) as (r & -> & -> & Ty & Ca). exists r, true. split; auto. split; auto.
      intros v n Sd _. apply lu_store_failed with row; auto. apply Z.eqb_neq in Z0. destruct (BAD Z0); auto. }
  apply Z.eqb_eq in Z0. destruct (OK Z0) as (number & row' & Cn & I' & Ei & Eim & Ea & _ & Es).
  assert (Hg : h_imsi h = g_imsi g) by congruence.
  unfold isd_msg in R. destruct (k_msisdn_enc k (h_msisdn h)) eqn:Me.
  2:{ assert (d' = d2) by (apply fin_ret in R; tauto). subst d'. destruct (ERR _ _ R) as (r & -> & -> & Ty & Ca). exists r, true. split; auto. split; auto.
      intros v n Sd _. apply lu_store_failed with row; auto. right; right. exists (h_msisdn h). split; auto. rewrite Hn. destruct (s_msisdn row); auto. }
  set (m := mk_gsup MSGT_INSERT_DATA_REQUEST (h_imsi h) _ _ _ _ _ _ _ _ _) in R.
  destruct (respond_isd (tx k s) q m) as (r & Er' & Ty & Xt); try reflexivity; [exact Hg|cbn; rewrite Hg; apply imsi_nonempty; auto|discriminate|].
  rewrite Er' in R. cbn [negb Z.eqb] in R. apply fin_ret in R as ([= -> ->] & -> & _).
  exists r, false. split; auto. split; [exists h; auto|].
  intros v n Sd Un. apply lu_go with row row'; auto; try congruence.
  - exists number. split; auto. intros t St Nt. assert (Eb : ipa_bytes (p_ipa (q_src q)) = bytes_of t ++ [nul]) by (apply Un; auto).
    rewrite (ipa_cstr_bytes _ t [] Nt Eb) in Cn. congruence.
  - rewrite Xt. cbn [m g_x x_msisdn]. rewrite Hn. reflexivity.
Qed.

Lemma sends_as_unique v c g a a' : sinv v -> sends_as v c g a -> sends_as v c g a' -> a = a'.
Proof.
  intros S [(N & ->)|(N & x & Ix & Ex & ->)] [(N' & ->)|(N' & x' & Ix' & Ex' & ->)]; try congruence.
  do 2 f_equal. eapply NoDup_key_inj; [apply (si_ids _ S)| | |]; eauto. congruence.
Qed.

Lemma lu_step k s d w c g x f s' d' o : inv s -> fine d -> for_us k (t_srv s) c g -> g_type g = MSGT_UPDATE_LOCATION_REQUEST -> in_domain g x ->
  no_crash f -> step k (s, d) (w, ERx c g, f) = Some (s', d', o) ->
  exists d1 r fin co, created k w d (g_imsi g) d1 /\ o = [ORx (t_nr s) c g; OResp (t_nr s) r fin co] /\
    lu_answer k w (t_srv s) c x d1 d' (In EvFail f) g r fin /\ t_ss s' = t_ss s /\
    if fin then t_lus s' = t_lus s else exists q h, t_lus s' = mk_lu q (is_ps x) h :: t_lus s /\ q_nr q = t_nr s /\ q_gsup q = g /\ q_conn q = c.
Proof.
  intros H F U T Dm NC E. destruct (rx_step _ _ _ _ _ _ _ _ _ _ H U E) as (s1 & q & R & [(o' & f' & -> & Rn)|(_ & _ & C & _)]); [|destruct (NC C)].
  pose proof (rr_gsup _ _ _ _ _ _ R) as Eg.
  assert (Rn' : run (rx_upd_loc_req k w s1 q) f d = (Fin (s', o'), d', f')).
  { rewrite <- Rn. unfold dispatch. rewrite Eg, T. reflexivity. }
  unfold rx_upd_loc_req in Rn'. set (v := set_conn _ _ _) in Rn'. apply fin_bind in Rn' as (u & d1 & f1 & R1 & R2).
  pose proof (run_rest _ _ _ _ _ _ R1) as S1.
  assert (F1 : fine d1) by (rewrite <- (run_dbE _ _ _ _ _ _ R1); apply cod_fine; auto).
  apply created_run in R1. rewrite Eg in R1.
  destruct (lu_start_run k w (with_srv s1 v) q x f1 d1 s' o' d' f') as (r & fin & -> & St & A); auto; try rewrite Eg; auto.
  - apply (fu_imsi _ _ _ _ U).
  - apply (rr_ipa _ _ _ _ _ _ R).
  - apply (rr_wf _ _ _ _ _ _ R).
  - destruct (rr_via _ _ _ _ _ _ R) as [V|(V & _)]; auto.
  - exists d1, r, fin, (tx k (with_srv s1 v) q r). split; auto. rewrite (rr_nr _ _ _ _ _ _ R) in *. split; auto. rewrite Eg in A. split.
    + assert (AN : lu_answer k w (t_srv s) c x d1 d' (In EvFail f1) g r fin).
      { apply A; [intros a <-; apply (rr_name _ _ _ _ _ _ R)|]. intros a a'. apply sends_as_unique. apply H. }
      destruct AN; [eapply lu_go|eapply lu_unknown|eapply lu_barred|eapply lu_nameless|eapply lu_read_failed|eapply lu_store_failed]; eauto.
      intuition.
    + destruct fin.
      * subst s'. cbn. split; [apply (rr_ss _ _ _ _ _ _ R)|apply (rr_lus _ _ _ _ _ _ R)].
      * destruct St as (h & -> & Hh). cbn. split; [apply (rr_ss _ _ _ _ _ _ R)|]. exists q, h. rewrite (rr_lus _ _ _ _ _ _ R). split; auto.
        split; [apply (rr_nr _ _ _ _ _ _ R)|]. split; auto. apply (rr_conn _ _ _ _ _ _ R).
Qed.

(** * Updates in progress *)
(** programs of the same shape *)
Fixpoint all2 {A B} (R : A -> B -> Prop) (p : prog A) (p' : prog B) : Prop :=
  match p, p' with
  | Ret a, Ret b => R a b
  | Exec _ f, Exec _ f' => forall r, all2 R (f r) (f' r)
  | Undef, Undef => True
  | _, _ => False
  end.
Lemma all2_refl {A} (p : prog A) : all2 eq p p.
Proof. induction p; cbn; auto. Qed.
Lemma all2_bind {A B C D} (R : A -> B -> Prop) (Q : C -> D -> Prop) p p' f f' :
  all2 R p p' -> (forall a b, R a b -> all2 Q (f a) (f' b)) -> all2 Q (bind p f) (bind p' f').
Proof. revert p'. induction p; intros [b| |]; cbn; try tauto; intros HH G; auto. Qed.
Lemma all2_rets {A B} (R : A -> B -> Prop) (P : A -> Prop) (Q : B -> Prop) p p' :
  all2 R p p' -> all_rets P p -> (forall a b, R a b -> P a -> Q b) -> all_rets Q p'.
Proof. revert p'. induction p; intros [b| |]; cbn; try tauto; intros HH G I; eauto. Qed.

Definition lifted (ls : list lu) (x y : hst * list out) : Prop := y = (with_lus (fst x) ls, snd x).
Definition lifted3 (ls : list lu) (x y : hst * bool * list out) : Prop := y = (with_lus (fst (fst x)) ls, snd (fst x), snd x).
Lemma ss_dispatch_lift k s z fe g r ls : all2 (lifted3 ls) (ss_dispatch k s z fe g r) (ss_dispatch k (with_lus s ls) z fe g r).
Proof.
  assert (KEEP : forall p, all2 (lifted3 ls) (do x <- p;; Ret (ss_put s (fst x), false, snd x)) (do x <- p;; Ret (ss_put (with_lus s ls) (fst x), false, snd x))).
  { intros p. eapply all2_bind; [apply all2_refl|]. intros x _ <-. reflexivity. }
  unfold ss_dispatch. destruct (op_is_ussd _); [|apply KEEP]. unfold handle_ussd.
  destruct (z_hdl z); [apply KEEP| | |]; destruct fe; try apply KEEP; try exact I.
  - eapply all2_bind; [apply all2_refl|]. intros x _ <-. destruct (z_state _ =? _); reflexivity.
  - cbn [t_srv with_lus]. destruct (route_find _ _); [reflexivity|apply KEEP].
Qed.
Lemma proc_ss_lift k s q ls : all2 (lifted ls) (rx_proc_ss_req k s q) (rx_proc_ss_req k (with_lus s ls) q).
Proof.
  unfold rx_proc_ss_req. destruct (negb _); [reflexivity|]. destruct (match pl_octets _ with [] => _ | _ => _ end) as [r|]; [|reflexivity].
  change (ss_find (with_lus s ls)) with (ss_find s).
  destruct (_ =? SS_BEGIN).
  { destruct (ss_find _ _ _); [reflexivity|]. destruct (ss_handler _ _ _ _); [|exact I]. cbv zeta. set (z := if peer_is_euse _ then _ else _).
    eapply all2_bind; [apply (ss_dispatch_lift k (with_ss s (t_ss s ++ [z])) z _ _ _ ls)|]. intros x y ->. reflexivity. }
  destruct (_ =? SS_CONTINUE).
  { destruct (ss_find _ _ _); [|reflexivity]. eapply all2_bind; [apply ss_dispatch_lift|]. intros x y ->. reflexivity. }
  destruct (_ =? SS_END); [|reflexivity]. destruct (ss_find _ _ _); [|reflexivity].
  eapply all2_bind with (R := lifted3 ls); [destruct (pl_octets _); [reflexivity|apply ss_dispatch_lift]|].
  intros x y ->. cbn [fst snd]. destruct (snd (fst x)); [exact I|reflexivity].
Qed.

(** what an event does to the updates in progress *)
Definition lu_ok (l : lu) : Prop := g_type (q_gsup (l_req l)) = MSGT_UPDATE_LOCATION_REQUEST /\ h_imsi (l_sub l) = g_imsi (q_gsup (l_req l)).
Definition others (nr : nat) (o : list out) : Prop := forall y, In y o -> ~ about nr y.
(** [why e l t]: event [e] ends update [l] with a message of type [t] *)
Definition why (e : event) (l : lu) (t : Z) : Prop :=
  (e = ELuTimer (q_nr (l_req l)) /\ t = 5) \/
  exists c g, e = ERx c g /\ g_imsi g = h_imsi (l_sub l) /\
    ((g_type g = MSGT_INSERT_DATA_RESULT /\ t = 6) \/ (g_type g = MSGT_INSERT_DATA_ERROR /\ t = 5)).
Definition lu_eff (s : hst) (e : event) (x : hst * list out) : Prop :=
  (exists l0, t_lus (fst x) = l0 ++ t_lus s /\ Forall (fun l => q_nr (l_req l) = t_nr s /\ lu_ok l) l0 /\
     (forall nr, In nr (map q_nr (map l_req (t_lus s))) -> others nr (snd x) /\ e <> ELuTimer nr)) \/
  (exists l o1 r co o2, In l (t_lus s) /\ t_lus (fst x) = filter (fun y => negb (q_nr (l_req y) =? q_nr (l_req l))%nat) (t_lus s) /\
     snd x = o1 ++ OResp (q_nr (l_req l)) r true co :: o2 /\ why e l (g_type r) /\
     (forall nr, In nr (map q_nr (map l_req (t_lus s))) -> others nr (o1 ++ o2) /\ (nr <> q_nr (l_req l) -> e <> ELuTimer nr))).

Lemma trans_about X a o b : trans X a o b -> forall y nr, In y o -> about nr y -> In nr (map q_nr a).
Proof.
  intros T. induction T; intros y nr; cbn [In]; try tauto; (intros [<-|I] Ab; [cbn in Ab; try tauto; subst|]).
  - apply in_map; auto.
  - eauto.
  - rewrite H. cbn. auto.
  - specialize (IHT _ _ I Ab). rewrite H. cbn. auto.
  - rewrite H. cbn. auto.
  - specialize (IHT _ _ I Ab). rewrite H. cbn. auto.
  - eauto.
Qed.
(** the IMSI of the update is that of the request *)
Lemma get_imsi_name k imsi : is_imsi imsi -> forall c d rc h d' c', run (db_subscr_get_by_imsi (k_tz k) imsi) c d = (Fin (rc, Some h), d', c') -> h_imsi h = imsi.
Proof.
  intros Im c d rc h d' c' R. unfold db_subscr_get_by_imsi, db_sel in R. apply fin_exec in R as [(c1 & _ & R)|(c1 & _ & F & R)].
  - cbn [exec] in R. unfold sel in R. destruct (find (by_imsi imsi) (d_sub d)) as [row|] eqn:E; cbn [fst snd] in R.
    + apply find_some in E as [I E]. apply String.eqb_eq in E. destruct (sub_of_row (k_tz k) row) as [h'|] eqn:H; [|discriminate R].
      apply fin_ret in R as ([= -> <-] & _). unfold sub_of_row in H. destruct (ipa_set_str _ _); [|discriminate]. destruct (ipa_set_str _ _); [|discriminate].
      injection H as <-. cbn. rewrite E. destruct Im as [L _]. apply str_take_all. lia.
    + apply fin_ret in R as ([=] & _).
  - apply fin_ret in R as ([=] & _).
Qed.
Lemma lu_start_new k w s q c d x d' c' : g_type (q_gsup q) = MSGT_UPDATE_LOCATION_REQUEST -> is_imsi (g_imsi (q_gsup q)) ->
  run (lu_start k w s q) c d = (Fin x, d', c') ->
  (t_lus (fst x) = t_lus s \/ exists l, t_lus (fst x) = l :: t_lus s /\ l_req l = q /\ lu_ok l) /\
  forall y nr, In y (snd x) -> about nr y -> nr = q_nr q.
Proof.
  intros T Im. set (P := fun x : hst * list out => (t_lus (fst x) = t_lus s \/ exists l, t_lus (fst x) = l :: t_lus s /\ l_req l = q /\ lu_ok l) /\
    forall y nr, In y (snd x) -> about nr y -> nr = q_nr q). change (run (lu_start k w s q) c d = (Fin x, d', c') -> P x).
  assert (RE : forall c y nr, In y (respond_err (tx k s) q c) -> about nr y -> nr = q_nr q).
  { intros c0 y nr I A. pose proof (trans_about _ _ _ _ (respond_err_trans (tx k s) q c0 []) y nr I A) as [<-|[]]; auto. }
  assert (ER : forall c1 c2 d1, run (Ret (s, respond_err (tx k s) q c1)) c2 d1 = (Fin x, d', c') -> P x).
  { intros c1 c2 d1 R. apply fin_ret in R as (-> & _). split; [left; auto|]. apply RE. }
  unfold lu_start. destruct (peer_is_empty _); [apply ER|]. intros R. apply fin_bind in R as ([rc sub] & d1 & c1 & R1 & R). revert R.
  destruct (rc <? 0); [apply ER|]. destruct sub as [h|]; [|discriminate]. apply get_imsi_name in R1; auto.
  destruct (_ && _); [apply ER|]. destruct (_ && _); [apply ER|]. destruct (_ || _); [apply ER|].
  intros R. apply fin_bind in R as (rc2 & d2 & c2 & _ & R). revert R. destruct (negb _); [apply ER|]. destruct (isd_msg _ _ _ _) as [m|] eqn:M; [|apply ER].
  assert (RK : forall y nr, In y (snd (respond (tx k s) q m false false)) -> about nr y -> nr = q_nr q).
  { intros y nr I A. unfold respond in I. destruct (make_response _ _ _ _) as [rr r]. destruct (rr =? 0); [|destruct I]. destruct I as [<-|[]]. cbn in A. auto. }
  destruct (respond _ _ _ _ _) as [rc3 o]. cbn [snd] in RK. destruct (negb (rc3 =? 0)); intros R; apply fin_ret in R as (-> & _); unfold P; cbn [fst snd].
  - split; [left; auto|]. intros y nr I. apply in_app_or in I as [I|I]; eauto.
  - split; auto. right. eexists. split; [reflexivity|]. split; [reflexivity|]. split; auto.
Qed.

Lemma lu_others s nr q o : NoDup (map q_nr (opens s)) -> q_nr q <> nr -> In nr (map q_nr (map l_req (t_lus s))) ->
  (forall y n, In y o -> about n y -> In n (map q_nr (q :: flat_map z_reqs (t_ss s)))) -> others nr o.
Proof.
  intros ND N I A y Iy Ab. apply (A _ _ Iy) in Ab. cbn in Ab. destruct Ab as [Ab|Ab]; [congruence|].
  unfold opens in ND. rewrite map_app in ND. clear -ND I Ab. induction (map q_nr (map l_req (t_lus s))) as [|m l IH]; [destruct I|].
  cbn in ND. inversion ND; subst. destruct I as [->|I]; auto. apply H1. apply in_or_app. auto.
Qed.

(** the same for one message, given number [q_nr q] *)
Definition rx_eff (s : hst) (q : req) (x : hst * list out) : Prop :=
  (exists l0, t_lus (fst x) = l0 ++ t_lus s /\ Forall (fun l => l_req l = q /\ lu_ok l) l0 /\
     (forall nr, In nr (map q_nr (map l_req (t_lus s))) -> others nr (snd x))) \/
  (exists l o1 r co o2, In l (t_lus s) /\ t_lus (fst x) = filter (fun y => negb (q_nr (l_req y) =? q_nr (l_req l))%nat) (t_lus s) /\
     snd x = o1 ++ OResp (q_nr (l_req l)) r true co :: o2 /\ g_imsi (q_gsup q) = h_imsi (l_sub l) /\
     ((g_type (q_gsup q) = MSGT_INSERT_DATA_RESULT /\ g_type r = 6) \/ (g_type (q_gsup q) = MSGT_INSERT_DATA_ERROR /\ g_type r = 5)) /\
     (forall nr, In nr (map q_nr (map l_req (t_lus s))) -> others nr (o1 ++ o2))).

Lemma dispatch_eff k w s q c d x d' c' : hinv s -> ~ In (q_nr q) (map q_nr (opens s)) -> Forall lu_ok (t_lus s) -> is_imsi (g_imsi (q_gsup q)) ->
  run (dispatch k w s q) c d = (Fin x, d', c') -> rx_eff s q x.
Proof.
  intros H NF LO Im. pose proof (hi_nodup s H) as ND. set (s0 := with_lus s []).
  assert (Es : s = with_lus s0 (t_lus s)) by (destruct s; reflexivity).
  assert (H0 : hinv s0).
  { destruct H as [A B C]. split; auto.
    - unfold opens in *. cbn. rewrite map_app in A. clear -A. induction (map q_nr (map l_req (t_lus s))); auto. inversion A; auto.
    - unfold opens in *. cbn. apply Forall_app in B. tauto. }
  assert (NQ : forall nr, In nr (map q_nr (map l_req (t_lus s))) -> q_nr q <> nr).
  { intros nr I <-. apply NF. unfold opens. rewrite map_app. apply in_or_app. auto. }
  assert (SAME : forall p, all_rets (fun o => trans (tx k s0) (q :: opens s0) o (opens s0)) p -> run (same s p) c d = (Fin x, d', c') -> rx_eff s q x).
  { intros p A R. unfold same in R. apply fin_bind in R as (o & d1 & c1 & R1 & R). apply fin_ret in R as (-> & _). apply run_outE in R1.
    apply (all_rets_run _ _ A) in R1. left. exists []. split; auto. split; auto. intros nr I. eapply lu_others; eauto. apply (trans_about _ _ _ _ R1). }
  assert (FREE : run (Ret (s, [OFree (q_nr q)])) c d = (Fin x, d', c') -> rx_eff s q x).
  { intros R. apply fin_ret in R as (-> & _). left. exists []. split; auto. split; auto. intros nr I y [<-|[]]. cbn. apply NQ; auto. }
  unfold dispatch.
  destruct (_ =? MSGT_SEND_AUTH_INFO_REQUEST); [apply SAME; exact (sai_lin k w s0 q)|].
  destruct (_ =? MSGT_UPDATE_LOCATION_REQUEST) eqn:TU.
  { apply Z.eqb_eq in TU. unfold rx_upd_loc_req. intros R. apply fin_bind in R as (u & d1 & c1 & _ & R).
    destruct (lu_start_new _ _ _ _ _ _ _ _ _ TU Im R) as (A & B). left. cbn [t_lus with_srv] in A. destruct A as [A|(l & A & Q & L)].
    - exists []. split; auto. split; auto. intros nr I y Iy Ab. apply (NQ nr I). symmetry. eauto.
    - exists [l]. split; auto. split; auto. intros nr I y Iy Ab. apply (NQ nr I). symmetry. eauto. }
  destruct (_ =? MSGT_PURGE_MS_REQUEST); [apply SAME; exact (purge_lin k s0 q)|].
  destruct (_ || _); [exact FREE|].
  destruct (_ || _) eqn:E.
  { intros R.
    assert (G : ssmsg (q_gsup q)).
    { apply Bool.orb_true_iff in E. rewrite !Z.eqb_eq in E. destruct E as [E|E].
      - unfold ssmsg. rewrite E. split; [unfold ss_type, MSGT_PROC_SS_REQUEST; lia|apply not_error; reflexivity].
      - apply ssmsg_result; auto. }
    pose proof (proc_ss_lin k s0 q (hi_keys _ H0) G) as L. pose proof (proc_ss_lift k s0 q (t_lus s)) as L2. rewrite <- Es in L2.
    assert (A : all_rets (fun y => exists z, lin k s0 q z /\ lifted (t_lus s) z y) (rx_proc_ss_req k s q)).
    { eapply all2_rets; [exact L2|exact L|]. eauto. }
    apply run_outE in R. apply (all_rets_run _ _ A) in R. destruct R as (z & (_ & _ & T) & ->). left. exists []. split; auto. split; auto.
    intros nr I. eapply lu_others; eauto. apply (trans_about _ _ _ _ T). }
  clear E. destruct (_ =? MSGT_PROC_SS_ERROR); [exact FREE|].
  destruct (_ || _ || _ || _).
  { intros R. apply fin_ret in R as (-> & _). unfold lu_rx.
    assert (ER : rx_eff s q (s, respond_err (tx k s) q CAUSE_MSGT_INCOMP_P_STATE)).
    { left. exists []. split; auto. split; auto. intros nr I. eapply lu_others; eauto. apply (trans_about _ _ _ _ (respond_err_trans (tx k s) q _ _)). }
    destruct (find _ _) as [l|] eqn:Fd; auto. apply find_some in Fd as [Il El]. apply String.eqb_eq in El.
    assert (Lo : lu_ok l) by (rewrite Forall_forall in LO; auto). destruct Lo as [Lt Li].
    destruct (_ =? MSGT_INSERT_DATA_RESULT) eqn:E1; [|destruct (_ =? MSGT_INSERT_DATA_ERROR) eqn:E2]; auto; right.
    - apply Z.eqb_eq in E1. unfold respond_msgt. destruct (respond_plain_out (tx k s) (l_req l) (msg0 MSGT_UPDATE_LOCATION_RESULT) (is_error MSGT_UPDATE_LOCATION_RESULT) true 6) as (r & -> & Ty & _); [repeat split|reflexivity|discriminate|].
      exists l, [OFree (q_nr q)], r, (tx k s (l_req l) r), []. split; auto. split; [reflexivity|]. split; [reflexivity|]. split; auto. split; auto.
      intros nr I y [<-|[]]. cbn. apply NQ; auto.
    - apply Z.eqb_eq in E2. destruct (respond_err_out (tx k s) (l_req l) CAUSE_NET_FAIL) as (r & -> & Ty & _); [rewrite Lt; reflexivity|]. rewrite Lt in Ty.
      exists l, [], r, (tx k s (l_req l) r), [OFree (q_nr q)]. split; auto. split; [reflexivity|]. split; [reflexivity|]. split; auto. split; auto.
      intros nr I y [<-|[]]. cbn. apply NQ; auto. }
  destruct (_ =? MSGT_CHECK_IMEI_REQUEST); [apply SAME; exact (imei_lin k w s0 q)|].
  destruct (_ =? MSGT_MO_FORWARD_SM_REQUEST) eqn:TM.
  { apply SAME. apply Z.eqb_eq in TM. apply (mo_sms_trans k s0 q). rewrite TM. apply is_request_iff. reflexivity. }
  destruct (_ =? MSGT_MT_FORWARD_SM_REQUEST); [apply SAME; exact (mt_sms_trans k s0 q _)|].
  destruct (_ =? MSGT_READY_FOR_SM_REQUEST); [apply SAME; exact (ready_trans k s q (opens s0))|]. exact FREE.
Qed.

(** any message: those not for the HLR itself leave the updates alone *)
Lemma read_msg_eff k w s c g f d x d' f' : inv s -> find_conn (t_srv s) c <> None -> Forall lu_ok (t_lus s) ->
  run (read_msg k w s c g) f d = (Fin x, d', f') ->
  exists q, q_nr q = t_nr s /\ q_gsup q = g /\ rx_eff s q x.
Proof.
  intros [H SV] Fc LO R. unfold read_msg in R. pose proof (conn_rx_ok k s c g (t_nr s) SV Fc eq_refl) as CR.
  assert (CI : forall v q, conn_rx (k_enc k) (t_srv s) (t_nr s) c g = (v, inl q) -> imsi_valid (g_imsi g) = true).
  { unfold conn_rx. destruct (find_conn (t_srv s) c) as [y|]; [|tauto]. intros v q. unfold req_new.
    destruct (imsi_valid (g_imsi g)); cbn [negb]; auto. match goal with |- context [match ?m with inl _ => _ | inr o => inr o end] => destruct m end; discriminate. }
  destruct (conn_rx _ _ _ _ _) as [v r]. specialize (CR v r eq_refl).
  set (s1 := mk_hst v (t_lus s) (t_ss s) (S (t_nr s))) in R.
  assert (H1 : hinv s1) by (apply hinv_srv; auto).
  assert (FR : forall q, q_nr q = t_nr s -> ~ In (q_nr q) (map q_nr (opens s1))).
  { intros q -> I. destruct H as [_ Z0 _]. change (opens s1) with (opens s) in I. apply in_map_iff in I as (p & Ep & Ip). rewrite Forall_forall in Z0. apply Z0 in Ip. lia. }
  assert (TR : forall q o a b, q_nr q = t_nr s -> trans (tx k s1) (q :: a) o b -> incl a (flat_map z_reqs (t_ss s)) -> forall s2, t_lus s2 = t_lus s -> rx_eff s q (s2, o)).
  { intros q o a b Q T Ia s2 E2. left. exists []. split; auto. split; auto. intros nr I. eapply (lu_others s nr q); auto.
    - apply H.
    - intros E. apply (FR q Q). unfold opens. rewrite map_app. apply in_or_app. left. change (t_lus s1) with (t_lus s). congruence.
    - intros y n Iy Ab. apply (trans_about _ _ _ _ T y n Iy) in Ab. destruct Ab as [Ab|Ab]; [left; auto|right]. apply in_map_iff in Ab as (p & <- & Ip). apply in_map; auto. }
  destruct r as [q|o].
  - destruct CR as (R1 & R2 & R3 & R4). exists q. split; auto. split; auto.
    assert (D : run (dispatch k w s1 q) f d = (Fin x, d', f') -> rx_eff s q x).
    { intros Rd. apply (dispatch_eff k w s1 q f d x d' f') in Rd; auto. rewrite R3. apply imsi_valid_spec. eauto. }
    destruct (g_dst g) as [|y l]; auto. destruct (ipa_set_str _ _); [|discriminate]. destruct (ipa_set _ _) as [rc dest]. destruct (_ && _); auto.
    unfold same in R. apply fin_bind in R as (o & d1 & f1 & Rf & R). apply fin_ret in R as (-> & _). apply run_outE in Rf.
    apply (all_rets_run _ _ (forward_trans k s1 dest q [])) in Rf. eapply TR; [exact R1|exact Rf| |reflexivity]. intros z [].
  - apply fin_ret in R as (-> & _). destruct CR as (q & R1 & R2 & R3 & T & _). exists q. split; auto. split; auto.
    eapply TR; [exact R1|exact (T [])| |reflexivity]. intros z [].
Qed.

(** ** one event *)
Lemma step_eff k s d w e f s' d' o : inv s -> Forall lu_ok (t_lus s) -> step k (s, d) (w, e, f) = Some (s', d', o) ->
  lu_eff s e (s', o) \/ (s' = restart s /\ o = [] /\ In EvCrash f).
Proof.
  intros H LO E. assert (NDO := hi_nodup s (proj1 H)).
  unfold step in E. cbn [fst snd] in E. destruct (run (handle k w s e) f d) as [[[[s2 o2]| |] d2] f2] eqn:R; [| |discriminate].
  2:{ injection E as <- _ <-. right. apply run_crash in R. auto. }
  left. injection E as -> -> ->.
  assert (QT : forall v o', only_tx o' -> (forall nr, e <> ELuTimer nr) -> s' = with_srv s v -> o = o' -> lu_eff s e (s', o)).
  { intros v o' T N -> ->. left. exists []. split; auto. split; auto. intros nr _. split; auto. intros y Iy Ab. unfold only_tx in T. rewrite Forall_forall in T. apply T in Iy. destruct y; tauto. }
  assert (SV : s = with_srv s (t_srv s)) by (destruct s; auto).
  assert (SM : forall p, all_rets only_tx p -> (forall nr, e <> ELuTimer nr) -> run (same s p) f d = (Fin (s', o), d', f2) -> lu_eff s e (s', o)).
  { intros p A N Rp. unfold same in Rp. apply fin_bind in Rp as (o' & d1 & f1 & R1 & Rp). apply fin_ret in Rp as ([= -> ->] & _). apply run_outE in R1.
    apply (all_rets_run _ _ A) in R1. eapply QT; eauto. }
  destruct e as [|c tag|c|c g|nr|imsi sid|x m|x cs ps|a]; cbn [handle] in R.
  - apply fin_ret in R as ([= -> ->] & _). eapply QT; try reflexivity; [constructor|discriminate].
  - apply fin_ret in R as ([= -> ->] & _). eapply QT; try reflexivity; [constructor|discriminate].
  - apply fin_ret in R as ([= -> ->] & _). eapply QT; try reflexivity; [constructor|discriminate].
  - destruct (find_conn (t_srv s) c) eqn:Fc.
    2:{ apply fin_ret in R as ([= -> ->] & _). apply (QT (t_srv s) []); auto; [constructor|discriminate]. }
    unfold read_cb in R. apply fin_bind in R as (x & d1 & f1 & R1 & R). apply fin_ret in R as (Ex & -> & ->). injection Ex as -> ->.
    assert (Fn : find_conn (t_srv s) c <> None) by (rewrite Fc; discriminate).
    destruct (read_msg_eff _ _ _ _ _ _ _ _ _ _ H Fn LO R1) as (q & Q1 & Q2 & [(l0 & A & B & C)|(l & o1 & r & co & o2 & A & B & C & D & X & Y)]).
    + left. exists l0. split; auto. split.
      * eapply Forall_impl; [|exact B]. intros l [-> L]. auto.
      * intros nr I. split; [|discriminate]. cbn [snd]. intros y [<-|Iy]; [cbn; tauto|]. exact (C nr I y Iy).
    + right. exists l, (ORx (t_nr s) c g :: o1), r, co, o2. split; auto. split; auto. cbn [snd]. rewrite C. split; auto. split.
      * right. exists c, g. rewrite <- Q2. repeat (split; [solve [auto]|]). exact X.
      * intros nr I. split; [|discriminate]. cbn [app]. intros y [<-|Iy]; [cbn; tauto|]. apply (Y nr I y Iy).
  - apply fin_ret in R as (E & _). rewrite E. unfold lu_timeout. destruct (find _ _) as [l|] eqn:Fd.
    + apply find_some in Fd as [Il El]. apply Nat.eqb_eq in El. assert (Lo : lu_ok l) by (rewrite Forall_forall in LO; auto). destruct Lo as [Lt Li].
      destruct (respond_err_out (tx k s) (l_req l) CAUSE_NET_FAIL) as (r & -> & Ty & _); [rewrite Lt; reflexivity|]. rewrite Lt in Ty.
      right. exists l, [], r, (tx k s (l_req l) r), []. subst nr. split; auto. split; [reflexivity|]. split; [reflexivity|]. split; [left; auto|].
      intros nr I. split; [intros y []|]. congruence.
    + left. exists []. split; auto. split; auto. intros n I. split; [intros y []|]. intros [= ->]. rewrite map_map in I. apply in_map_iff in I as (l & El & Il).
      apply (find_none _ _ Fd) in Il. rewrite El, Nat.eqb_refl in Il. discriminate.
  - apply fin_ret in R as (E & _). rewrite E. unfold ss_timeout. destruct (ss_find s imsi sid) as [z|] eqn:Fz; left; exists []; (split; [auto|]); (split; [auto|]); intros n I; (split; [|discriminate]).
    + apply ss_find_in in Fz as (Iz & _). apply (lu_others s n (mk_req (S n) 0 peer_zero peer_zero (msg0 0))); [auto|cbn; lia|auto|]. intros y m Iy Ab.
      right. cbn [snd ss_free] in Iy. apply in_map_iff. assert (X : exists p, In p (z_reqs z) /\ q_nr p = m).
      { unfold z_reqs. apply in_app_or in Iy as [Iy|Iy].
        - destruct (z_ms z) as [p|]; [|destruct Iy]. destruct Iy as [<-|[]]. cbn in Ab. exists p. cbn. auto.
        - destruct (z_euse z) as [p|]; [|destruct Iy]. destruct Iy as [<-|[]]. cbn in Ab. exists p. split; auto. apply in_or_app. right. cbn. auto. }
      destruct X as (p & Ip & Ep). exists p. split; auto. apply in_flat_map. eauto.
    + intros y [].
  - eapply SM; eauto; [apply vty_msisdn_tx|discriminate].
  - eapply SM; eauto; [apply vty_nam_tx|discriminate].
  - apply fin_bind in R as (z & d1 & f1 & _ & R). apply fin_ret in R as ([= -> ->] & _). apply (QT (t_srv s) []); auto; [constructor|discriminate].
Qed.

(** ** histories *)
Lemma step_lu_ok k s d w e f s' d' o : inv s -> Forall lu_ok (t_lus s) -> step k (s, d) (w, e, f) = Some (s', d', o) -> Forall lu_ok (t_lus s').
Proof.
  intros H LO E. destruct (step_eff _ _ _ _ _ _ _ _ _ H LO E) as [[(l0 & A & B & _)|(l & _ & _ & _ & _ & _ & B & _)]|(-> & _)]; cbn [fst] in *; [| |constructor].
  - rewrite A. apply Forall_app. split; auto. eapply Forall_impl; [|exact B]. intros ? []; auto.
  - rewrite B. apply Forall_forall. intros y I. apply filter_In in I. rewrite Forall_forall in LO. apply LO, I.
Qed.
Lemma hist_lu_ok k es : forall s d s' d' o, inv s -> Forall lu_ok (t_lus s) -> hist k (s, d) es = Some (s', d', o) -> Forall lu_ok (t_lus s').
Proof.
  induction es as [|[[w e] f] es IH]; intros s d s' d' o H LO; cbn [hist].
  - intros [= <- <- <-]. auto.
  - destruct (step k (s, d) (w, e, f)) as [[[s1 d1] o1]|] eqn:E; [|discriminate].
    destruct (hist k (s1, d1) es) as [[[s2 d2] o2]|] eqn:E2; [|discriminate]. intros [= <- <- <-].
    eapply IH; [| |exact E2]; [eapply step_ltr; eauto|eapply step_lu_ok; eauto].
Qed.
Lemma hist_gone k es nr : forall s d s' d' o, inv s -> (nr < t_nr s)%nat -> ~ pending s nr -> hist k (s, d) es = Some (s', d', o) -> ~ pending s' nr /\ others nr o.
Proof.
  intros s d s' d' o H L N E. destruct (hist_ltr _ _ _ _ _ _ _ H E) as [_ T]. split.
  - revert s d s' d' o H L N E T. induction es as [|[[w e] f] es IH]; intros s d s' d' o H L N; cbn [hist].
    + intros [= <- <- <-]. auto.
    + destruct (step k (s, d) (w, e, f)) as [[[s1 d1] o1]|] eqn:E; [|discriminate].
      destruct (hist k (s1, d1) es) as [[[s2 d2] o2]|] eqn:E2; [|discriminate]. intros [= <- <- <-] _.
      destruct (step_ltr _ _ _ _ _ _ _ _ _ H E) as [H1 _]. destruct (step_opens_sub _ _ _ _ _ _ _ _ _ H E) as (S1 & S2 & _).
      eapply IH; [exact H1| | |exact E2|eapply hist_ltr; eauto]; [lia|].
      intros (q & Iq & Eq). destruct (S1 q Iq) as [I|I]; [|lia]. apply N. exists q. auto.
  - intros y. eapply ltr_gone; eauto. intros I. apply in_map_iff in I as (q & Eq & Iq). apply N. exists q. auto.
Qed.

Lemma ltr_sub n a o n' b : ltr n a o n' b -> forall q, In q b -> In q a \/ (n <= q_nr q)%nat.
Proof.
  intros T. induction T; intros p I.
  - left. rewrite H. apply in_or_app. auto.
  - destruct (IHT p I) as [[->|L]|L]; [right; lia|left; auto|right; lia].
  - auto.
  - destruct (IHT p I) as [L|L]; auto. left. rewrite H. right. auto.
  - destruct (IHT p I) as [L|L]; auto. left. rewrite H. right. auto.
  - auto.
Qed.
Lemma ltr_end n a o n' b : ltr n a o n' b -> fresh_ok n a -> forall x nr, In x o -> ends nr x -> ~ In nr (map q_nr b).
Proof.
  intros T. induction T; intros F x nr; cbn [In]; try tauto; intros [<-|I] X; try (destruct X; fail).
  - eapply IHT; eauto. apply fresh_cons; auto.
  - eapply IHT; eauto.
  - destruct (fresh_tail _ _ _ _ H F) as (F1 & N1 & L1). cbn in X. subst nr. intros I. apply in_map_iff in I as (p & Ep & Ip).
    destruct (ltr_sub _ _ _ _ _ T p Ip) as [L|L]; [|lia]. apply N1. rewrite <- Ep. apply in_map. auto.
  - destruct (fresh_tail _ _ _ _ H F) as (F1 & N1 & L1). eapply IHT; eauto.
  - destruct (fresh_tail _ _ _ _ H F) as (F1 & N1 & L1). cbn in X. subst nr. intros I. apply in_map_iff in I as (p & Ep & Ip).
    destruct (ltr_sub _ _ _ _ _ T p Ip) as [L|L]; [|lia]. apply N1. rewrite <- Ep. apply in_map. auto.
  - destruct (fresh_tail _ _ _ _ H F) as (F1 & N1 & L1). eapply IHT; eauto.
  - eapply IHT; eauto.
Qed.

Lemma lu_hist k es l : forall s d s' d' o, inv s -> Forall lu_ok (t_lus s) -> In l (t_lus s) -> crash_free es -> hist k (s, d) es = Some (s', d', o) ->
  (In l (t_lus s') /\ others (q_nr (l_req l)) o /\ forall w f, ~ In (w, ELuTimer (q_nr (l_req l)), f) es) \/
  (~ pending s' (q_nr (l_req l)) /\ exists o1 r co o2 es1 w e f es2 sm dm oa,
     o = o1 ++ OResp (q_nr (l_req l)) r true co :: o2 /\ others (q_nr (l_req l)) (o1 ++ o2) /\
     es = es1 ++ (w, e, f) :: es2 /\ hist k (s, d) es1 = Some (sm, dm, oa) /\ In l (t_lus sm) /\ others (q_nr (l_req l)) oa /\ why e l (g_type r)).
Proof.
  set (nr := q_nr (l_req l)). induction es as [|[[w e] f] es IH]; intros s d s' d' o H LO Il CF; cbn [hist].
  - intros [= <- <- <-]. left. split; auto. split; [intros y []|auto].
  - destruct (step k (s, d) (w, e, f)) as [[[s1 d1] o1]|] eqn:E; [|discriminate].
    destruct (hist k (s1, d1) es) as [[[s2 d2] o2]|] eqn:E2; [|discriminate]. intros [= <- <- <-].
    destruct (step_ltr _ _ _ _ _ _ _ _ _ H E) as [H1 _]. pose proof (step_lu_ok _ _ _ _ _ _ _ _ _ H LO E) as LO1.
    assert (CF1 : crash_free es) by (intros w0 e0 f0 I0; apply (CF w0 e0 f0); right; auto).
    assert (Inr : In nr (map q_nr (map l_req (t_lus s)))) by (rewrite map_map; apply in_map_iff; exists l; auto).
    assert (OA : forall a b, others nr a -> others nr b -> others nr (a ++ b)) by (intros a b A B y I; apply in_app_or in I as [I|I]; [apply (A y I)|apply (B y I)]).
    assert (GO : In l (t_lus s1) -> others nr o1 -> e <> ELuTimer nr ->
      (In l (t_lus s2) /\ others nr (o1 ++ o2) /\ forall w0 f0, ~ In (w0, ELuTimer nr, f0) ((w, e, f) :: es)) \/
      (~ pending s2 nr /\ exists oa r co ob es1 w0 e0 f0 es2 sm dm oc, o1 ++ o2 = oa ++ OResp nr r true co :: ob /\ others nr (oa ++ ob) /\
        (w, e, f) :: es = es1 ++ (w0, e0, f0) :: es2 /\ hist k (s, d) es1 = Some (sm, dm, oc) /\ In l (t_lus sm) /\ others nr oc /\ why e0 l (g_type r))).
    { intros I1 O1 Ne. destruct (IH _ _ _ _ _ H1 LO1 I1 CF1 E2) as [(A & B & C)|(A & oa & r & co & ob & es1 & w0 & e0 & f0 & es2 & sm & dm & oc & B & C & D & X & Y & Z & W)].
      - left. split; auto. split; auto. intros w0 f0 [I|I]; [congruence|]. apply (C _ _ I).
      - right. split; auto. exists (o1 ++ oa), r, co, ob, ((w, e, f) :: es1), w0, e0, f0, es2, sm, dm, (o1 ++ oc).
        split; [rewrite B, app_assoc; auto|]. split; [rewrite <- app_assoc; auto|]. split; [rewrite D; auto|]. split; [|auto].
        cbn [hist]. rewrite E, X. reflexivity. }
    destruct (step_eff _ _ _ _ _ _ _ _ _ H LO E) as [[(l0 & A & B & C)|(l' & oa & r & co & ob & I' & B & C & D & X)]|(_ & _ & C)]; cbn [fst snd] in *.
    + destruct (C nr Inr). apply GO; auto. rewrite A. apply in_or_app. auto.
    + destruct (X nr Inr) as [X1 X2]. destruct (Nat.eq_dec nr (q_nr (l_req l'))) as [En|En].
      * right. assert (l' = l).
        { pose proof (hi_nodup s (proj1 H)) as ND. unfold opens in ND. rewrite map_app, map_map in ND. apply nodup_app_l in ND.
          apply (NoDup_key_inj (fun y => q_nr (l_req y)) (t_lus s)); auto. }
        subst l'. assert (Lt : (nr < t_nr s)%nat).
        { pose proof (hi_lt s (proj1 H)) as Z. rewrite Forall_forall in Z. apply (Z (l_req l)). unfold opens. apply in_or_app. left. apply in_map. auto. }
        assert (NP : ~ pending s1 nr).
        { intros (p & Ip & Ep). destruct (step_opens_sub _ _ _ _ _ _ _ _ _ H E) as (S1 & _ & _).
          destruct (step_ltr _ _ _ _ _ _ _ _ _ H E) as [_ T].
          assert (FI : fresh_ok (t_nr s) (opens s)) by (split; apply H).
          apply (ltr_end _ _ _ _ _ T FI (OResp nr r true co) nr); [rewrite C; apply in_or_app; right; left; reflexivity|reflexivity|].
          rewrite <- Ep. apply in_map. auto. }
        assert (Lt1 : (nr < t_nr s1)%nat) by (destruct (step_opens_sub _ _ _ _ _ _ _ _ _ H E) as (_ & Z & _); lia).
        destruct (hist_gone _ _ _ _ _ _ _ _ H1 Lt1 NP E2) as [NP2 O2]. split; auto.
        exists oa, r, co, (ob ++ o2), [], w, e, f, es, s, d, []. fold nr in C. rewrite C, <- app_assoc. split; auto. split; [rewrite app_assoc; auto|]. split; auto.
        split; auto. split; auto. split; [intros y []|auto].
      * apply GO; auto.
        -- rewrite B. apply filter_In. split; auto. apply Nat.eqb_neq in En. fold nr. rewrite En. auto.
        -- rewrite C. intros y I. apply in_app_or in I as [I|[<-|I]]; [apply (X1 y), in_or_app; auto|cbn; congruence|apply (X1 y), in_or_app; auto].
    + destruct (CF w e f (or_introl eq_refl) C).
Qed.
