(** Registrations: proofs. *)
From Verif Require Import Base PeerId Db DbSpec DbProofs DbThms DbThms2 DbThms3 Auth AuthSpec AuthThms AuthThms2 AuthThms3 Gsup Router Hlr PeerSpec PeerThms HlrSpec HlrThms RouterThms HlrThms2 HlrThms3 HlrStep
  HlrThms4 HlrThms5 HlrThms6 HlrThms7 HlrThms8 DbThms5 LocSpec.

(** ** Statements that do not register *)
Definition keeps_place (s : stmt) : Prop :=
  match s with UPD_VLR_BY_ID _ _ _ | UPD_SGSN_BY_ID _ _ _ | SET_LAST_LU_SEEN _ _ | SET_LAST_LU_SEEN_PS _ _ => False | _ => True end.
Definition kept (r r' : sub_row) : Prop := s_id r' = s_id r /\ s_imsi r' = s_imsi r /\ forall x, same_place x r r'.
Definition place_rel (d d' : db) : Prop := forall r', In r' (d_sub d') -> (exists r, In r (d_sub d) /\ kept r r') \/ forall x, nowhere x r'.
Lemma kept_refl r : kept r r. Proof. repeat split. Qed.
Lemma kept_trans a b c : kept a b -> kept b c -> kept a c.
Proof. intros (A & B & C) (A' & B' & C'). split; [congruence|]. split; [congruence|]. intros x. destruct (C x) as (? & ? & ?), (C' x) as (? & ? & ?). repeat split; congruence. Qed.
Lemma nowhere_kept a b : kept a b -> (forall x, nowhere x a) -> forall x, nowhere x b.
Proof. intros (_ & _ & C) H x. destruct (C x) as (A & B & D), (H x) as (A' & B' & D'). repeat split; congruence. Qed.
Lemma place_refl d : place_rel d d. Proof. intros r I. left. exists r. split; auto. apply kept_refl. Qed.
Lemma place_trans a b c : place_rel a b -> place_rel b c -> place_rel a c.
Proof.
  intros H1 H2 r I. destruct (H2 r I) as [(r1 & I1 & K)|N]; auto. destruct (H1 r1 I1) as [(r0 & I0 & K0)|N].
  - left. exists r0. split; auto. eapply kept_trans; eauto.
  - right. eapply nowhere_kept; eauto.
Qed.
Lemma upd_place cond f d : (forall r, kept r (f r)) -> place_rel d (with_sub d (upd cond f (d_sub d))).
Proof.
  intros K r' I. cbn in I. unfold upd in I. apply in_map_iff in I as (r & <- & I). left. exists r. split; auto. destruct (cond r); auto using kept_refl.
Qed.
Lemma exec_place s d : keeps_place s -> place_rel d (snd (exec s d)).
Proof.
  intros K. destruct s; cbn in K; try contradiction; cbn [exec]; unfold sel, upd_sub; cbn [snd];
    try (destruct (find _ _); apply place_refl); try (apply upd_place; intros r; repeat split; destruct x; reflexivity); try apply place_refl.
  all: repeat match goal with |- context [if ?b then _ else _] => destruct b; cbn [snd] | |- context [match find ?a ?b with _ => _ end] => destruct (find a b); cbn [snd] end;
    try apply place_refl; try (apply upd_place; intros r; repeat split; destruct x; reflexivity).
  all: try (intros r I; left; exists r; split; [exact I|apply kept_refl]).
  - intros r I. cbn in I. apply in_app_or in I as [I|[<-|[]]]; [left; exists r; split; auto using kept_refl|right]. intros []; repeat split.
  - intros r I. cbn in I. apply filter_In in I as [I _]. left. exists r. split; auto using kept_refl.
Qed.
Lemma run_place {A} (p : prog A) f d : all_stmts keeps_place p -> place_rel d (run_db p f d).
Proof. intros H. apply (run_inv (place_rel d) keeps_place); auto; [|apply place_refl]. intros s d1 K P. eapply place_trans; [exact P|apply exec_place; auto]. Qed.

Lemma aud_place id aud : all_stmts keeps_place (db_subscr_update_aud_by_id id aud).
Proof.
  destruct aud as [algo ki|algo k opc op bl|]; cbn [db_subscr_update_aud_by_id]; [| |exact I].
  - destruct (negb _); [exact I|]. destruct (_ && _); [exact I|]. cbn [all_stmts]. split; [exact I|]. intros r.
    destruct (_ && _); [exact I|]. destruct (algo =? ALG_NONE); cbn; auto.
  - destruct (negb _); [exact I|]. destruct (_ && _); [exact I|]. cbn [all_stmts]. split; [exact I|]. intros r.
    destruct (_ && _); [exact I|]. destruct (algo =? ALG_NONE); cbn; auto.
Qed.
Lemma api_place a : no_direct_lu (EApi a) -> all_stmts keeps_place (api_prog a).
Proof.
  destruct a; cbn [no_direct_lu api_prog]; intros N; try contradiction.
  - unfold db_subscr_create. destruct (imsi_valid imsi); cbn; auto.
  - unfold db_subscr_delete_by_id. cbn [all_stmts]. split; [exact I|]. intros [| |n| | |i|]; try exact I. cbv zeta.
    apply all_stmts_bind; [apply aud_place|]. intros rc2. apply all_stmts_bind; [apply aud_place|]. intros rc3. exact I.
  - destruct msisdn as [m|]; cbn; auto. destruct (msisdn_valid m); cbn; auto.
  - apply aud_place.
  - destruct imei as [m|]; cbn; auto. destruct (imei_valid14 m); cbn; auto.
  - destruct is_ps; cbn; auto.
  - destruct is_ps; cbn; auto.
  - cbn; auto.
  - unfold db_ind. destruct (ind_vlr_name vlr); cbn; auto. split; auto.
    intros [| |n| | |i|]; cbn; auto; (split; [exact I|]); intros [| |m| | |j|]; cbn; auto; (split; [exact I|]); intros []; cbn; auto.
  - unfold db_ind_del. destruct (ind_vlr_name vlr); cbn; auto.
  - cbn. split; auto. intros []; cbn; auto. destruct (sub_of_row _ _); cbn; auto.
  - cbn. split; auto. intros []; cbn; auto. destruct (sub_of_row _ _); cbn; auto.
  - cbn. split; auto. intros []; cbn; auto. destruct (sub_of_row _ _); cbn; auto.
  - cbn. split; auto. intros []; cbn; auto. destruct (sub_of_row _ _); cbn; auto.
  - cbn; auto.
  - cbn; auto.
Qed.
Definition lu_event (e : event) : Prop := exists c g, e = ERx c g /\ g_type g = MSGT_UPDATE_LOCATION_REQUEST.
Lemma handle_place k w s e : no_direct_lu e -> ~ lu_event e -> all_stmts keeps_place (handle k w s e).
Proof.
  intros N L. destruct e; try exact I.
  - eapply all_stmts_impl; [|apply rx_stmts]. intros st H. destruct st; cbn in *; auto; apply L; eexists; eauto.
  - apply same_stmts. apply vty_stmts; cbn; auto.
  - apply same_stmts. apply vty_stmts; cbn; auto.
  - cbn [handle]. apply all_stmts_bind; [apply api_place; exact N|intros; exact I].
Qed.

(** ** A location update request *)
Lemma conn_rx_q enc v nr c g v' q : sinv v -> conn_rx enc v nr c g = (v', inl q) ->
  q_gsup q = g /\ is_imsi (g_imsi g) /\ ipa_wf (p_ipa (q_src q)) /\ sends_as v c g (ipa_bytes (p_ipa (q_src q))) /\
  exists y, In y (v_conns v) /\ c_id y = c /\ ipa_wf (c_name y) /\
    ((q_via q = peer_zero /\ (g_src g = [] \/ g_src g = ipa_bytes (c_name y))) \/
     (q_via q = mk_peer PT_IPA (c_name y) /\ g_src g <> [] /\ g_src g <> ipa_bytes (c_name y))).
Proof.
  intros SV. unfold conn_rx. destruct (find_conn v c) as [x|] eqn:F; [|discriminate].
  unfold find_conn in F. apply find_some in F as [Ix Ex]. apply Nat.eqb_eq in Ex.
  assert (W : ipa_wf (c_name x)) by (apply (si_wf _ SV), in_map; auto).
  unfold req_new. destruct (g_src g) as [|y l] eqn:G.
  - destruct (imsi_valid (g_imsi g)) eqn:V; cbn [negb q_via]; [|discriminate]. change (peer_is_empty peer_zero) with true. cbn [negb]. intros [= <- <-]. apply imsi_valid_spec in V.
    cbn. split; auto. split; auto. split; auto. split; [right; split; auto; exists x; auto|]. exists x. auto 8.
  - unfold peer_set. destruct (ipa_set _ _) as [rc src] eqn:E. cbn [p_ipa] in E.
    destruct (ipa_set_bytes _ _ _ _ W E) as (W2 & [(-> & B)|(-> & -> & B)]); [|cbn; discriminate].
    cbn [negb Z.eqb]. destruct (peer_cmp _ _ =? 0) eqn:C; cbn [negb]; (destruct (imsi_valid (g_imsi g)) eqn:V; cbn [negb q_via]; [|discriminate]); apply imsi_valid_spec in V.
    + change (peer_is_empty peer_zero) with true. cbn [negb]. intros [= <- <-]. cbn. split; auto. split; auto. split; auto. split; [left; split; congruence|].
      exists x. split; auto. split; auto. split; auto. left. split; auto. right. apply Z.eqb_eq in C. unfold peer_cmp in C. cbn in C. apply c27_spec in C; auto. congruence.
    + assert (D : g_src g <> ipa_bytes (c_name x)).
      { rewrite G. intros X. apply Z.eqb_neq in C. apply C. unfold peer_cmp. cbn. apply c27_spec; auto. congruence. }
      assert (K : forall q, q = mk_req nr c {| p_type := PT_IPA; p_ipa := src |} {| p_type := PT_IPA; p_ipa := c_name x |} g ->
         q_gsup q = g /\ is_imsi (g_imsi g) /\ ipa_wf (p_ipa (q_src q)) /\ sends_as v c g (ipa_bytes (p_ipa (q_src q))) /\
         exists y0, In y0 (v_conns v) /\ c_id y0 = c /\ ipa_wf (c_name y0) /\
           ((q_via q = peer_zero /\ (y :: l = [] \/ y :: l = ipa_bytes (c_name y0))) \/ (q_via q = mk_peer PT_IPA (c_name y0) /\ y :: l <> [] /\ y :: l <> ipa_bytes (c_name y0)))).
      { intros q0 ->. cbn. split; auto. split; auto. split; auto. split; [left; split; congruence|]. exists x. split; auto. split; auto. split; auto. right. split; auto. split; [discriminate|]. rewrite <- G. auto. }
      destruct (negb (peer_is_empty _)); [|intros [= <- <-]; apply K; reflexivity].
      destruct (route_add _ _ _) as [rc v1]. destruct (negb _); [discriminate|]. intros [= <- <-]. apply K. reflexivity.
Qed.
Lemma cstr_text n t : ipa_cstr n = Some t -> text_of (ipa_bytes n) t.
Proof. intros C u rest E N. rewrite (ipa_cstr_bytes n u rest N E) in C. congruence. Qed.

Lemma run_db_bind {A B} (p : prog A) (f : A -> prog B) c d : run_db (bind p f) c d =
  match run p c d with (Fin a, d1, c1) => run_db (f a) c1 d1 | (_, d1, _) => d1 end.
Proof. unfold run_db. rewrite run_bind. destruct (run p c d) as [[[a| |] d1] c1]; reflexivity. Qed.

(** [r'] is [r], possibly with another registration in domain [x] *)
Definition may_move (x : domain) (n : string) (p : option string) (now : option Z) (id : Z) (r r' : sub_row) : Prop :=
  s_id r' = s_id r /\ s_imsi r' = s_imsi r /\ (forall y, y <> x -> same_place y r r') /\
  (same_place x r r' \/ (s_id r = id /\ serving x r' = Some n /\ through x r' = p /\ (since x r' = since x r \/ now <> None /\ since x r' = now))).
Definition placed (x : domain) n p now id (d d' : db) : Prop := forall r', In r' (d_sub d') -> exists r, In r (d_sub d) /\ may_move x n p now id r r'.
Lemma placed_refl x n p now id d : placed x n p now id d d.
Proof. intros r I. exists r. split; auto. split; auto. split; auto. split; [intros; repeat split|]. left. repeat split. Qed.
Lemma Forall2_In_r {A B} (P : A -> B -> Prop) l m y : Forall2 P l m -> In y m -> exists x, In x l /\ P x y.
Proof. induction 1; intros []; subst; [eexists; split; [now left|auto]|]. destruct IHForall2 as (z & ? & ?); auto. exists z. split; [now right|auto]. Qed.
Lemma changed_placed x id n p now f d d' : (forall y, f_number (f y) = Some n /\ f_proxy (f y) = p /\ (f_seen (f y) = f_seen y \/ now <> None /\ f_seen (f y) = now)) ->
  only_domain_changed x (fun r => s_id r = id) d d' -> dom_changed x (fun r => s_id r =? id) f d d' -> placed x n p now id d d'.
Proof.
  intros Hf [O _] [_ C] r' I. destruct (Forall2_In_r _ _ _ _ (Forall2_and _ _ _ _ O C) I) as (r & Ir & (Ot & _) & Fl). exists r. split; auto.
  assert (Same : s_id r' = s_id r /\ s_imsi r' = s_imsi r /\ forall y, y <> x -> same_place y r r').
  { destruct x; cbn in Ot; unfold not_cs, not_ps in Ot; injection Ot; intros; (split; [congruence|]); (split; [congruence|]); intros [] Ny; try congruence; repeat split; cbn; congruence. }
  destruct Same as (A & B & D). split; auto. split; auto. split; auto.
  destruct (s_id r =? id) eqn:Ei.
  - apply Z.eqb_eq in Ei. right. destruct (Hf (fields_of x r)) as (F1 & F2 & F3). rewrite <- Fl in F1, F2, F3. split; auto. destruct x; cbn in *; auto.
  - left. destruct x; cbn in Fl; injection Fl; intros; repeat split; auto.
Qed.
Lemma lu_placed x vlr via now id f d : let d' := run_db (db_subscr_lu id vlr (is_ps x) via now) f d in
  d' = d \/ exists n p, ipa_cstr vlr = Some n /\ lu_proxy via = Some p /\ placed x n p now id d d'.
Proof.
  cbv zeta. pose proof (c05_lu x d id vlr via now f) as O. destruct (lu_any_faults x d id vlr via now f) as [E|(n & p & Cn & Cp & H)]; [left; exact E|right].
  exists n, p. split; auto. split; auto. destruct H as [H|(t & -> & H)]; eapply changed_placed; eauto; intros y; cbn; auto.
  split; auto. split; auto. right. split; auto. discriminate.
Qed.

Lemma get_same k imsi f d : run_db (db_subscr_get_by_imsi (k_tz k) imsi) f d = d.
Proof.
  apply (run_inv (fun y => y = d) (fun s => s = SEL_BY_IMSI imsi)); auto; [|apply get_stmts; reflexivity].
  intros s y -> ->. cbn. unfold sel. destruct (find _ _); reflexivity.
Qed.
Lemma lu_start_place k w s q x f d d' : g_type (q_gsup q) = MSGT_UPDATE_LOCATION_REQUEST -> in_domain (q_gsup q) x -> run_db (lu_start k w s q) f d = d' ->
  (forall r, In r (d_sub d) -> is_imsi (s_imsi r) /\ (forall m, s_msisdn r = Some m -> is_msisdn m)) ->
  d' = d \/ exists n p r0, ipa_cstr (p_ipa (q_src q)) = Some n /\ lu_proxy (if peer_is_empty (q_via q) then None else Some (p_ipa (q_via q))) = Some p /\
    In r0 (d_sub d) /\ s_imsi r0 = g_imsi (q_gsup q) /\ placed x n p (w_now w) (s_id r0) d d'.
Proof.
  intros T Dom E Ok. assert (PS' : negb (g_cn (q_gsup q) =? CN_CS) = is_ps x).
  { destruct x; cbn in *; [rewrite Dom; reflexivity|]. apply Z.eqb_neq in Dom. rewrite Dom. reflexivity. }
  unfold lu_start in E. rewrite PS' in E. destruct (peer_is_empty (q_src q)); [left; symmetry; exact E|].
  rewrite run_db_bind in E. destruct (run (db_subscr_get_by_imsi (k_tz k) (g_imsi (q_gsup q))) f d) as [[[[rc sub]| |] d1] c1] eqn:R.
  - apply get_imsi_run in R as (-> & G). destruct G as [(-> & row & h & -> & I & Er & H)|G].
    2:{ assert (N : rc <? 0 = true) by (unfold ENOENT, EIO in G; lia). rewrite N in E. left. symmetry. exact E. }
    destruct (Ok row I) as [Oi Om]. destruct (sub_fields _ _ _ H Oi Om) as (Hi & _).
    change (0 <? 0) with false in E. cbv iota in E.
    destruct (negb (is_ps x) && negb (h_nam_cs h)); [left; symmetry; exact E|]. destruct (is_ps x && negb (h_nam_ps h)); [left; symmetry; exact E|].
    destruct (_ || _); [left; symmetry; exact E|]. rewrite run_db_bind in E. rewrite Hi in E.
    set (p := db_subscr_lu (s_id row) (p_ipa (q_src q)) (is_ps x) _ (w_now w)) in E.
    assert (E' : run_db p c1 d = d').
    { unfold run_db at 1. destruct (run p c1 d) as [[[rc2| |] d2] c2]; cbn [snd fst]; auto. rewrite <- E. destruct (negb _); [reflexivity|]. destruct (isd_msg _ _ _ _); [|reflexivity].
      destruct (respond _ _ _ _ _). destruct (negb _); reflexivity. }
    destruct (lu_placed x (p_ipa (q_src q)) (if peer_is_empty (q_via q) then None else Some (p_ipa (q_via q))) (w_now w) (s_id row) c1 d) as [X|(n & pr & Cn & Cp & P)].
    + left. rewrite <- E'. exact X.
    + right. exists n, pr, row. split; auto. split; auto. split; auto. split; auto. rewrite <- E'. exact P.
  - left. pose proof (get_same k (g_imsi (q_gsup q)) f d) as G. unfold run_db in G. rewrite R in G. cbn in G. congruence.
  - left. pose proof (get_same k (g_imsi (q_gsup q)) f d) as G. unfold run_db in G. rewrite R in G. cbn in G. congruence.
Qed.

Lemma via_passed v c g y q : In y (v_conns v) -> c_id y = c -> ipa_wf (c_name y) ->
  ((q_via q = peer_zero /\ (g_src g = [] \/ g_src g = ipa_bytes (c_name y))) \/ (q_via q = mk_peer PT_IPA (c_name y) /\ g_src g <> [] /\ g_src g <> ipa_bytes (c_name y))) ->
  forall p, lu_proxy (if peer_is_empty (q_via q) then None else Some (p_ipa (q_via q))) = Some p -> passed_by v c g p.
Proof.
  intros Iy Cy W [(V & G)|(V & G & N)] p L; rewrite V in L; exists y; split; auto; split; auto.
  - change (peer_is_empty peer_zero) with true in L. cbn in L. injection L as <-. left. split; auto. tauto.
  - destruct (peer_is_empty (mk_peer PT_IPA (c_name y))) eqn:Em.
    + cbn in L. injection L as <-. left. split; auto. right; right. unfold peer_is_empty in Em. cbn in Em. unfold ipa_is_empty in Em. apply Nat.eqb_eq in Em. unfold ipa_bytes. rewrite Em. reflexivity.
    + cbn [lu_proxy p_ipa] in L. unfold peer_is_empty in Em. cbn [p_type p_ipa] in Em. rewrite Em in L. destruct (ipa_cstr (c_name y)) as [n|] eqn:C; [|discriminate]. injection L as <-.
      right. exists n. split; auto. split; auto. split; auto. split; [|apply cstr_text; auto].
      unfold ipa_is_empty in Em. apply Nat.eqb_neq in Em. unfold ipa_bytes. intros X. apply (f_equal (@length _)) in X. rewrite firstn_length in X. destruct W as [W1 W2]. rewrite W1 in X. cbn in X. lia.
Qed.

Lemma in_domain_dec g : exists x, in_domain g x.
Proof. destruct (Z.eq_dec (g_cn g) CN_CS); [exists CS|exists PS]; auto. Qed.
Lemma domain_dec (x y : domain) : x = y \/ x <> y. Proof. destruct x, y; auto; right; discriminate. Qed.
(** ** Every step *)
Lemma place_row w v e d d' : place_rel d d' -> forall r', In r' (d_sub d') -> row_from w v e d r'.
Proof. intros P r' I. destruct (P r' I) as [(r & Ir & A & B & C)|N]; [exists r; auto|]. exists r'. split; auto. split; auto. split; auto. left. repeat split. Qed.
Lemma c69_place k s d w e f s' d' o : reached k s d -> no_direct_lu e -> step k (s, d) (w, e, f) = Some (s', d', o) ->
  forall r', In r' (d_sub d') -> row_from w (t_srv s) e d r'.
Proof.
  intros Re N E. destruct (reached_fine _ _ _ Re) as ([HI SV] & F & _). pose proof (step_fine _ _ _ _ _ _ _ _ _ F E) as F'. apply step_db in E. subst d'.
  assert (Dec : lu_event e \/ ~ lu_event e).
  { destruct e; try (right; intros (? & ? & X & _); discriminate). destruct (Z.eq_dec (g_type g) MSGT_UPDATE_LOCATION_REQUEST) as [T|T]; [left; eexists; eauto|right].
    intros (? & ? & [= <- <-] & X). auto. }
  destruct Dec as [(c & g & -> & T)|L]; [|apply place_row, run_place, handle_place; auto].
  cbn [handle] in *. destruct (find_conn (t_srv s) c) eqn:Fc; [|apply place_row, run_place; exact I].
  unfold read_cb in *. rewrite run_db_bind in *. set (p := read_msg k w s c g) in *.
  assert (Ed : match run p f d with (Fin a, d1, c1) => run_db (Ret (fst a, ORx (t_nr s) c g :: snd a)) c1 d1 | (Crashed, d1, _) | (Ub, d1, _) => d1 end = run_db p f d).
  { unfold run_db. destruct (run p f d) as [[[a| |] d1] c1]; reflexivity. }
  rewrite Ed in *. clear Ed. unfold p, read_msg in *. destruct (conn_rx _ _ _ _ _) as [v [q|o']] eqn:Cx; [|apply place_row, run_place; exact I].
  destruct (conn_rx_q _ _ _ _ _ _ _ SV Cx) as (Qg & Im & Wf & Sn & y & Iy & Cy & Wy & Via).
  set (s1 := mk_hst _ _ _ _) in *.
  assert (Main : forall r', In r' (d_sub (run_db (dispatch k w s1 q) f d)) -> row_from w (t_srv s) (ERx c g) d r').
  { clear F'. intros r' I'. unfold dispatch in I'. rewrite Qg, T in I'. change (MSGT_UPDATE_LOCATION_REQUEST =? MSGT_SEND_AUTH_INFO_REQUEST) with false in I'.
    change (MSGT_UPDATE_LOCATION_REQUEST =? MSGT_UPDATE_LOCATION_REQUEST) with true in I'. cbv iota in I'. unfold rx_upd_loc_req in I'. cbv zeta in I'. rewrite run_db_bind in I'. set (s2 := with_srv s1 _) in I'.
    set (cod := create_on_demand k w (g_imsi (q_gsup q))) in *.
    assert (K : all_stmts keeps_place cod) by (apply cod_stmts; cbn; auto).
    pose proof (run_place cod f d K) as P1. assert (F1 : fine (run_db cod f d)).
    { apply fine_run; auto; apply cod_stmts; cbn; auto. }
    unfold run_db in P1, F1. destruct (run cod f d) as [[[rc| |] d1] c1]; cbn [fst snd] in P1, F1; [|eapply place_row; eauto|eapply place_row; eauto].
    destruct (in_domain_dec g) as (x & Dm).
    assert (T' : g_type (q_gsup q) = MSGT_UPDATE_LOCATION_REQUEST) by congruence. assert (Dm' : in_domain (q_gsup q) x) by (rewrite Qg; exact Dm).
    destruct (lu_start_place k w s2 q x c1 d1 _ T' Dm' eq_refl) as [X|(n & p0 & r0 & Cn & Cp & I0 & E0 & Pl)].
    - apply inv_wellformed, F1.
    - rewrite X in I'. eapply place_row; eauto.
    - destruct (Pl r' I') as (r1 & I1 & A & B & C & D). destruct D as [D|(D1 & D2 & D3 & D4)].
      + assert (S1 : kept r1 r'). { split; auto. split; auto. intros z. destruct (domain_dec z x) as [->|Nz]; auto. }
        destruct (P1 r1 I1) as [(r & Ir & K1)|Nw]; [exists r; destruct (kept_trans _ _ _ K1 S1) as (X1 & X2 & X3); auto|].
        exists r1. destruct S1 as (X1 & X2 & X3). auto.
      + assert (r1 = r0) as -> by (eapply (NoDup_key_inj s_id (d_sub d1)); eauto; apply F1).
        assert (Mv : forall r, kept r r0 -> moved w (t_srv s) c g x r r').
        { intros r (K1 & K2 & K3). split; auto.
          - congruence.
          - exists (ipa_bytes (p_ipa (q_src q))), n. split; auto. split; auto. apply cstr_text; auto.
          - rewrite D3. eapply via_passed; eauto.
          - destruct (K3 x) as (_ & _ & K4). rewrite <- K4. exact D4.
          - intros z Nz. destruct (K3 z) as (? & ? & ?), (C z Nz) as (? & ? & ?). repeat split; congruence. }
        destruct (P1 r0 I1) as [(r & Ir & K1)|Nw].
        * exists r. split; auto. split; [destruct K1; congruence|]. split; [destruct K1 as (_ & K1 & _); congruence|]. right. exists c, g, x. auto.
        * exists r0. split; auto. split; auto. split; auto. right. exists c, g, x. split; auto. apply Mv, kept_refl. }
  destruct (g_dst g) as [|b l]; [exact Main|]. destruct (ipa_set_str _ _); [|apply place_row, run_place; exact I].
  destruct (ipa_set _ _). destruct (_ && _); [|exact Main].
  apply place_row, run_place. apply same_stmts. unfold read_cb_forward. destruct (g_src (q_gsup q)); [exact I|]. destruct (send_to _ _ _) as [[]|]; exact I.
Qed.

(** ** Histories *)
Definition seen_in (k : cfg) (s : hst) (d : db) (es : list (world * event * sched)) (P : world -> hst -> nat -> gsup -> Prop) : Prop :=
  exists es1 w c g f es2 s1 d1 o1, es = es1 ++ (w, ERx c g, f) :: es2 /\ hist k (s, d) es1 = Some (s1, d1, o1) /\
    g_type g = MSGT_UPDATE_LOCATION_REQUEST /\ P w s1 c g.
Lemma reached_step k s d w e f s' d' o : reached k s d -> step k (s, d) (w, e, f) = Some (s', d', o) -> reached k s' d'.
Proof.
  intros (d0 & es & o0 & A & B & H) E. exists d0, (es ++ [(w, e, f)]), (o0 ++ o). split; auto. split; auto.
  revert H. generalize hst0, d0, o0. induction es as [|[[w' e'] f'] es IH]; intros h0 dd oo H; cbn [hist app] in *.
  - injection H as -> -> <-. rewrite E. rewrite app_nil_r. reflexivity.
  - destruct (step k (h0, dd) (w', e', f')) as [[[s1 d1] o1]|]; [|discriminate]. destruct (hist k (s1, d1) es) as [[[s2 d2] o2]|] eqn:Hh; [|discriminate].
    injection H as -> -> <-. rewrite (IH _ _ _ Hh), app_assoc. reflexivity.
Qed.
Lemma c69_history k x : forall es s d s' d' o, reached k s d -> (forall w e f, In (w, e, f) es -> no_direct_lu e) -> hist k (s, d) es = Some (s', d', o) ->
  forall r', In r' (d_sub d') ->
  (forall t, since x r' = Some t -> (exists r, In r (d_sub d) /\ s_id r = s_id r' /\ s_imsi r = s_imsi r' /\ since x r = Some t) \/
     seen_in k s d es (fun w _ _ g => in_domain g x /\ g_imsi g = s_imsi r' /\ w_now w = Some t)) /\
  (forall n, serving x r' = Some n -> (exists r, In r (d_sub d) /\ s_id r = s_id r' /\ s_imsi r = s_imsi r' /\ serving x r = Some n) \/
     seen_in k s d es (fun _ s1 c g => in_domain g x /\ g_imsi g = s_imsi r' /\ exists a, sends_as (t_srv s1) c g a /\ text_of a n)).
Proof.
  induction es as [|[[w e] f] es IH]; intros s d s' d' o Re N H; cbn [hist] in H.
  { injection H as <- <- <-. intros r' I. split; intros t E; left; exists r'; auto. }
  destruct (step k (s, d) (w, e, f)) as [[[s1 d1] o1]|] eqn:E; [|discriminate]. destruct (hist k (s1, d1) es) as [[[s2 d2] o2]|] eqn:Hh; [|discriminate]. injection H as <- <- <-.
  intros r' I'. assert (N1 : no_direct_lu e) by (apply (N w e f); left; auto).
  destruct (IH _ _ _ _ _ (reached_step _ _ _ _ _ _ _ _ _ Re E) (fun a b c X => N a b c (or_intror X)) Hh r' I') as (A & B).
  assert (Later : forall P, seen_in k s1 d1 es P -> seen_in k s d ((w, e, f) :: es) P).
  { intros P (es1 & w1 & c & g & f1 & es2 & s3 & d3 & o3 & -> & H3 & T & HP). exists ((w, e, f) :: es1), w1, c, g, f1, es2, s3, d3, (o1 ++ o3).
    split; auto. split; auto. cbn [hist]. rewrite E, H3. reflexivity. }
  assert (Now : forall c g (P : world -> hst -> nat -> gsup -> Prop), e = ERx c g -> g_type g = MSGT_UPDATE_LOCATION_REQUEST -> P w s c g -> seen_in k s d ((w, e, f) :: es) P).
  { intros c g P -> T HP. exists [], w, c, g, f, es, s, d, []. repeat (split; auto). }
  split.
  - intros t Et. destruct (A t Et) as [(r & Ir & E1 & E2 & E3)|L]; [|right; auto].
    destruct (c69_place _ _ _ _ _ _ _ _ _ Re N1 E r Ir) as (r0 & Org & Id & Imi & K).
    destruct K as [K|(c & g & y & Ee & [T Dm Gi Nd By Ti Ot])].
    + destruct (K x) as (K1 & K2 & K3). destruct Org as [Org|Org]; [left; exists r0; repeat split; auto; congruence|]. destruct (Org x) as (_ & _ & X). congruence.
    + destruct (domain_dec x y) as [->|Ny].
      * destruct Ti as [Ti|(_ & Ti)].
        -- destruct Org as [Org|Org]; [left; exists r0; repeat split; auto; congruence|]. destruct (Org y) as (_ & _ & X). congruence.
        -- right. apply (Now c g); auto. split; auto. split; congruence.
      * destruct (Ot x Ny) as (K1 & K2 & K3). destruct Org as [Org|Org]; [left; exists r0; repeat split; auto; congruence|]. destruct (Org x) as (_ & _ & X). congruence.
  - intros t Et. destruct (B t Et) as [(r & Ir & E1 & E2 & E3)|L]; [|right; auto].
    destruct (c69_place _ _ _ _ _ _ _ _ _ Re N1 E r Ir) as (r0 & Org & Id & Imi & K).
    destruct K as [K|(c & g & y & Ee & [T Dm Gi (a & n & Sa & Ta & Nd) By Ti Ot])].
    + destruct (K x) as (K1 & K2 & K3). destruct Org as [Org|Org]; [left; exists r0; repeat split; auto; congruence|]. destruct (Org x) as (X & _). congruence.
    + destruct (domain_dec x y) as [->|Ny].
      * right. apply (Now c g); auto. split; auto. split; [congruence|]. exists a. split; auto. assert (n = t) by congruence. subst n. auto.
      * destruct (Ot x Ny) as (K1 & K2 & K3). destruct Org as [Org|Org]; [left; exists r0; repeat split; auto; congruence|]. destruct (Org x) as (X & _). congruence.
Qed.

(** ** An accepted update *)
Lemma lu_start_stored k w s q x f d s' o d' f' nr r co : fine d -> g_type (q_gsup q) = MSGT_UPDATE_LOCATION_REQUEST -> in_domain (q_gsup q) x ->
  run (lu_start k w s q) f d = (Fin (s', o), d', f') -> In (OResp nr r false co) o ->
  exists n p t r0 r', ipa_cstr (p_ipa (q_src q)) = Some n /\ lu_proxy (if peer_is_empty (q_via q) then None else Some (p_ipa (q_via q))) = Some p /\ w_now w = Some t /\
    In r0 (d_sub d) /\ In r' (d_sub d') /\ s_id r' = s_id r0 /\ s_imsi r' = g_imsi (q_gsup q) /\
    serving x r' = Some n /\ through x r' = p /\ since x r' = Some t.
Proof.
  intros F T Dom R I. set (g := q_gsup q) in *.
  assert (RQ : is_request (g_type (q_gsup q)) = true) by (fold g; rewrite T; reflexivity).
  assert (ERR : forall ca c1 dd, run (Ret (s, respond_err (tx k s) q ca)) c1 dd = (Fin (s', o), d', f') -> False).
  { intros ca c1 dd E. apply fin_ret in E as (E & _). injection E as _ E. destruct (respond_err_out (tx k s) q ca RQ) as (r2 & E2 & _).
    rewrite E2 in E. subst o. destruct I as [I|[]]. discriminate I. }
  assert (PS' : negb (g_cn g =? CN_CS) = is_ps x).
  { destruct x; cbn in *; [rewrite Dom; reflexivity|]. apply Z.eqb_neq in Dom. rewrite Dom. reflexivity. }
  unfold lu_start in R. fold g in R. rewrite PS' in R. destruct (peer_is_empty (q_src q)); [destruct (ERR _ _ _ R)|].
  apply fin_bind in R as ([rc sub] & d1 & c1 & R1 & R). apply get_imsi_run in R1 as (-> & G). destruct G as [(-> & row & h & -> & Ir & Er & H)|G].
  2:{ assert (N : rc <? 0 = true) by (unfold ENOENT, EIO in G; lia). rewrite N in R. destruct (ERR _ _ _ R). }
  destruct (inv_wellformed _ (proj1 F) row Ir) as [Wi Wm]. destruct (sub_fields _ _ _ H Wi Wm) as (Hi & _).
  cbn [Z.ltb Z.compare] in R. destruct (negb (is_ps x) && negb (h_nam_cs h)); [destruct (ERR _ _ _ R)|]. destruct (is_ps x && negb (h_nam_ps h)); [destruct (ERR _ _ _ R)|].
  destruct (_ || _); [destruct (ERR _ _ _ R)|]. apply fin_bind in R as (rc & d2 & c2 & R2 & R). rewrite Hi in R2.
  destruct (rc =? 0) eqn:Z0; cbn [negb] in R; [|destruct (ERR _ _ _ R)]. apply Z.eqb_eq in Z0. subst rc.
  assert (d' = d2) as ->.
  { destruct (isd_msg _ _ _ _); [|destruct (ERR _ _ _ R)]. destruct (respond _ _ _ _ _) as [rc3 o3]. destruct (negb _); apply fin_ret in R; tauto. }
  pose proof (run_dbE _ _ _ _ _ _ R2) as Ed. pose proof (run_outE _ _ _ _ _ _ R2) as Eo.
  pose proof (c05_lu x d (s_id row) (p_ipa (q_src q)) (if peer_is_empty (q_via q) then None else Some (p_ipa (q_via q))) (w_now w) c1) as [OD _].
  destruct (c05_lu_sets x d _ _ _ _ c1 Eo) as (n & p & t & Cn & Cp & Ct & _ & F2). rewrite Ed in F2, OD.
  destruct (Forall2_In_l _ _ _ _ (Forall2_and _ _ _ _ OD F2) Ir) as (r' & I' & (S1 & _) & S2). rewrite Z.eqb_refl in S2.
  exists n, p, t, row, r'. split; auto. split; auto. split; auto. split; auto. split; auto.
  destruct x; cbn in *; unfold not_cs, not_ps in S1; injection S1; injection S2; intros; repeat split; congruence.
Qed.

Definition all_final (o : list out) : Prop := forall nr r b co, In (OResp nr r b co) o -> b = true.
Lemma respond_all_final tx q m e : all_final (snd (respond tx q m e true)).
Proof. unfold respond. destruct (make_response _ _ _ _) as [rc r]. intros nr r' b co. destruct (rc =? 0); cbn; intros [X|[]]; [congruence|discriminate]. Qed.
Lemma conn_rx_refused enc v nr c g v' o : conn_rx enc v nr c g = (v', inr o) -> all_final o.
Proof.
  unfold conn_rx. destruct (find_conn v c) as [y|]; [|intros [= <- <-] ? ? ? ? []].
  destruct (req_new _ _ _ _ _) as [q|o'] eqn:E.
  - destruct (negb _); [|discriminate]. destruct (route_add _ _ _) as [rc v1]. destruct (negb _); [|discriminate]. intros X. inversion X. apply respond_all_final.
  - intros [= <- <-]. revert E. unfold req_new. set (X := match g_src g with [] => _ | _ => _ end).
    assert (HX : forall o, X = inr o -> all_final o).
    { unfold X. destruct (g_src g); [discriminate|]. destruct (peer_set _ _) as [rc src]. destruct (negb _); [|destruct (negb _); discriminate].
      intros o0 Y. inversion Y. apply respond_all_final. }
    destruct X as [q|o0]; [|intros Y; inversion Y; subst; auto]. destruct (negb _); [|discriminate]. intros Y. inversion Y. unfold respond_err. destruct (negb _); [intros ? ? ? ? [J|[]]; discriminate|apply respond_all_final].
Qed.
Lemma c69_stored k s d w c g x f s' d' o r co : reached k s d -> g_type g = MSGT_UPDATE_LOCATION_REQUEST -> in_domain g x ->
  step k (s, d) (w, ERx c g, f) = Some (s', d', o) -> In (OResp (t_nr s) r false co) o ->
  exists r' a n t, In r' (d_sub d') /\ s_imsi r' = g_imsi g /\ sends_as (t_srv s) c g a /\ text_of a n /\ w_now w = Some t /\
    serving x r' = Some n /\ passed_by (t_srv s) c g (through x r') /\ since x r' = Some t.
Proof.
  intros Re T Dm E I. destruct (reached_fine _ _ _ Re) as ([_ SV] & F & _).
  unfold step in E. cbn [fst snd handle] in E. destruct (find_conn (t_srv s) c) as [y0|]; [|cbn in E; injection E as <- <- <-; destruct I].
  unfold read_cb in E. rewrite run_bind in E. destruct (run (read_msg k w s c g) f d) as [[[[s2 o2]| |] d2] f2] eqn:Rn; [|injection E as <- <- <-; destruct I|discriminate].
  cbn in E. injection E as <- <- <-. destruct I as [I|I]; [discriminate|].
  assert (NFin : ~ all_final o2) by (intros A; specialize (A _ _ _ _ I); discriminate).
  unfold read_msg in Rn. destruct (conn_rx _ _ _ _ _) as [v [q|o']] eqn:Cx.
  2:{ apply fin_ret in Rn as (X & _). injection X as _ <-. destruct (NFin (conn_rx_refused _ _ _ _ _ _ _ Cx)). }
  destruct (conn_rx_q _ _ _ _ _ _ _ SV Cx) as (Qg & Im & Wf & Sn & y & Iy & Cy & Wy & Via). set (s1 := mk_hst _ _ _ _) in *.
  assert (Rn' : run (dispatch k w s1 q) f d = (Fin (s2, o2), d2, f2)).
  { destruct (g_dst g) as [|b l]; [exact Rn|]. destruct (ipa_set_str _ _); [|discriminate Rn]. destruct (ipa_set _ _). destruct (_ && _); [|exact Rn].
    exfalso. apply NFin. unfold same, read_cb_forward in Rn. destruct (g_src (q_gsup q)).
    - apply fin_bind in Rn as (o3' & d3 & f3 & R1 & R2). apply fin_ret in R1 as (R1 & _). apply fin_ret in R2 as (X & _). assert (X2 : o2 = o3') by congruence. rewrite X2, R1. clear X X2. apply respond_all_final.
    - destruct (send_to _ _ _) as [[rc o3]|] eqn:St; [|discriminate Rn]. apply fin_bind in Rn as (o3' & d3 & f3 & R1 & R2). apply fin_ret in R1 as (R1 & _). apply fin_ret in R2 as (X & _). assert (X2 : o2 = o3') by congruence. rewrite X2, R1. clear X X2.
      destruct (rc =? 0); [|apply respond_all_final]. revert St. unfold send_to. intros St nr0 r0 b0 co0 J. apply in_app_or in J as [J|[J|[]]]; [|discriminate].
      exfalso. revert J. assert (K : forall c0 r1 b1 co1, ~ In (OResp c0 r1 b1 co1) o3); [|apply K].
      intros c0 r1 b1 co1. destruct (in_len _); [discriminate St|]. destruct (_ =? _)%char; [|destruct (_ <=? _)%nat]; try destruct (route_find _ _); inversion St; subst; cbn; intuition discriminate. }
  clear Rn. unfold dispatch in Rn'. rewrite Qg, T in Rn'. change (MSGT_UPDATE_LOCATION_REQUEST =? MSGT_SEND_AUTH_INFO_REQUEST) with false in Rn'.
  change (MSGT_UPDATE_LOCATION_REQUEST =? MSGT_UPDATE_LOCATION_REQUEST) with true in Rn'. cbv iota in Rn'. unfold rx_upd_loc_req in Rn'. cbv zeta in Rn'.
  set (s3 := with_srv s1 _) in Rn'. apply fin_bind in Rn' as (u & d1 & f1 & R1 & R2).
  assert (F1 : fine d1) by (rewrite <- (run_dbE _ _ _ _ _ _ R1); apply cod_fine; auto).
  destruct (lu_start_stored k w s3 q x f1 d1 s2 o2 d2 f2 (t_nr s) r co) as (n & p & t & r0 & r' & Cn & Cp & Ct & _ & I' & _ & Ei & Es & Et & Ec); auto; try (rewrite Qg; auto).
  rewrite Qg in Ei. exists r', (ipa_bytes (p_ipa (q_src q))), n, t. split; auto. split; auto. split; auto. split; [apply cstr_text; auto|]. split; auto. split; auto.
  split; auto. rewrite Et. eapply via_passed; eauto.
Qed.
