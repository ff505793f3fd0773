From Coq Require Import Permutation.
From Verif Require Import Base PeerId Db DbSpec DbProofs PeerSpec PeerThms Auth AuthThms3 Gsup Router Hlr HlrSpec.

(** * Routes *)
Lemma bytes_eqb_iff a b : bytes_eqb a b = true <-> a = b.
Proof. unfold bytes_eqb. destruct (list_eq_dec _ _ _); split; auto; discriminate. Qed.

Lemma ipa_empty_wf : ipa_wf ipa_empty.
Proof. split; [apply zero_buf_len|cbn; lia]. Qed.

Record sinv (v : server) : Prop := {
  si_addr : NoDup (map rt_addr (v_routes v));
  si_open : forall r, In r (v_routes v) -> In (rt_conn r) (map c_id (v_conns v));
  si_ids : NoDup (map c_id (v_conns v));
  si_next : forall i, In i (map c_id (v_conns v)) -> (i < v_next v)%nat;
  si_wf : forall n, In n (map c_name (v_conns v)) -> ipa_wf n }.

Lemma sinv0 : sinv (t_srv hst0). Proof. split; cbn; try constructor; tauto. Qed.

Lemma route_find_some rs a c : route_find rs a = Some c -> In (mk_route a c) rs.
Proof.
  unfold route_find. destruct (find _ _) as [r|] eqn:E; [|discriminate]. intros [= <-]. apply find_some in E.
  destruct E as [I E]. apply bytes_eqb_iff in E. destruct r; cbn in *; subst; auto.
Qed.
Lemma route_find_none rs a : route_find rs a = None -> ~ In a (map rt_addr rs).
Proof.
  unfold route_find. destruct (find _ _) as [r|] eqn:E; [discriminate|]. intros _ I. apply in_map_iff in I. destruct I as (r & Er & Ir).
  pose proof (find_none _ _ E r Ir) as X. cbn in X. assert (bytes_eqb (rt_addr r) a = true) by (apply bytes_eqb_iff; auto). congruence.
Qed.
Lemma route_unique rs a c c' : NoDup (map rt_addr rs) -> In (mk_route a c) rs -> In (mk_route a c') rs -> c = c'.
Proof.
  induction rs as [|r rs IH]; cbn; [tauto|]. intros N I I'. inversion N as [|x y N1 N2]; subst.
  destruct I as [->|I], I' as [E|I']; auto.
  - injection E; auto.
  - exfalso. apply N1. apply (in_map rt_addr) in I'. auto.
  - subst r. exfalso. apply N1. apply (in_map rt_addr) in I. auto.
Qed.
Lemma route_find_iff rs a c : NoDup (map rt_addr rs) -> (route_find rs a = Some c <-> In (mk_route a c) rs).
Proof.
  intros N. split; [apply route_find_some|]. intros I. destruct (route_find rs a) as [c'|] eqn:E.
  - apply route_find_some in E. f_equal. eapply route_unique; eauto.
  - exfalso. apply route_find_none in E. apply E. apply (in_map rt_addr) in I. auto.
Qed.

Lemma find_conn_iff v c : find_conn v c <> None <-> In c (map c_id (v_conns v)).
Proof.
  unfold find_conn. split.
  - destruct (find _ _) as [x|] eqn:E; [|tauto]. intros _. apply find_some in E. destruct E as [I E]. apply Nat.eqb_eq in E. subst. apply in_map; auto.
  - intros I. apply in_map_iff in I. destruct I as (x & <- & I) . intros E. pose proof (find_none _ _ E x I) as X. cbn in X. rewrite Nat.eqb_refl in X. discriminate.
Qed.

Lemma route_add_ok v c a rc v' : route_add v c a = (rc, v') -> sinv v -> In c (map c_id (v_conns v)) ->
  sinv v' /\ v_conns v' = v_conns v /\ v_next v' = v_next v /\ incl (v_routes v) (v_routes v') /\
  (forall r, In r (v_routes v') -> In r (v_routes v) \/ r = mk_route a c) /\
  (rc = 0 -> leads v' a c) /\ (rc <> 0 -> v' = v /\ exists c', c' <> c /\ leads v a c').
Proof.
  intros E S I. unfold route_add in E. destruct (route_find _ _) as [c'|] eqn:F.
  - apply route_find_some in F. destruct (Nat.eqb_spec c' c); injection E as <- <-.
    + subst c'. repeat split; auto using incl_refl; try apply S; try tauto.
    + split; auto. split; auto. split; auto. split; auto using incl_refl. split; auto. split; [discriminate|]. intros _. split; auto. exists c'. auto.
  - injection E as <- <-. apply route_find_none in F. split; [|split; [|split; [|split; [|split; [|split]]]]]; auto.
    + destruct S. split; cbn [v_routes v_conns v_next with_routes]; auto.
      * rewrite map_app. apply (Permutation_NoDup (Permutation_cons_append _ _)). constructor; auto.
      * intros r Hr. apply in_app_iff in Hr. destruct Hr as [Hr|[<-|[]]]; auto.
    + cbn. intros r Hr. apply in_or_app; auto.
    + cbn. intros r Hr. apply in_app_iff in Hr. destruct Hr as [Hr|[<-|[]]]; auto.
    + intros _. unfold leads. cbn. apply in_or_app. right. left. auto.
    + congruence.
Qed.

Lemma set_conn_ids v c f : (forall x, c_id (f x) = c_id x) -> map c_id (v_conns (set_conn v c f)) = map c_id (v_conns v).
Proof. intros H. cbn. rewrite map_map. apply map_ext. intros x. destruct (_ =? _)%nat; auto. Qed.
Lemma set_conn_sinv v c f : (forall x, c_id (f x) = c_id x) -> (forall x, In x (v_conns v) -> ipa_wf (c_name (f x))) ->
  sinv v -> sinv (set_conn v c f).
Proof.
  intros H W [A B C D F]. split; rewrite ?(set_conn_ids v c f H); auto.
  intros n Hn. cbn in Hn. rewrite map_map in Hn. apply in_map_iff in Hn. destruct Hn as (x & <- & I).
  destruct (_ =? _)%nat; auto. apply F. apply in_map; auto.
Qed.

Lemma accept_sinv v : sinv v -> sinv (srv_accept v).
Proof.
  intros [A B C D F]. split; cbn [v_routes v_conns v_next srv_accept]; auto.
  - intros r Hr. rewrite map_app. apply in_or_app; auto.
  - rewrite map_app. apply (Permutation_NoDup (Permutation_cons_append _ _)). constructor; auto. intros I. apply D in I. cbn in I. lia.
  - intros i Hi. rewrite map_app in Hi. apply in_app_iff in Hi. destruct Hi as [Hi|[<-|[]]]; cbn; [apply D in Hi; lia|lia].
  - intros n Hn. rewrite map_app in Hn. apply in_app_iff in Hn. destruct Hn as [Hn|[<-|[]]]; auto. apply ipa_empty_wf.
Qed.
Lemma close_routes v c r : In r (v_routes (srv_close v c)) <-> In r (v_routes v) /\ rt_conn r <> c.
Proof. cbn. rewrite filter_In, Bool.negb_true_iff, Nat.eqb_neq. tauto. Qed.
Lemma close_ids v c i : In i (map c_id (v_conns (srv_close v c))) <-> In i (map c_id (v_conns v)) /\ i <> c.
Proof.
  cbn. rewrite !in_map_iff. split.
  - intros (x & <- & I). apply filter_In in I. rewrite Bool.negb_true_iff, Nat.eqb_neq in I. destruct I as [I N]. split; auto. eauto.
  - intros ((x & <- & I) & N). exists x. split; auto. apply filter_In. rewrite Bool.negb_true_iff, Nat.eqb_neq. auto.
Qed.
Lemma nodup_map_filter {A B} (f : A -> B) g l : NoDup (map f l) -> NoDup (map f (filter g l)).
Proof.
  induction l as [|x l IH]; cbn; auto. intros N; inversion N; subst. destruct (g x); cbn; auto. constructor; auto.
  intros I. apply H1. apply in_map_iff in I. destruct I as (y & Ey & Iy). apply filter_In in Iy. rewrite <- Ey. apply in_map. tauto.
Qed.
Lemma close_sinv v c : sinv v -> sinv (srv_close v c).
Proof.
  intros [A B C D F]. split.
  - apply nodup_map_filter; auto.
  - intros r Hr. apply close_routes in Hr. apply close_ids. split; [apply B|]; tauto.
  - apply nodup_map_filter; auto.
  - intros i Hi. apply close_ids in Hi. apply D; tauto.
  - intros n Hn. apply F. cbn in Hn. apply in_map_iff in Hn. destruct Hn as (x & <- & I). apply filter_In in I. apply in_map; tauto.
Qed.

Lemma ident_wf v c x l : sinv v -> find_conn v c = Some x -> ipa_wf (snd (ipa_set (c_name x) (Some l))).
Proof.
  intros S F. apply find_some in F. destruct F as [I _].
  destruct (ipa_set (c_name x) (Some l)) as [rc n] eqn:E. apply (ipa_set_bytes _ _ _ _ (si_wf v S _ (in_map c_name _ _ I)) E).
Qed.
Lemma ident_sinv v c t : sinv v -> sinv (srv_ident v c t).
Proof.
  intros S. unfold srv_ident. destruct (find_conn v c) as [x|] eqn:F; auto.
  destruct t as [[|t l]|]; try (apply close_sinv; auto).
  match goal with |- sinv (snd (route_add ?v' c ?a)) => assert (S1 : sinv v') by (apply set_conn_sinv; auto; intros; cbn [c_name]; eapply ident_wf; eauto);
     destruct (route_add v' c a) as [rc v2] eqn:E; apply (route_add_ok _ _ _ _ _ E S1) end.
  rewrite set_conn_ids; auto. apply find_conn_iff. congruence.
Qed.

(** identification adds routes and nothing else *)
Lemma ident_routes v c t r : sinv v -> In r (v_routes v) -> rt_conn r <> c \/ (exists a l, t = Some (a :: l)) -> In r (v_routes (srv_ident v c t)).
Proof.
  intros S I H. unfold srv_ident. destruct (find_conn v c) as [x|] eqn:F; auto.
  assert (C : rt_conn r <> c -> In r (v_routes (srv_close v c))) by (intros N; apply close_routes; auto).
  destruct t as [[|t l]|].
  - apply C. destruct H as [H|(a & l & H)]; [auto|discriminate].
  - match goal with |- In r (v_routes (snd (route_add ?v' c ?a))) => assert (S1 : sinv v') by (apply set_conn_sinv; auto; intros; cbn [c_name]; eapply ident_wf; eauto);
     destruct (route_add v' c a) as [rc v2] eqn:E; destruct (route_add_ok _ _ _ _ _ E S1) as (_ & _ & _ & A & _) end.
    { rewrite set_conn_ids; auto. apply find_conn_iff. congruence. }
    apply A. exact I.
  - apply C. destruct H as [H|(a & l & H)]; [auto|discriminate].
Qed.

(** * The handlers leave routes and connections alone *)
Definition srv_same (v v' : server) : Prop :=
  v_routes v' = v_routes v /\ v_next v' = v_next v /\ map c_id (v_conns v') = map c_id (v_conns v) /\
  map c_name (v_conns v') = map c_name (v_conns v) /\ map c_ccm (v_conns v') = map c_ccm (v_conns v).
Lemma srv_same_refl v : srv_same v v. Proof. repeat split. Qed.
Lemma srv_same_sinv v v' : srv_same v v' -> sinv v -> sinv v'.
Proof. intros (A & B & C & N & _) [D E F G W]. split; rewrite ?A, ?B, ?C, ?N; auto. Qed.
Definition keeps_srv (s : hst) (x : hst * list out) : Prop := srv_same (t_srv s) (t_srv (fst x)).

Lemma same_srv s p : all_rets (keeps_srv s) (same s p).
Proof. unfold same. apply all_rets_bind, all_rets_true. intros o. apply srv_same_refl. Qed.
Lemma lu_start_srv k w s q : all_rets (keeps_srv s) (lu_start k w s q).
Proof.
  assert (R : forall o, keeps_srv s (s, o)) by (intros; apply srv_same_refl).
  unfold lu_start. destruct (peer_is_empty (q_src q)); [apply R|].
  apply all_rets_bind, all_rets_true. intros [rc sub]. destruct (rc <? 0); [apply R|].
  destruct sub as [h|]; [|exact I].
  destruct (_ && _); [apply R|]. destruct (_ && _); [apply R|]. destruct (_ || _); [apply R|].
  apply all_rets_bind, all_rets_true. intros rc2. destruct (negb (rc2 =? 0)); [apply R|].
  destruct (isd_msg _ _ _ _) as [isd|] eqn:E; [|apply R].
  destruct (respond (tx k s) q isd false false) as [rc3 o]. destruct (negb (rc3 =? 0)); [apply R|apply srv_same_refl].
Qed.
Lemma upd_loc_srv k w s q : all_rets (keeps_srv s) (rx_upd_loc_req k w s q).
Proof.
  unfold rx_upd_loc_req. apply all_rets_bind, all_rets_true. intros _. set (v := set_conn _ _ _).
  eapply all_rets_impl; [|apply lu_start_srv]. intros [s' o] S. unfold keeps_srv in *. cbn [fst t_srv with_srv] in *.
  destruct S as (A & B & C & D & E). unfold v in *. repeat split.
  - rewrite A. reflexivity.
  - rewrite B. reflexivity.
  - rewrite C. apply set_conn_ids. reflexivity.
  - rewrite D. cbn. rewrite map_map. apply map_ext. intros x. destruct (_ =? _)%nat; reflexivity.
  - rewrite E. cbn. rewrite map_map. apply map_ext. intros x. destruct (_ =? _)%nat; reflexivity.
Qed.
Lemma lu_rx_srv k s q : t_srv (fst (lu_rx k s q)) = t_srv s.
Proof. unfold lu_rx. destruct (find _ _); auto. destruct (_ =? _); auto. destruct (_ =? _); auto. Qed.
Lemma dispatch_ss_srv k s z fe g r : all_rets (fun x => t_srv (fst (fst x)) = t_srv s) (ss_dispatch k s z fe g r).
Proof.
  unfold ss_dispatch, handle_ss, handle_ussd. destruct (op_is_ussd _).
  - destruct (z_hdl z); destruct fe; try exact I;
      try (apply all_rets_bind, all_rets_true; intros; reflexivity).
    + apply all_rets_bind, all_rets_true. intros x. destruct (_ =? _); reflexivity.
    + destruct (route_find _ _); [reflexivity|apply all_rets_bind, all_rets_true; intros; reflexivity].
  - apply all_rets_bind, all_rets_true; intros; reflexivity.
Qed.
Lemma proc_ss_srv k s q : all_rets (fun x => t_srv (fst x) = t_srv s) (rx_proc_ss_req k s q).
Proof.
  unfold rx_proc_ss_req. destruct (negb (is_ipa _)); [reflexivity|].
  destruct (match pl_octets _ with [] => _ | _ => _ end) as [r|]; [|reflexivity].
  destruct (_ =? SS_BEGIN).
  { destruct (ss_find _ _ _); [reflexivity|]. destruct (ss_handler _ _ _ _); [|exact I]. cbv zeta.
    apply all_rets_bind. eapply all_rets_impl; [|apply dispatch_ss_srv]. intros x E. exact E. }
  destruct (_ =? SS_CONTINUE).
  { destruct (ss_find _ _ _); [|reflexivity]. apply all_rets_bind. eapply all_rets_impl; [|apply dispatch_ss_srv]. intros x E. exact E. }
  destruct (_ =? SS_END); [|reflexivity]. destruct (ss_find _ _ _); [|reflexivity].
  apply all_rets_bind. eapply all_rets_impl with (P := fun x => t_srv (fst (fst x)) = t_srv s).
  - intros x E. destruct (snd (fst x)); [exact I|]. unfold ss_free. cbn. exact E.
  - destruct (pl_octets _); [reflexivity|apply dispatch_ss_srv].
Qed.
Lemma dispatch_srv k w s q : all_rets (keeps_srv s) (dispatch k w s q).
Proof.
  assert (R : forall o, keeps_srv s (s, o)) by (intros; apply srv_same_refl).
  unfold dispatch. destruct (_ =? MSGT_SEND_AUTH_INFO_REQUEST); [apply same_srv|].
  destruct (_ =? MSGT_UPDATE_LOCATION_REQUEST); [apply upd_loc_srv|].
  destruct (_ =? MSGT_PURGE_MS_REQUEST); [apply same_srv|].
  destruct (_ || _); [apply R|].
  destruct (_ || _).
  { eapply all_rets_impl; [|apply proc_ss_srv]. intros x E. unfold keeps_srv. rewrite E. apply srv_same_refl. }
  destruct (_ =? MSGT_PROC_SS_ERROR); [apply R|].
  destruct (_ || _). { cbn [all_rets]. unfold keeps_srv. rewrite lu_rx_srv. apply srv_same_refl. }
  destruct (_ =? MSGT_CHECK_IMEI_REQUEST); [apply same_srv|].
  destruct (_ =? MSGT_MO_FORWARD_SM_REQUEST); [apply same_srv|].
  destruct (_ =? MSGT_MT_FORWARD_SM_REQUEST); [apply same_srv|].
  destruct (_ =? MSGT_READY_FOR_SM_REQUEST); [apply same_srv|apply R].
Qed.

Lemma conn_rx_srv enc v nr cid g : sinv v ->
  let v' := fst (conn_rx enc v nr cid g) in
  sinv v' /\ v_conns v' = v_conns v /\ v_next v' = v_next v /\ incl (v_routes v) (v_routes v') /\
  (forall r, In r (v_routes v') -> In r (v_routes v) \/ rt_conn r = cid).
Proof.
  intros S. assert (R : sinv v /\ v_conns v = v_conns v /\ v_next v = v_next v /\ incl (v_routes v) (v_routes v) /\
    (forall r, In r (v_routes v) -> In r (v_routes v) \/ rt_conn r = cid)) by (split; [exact S|]; auto using incl_refl).
  unfold conn_rx. destruct (find_conn v cid) as [c|] eqn:F; [|exact R].
  destruct (req_new _ _ _ _ _) as [q|o]; [|exact R]. destruct (negb _); [|exact R].
  assert (I : In cid (map c_id (v_conns v))) by (apply find_conn_iff; congruence).
  destruct (route_add _ _ _) as [rc v'] eqn:E. destruct (route_add_ok _ _ _ _ _ E S I) as (A & B & C & D & X & _).
  assert (G : sinv v' /\ v_conns v' = v_conns v /\ v_next v' = v_next v /\ incl (v_routes v) (v_routes v') /\
    (forall r, In r (v_routes v') -> In r (v_routes v) \/ rt_conn r = cid)).
  { split; [exact A|]. split; [exact B|]. split; [exact C|]. split; [exact D|]. intros r Hr. apply X in Hr. destruct Hr as [Hr| ->]; auto. }
  destruct (negb (rc =? 0)); exact G.
Qed.

Lemma read_cb_srv k w s c g :
  all_rets (fun x => srv_same (fst (conn_rx (k_enc k) (t_srv s) (t_nr s) c g)) (t_srv (fst x))) (read_cb k w s c g).
Proof.
  unfold read_cb, read_msg. apply all_rets_bind. destruct (conn_rx _ _ _ _ _) as [v r]. cbn [fst].
  set (s1 := mk_hst v (t_lus s) (t_ss s) (S (t_nr s))). change v with (t_srv s1) at 1.
  eapply all_rets_impl with (P := keeps_srv s1); [intros x H; exact H|].
  destruct r as [q|o]; [|apply srv_same_refl].
  destruct (g_dst g); [apply dispatch_srv|]. destruct (ipa_set_str _ _); [|exact I]. destruct (ipa_set _ _) as [rc dest].
  destruct (_ && _); [apply same_srv|apply dispatch_srv].
Qed.

(** one event *)
Lemma handle_sinv k w s e : sinv (t_srv s) -> all_rets (fun x => sinv (t_srv (fst x))) (handle k w s e).
Proof.
  intros S. destruct e; cbn [handle all_rets fst t_srv with_srv].
  - apply accept_sinv; auto.
  - apply ident_sinv; auto.
  - apply close_sinv; auto.
  - destruct (find_conn _ _); [|exact S]. eapply all_rets_impl; [|apply read_cb_srv]. intros x H. eapply srv_same_sinv; [exact H|].
    apply conn_rx_srv; auto.
  - unfold lu_timeout. destruct (find _ _); auto.
  - unfold ss_timeout. destruct (ss_find _ _ _); auto.
  - unfold same. apply all_rets_bind, all_rets_true. intros o. exact S.
  - unfold same. apply all_rets_bind, all_rets_true. intros o. exact S.
  - apply all_rets_bind, all_rets_true. intros o. exact S.
Qed.
Lemma sinv_restart s : sinv (t_srv (restart s)). Proof. split; cbn; try constructor; tauto. Qed.

Lemma step_inv k s d w e c s' d' o (P : hst * list out -> Prop) : all_rets P (handle k w s e) -> step k (s, d) (w, e, c) = Some (s', d', o) ->
  P (s', o) \/ (s' = restart s /\ o = [] /\ In EvCrash c).
Proof.
  intros H E. unfold step in E. cbn [fst snd] in E.
  destruct (run (handle k w s e) c d) as [[out d2] c2] eqn:R. destruct out as [[s2 o2]| |]; [| |discriminate].
  - injection E as <- <- <-. left. apply (all_rets_run _ _ H c d). unfold run_out. rewrite R. reflexivity.
  - injection E as <- <- <-. right. repeat split; auto.
    assert (G : forall A (p : prog A) c d o d2 c2, run p c d = (o, d2, c2) -> o = Crashed -> In EvCrash c).
    { clear. intros A p. induction p as [a|st kk IH|]; intros c d o d2 c2; cbn [run].
      - congruence.
      - destruct c as [|[] c].
        + destruct (exec st d). intros E Eo. destruct (IH _ _ _ _ _ _ E Eo).
        + destruct (exec st d). intros E Eo. right. eapply IH; eauto.
        + intros E Eo. right. eapply IH; eauto.
        + left; auto.
      - congruence. }
    eapply G; eauto.
Qed.

Lemma step_sinv k s d e s' d' o : sinv (t_srv s) -> step k (s, d) e = Some (s', d', o) -> sinv (t_srv s').
Proof.
  destruct e as [[w e] c]. intros S E. destruct (step_inv _ _ _ _ _ _ _ _ _ _ (handle_sinv k w s e S) E) as [P|(-> & _)]; auto.
  apply sinv_restart.
Qed.
Lemma hist_sinv k es : forall s d s' d' o, sinv (t_srv s) -> hist k (s, d) es = Some (s', d', o) -> sinv (t_srv s').
Proof.
  induction es as [|e es IH]; intros s d s' d' o H; cbn [hist].
  - intros [= <- <- <-]. auto.
  - destruct (step k (s, d) e) as [[[s1 d1] o1]|] eqn:E; [|discriminate].
    destruct (hist k (s1, d1) es) as [[[s2 d2] o2]|] eqn:E2; [|discriminate]. intros [= <- <- <-].
    eapply IH; [|exact E2]. eapply step_sinv; eauto.
Qed.

(** a route stays while its connection stays *)
Lemma handle_leads k w s e a c : sinv (t_srv s) -> leads (t_srv s) a c -> stays c e ->
  all_rets (fun x => leads (t_srv (fst x)) a c) (handle k w s e).
Proof.
  intros S L T. destruct e; cbn [handle all_rets fst t_srv with_srv]; auto.
  - apply ident_routes; auto. cbn in *. destruct tag as [[|x l]|]; eauto.
  - apply close_routes. cbn in *. auto.
  - destruct (find_conn _ _); [|exact L]. eapply all_rets_impl; [|apply read_cb_srv]. intros x H.
    unfold leads. destruct H as (H & _). rewrite H. apply conn_rx_srv; auto.
  - unfold lu_timeout. destruct (find _ _); auto.
  - unfold ss_timeout. destruct (ss_find _ _ _); auto.
  - unfold same. apply all_rets_bind, all_rets_true. intros o. exact L.
  - unfold same. apply all_rets_bind, all_rets_true. intros o. exact L.
  - apply all_rets_bind, all_rets_true. intros o. exact L.
Qed.
Lemma step_leads k s d w e f s' d' o a c : sinv (t_srv s) -> step k (s, d) (w, e, f) = Some (s', d', o) -> leads (t_srv s) a c ->
  stays c e -> no_crash f -> leads (t_srv s') a c.
Proof.
  intros S E L T NC. destruct (step_inv _ _ _ _ _ _ _ _ _ _ (handle_leads k w s e a c S L T) E) as [P|(_ & _ & C)]; auto. destruct (NC C).
Qed.
Lemma hist_leads k es : forall s d s' d' o a c, sinv (t_srv s) -> hist k (s, d) es = Some (s', d', o) -> quiet c es ->
  leads (t_srv s) a c -> leads (t_srv s') a c.
Proof.
  induction es as [|[[w e] f] es IH]; intros s d s' d' o a c H; cbn [hist].
  - intros [= <- <- <-]. auto.
  - destruct (step k (s, d) (w, e, f)) as [[[s1 d1] o1]|] eqn:E; [|discriminate].
    destruct (hist k (s1, d1) es) as [[[s2 d2] o2]|] eqn:E2; [|discriminate]. intros [= <- <- <-] Q L.
    destruct (Q w e f) as [T NC]; [left; auto|].
    eapply IH; [|exact E2| |].
    + eapply step_sinv; eauto.
    + intros w0 e0 f0 I. eapply Q. right; exact I.
    + eapply step_leads; eauto.
Qed.

(** * C25 *)
Lemma c25_integrity k d es s d' o : hist k (hst0, d) es = Some (s, d', o) -> one_route_per_name (t_srv s) /\ routes_open (t_srv s).
Proof.
  intros E. pose proof (hist_sinv _ _ _ _ _ _ _ sinv0 E) as [A B C D _]. split.
  - intros i j r r' Hi Hj Er. rewrite NoDup_nth_error in A. apply A.
    + rewrite map_length. apply nth_error_Some. congruence.
    + erewrite !map_nth_error by eauto. congruence.
  - intros a c L. apply B in L. cbn in L. apply in_map_iff in L. destruct L as (x & E1 & I). exists x. auto.
Qed.

Lemma c25_reachable k d es s d1 o c tag w f s2 d2 o2 es' s3 d3 o3 :
  hist k (hst0, d) es = Some (s, d1, o) -> open_conn (t_srv s) c ->
  tag <> [] -> (length tag <= 128)%nat -> (forall c', leads (t_srv s) tag c' -> c' = c) ->
  no_crash f -> step k (s, d1) (w, EIdent c (Some tag), f) = Some (s2, d2, o2) ->
  quiet c es' -> hist k (s2, d2) es' = Some (s3, d3, o3) -> leads (t_srv s3) tag c.
Proof.
  intros E (x & Ix & Ex) N L Fr NC St Q E3. pose proof (hist_sinv _ _ _ _ _ _ _ sinv0 E) as S.
  pose proof (step_sinv _ _ _ _ _ _ _ S St) as S2. eapply hist_leads; eauto.
  assert (H : all_rets (fun x => leads (t_srv (fst x)) tag c) (handle k w s (EIdent c (Some tag)))).
  2:{ destruct (step_inv _ _ _ _ _ _ _ _ _ _ H St) as [P|(_ & _ & C)]; auto. destruct (NC C). }
  cbn [handle all_rets fst t_srv with_srv]. unfold srv_ident.
  assert (I : In c (map c_id (v_conns (t_srv s)))) by (subst c; apply in_map; auto).
  destruct (find_conn (t_srv s) c) as [y|] eqn:F; [|exfalso; apply find_conn_iff in I; auto].
  destruct tag as [|t l]; [tauto|].
  assert (B : ipa_bytes (snd (ipa_set (c_name y) (Some (t :: l)))) = t :: l).
  { destruct (ipa_set (c_name y) (Some (t :: l))) as [rc n] eqn:E1. apply find_some in F. destruct F as [Iy _].
    destruct (ipa_set_bytes _ _ _ _ (si_wf _ S _ (in_map c_name _ _ Iy)) E1) as [_ [(_ & B)|(_ & _ & B)]]; auto.
    exfalso. change IPA_MAX with 128%nat in B. lia. }
  rewrite B.
  match goal with |- leads (snd (route_add ?v' c ?a)) _ _ => assert (S1 : sinv v') by (apply set_conn_sinv; auto; intros; cbn [c_name]; exact (ident_wf _ _ _ _ S F));
     destruct (route_add v' c a) as [rc v2] eqn:E4; destruct (route_add_ok _ _ _ _ _ E4 S1) as (_ & _ & _ & A & _ & R0 & R1) end.
  { rewrite set_conn_ids; auto. }
  destruct (Z.eq_dec rc 0); auto. destruct (R1 n) as (_ & c' & Nc & Lc). exfalso. apply Nc. apply Fr. exact Lc.
Qed.

Lemma c25_disconnect k d es s d1 o c w f s2 d2 o2 :
  hist k (hst0, d) es = Some (s, d1, o) -> no_crash f -> step k (s, d1) (w, EClose c, f) = Some (s2, d2, o2) ->
  forall a c', leads (t_srv s2) a c' <-> leads (t_srv s) a c' /\ c' <> c.
Proof.
  intros E NC St a c'. unfold leads.
  assert (H : all_rets (fun x => t_srv (fst x) = srv_close (t_srv s) c) (handle k w s (EClose c))) by reflexivity.
  destruct (step_inv _ _ _ _ _ _ _ _ _ _ H St) as [P|(_ & _ & C)]; [|destruct (NC C)].
  cbn [fst] in P. rewrite P. apply close_routes.
Qed.
