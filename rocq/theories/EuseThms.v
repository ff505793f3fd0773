From Verif Require Import Base PeerId Db DbSpec DbProofs DbThms DbThms2 DbThms3 PeerSpec PeerThms Auth AuthSpec AuthThms AuthThms2 AuthThms3 Gsup Router Hlr HlrSpec RouterThms HlrThms HlrThms2 HlrThms4 HlrThms5 HlrStep
  UssdSpec UssdThms UssdThms2 NotifyThms HlrThms8 Euse EuseSpec.

(** * The entity *)
Lemma take_app n : forall s, exists r, s = (str_take n s ++ r)%string /\ (r = "" \/ String.length (str_take n s) = n)%string /\ (String.length (str_take n s) <= n)%nat.
Proof.
  induction n as [|n IH]; intros s.
  - exists s. change (str_take 0 s) with ""%string. split; [reflexivity|]. split; [right; reflexivity|cbn; lia].
  - destruct s as [|a s]; [exists ""%string; change (str_take (S n) "") with ""%string; split; [reflexivity|]; split; [left; reflexivity|cbn; lia]|].
    change (str_take (S n) (String a s)) with (String a (str_take n s)). cbn [String.append String.length]. destruct (IH s) as (r & E & [->|L] & M).
    + exists ""%string. split; [f_equal; exact E|]. split; [auto|lia].
    + exists r. split; [f_equal; exact E|]. split; [right; lia|lia].
Qed.
Lemma said t : said_back t (str_take USSD_7BIT_STRING_LEN ("You sent " ++ quote ++ t ++ quote)).
Proof. unfold said_back. change """"%string with quote. change ("You sent """ ++ t ++ quote)%string with ("You sent " ++ quote ++ t ++ quote)%string. destruct (take_app 183 ("You sent " ++ quote ++ t ++ quote)) as (r & E & R). exists r. auto. Qed.

Lemma tx_ss_last g pl : exists m, euse_tx_ss (g_imsi g) (g_sid g) MSGT_PROC_SS_RESULT true pl = [m] /\ last_answer g m /\ x_ss (g_x m) = PlRaw pl /\ g_class m = 0 /\ g_mr m = None.
Proof. eexists. split; [reflexivity|]. split; [split; reflexivity|]. auto. Qed.

Lemma c68_answer l g : g_type g = MSGT_PROC_SS_REQUEST \/ g_type g = MSGT_PROC_SS_RESULT ->
  exists m pl, euse_read l (Some g) = ([m], true) /\ last_answer g m /\ x_ss (g_x m) = PlRaw pl /\ g_class m = 0 /\ g_mr m = None /\
    ((exists o, x_ss (g_x g) = PlRaw o /\ o <> [] /\ f_parse l o = None /\ pl = f_reject l (-1) 128 2) \/
     (exists invoke text, (x_ss (g_x g) = PlRaw [] \/ (forall o, x_ss (g_x g) <> PlRaw o) -> invoke = 0 /\ text = ""%string) /\
        (forall o, x_ss (g_x g) = PlRaw o -> o <> [] -> f_parse l o = Some (invoke, text)) /\
        ((g_ss g = SS_BEGIN /\ exists s, said_back text s /\ pl = f_text l (invoke mod 256) s) \/
         (g_ss g <> SS_BEGIN /\ pl = f_reject l invoke 128 0)))).
Proof.
  intros T. cbn [euse_read]. replace ((g_type g =? MSGT_PROC_SS_REQUEST) || (g_type g =? MSGT_PROC_SS_RESULT)) with true
    by (symmetry; apply orb_true_iff; rewrite !Z.eqb_eq; exact T).
  unfold euse_rx.
  assert (K : forall invoke text, (x_ss (g_x g) = PlRaw [] \/ (forall o, x_ss (g_x g) <> PlRaw o) -> invoke = 0 /\ text = ""%string) ->
     (forall o, x_ss (g_x g) = PlRaw o -> o <> [] -> f_parse l o = Some (invoke, text)) ->
     exists m pl, (if negb (g_ss g =? SS_BEGIN) then euse_tx_reject l (g_imsi g) (g_sid g) invoke TAG_GENERAL PROB_UNRECOGNISED
      else euse_tx_text l (g_imsi g) (g_sid g) true invoke (str_take USSD_7BIT_STRING_LEN ("You sent " ++ quote ++ text ++ quote)), true) = ([m], true) /\ last_answer g m /\ x_ss (g_x m) = PlRaw pl /\ g_class m = 0 /\ g_mr m = None /\
      ((exists o, x_ss (g_x g) = PlRaw o /\ o <> [] /\ f_parse l o = None /\ pl = f_reject l (-1) 128 2) \/
     (exists invoke text, (x_ss (g_x g) = PlRaw [] \/ (forall o, x_ss (g_x g) <> PlRaw o) -> invoke = 0 /\ text = ""%string) /\
        (forall o, x_ss (g_x g) = PlRaw o -> o <> [] -> f_parse l o = Some (invoke, text)) /\
        ((g_ss g = SS_BEGIN /\ exists s, said_back text s /\ pl = f_text l (invoke mod 256) s) \/
         (g_ss g <> SS_BEGIN /\ pl = f_reject l invoke 128 0))))).
  { intros invoke text H1 H2. destruct (Z.eqb_spec (g_ss g) SS_BEGIN) as [B|B]; cbn [negb]; unfold euse_tx_reject, euse_tx_text.
    - destruct (tx_ss_last g (f_text l (invoke mod 256) (str_take USSD_7BIT_STRING_LEN ("You sent " ++ quote ++ text ++ quote)))) as (m & -> & La & Pl & Cl & Mr).
      exists m. eexists. split; [reflexivity|]. split; [exact La|]. split; [exact Pl|]. split; auto. split; auto. right. exists invoke, text. split; [exact H1|]. split; [exact H2|]. left. split; auto. eexists. split; [apply said|reflexivity].
    - destruct (tx_ss_last g (f_reject l invoke TAG_GENERAL PROB_UNRECOGNISED)) as (m & -> & La & Pl & Cl & Mr).
      exists m. eexists. split; [reflexivity|]. split; [exact La|]. split; [exact Pl|]. split; auto. split; auto. right. exists invoke, text. split; [exact H1|]. split; [exact H2|]. right. auto. }
  destruct (x_ss (g_x g)) as [|o|i c|i t] eqn:X; cbn [pl_octets].
  - apply K; auto. discriminate.
  - destruct o as [|b o]; [apply K; auto; intros o' [= <-]; tauto|].
    destruct (f_parse l (b :: o)) as [[invoke text]|] eqn:P.
    + apply K; [intros [H|H]; [discriminate|destruct (H _ eq_refl)]|]. intros o' [= <-] _. exact P.
    + unfold euse_tx_reject. destruct (tx_ss_last g (f_reject l (-1) TAG_GENERAL PROB_BAD_STRUCTURE)) as (m & -> & La & Pl & Cl & Mr).
      exists m. eexists. split; [reflexivity|]. split; [exact La|]. split; [exact Pl|]. split; auto. split; auto. left. exists (b :: o). repeat split; auto. discriminate.
  - apply K; auto. discriminate.
  - apply K; auto. discriminate.
Qed.
Lemma c68_silent l g : g_type g <> MSGT_PROC_SS_REQUEST -> g_type g <> MSGT_PROC_SS_RESULT -> euse_read l (Some g) = ([], true).
Proof. intros A B. cbn. apply Z.eqb_neq in A, B. rewrite A, B. reflexivity. Qed.
Lemma read_last l g m : In m (fst (euse_read l (Some g))) -> last_answer g m.
Proof.
  destruct (Z.eq_dec (g_type g) MSGT_PROC_SS_REQUEST) as [A|A]; [|destruct (Z.eq_dec (g_type g) MSGT_PROC_SS_RESULT) as [B|B]].
  3:{ rewrite c68_silent; auto. intros []. }
  all: destruct (c68_answer l g) as (m' & pl & -> & La & _); auto; intros [<-|[]]; exact La.
Qed.

(** * Together with the HLR *)
Record euse_inv (s : hst) : Prop := {
  ei_routes : forall r, In r (v_routes (t_srv s)) -> rt_conn r = 0%nat -> rt_addr r = demo_name;
  ei_demo : forall x, In x (v_conns (t_srv s)) -> c_id x = 0%nat -> ipa_bytes (c_name x) = demo_name;
  ei_other : forall x, In x (v_conns (t_srv s)) -> c_id x <> 0%nat -> ~ entity_name (ipa_bytes (c_name x));
  ei_next : (0 < v_next (t_srv s))%nat;
  ei_ss : forall z, In z (t_ss s) -> exists q, z_ms z = Some q /\ ~ entity_name (ipa_bytes (p_ipa (q_src q))) }.

Lemma demo_entity : entity_name demo_name.
Proof. exists "f"%char, (bytes_of "oobar" ++ [nul]). reflexivity. Qed.

Lemma sent_app c a b : sent_on c (a ++ b) = sent_on c a ++ sent_on c b. Proof. apply flat_map_app. Qed.
Lemma sent_free c o : (forall y, In y o -> exists n, y = OFree n) -> sent_on c o = [].
Proof. induction o as [|y o IH]; intros H; auto. cbn. destruct (H y (or_introl eq_refl)) as (n & ->). cbn. apply IH. intros z Iz. apply H. right; auto. Qed.
Lemma free_req_free o y : In y (free_req o) -> exists n, y = OFree n.
Proof. destruct o; cbn; [|tauto]. intros [<-|[]]. eauto. Qed.

(** the answer goes to the mobile, not to the entity *)
Lemma respond_away k s q m : euse_inv s -> ~ entity_name (ipa_bytes (p_ipa (q_src q))) -> g_type m <> 0 -> g_type m <> MSGT_ROUTING_ERROR ->
  sent_on 0 (snd (respond (tx k s) q m false false)) = [].
Proof.
  intros [R _ _ _ _] N T0 T. unfold respond. destruct (make_response _ _ _ _) as [rc r] eqn:E. destruct (rc =? 0); [|reflexivity]. cbn.
  assert (Ty : g_type r = g_type m).
  { unfold make_response in E. injection E as _ <-. cbn. apply Z.eqb_neq in T0. rewrite T0. reflexivity. }
  unfold tx, srv_tx. rewrite Ty. apply Z.eqb_neq in T. rewrite T. cbn [andb]. destruct (p_type (q_src q)); auto.
  destruct (route_find _ _) as [c|] eqn:F; auto. destruct (k_enc k r); auto.
  destruct (Nat.eqb_spec c 0) as [->|]; auto. exfalso. apply route_find_some in F. apply R in F; auto. cbn in F. apply N. rewrite F. apply demo_entity.
Qed.
Lemma send_ms_away k s z m : euse_inv s -> (exists q, z_ms z = Some q /\ ~ entity_name (ipa_bytes (p_ipa (q_src q)))) -> g_type m <> 0 -> g_type m <> MSGT_ROUTING_ERROR ->
  all_rets (fun x => sent_on 0 (snd x) = []) (ss_send_to_ms k s z m).
Proof. intros I (q & Z & N) T0 T. unfold ss_send_to_ms. rewrite Z. cbn. apply respond_away; auto. Qed.
Lemma dispatch_away k s z g r : euse_inv s -> (exists q, z_ms z = Some q /\ ~ entity_name (ipa_bytes (p_ipa (q_src q)))) -> g_type g = MSGT_PROC_SS_RESULT ->
  all_rets (fun x => sent_on 0 (snd x) = []) (ss_dispatch k s z true g r).
Proof.
  intros I Z T. assert (Er : forall iv c, all_rets (fun x => sent_on 0 (snd x) = []) (ss_tx_error k s z iv c)).
  { intros iv c. unfold ss_tx_error, ss_tx_to_ms. apply send_ms_away; auto; cbn; discriminate. }
  assert (K : forall p : prog (session * list out), all_rets (fun x => sent_on 0 (snd x) = []) p ->
     all_rets (fun x => sent_on 0 (snd x) = []) (do x <- p;; Ret (ss_put s (fst x), false, snd x))).
  { intros p H. apply all_rets_bind. eapply all_rets_impl; [|exact H]. intros x Hx. exact Hx. }
  unfold ss_dispatch, handle_ussd, handle_ss. destruct (op_is_ussd _); [|apply K, Er].
  assert (G : all_rets (fun x => sent_on 0 (snd x) = []) (ss_send_to_ms k s z g)) by (apply send_ms_away; auto; rewrite T; discriminate).
  destruct (z_hdl z); apply K; auto.
Qed.
Lemma respond_err_quiet tx q c : g_type (q_gsup q) = MSGT_PROC_SS_RESULT -> respond_err tx q c = [OFree (q_nr q)].
Proof. intros T. unfold respond_err. rewrite T. reflexivity. Qed.
Lemma proc_ss_away k s q : euse_inv s -> g_type (q_gsup q) = MSGT_PROC_SS_RESULT -> g_ss (q_gsup q) = SS_END -> peer_is_euse (q_src q) = true ->
  all_rets (fun x => sent_on 0 (snd x) = []) (rx_proc_ss_req k s q).
Proof.
  intros I T B E. unfold rx_proc_ss_req. rewrite !(respond_err_quiet _ _ _ T), E, B. cbn [Z.eqb SS_END SS_BEGIN SS_CONTINUE Pos.eqb].
  destruct (negb (is_ipa _)); [reflexivity|]. destruct (match pl_octets _ with [] => _ | _ => _ end) as [r|]; [|reflexivity].
  destruct (ss_find _ _ _) as [z|] eqn:F; [|reflexivity].
  assert (Iz : In z (t_ss s)) by (apply find_some in F; tauto).
  apply all_rets_bind. eapply all_rets_impl with (P := fun x => sent_on 0 (snd x) = []).
  - intros x Hx. destruct (snd (fst x)); [exact Logic.I|]. unfold ss_free. cbn [all_rets snd].
    rewrite !sent_app, Hx. cbn. rewrite app_nil_r. rewrite <- sent_app. apply sent_free. intros y Iy. apply in_app_iff in Iy. destruct Iy as [Iy|Iy]; apply free_req_free in Iy; auto.
  - destruct (pl_octets _); [reflexivity|]. apply dispatch_away; auto. apply (ei_ss _ I); auto.
Qed.
Lemma euse_inv_nr v l ss n n' l' : euse_inv (mk_hst v l ss n) -> euse_inv (mk_hst v l' ss n').
Proof. intros [A B C D E]. split; cbn in *; auto. Qed.
Lemma up_away k w s g m : euse_inv s -> sinv (t_srv s) -> last_answer g m -> all_rets (fun x => sent_on 0 (snd x) = []) (handle k w s (ERx 0 m)).
Proof.
  intros I SV [T Im Si En Sr Ds]. cbn [handle]. destruct (find_conn (t_srv s) 0) as [x|] eqn:F; [|reflexivity].
  unfold read_cb. apply all_rets_bind. eapply all_rets_impl with (P := fun x => sent_on 0 (snd x) = []); [intros y Hy; cbn [all_rets]; exact Hy|].
  unfold read_msg, conn_rx. rewrite F. unfold req_new. rewrite Sr. cbn [negb q_via q_gsup].
  destruct (negb (imsi_valid (g_imsi m))). { rewrite respond_err_quiet by exact T. reflexivity. }
  cbn [q_via]. change (peer_is_empty peer_zero) with true. cbn [negb]. rewrite Ds. rewrite rx_ss_dispatch by (cbn [q_gsup]; rewrite T; right; reflexivity).
  apply find_some in F as [Ix Cx]. apply Nat.eqb_eq in Cx.
  apply proc_ss_away; auto.
  - destruct s as [v a b c]. eapply euse_inv_nr. exact I.
  - cbn [q_src]. apply is_entity; [reflexivity|apply (si_wf _ SV); cbn [p_ipa]; apply in_map; exact Ix|]. cbn [p_ipa]. rewrite (ei_demo _ I x Ix Cx). apply demo_entity.
Qed.

(** ** What the others do leaves the entity alone *)
Lemma pairs_same l l' : map c_id l' = map c_id l -> map c_name l' = map c_name l -> forall x, In x l' -> exists y, In y l /\ c_id y = c_id x /\ c_name y = c_name x.
Proof.
  revert l. induction l' as [|x' l' IH]; intros l A B x; [intros []|]. destruct l as [|y l]; [discriminate|]. injection A as A1 A2. injection B as B1 B2. intros [<-|I].
  - exists y. split; [left; auto|auto].
  - destruct (IH l A2 B2 x I) as (z & Iz & E). exists z. split; [right; auto|auto].
Qed.
Record srv_inv (v : server) : Prop := {
  vi_routes : forall r, In r (v_routes v) -> rt_conn r = 0%nat -> rt_addr r = demo_name;
  vi_demo : forall x, In x (v_conns v) -> c_id x = 0%nat -> ipa_bytes (c_name x) = demo_name;
  vi_other : forall x, In x (v_conns v) -> c_id x <> 0%nat -> ~ entity_name (ipa_bytes (c_name x));
  vi_next : (0 < v_next v)%nat }.
Lemma inv_srv s : euse_inv s -> srv_inv (t_srv s). Proof. intros [A B C D _]. split; auto. Qed.
Lemma srv_inv_same v v' : srv_same v v' -> srv_inv v -> srv_inv v'.
Proof.
  intros (A & B & C & D & _) [R X Y N]. split.
  - rewrite A. auto.
  - intros x I Z. destruct (pairs_same _ _ C D x I) as (y & Iy & E1 & E2). rewrite <- E2. apply X; auto. congruence.
  - intros x I Z. destruct (pairs_same _ _ C D x I) as (y & Iy & E1 & E2). rewrite <- E2. apply Y; auto. congruence.
  - rewrite B. exact N.
Qed.
Lemma empty_not_entity : ~ entity_name (ipa_bytes ipa_empty). Proof. intros (c & l & E). discriminate E. Qed.
Lemma accept_keep v : srv_inv v -> srv_inv (srv_accept v).
Proof.
  intros [R X Y N]. split; cbn [srv_accept v_routes v_conns v_next]; auto; try lia.
  - intros x I Z. apply in_app_iff in I. destruct I as [I|[<-|[]]]; auto. cbn in Z. lia.
  - intros x I Z. apply in_app_iff in I. destruct I as [I|[<-|[]]]; auto. apply empty_not_entity.
Qed.
Lemma close_keep v c : srv_inv v -> srv_inv (srv_close v c).
Proof.
  intros [R X Y N]. split; cbn; auto.
  - intros r I. apply filter_In in I as [I _]. auto.
  - intros x I. apply filter_In in I as [I _]. auto.
  - intros x I. apply filter_In in I as [I _]. auto.
Qed.
Lemma ident_keep v c tag : sinv v -> srv_inv v -> c <> 0%nat -> (forall a, tag = Some a -> ~ entity_name a) -> srv_inv (srv_ident v c tag).
Proof.
  intros SV H N T. unfold srv_ident. destruct (find_conn v c) as [y|] eqn:F; auto. destruct tag as [[|b l]|]; try (apply close_keep; exact H).
  destruct (ipa_set (c_name y) (Some (b :: l))) as [rc nm] eqn:E. cbn [snd].
  assert (Iy : In y (v_conns v)) by (apply find_some in F; tauto). assert (Cy : c_id y = c) by (apply find_some in F; destruct F as [_ F]; apply Nat.eqb_eq; auto).
  assert (W : ipa_wf (c_name y)) by (apply (si_wf _ SV), in_map; auto).
  assert (Nn : ~ entity_name (ipa_bytes nm)).
  { destruct (ipa_set_bytes _ _ _ _ W E) as (_ & [(-> & B)|(-> & -> & B)]); [rewrite B; apply T; auto|]. apply (vi_other _ H); auto. congruence. }
  set (v1 := set_conn v c _).
  assert (H1 : srv_inv v1).
  { destruct H as [R X Y Nx]. split; cbn; auto.
    - intros x I Z. apply in_map_iff in I as (x0 & <- & I). destruct (Nat.eqb_spec (c_id x0) c); auto. cbn in *. congruence.
    - intros x I Z. apply in_map_iff in I as (x0 & <- & I). destruct (Nat.eqb_spec (c_id x0) c); auto. }
  unfold route_add. destruct (route_find _ _) as [c'|]; [destruct (_ =? _)%nat; exact H1|]. cbn [snd]. destruct H1 as [R X Y Nx]. split; cbn [with_routes v_routes v_conns v_next]; auto.
  intros r I Z. apply in_app_iff in I. destruct I as [I|[<-|[]]]; auto. cbn in Z. congruence.
Qed.
Lemma conn_rx_keep enc v nr c g : sinv v -> srv_inv v -> c <> 0%nat \/ g_src g = [] -> srv_inv (fst (conn_rx enc v nr c g)).
Proof.
  intros SV H D. destruct (conn_rx_srv enc v nr c g SV) as (_ & C & N & _ & R).
  destruct D as [D|D].
  - destruct H as [R0 X Y Nx]. split; rewrite ?C, ?N; auto. intros r I Z. destruct (R r I) as [I'|Z']; auto. congruence.
  - replace (fst (conn_rx enc v nr c g)) with v; auto. unfold conn_rx. destruct (find_conn v c); auto. unfold req_new. rewrite D.
    destruct (negb (imsi_valid _)); auto.
Qed.
Lemma handle_srv_keep k w s e : sinv (t_srv s) -> srv_inv (t_srv s) -> (somebody_else e \/ exists g m, e = ERx 0 m /\ last_answer g m) ->
  all_rets (fun x => srv_inv (t_srv (fst x))) (handle k w s e).
Proof.
  intros SV H O. destruct e; cbn [handle all_rets fst t_srv with_srv].
  - apply accept_keep; auto.
  - destruct O as [[O1 O2]|(g & m & [=] & _)]. apply ident_keep; auto.
  - apply close_keep; auto.
  - destruct (find_conn _ _); [|exact H]. eapply all_rets_impl; [|apply read_cb_srv]. intros x Hx. eapply srv_inv_same; [exact Hx|].
    apply conn_rx_keep; auto. destruct O as [[O1 O2]|(g' & m & [= -> ->] & La)]; [auto|]. right. apply La.
  - unfold lu_timeout. destruct (find _ _); auto.
  - unfold ss_timeout. destruct (ss_find _ _ _); auto.
  - unfold same. apply all_rets_bind, all_rets_true. intros o. exact H.
  - unfold same. apply all_rets_bind, all_rets_true. intros o. exact H.
  - apply all_rets_bind, all_rets_true. intros o. exact H.
Qed.
Lemma step_keep k s d w e f s' d' o : reached k s d -> euse_inv s -> (somebody_else e \/ exists g m, e = ERx 0 m /\ last_answer g m) ->
  step k (s, d) (w, e, f) = Some (s', d', o) -> euse_inv s'.
Proof.
  intros Rc I O E. destruct (reached_fine _ _ _ Rc) as ([_ SV] & _).
  assert (V : srv_inv (t_srv s')).
  { pose proof (handle_srv_keep k w s e SV (inv_srv _ I) O) as A. unfold step in E. cbn [fst snd] in E.
    destruct (run (handle k w s e) f d) as [[[[s2 o2]| |] d2] f2] eqn:R; [| |discriminate].
    - injection E as <- <- <-. apply (all_rets_run _ _ A f d (s2, o2)). apply run_outE in R. exact R.
    - injection E as <- _ _. split; cbn; try tauto. apply I. }
  destruct V as [A B C D]. split; auto. intros z' Iz.
  destruct (c30_parties _ _ _ _ _ _ _ _ _ Rc E z' Iz) as [(z & Iz0 & SP)|(c & g & a & -> & T & Sn & NS)].
  - rewrite (sp_ms _ _ SP). apply (ei_ss _ I); auto.
  - destruct O as [[O1 O2]|(g' & m & [= -> ->] & La)]; [|pose proof (ns_begin _ _ _ _ _ NS) as X; rewrite (la_end _ _ La) in X; discriminate].
    assert (Na : ~ entity_name a).
    { destruct Sn as [[_ ->]|(_ & x & Ix & Cx & ->)]; auto. apply (ei_other _ I); auto. congruence. }
    destruct (ns_mobile _ _ _ _ _ NS Na) as ((q & -> & _ & _ & Qa) & _). exists q. split; auto. rewrite Qa. exact Na.
Qed.

(** ** Runs *)
Definition net_ok (k : cfg) (n : net) : Prop := reached k (n_hlr n) (n_db n) /\ euse_inv (n_hlr n) /\ forall m, In m (n_up n) -> exists g, last_answer g m.
Lemma hist_app1 k es : forall x y o e z o', hist k x es = Some (y, o) -> step k y e = Some (z, o') -> hist k x (es ++ [e]) = Some (z, o ++ o').
Proof.
  induction es as [|e0 es IH]; intros x y o e z o'; cbn [hist app].
  - intros [= -> <-] ->. cbn. rewrite app_nil_r. reflexivity.
  - destruct (step k x e0) as [[x' o1]|]; [|discriminate]. destruct (hist k x' es) as [[y1 o2]|] eqn:H; [|discriminate]. intros [= -> <-] S. rewrite (IH _ _ _ _ _ _ H S). rewrite app_assoc. reflexivity.
Qed.
Lemma reached_step k s d w e f s' d' o : reached k s d -> step k (s, d) (w, e, f) = Some (s', d', o) -> reached k s' d'.
Proof. intros (d0 & es & o0 & A & B & H) S. exists d0, (es ++ [(w, e, f)]), (o0 ++ o). split; auto. split; auto. eapply hist_app1; eauto. Qed.
Lemma net0_ok k d : db_ok d -> keys_wellformed d -> net_ok k (net0 d).
Proof.
  intros A B. split; [|split].
  - exists d. set (w := mk_world (mk_crypto (fun _ => None) (fun _ _ => None) (fun _ _ => (None, 0%N)) (fun _ _ _ _ => (None, 0%N))) (fun _ _ => None) None).
    exists [(w, EAccept, []); (w, EIdent 0 (Some demo_name), [])]. eexists. split; auto. split; auto. reflexivity.
  - split; cbn [net0 n_hlr with_srv hst0 t_ss t_srv t_lus t_nr].
    + intros r [<-|[]] _. reflexivity.
    + intros x [<-|[]] _. reflexivity.
    + intros x [<-|[]] N. destruct N. reflexivity.
    + cbn. lia.
    + intros z [].
  - intros m [].
Qed.
Lemma net_step_ok k l n a n' o : net_ok k n -> proper a -> net_step k l 0 n a = Some (n', o) -> net_ok k n'.
Proof.
  intros (R & I & U) P E. destruct a as [w e f| |w f]; cbn [net_step] in E.
  - destruct (step k (n_hlr n, n_db n) (w, e, f)) as [[[s d] o1]|] eqn:S; [|discriminate]. injection E as <- _. split; cbn; [eapply reached_step; eauto|]. split; auto. eapply step_keep; eauto.
  - destruct (n_down n) as [|g dn]; injection E as <- _; [split; auto|]. split; [exact R|]. split; [exact I|]. cbn [n_up]. intros m Im. apply in_app_iff in Im. destruct Im as [Im|Im]; auto. exists g. exact (read_last l g m Im).
  - destruct (n_up n) as [|g up] eqn:Up; [injection E as <- _; split; auto; rewrite Up; auto|]. destruct (step k (n_hlr n, n_db n) (w, ERx 0 g, f)) as [[[s d] o1]|] eqn:S; [|discriminate]. injection E as <- _.
    destruct (U g (or_introl eq_refl)) as (g0 & La). split; cbn; [eapply reached_step; eauto|]. split; [|intros m Im; apply U; right; auto]. eapply step_keep; eauto.
Qed.
Lemma net_run_ok k l acts : forall n n' o, net_ok k n -> Forall proper acts -> net_run k l 0 n acts = Some (n', o) -> net_ok k n'.
Proof.
  induction acts as [|a acts IH]; intros n n' o H P E; cbn [net_run] in E; [injection E as <- _; auto|]. inversion P; subst.
  destruct (net_step k l 0 n a) as [[n1 o1]|] eqn:S; [|discriminate]. destruct (net_run k l 0 n1 acts) as [[n2 o2]|] eqn:R; [|discriminate]. injection E as <- _. eapply IH; [|eauto|eauto]. eapply net_step_ok; eauto.
Qed.

(** what the HLR gets from the entity makes it send nothing to the entity *)
Lemma up_quiet k s d w f s' d' o g m : reached k s d -> euse_inv s -> last_answer g m -> step k (s, d) (w, ERx 0 m, f) = Some (s', d', o) -> sent_on 0 o = [].
Proof.
  intros Rc I La E. destruct (reached_fine _ _ _ Rc) as ([_ SV] & _). pose proof (up_away k w s g m I SV La) as A. unfold step in E. cbn [fst snd] in E.
  destruct (run (handle k w s (ERx 0 m)) f d) as [[[[s2 o2]| |] d2] f2] eqn:R; [| |discriminate].
  - injection E as <- <- <-. apply run_outE in R. apply (all_rets_run _ _ A f d (s2, o2) R).
  - injection E as _ _ <-. reflexivity.
Qed.
Lemma read_len l g : (length (fst (euse_read l (Some g))) <= 1)%nat.
Proof.
  destruct (Z.eq_dec (g_type g) MSGT_PROC_SS_REQUEST) as [A|A]; [|destruct (Z.eq_dec (g_type g) MSGT_PROC_SS_RESULT) as [B|B]].
  3:{ rewrite c68_silent; auto. }
  all: destruct (c68_answer l g) as (m' & pl & -> & La & _); auto.
Qed.
Lemma alone_proper a : alone a -> proper a. Proof. destruct a; cbn; tauto. Qed.
Lemma alone_run k l acts : forall n n' o, net_ok k n -> Forall alone acts -> net_run k l 0 n acts = Some (n', o) ->
  sent_on 0 o = [] /\ n_down n' = skipn (reads acts) (n_down n) /\ (length (n_up n') + length (n_down n') <= length (n_up n) + length (n_down n))%nat.
Proof.
  induction acts as [|a acts IH]; intros n n' o H P E; cbn [net_run] in E; [injection E as <- <-; auto|]. inversion P as [|x y P1 P2]; subst.
  destruct (net_step k l 0 n a) as [[n1 o1]|] eqn:S; [|discriminate]. destruct (net_run k l 0 n1 acts) as [[n2 o2]|] eqn:R; [|discriminate]. injection E as <- <-.
  destruct (IH n1 n2 o2 (net_step_ok _ _ _ _ _ _ H (alone_proper _ P1) S) P2 R) as (A & B & C). rewrite sent_app, A, app_nil_r.
  destruct H as (Rc & I & U). destruct a as [w e f| |w f]; cbn [net_step] in S; [destruct P1| |].
  - destruct (n_down n) as [|g dn] eqn:Dn; injection S as <- <-.
    + rewrite B, Dn. split; auto. split; [rewrite !skipn_nil; reflexivity|]. rewrite B, Dn in C. rewrite Dn, skipn_nil in *. exact C.
    + cbn [n_down n_up] in *. split; auto. split; [exact B|]. rewrite app_length in C. pose proof (read_len l g).
 cbn [euse_read fst] in H.
 cbn [length]. lia.
  - destruct (n_up n) as [|g up] eqn:Up; [injection S as <- <-; rewrite Up in C; auto|].
    destruct (step k (n_hlr n, n_db n) (w, ERx 0 g, f)) as [[[s d] o']|] eqn:Sp; [|discriminate]. injection S as <- <-.
    destruct (U g (or_introl eq_refl)) as (g0 & La). pose proof (up_quiet _ _ _ _ _ _ _ _ _ _ Rc I La Sp) as Q. cbn [n_down n_up] in *. rewrite Q, app_nil_r in *. split; auto. split; [exact B|]. cbn [length]. lia.
Qed.
Lemma c68_quiet k l d acts n o acts2 n2 o2 : db_ok d -> keys_wellformed d -> Forall proper acts -> net_run k l 0 (net0 d) acts = Some (n, o) ->
  Forall alone acts2 -> net_run k l 0 n acts2 = Some (n2, o2) ->
  sent_on 0 o2 = [] /\ n_down n2 = skipn (reads acts2) (n_down n) /\ (length (n_up n2) + length (n_down n2) <= length (n_up n) + length (n_down n))%nat.
Proof. intros A B P E P2 E2. eapply alone_run; eauto. eapply net_run_ok; eauto. apply net0_ok; auto. Qed.

Lemma run_app k l c a1 : forall n a2, net_run k l c n (a1 ++ a2) =
  match net_run k l c n a1 with None => None | Some (n1, o1) => match net_run k l c n1 a2 with None => None | Some (n2, o2) => Some (n2, o1 ++ o2) end end.
Proof.
  induction a1 as [|a a1 IH]; intros n a2; cbn [net_run app]. { destruct (net_run k l c n a2) as [[? ?]|]; auto. }
  destruct (net_step k l c n a) as [[n1 o1]|]; auto. rewrite IH. destruct (net_run k l c n1 a1) as [[n2 o2]|]; auto. destruct (net_run k l c n2 a2) as [[n3 o3]|]; auto. rewrite app_assoc. reflexivity.
Qed.
Lemma ups_run k l ws : forall n n' o, net_ok k n -> net_run k l 0 n (ups ws) = Some (n', o) -> n_up n' = skipn (length ws) (n_up n).
Proof.
  induction ws as [|[w f] ws IH]; intros n n' o H E; cbn [ups map net_run] in E; [injection E as <- _; reflexivity|]. cbn [fst snd] in E.
  destruct (net_step k l 0 n (AUp w f)) as [[n1 o1]|] eqn:S; [|discriminate]. fold (ups ws) in E. destruct (net_run k l 0 n1 (ups ws)) as [[n2 o2]|] eqn:R; [|discriminate]. injection E as <- _.
  rewrite (IH n1 n2 o2 (net_step_ok _ _ _ (AUp w f) _ _ H Logic.I S) R). cbn [net_step] in S. destruct (n_up n) as [|g up] eqn:Up; [injection S as <- _; rewrite Up, !skipn_nil; reflexivity|].
  destruct (step k (n_hlr n, n_db n) (w, ERx 0 g, f)) as [[[s d] o']|]; [|discriminate]. injection S as <- _. reflexivity.
Qed.
Lemma ups_alone ws : Forall alone (ups ws). Proof. apply Forall_forall. intros a Ia. apply in_map_iff in Ia as (x & <- & _). exact Logic.I. Qed.
Lemma ups_reads ws : reads (ups ws) = 0%nat. Proof. induction ws; auto. Qed.
Lemma reads_repeat a : reads (repeat ARead a) = a. Proof. induction a; cbn; auto. Qed.
Lemma repeat_alone a : Forall alone (repeat ARead a). Proof. induction a; constructor; auto; exact Logic.I. Qed.
Lemma c68_rest k l d acts n o a ws n2 o2 : db_ok d -> keys_wellformed d -> Forall proper acts -> net_run k l 0 (net0 d) acts = Some (n, o) ->
  (length (n_down n) <= a)%nat -> (length (n_up n) + length (n_down n) <= length ws)%nat -> net_run k l 0 n (repeat ARead a ++ ups ws) = Some (n2, o2) ->
  n_down n2 = [] /\ n_up n2 = [].
Proof.
  intros A B P E La Lw E2. assert (H : net_ok k n) by (eapply net_run_ok; eauto; apply net0_ok; auto).
  rewrite run_app in E2. destruct (net_run k l 0 n (repeat ARead a)) as [[n1 o1]|] eqn:R1; [|discriminate]. destruct (net_run k l 0 n1 (ups ws)) as [[n3 o3]|] eqn:R2; [|discriminate]. injection E2 as <- _.
  destruct (alone_run _ _ _ _ _ _ H (repeat_alone a) R1) as (_ & D1 & L1). rewrite reads_repeat, skipn_all2 in D1 by exact La.
  assert (H1 : net_ok k n1). { refine (net_run_ok _ _ _ _ _ _ H _ R1). eapply Forall_impl; [|apply repeat_alone]. intros [w e f| |w f]; cbn; tauto. }
  destruct (alone_run _ _ _ _ _ _ H1 (ups_alone ws) R2) as (_ & D2 & _). rewrite ups_reads in D2. cbn in D2. rewrite D2. split; auto.
  rewrite (ups_run _ _ _ _ _ _ H1 R2). apply skipn_all2. rewrite D1 in L1. cbn in L1. lia.
Qed.

(** ** One request and its answer *)
Lemma find_conn_in v c x : sinv v -> In x (v_conns v) -> c_id x = c -> find_conn v c = Some x.
Proof.
  intros SV Ix Cx. unfold find_conn. destruct (find _ _) as [y|] eqn:E.
  - apply find_some in E. destruct E as [Iy Ey]. apply Nat.eqb_eq in Ey. f_equal. eapply NoDup_key_inj; [apply (si_ids _ SV)| | |]; eauto. congruence.
  - pose proof (find_none _ _ E x Ix) as N. cbn in N. apply Nat.eqb_neq in N. tauto.
Qed.
Lemma open_ext k s d w c g r f s' d' o n e : reached k s d -> opens_ussd k s c g r -> no_crash f -> chosen k r (Some (TExt n)) -> leads (t_srv s) (entity_addr n) e ->
  step k (s, d) (w, ERx c g, f) = Some (s', d', o) ->
  d' = d /\ o = [ORx (t_nr s) c g; OTx e g] /\ exists q, q_nr q = t_nr s /\ q_gsup q = g /\ p_type (q_src q) = PT_IPA /\ sends_as (t_srv s) c g (ipa_bytes (p_ipa (q_src q))) /\
    t_ss s' = t_ss s ++ [mk_ss (g_imsi g) (g_sid g) SS_NONE (HExt n) (p_ipa (q_src q)) (Some q) None] /\ t_nr s' = S (t_nr s) /\
    v_conns (t_srv s') = v_conns (t_srv s) /\ incl (v_routes (t_srv s)) (v_routes (t_srv s')) /\ sinv (t_srv s').
Proof.
  intros Re [U T B Mo New (l & Xl & Nl & Fl) Dc Op] NC Ch Ld E. destruct (reached_fine _ _ _ Re) as ([HI SV] & [Hd _] & _).
  destruct (rx_step _ _ _ _ _ _ _ _ _ _ (conj HI SV) U E) as (s1 & q & Rq & [(o' & f' & -> & R)|(_ & _ & C & _)]); [|destruct (NC C)].
  pose proof (rr_sinv _ _ _ _ _ _ Rq) as SV1. pose proof (rr_gsup _ _ _ _ _ _ Rq) as Qg. pose proof (rr_nr _ _ _ _ _ _ Rq) as Qn. pose proof (rr_ss _ _ _ _ _ _ Rq) as Qs.
  rewrite rx_ss_dispatch in R by (rewrite Qg; left; exact T).
  unfold rx_proc_ss_req in R. rewrite Qg in R. unfold is_ipa in R. rewrite (rr_ipa _ _ _ _ _ _ Rq) in R. cbn [negb] in R.
  rewrite Xl in R. cbn [pl_octets] in R. destruct l as [|b l]; [tauto|]. rewrite Fl, B in R. cbn [Z.eqb SS_BEGIN Pos.eqb] in R.
  rewrite ss_find_new in R by (rewrite Qs; exact New).
  assert (Ne : peer_is_euse (q_src q) = false).
  { apply not_true_is_false. intros X. apply (is_entity _ (rr_ipa _ _ _ _ _ _ Rq) (rr_wf _ _ _ _ _ _ Rq)) in X. eapply Mo; [apply (rr_name _ _ _ _ _ _ Rq)|exact X]. }
  rewrite Ne in R. unfold ss_handler, ss_dispatch in R. pose proof (proj2 (op_is_ussd_iff _) Op) as Ou. rewrite Ou in R. cbn [negb] in R.
  pose proof (lookup_spec k r Dc) as Ch'.
  assert (H : match ussd_lookup k r with Some (TExt m) => Some (HExt m) | Some (TInt i) => Some (HInt i) | None => Some (match k_euse_default k with Some m => HExt m | None => HNone end) end = Some (HExt n)).
  { destruct (ussd_lookup k r) as [[i|m]|]; [pose proof (chosen_unique _ _ _ _ Ch Ch') as X; discriminate X|pose proof (chosen_unique _ _ _ _ Ch Ch') as X; injection X as ->; auto|].
    destruct (k_euse_default k) as [m|]; pose proof (chosen_unique _ _ _ _ Ch Ch') as X; [injection X as ->; auto|discriminate X]. }
  assert (H2 : exists h, match ussd_lookup k r with Some (TInt i) => Some (HInt i) | Some (TExt m) => Some (HExt m) | None => Some (match k_euse_default k with Some m => HExt m | None => HNone end) end = Some h /\ h = HExt n) by (exists (HExt n); split; auto; destruct (ussd_lookup k r) as [[i|m]|]; auto).
  destruct H2 as (h & H2 & ->). rewrite H2 in R. unfold handle_ussd in R. cbn [z_hdl] in R. change (euse_addr n) with (entity_addr n) in R.
  assert (Rf : route_find (v_routes (t_srv s1)) (entity_addr n) = Some e).
  { apply route_find_iff; [apply SV1|]. apply (rr_routes _ _ _ _ _ _ Rq). exact Ld. }
  cbn [with_ss t_srv v_routes] in R. rewrite Rf in R. cbn in R. injection R as <- <- <- <-. split; auto. split; auto.
  exists q. split; auto. split; auto. split; [apply Rq|]. split; [apply Rq|]. cbn. rewrite Qs. split; auto. split; [apply Rq|]. split; [apply Rq|]. split; [apply Rq|exact SV1].
Qed.

Lemma c68_answered k l s d w c g r f s1 d1 o1 e x invoke text : reached k s d -> opens_ussd k s c g r -> no_crash f -> chosen k r (Some (TExt "foobar")) ->
  leads (t_srv s) demo_name e -> In x (v_conns (t_srv s)) -> c_id x = e -> ipa_bytes (c_name x) = demo_name ->
  (forall p, x_ss (g_x g) = PlRaw p -> f_parse l p = Some (invoke, text)) ->
  (forall i t, f_text l i t <> [] /\ exists r', k_facility k (f_text l i t) = Some r' /\ ussd_op (r_op r')) ->
  step k (s, d) (w, ERx c g, f) = Some (s1, d1, o1) ->
  sent_on e o1 = [g] /\ d1 = d /\ exists m, euse_read l (Some g) = ([m], true) /\
  forall w2 f2, exists s2 r2 co, step k (s1, d1) (w2, ERx e m, f2) = Some (s2, d, [ORx (t_nr s1) e m; OResp (t_nr s) r2 false co; OFree (t_nr s); OFree (t_nr s1)]) /\
    g_type r2 = MSGT_PROC_SS_RESULT /\ g_imsi r2 = g_imsi g /\ g_sid r2 = g_sid g /\ g_ss r2 = SS_END /\ g_dst r2 = g_src g /\
    (exists t, said_back text t /\ x_ss (g_x r2) = PlRaw (f_text l (invoke mod 256) t)) /\
    (forall a c', sends_as (t_srv s) c g a -> leads (t_srv s) a c' -> k_enc k r2 = true -> co = Some c') /\
    t_ss s2 = t_ss s.
Proof.
  intros Re Ou NC Ch Ld Ix Cx Nx Fp Ft E. change demo_name with (entity_addr "foobar") in Ld.
  destruct (open_ext _ _ _ _ _ _ _ _ _ _ _ _ _ Re Ou NC Ch Ld E) as (-> & -> & q & Qn & Qg & Qi & Qa & S1 & N1 & C1 & R1 & SV1).
  split. { cbn. rewrite Nat.eqb_refl. reflexivity. } split; auto.
  destruct Ou as [U T B Mo New (p & Xl & Nl & Fl) Dc Op].
  destruct (c68_answer l g (or_introl T)) as (m & pl & Rd & La & Pm & Mc & Mm & K). exists m. split; auto.
  destruct K as [(p' & X & _ & F & _)|(iv & tx0 & _ & F & K)]; [rewrite (Fp _ X) in F; discriminate|].
  pose proof (F p Xl Nl) as F'. rewrite (Fp _ Xl) in F'. injection F' as <- <-. clear F.
  destruct K as [(_ & t & Sb & ->)|(X & _)]; [|congruence].
  intros w2 f2. destruct (Ft (invoke mod 256) t) as (Tn & r' & Fr & Uo).
  assert (Fc : find_conn (t_srv s1) e = Some x) by (apply find_conn_in; auto; rewrite C1; auto).
  destruct La as [T2 I2 S2 E2 Sr2 Ds2].
  unfold step. cbn [fst snd handle]. rewrite Fc. unfold read_cb, read_msg, conn_rx. rewrite Fc. unfold req_new. rewrite Sr2.
  assert (Iv : imsi_valid (g_imsi m) = true) by (rewrite I2; apply imsi_valid_spec; apply U). rewrite Iv. cbn [negb q_via].
  change (peer_is_empty peer_zero) with true. cbn [negb]. rewrite Ds2. rewrite rx_ss_dispatch by (cbn [q_gsup]; right; exact T2).
  set (s1' := mk_hst (t_srv s1) (t_lus s1) (t_ss s1) (S (t_nr s1))). set (q2 := mk_req (t_nr s1) e _ _ m).
  set (z := mk_ss (g_imsi g) (g_sid g) SS_NONE (HExt "foobar") (p_ipa (q_src q)) (Some q) None) in *.
  assert (Eu : peer_is_euse (q_src q2) = true).
  { apply is_entity; [reflexivity|apply (si_wf _ SV1); cbn [q_src q2 p_ipa]; apply in_map; rewrite C1; exact Ix|]. cbn [q_src q2 p_ipa]. rewrite Nx. apply demo_entity. }
  assert (Old : forall y, In y (t_ss s) -> ss_is (g_imsi g) (g_sid g) y = false).
  { intros y I. unfold ss_is. destruct (String.eqb_spec (z_imsi y) (g_imsi g)); cbn; auto. apply Z.eqb_neq. intros X. apply (New y I); auto. }
  assert (Zi : ss_is (g_imsi g) (g_sid g) z = true) by (unfold ss_is; cbn; rewrite String.eqb_refl, Z.eqb_refl; reflexivity).
  assert (Fz : ss_find s1' (g_imsi g) (g_sid g) = Some z).
  { unfold ss_find. cbn [s1' t_ss]. rewrite S1. clear - Old Zi. induction (t_ss s) as [|y ys IH]; cbn [app find]; [rewrite Zi; reflexivity|]. rewrite Old by (left; reflexivity). apply IH. intros a Ia. apply Old. right; auto. }
  unfold rx_proc_ss_req. change (q_gsup q2) with m. rewrite Eu. change (is_ipa (q_src q2)) with true. cbn [negb]. rewrite Pm. cbn [pl_octets].
  destruct (f_text l (invoke mod 256) t) as [|b tl] eqn:Et; [tauto|]. rewrite Fr, E2. cbn [Z.eqb SS_END SS_BEGIN SS_CONTINUE Pos.eqb]. rewrite I2, S2, Fz.
  unfold ss_dispatch. rewrite (proj2 (op_is_ussd_iff _) Uo). unfold handle_ussd. cbn [z z_hdl]. unfold ss_send_to_ms. cbn [z_ms].
  destruct (make_response m (q_gsup q) false false) as [rc r2] eqn:Mk0. pose proof Mk0 as Mk. rewrite Qg in Mk.
  unfold make_response in Mk. rewrite T2, I2, S2, E2, Mc, Mm, Ds2, Sr2 in Mk.
  assert (Rc : rc = 0 /\ g_type r2 = MSGT_PROC_SS_RESULT /\ g_imsi r2 = g_imsi g /\ g_sid r2 = g_sid g /\ g_ss r2 = SS_END /\ g_dst r2 = g_src g /\ x_ss (g_x r2) = PlRaw (b :: tl)).
  { injection Mk as <- <-. cbn [g_type g_imsi g_sid g_ss g_dst g_x]. change (MSGT_PROC_SS_RESULT =? 0) with false. change (0 =? 0) with true. cbv iota.
    change (SS_END =? SS_NONE) with false. rewrite andb_false_r. rewrite Pm.
    assert (Im : (if (g_imsi g =? "")%string then g_imsi g else g_imsi g) = g_imsi g) by (destruct (g_imsi g =? "")%string; reflexivity).
    assert (Sd : (if g_sid g =? 0 then g_sid g else g_sid g) = g_sid g) by (destruct (g_sid g =? 0); reflexivity).
    rewrite Im, Sd, String.eqb_refl, !Z.eqb_refl. split; [|repeat split; auto].
    destruct (g_mr g) as [mr|]; cbn; rewrite ?Z.eqb_refl; auto. }
  destruct Rc as (-> & R2 & R3 & R4 & R5 & R6 & R7).
  assert (Rs : snd (respond (tx k s1') q m false false) = [OResp (t_nr s) r2 false (tx k s1' q r2)]).
  { unfold respond. rewrite Mk0. cbn. rewrite Qn. reflexivity. }
  eexists. exists r2. eexists. split.
  { cbn [bind]. change (z_ms z) with (Some q). cbv iota. cbn [bind]. rewrite Rs. unfold ss_free, ss_put. cbn. rewrite ?Qn. reflexivity. }
  do 5 (split; auto). split. { exists t. rewrite Et. auto. } split.
  - intros a c' Sn Lc Ec. unfold tx, srv_tx. rewrite R2. change (MSGT_PROC_SS_RESULT =? MSGT_ROUTING_ERROR) with false. cbn [andb]. rewrite Qi.
    assert (a = ipa_bytes (p_ipa (q_src q))) as -> by (refine (sends_unique (t_srv s) _ _ _ _ _ Sn Qa); destruct (reached_fine _ _ _ Re) as ([_ SV] & _); exact SV).
    apply R1 in Lc. apply (route_find_iff _ _ _ (si_addr _ SV1)) in Lc. cbn [s1' t_srv]. rewrite Lc, Ec. reflexivity.
  - cbn. rewrite S1. clear - Old Zi. fold z. induction (t_ss s) as [|y ys IH]; cbn.
    + change (z_imsi z) with (g_imsi g). change (z_sid z) with (g_sid g). rewrite Zi. cbn. rewrite Zi. reflexivity.
    + pose proof (Old y (or_introl eq_refl)) as Oy. rewrite !Oy. cbn. f_equal. apply IH. intros a Ia. apply Old. right; auto.
Qed.
