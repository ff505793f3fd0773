From Coq Require Import List String Ascii ZArith NArith Bool Lia.
Import ListNotations.
From Verif Require Import Base PeerId Db DbSpec DbProofs DbThms DbThms2 Auth AuthSpec AuthThms AuthThms2 Gsup Router Hlr HlrSpec HlrThms HlrThms2 HlrThms3 HlrStep HlrThms4 HlrThms5 HlrThms6 HlrThms7.
Local Open Scope string_scope.
Local Open Scope list_scope.
Local Open Scope Z_scope.

(** * C22: what a message does to the list of subscribers *)
Definition keeps (s : stmt) : Prop :=
  match s with
  | SUBSCR_CREATE _ _ _ | DEL_BY_ID _ | SET_MSISDN_BY_IMSI _ _ | DELETE_MSISDN_BY_IMSI _ | UPD_NAM_CS_BY_IMSI _ _ | UPD_NAM_PS_BY_IMSI _ _ => False
  | _ => True
  end.
Lemma keeps_exec s d : keeps s -> map who (d_sub (snd (exec s d))) = map who (d_sub d).
Proof.
  intros K. destruct s; cbn in K; try tauto; cbn [exec]; unfold sel, upd_sub; cbn [snd with_sub d_sub]; rewrite ?upd_map; auto;
    repeat match goal with |- context [if ?b then _ else _] => destruct b | |- context [match ?b with _ => _ end] => destruct b end; cbn; rewrite ?upd_map; auto.
Qed.
Lemma keeps_run {A} (p : prog A) c d : all_stmts keeps p -> map who (d_sub (run_db p c d)) = map who (d_sub d).
Proof.
  intros K. apply (run_inv (fun x => map who (d_sub x) = map who (d_sub d)) keeps); auto. intros s x Hs E. rewrite keeps_exec; auto.
Qed.

Definition grows (k : cfg) (w : world) (g : gsup) (d d' : db) : Prop :=
  map who (d_sub d') = map who (d_sub d) \/
  (k_cod k <> CodOff /\ asks_service g /\ ~ has_imsi d (g_imsi g) /\
   exists m id, ~ has_id d id /\ (m = None \/ cod_number k w d (g_imsi g) m) /\
     map who (d_sub d') = map who (d_sub d) ++ [newcomer k (g_imsi g) m id]).

Lemma grows_bind {A B} k w g (p : prog A) (f : A -> prog B) : (forall c d, grows k w g d (run_db p c d)) ->
  (forall x, all_stmts keeps (f x)) -> forall c d, grows k w g d (run_db (bind p f) c d).
Proof.
  intros Hp Hf c d. unfold run_db. rewrite run_bind. specialize (Hp c d). unfold run_db in Hp. destruct (run p c d) as [[[a| |] d1] c1]; cbn [fst snd] in *; auto.
  pose proof (keeps_run (f a) c1 d1 (Hf a)) as E. unfold run_db in E. unfold grows in *. rewrite E. exact Hp.
Qed.
Lemma grows_keeps {A} k w g (p : prog A) : all_stmts keeps p -> forall c d, grows k w g d (run_db p c d).
Proof. intros K c d. left. apply keeps_run; auto. Qed.
Lemma grows_cod k w g : asks_service g -> forall c d, grows k w g d (run_db (create_on_demand k w (g_imsi g)) c d).
Proof.
  intros A c d. unfold run_db. destruct (run _ c d) as [[o d'] c'] eqn:R. cbn [fst snd]. destruct (cod_run _ _ _ _ _ _ _ _ R) as (_ & [->|(Ko & _ & N & id & m & Ni & -> & Hm)]).
  - left; auto.
  - right. split; auto. split; auto. split; auto. exists m, id. split; auto. split; auto. cbn [d_sub with_sub]. rewrite map_app. reflexivity.
Qed.

Lemma dispatch_grows k w s q : forall c d, grows k w (q_gsup q) d (run_db (dispatch k w s q) c d).
Proof.
  assert (SM : forall p, (forall c d, grows k w (q_gsup q) d (run_db p c d)) -> forall c d, grows k w (q_gsup q) d (run_db (same s p) c d)).
  { intros p Hp. apply grows_bind; auto. intros; exact I. }
  unfold dispatch. destruct (_ =? MSGT_SEND_AUTH_INFO_REQUEST) eqn:E1.
  { apply Z.eqb_eq in E1. apply SM. unfold rx_send_auth_info. apply grows_bind; [apply grows_cod; left; auto|]. intros _.
    apply all_stmts_bind; [apply ind_stmts; cbn; auto|]. intros [rc i]. apply all_stmts_bind; [|intros []; exact I].
    apply AuthThms2.auc_stmts; cbn; auto. }
  destruct (_ =? MSGT_UPDATE_LOCATION_REQUEST) eqn:E2.
  { apply Z.eqb_eq in E2. unfold rx_upd_loc_req. apply grows_bind; [apply grows_cod; right; left; auto|]. intros _. unfold lu_start. destruct (peer_is_empty _); [exact I|].
    apply all_stmts_bind; [apply get_stmts; exact I|]. intros [rc sub]. destruct (_ <? 0); [exact I|]. destruct sub; [|exact I].
    repeat (match goal with |- all_stmts _ (if ?b then Ret _ else _) => destruct b; [exact I|] end).
    apply all_stmts_bind; [apply lu_stmts; cbn; auto|]. intros rc2. destruct (negb _); [exact I|]. destruct (isd_msg _ _ _ _); [|exact I].
    destruct (respond _ _ _ _ _). destruct (negb _); exact I. }
  destruct (_ =? MSGT_PURGE_MS_REQUEST) eqn:E3.
  { apply SM, grows_keeps. unfold rx_purge_ms_req. apply all_stmts_bind; [|intros; exact I].
    unfold db_subscr_purge. cbn. split; [destruct (negb _); cbn; auto|]. intros; exact I. }
  destruct (_ || _); [apply grows_keeps; exact I|]. destruct (_ || _); [apply grows_keeps; apply proc_ss_stmts; cbn; auto|]. destruct (_ =? MSGT_PROC_SS_ERROR); [apply grows_keeps; exact I|].
  destruct (_ || _); [apply grows_keeps; exact I|]. destruct (_ =? MSGT_CHECK_IMEI_REQUEST) eqn:E4.
  { apply Z.eqb_eq in E4. apply SM. unfold rx_check_imei_req. destruct (x_imei _) as [e|] eqn:Xe; [|apply grows_keeps; exact I]. destruct (bcd_decode _ _) as [imei|] eqn:Bd; [|apply grows_keeps; exact I].
    destruct (imei_valid14 imei) eqn:Va; [|apply grows_keeps; exact I]. cbn [negb].
    apply grows_bind; [apply grows_cod|].
    - right; right. split; auto. exists imei, e. split; auto. apply imei_encodes; auto.
    - intros _. apply all_stmts_bind; [|intros; exact I]. destruct (k_store_imei k).
      + cbn. destruct (negb _); cbn; auto.
      + apply all_stmts_bind; [apply get_stmts; exact I|]. intros []; exact I. }
  destruct (_ =? MSGT_MO_FORWARD_SM_REQUEST).
  { apply SM, grows_keeps. unfold forward_mo_sms. destruct (x_da _) as [[t [|]]|]; try exact I. destruct (negb _); [exact I|]. destruct (_ || _); [exact I|].
    destruct (find_smsc _ _); [apply fwd_name_stmts|exact I]. }
  destruct (_ =? MSGT_MT_FORWARD_SM_REQUEST).
  { apply SM, grows_keeps. unfold forward_mt_sms. apply all_stmts_bind; [apply get_stmts; exact I|]. intros [rc sub]. destruct (_ <? 0); [exact I|].
    destruct sub; [|exact I]. destruct (_ =? _)%string; [exact I|apply fwd_name_stmts]. }
  destruct (_ =? MSGT_READY_FOR_SM_REQUEST); [|apply grows_keeps; exact I].
  apply SM, grows_keeps. unfold rx_ready_for_sm_req. destruct (copy_to_smscs _ _ _ _); exact I.
Qed.

(** every message, whatever else happens: at most one subscriber is made, and only one that was unknown and asks for service *)
Lemma c22_who k s d w c g f s' d' o : step k (s, d) (w, ERx c g, f) = Some (s', d', o) -> grows k w g d d'.
Proof.
  intros E. apply step_db in E. subst d'. revert f d. cbn [handle]. destruct (find_conn _ _); [|intros; left; reflexivity].
  unfold read_cb. apply grows_bind; [|intros; exact I]. unfold read_msg. destruct (conn_rx _ _ _ _ _) as [v [q|o1]] eqn:E; [|apply grows_keeps; exact I]. apply conn_rx_gsup in E. subst g.
  set (s1 := mk_hst _ _ _ _). destruct (g_dst (q_gsup q)); [apply dispatch_grows|]. destruct (ipa_set_str _ _); [|apply grows_keeps; exact I].
  destruct (ipa_set _ _). destruct (_ && _); [|apply dispatch_grows]. apply grows_keeps, same_stmts. unfold read_cb_forward.
  destruct (g_src _); [exact I|]. destruct (send_to _ _ _) as [[]|]; exact I.
Qed.

(** switched off: the subscribers stay as they are *)
Lemma c22_off k s d w c g f s' d' o : k_cod k = CodOff -> step k (s, d) (w, ERx c g, f) = Some (s', d', o) -> map who (d_sub d') = map who (d_sub d).
Proof. intros K E. destruct (c22_who _ _ _ _ _ _ _ _ _ _ E) as [H|[H _]]; [auto|contradiction]. Qed.

(** switched on, the storage working: an unknown subscriber that asks for service is made *)
Definition joins (k : cfg) (w : world) (g : gsup) (d d' : db) : Prop :=
  exists m id, ~ has_id d id /\ cod_number k w d (g_imsi g) m /\ map who (d_sub d') = map who (d_sub d) ++ [newcomer k (g_imsi g) m id].
Lemma joins_bind {A B} k w g (p : prog A) (f : A -> prog B) c d : joins k w g d (run_db p c d) ->
  (forall x, all_stmts keeps (f x)) -> joins k w g d (run_db (bind p f) c d).
Proof.
  intros Hp Hf. unfold run_db in *. rewrite run_bind. destruct (run p c d) as [[[a| |] d1] c1]; cbn [fst snd] in *; auto.
  pose proof (keeps_run (f a) c1 d1 (Hf a)) as E. unfold run_db in E. unfold joins in *. rewrite E. exact Hp.
Qed.
Lemma c22_joins k s d w c g f s' d' o : inv s -> for_us k (t_srv s) c g -> asks_service g -> no_fault f ->
  ~ has_imsi d (g_imsi g) -> cod_able k w d -> step k (s, d) (w, ERx c g, f) = Some (s', d', o) -> joins k w g d d'.
Proof.
  intros H U A NF NI CA E. destruct (rx_step _ _ _ _ _ _ _ _ _ _ H U E) as (s1 & q & R & [(o' & f' & -> & Rn)|(_ & _ & C & _)]).
  2:{ destruct (no_fault_no_crash _ NF C). }
  pose proof (rr_gsup _ _ _ _ _ _ R) as Eg. pose proof (run_dbE _ _ _ _ _ _ Rn) as Rd. rewrite <- Rd. clear Rn Rd E.
  assert (J : joins k w g d (run_db (create_on_demand k w (g_imsi g)) f d)).
  { destruct (proj2 (cod_nofault k w (g_imsi g) f d NF (fu_imsi _ _ _ _ U)) NI CA) as (id & m & N & Cn & ->). exists m, id. split; auto. split; auto.
    cbn [d_sub with_sub]. rewrite map_app. reflexivity. }
  unfold dispatch. rewrite Eg. destruct A as [->|[->|(-> & imei & e & Xe & En)]].
  - cbn [Z.eqb Pos.eqb MSGT_SEND_AUTH_INFO_REQUEST]. apply joins_bind; [|intros; exact I]. unfold rx_send_auth_info. rewrite Eg. apply joins_bind; auto. intros _.
    apply all_stmts_bind; [apply ind_stmts; cbn; auto|]. intros [rc i]. apply all_stmts_bind; [|intros []; exact I].
    apply AuthThms2.auc_stmts; cbn; auto.
  - change (MSGT_UPDATE_LOCATION_REQUEST =? MSGT_SEND_AUTH_INFO_REQUEST) with false. rewrite Z.eqb_refl. cbn iota.
    unfold rx_upd_loc_req. rewrite Eg. apply joins_bind; auto. intros _. unfold lu_start. destruct (peer_is_empty _); [exact I|].
    apply all_stmts_bind; [apply get_stmts; exact I|]. intros [rc sub]. destruct (_ <? 0); [exact I|]. destruct sub; [|exact I].
    repeat (match goal with |- all_stmts _ (if ?b then Ret _ else _) => destruct b; [exact I|] end).
    apply all_stmts_bind; [apply lu_stmts; cbn; auto|]. intros rc2. destruct (negb _); [exact I|]. destruct (isd_msg _ _ _ _); [|exact I].
    destruct (respond _ _ _ _ _). destruct (negb _); exact I.
  - cbn [Z.eqb Pos.eqb orb MSGT_CHECK_IMEI_REQUEST]. apply joins_bind; [|intros; exact I]. unfold rx_check_imei_req. rewrite Eg, Xe.
    apply imei_encodes in En as [-> Va]. rewrite Va. cbn [negb]. apply joins_bind; auto.
    intros _. apply all_stmts_bind; [|intros; exact I]. destruct (k_store_imei k).
    + cbn. rewrite Va. cbn. auto.
    + apply all_stmts_bind; [apply get_stmts; exact I|]. intros []; exact I.
Qed.

(** * Reachable states *)
Lemma reached_fine k s d : reached k s d -> inv s /\ fine d /\ Forall lu_ok (t_lus s).
Proof.
  intros (d0 & es & o & A & B & E). destruct (inv_of_hist _ _ _ _ _ _ E). split; auto. split; auto.
  eapply hist_fine; [|exact E]. split; auto. apply db_ok_inv; auto.
Qed.

Fixpoint defined {A} (p : prog A) : Prop :=
  match p with Ret _ => True | Exec _ f => forall r, defined (f r) | Undef => False end.
Lemma defined_run {A} (p : prog A) : defined p -> forall c d o d' c', run p c d = (o, d', c') -> o <> Ub.
Proof.
  induction p as [a|s f IH|]; cbn; [| |tauto].
  - intros _ c d o d' c' [= <- <- <-]. discriminate.
  - intros Df c d o d' c'. destruct c as [|[] c]; try (destruct (exec s d) as [r d1]); try (apply IH; apply Df). intros [= <- <- <-]. discriminate.
Qed.
Lemma defined_bind {A B} (p : prog A) (f : A -> prog B) : defined p -> (forall a, defined (f a)) -> defined (bind p f).
Proof. induction p as [a|s g IH|]; cbn; auto. Qed.
Lemma ind_defined p : defined (db_ind p).
Proof.
  unfold db_ind. destruct (ind_vlr_name p); [|exact I]. assert (G : defined (_db_ind_get s)) by (intros []; exact I).
  apply defined_bind; auto. intros [rc i]. destruct (rc =? 0); [exact I|]. intros []; try exact I; exact G.
Qed.
(** a request for authentication data is always handled *)
Lemma c17_defined k s d w c g f : reached k s d -> for_us k (t_srv s) c g -> g_dst g = [] -> g_type g = MSGT_SEND_AUTH_INFO_REQUEST ->
  step k (s, d) (w, ERx c g, f) <> None.
Proof.
  intros R U Dst T E. destruct (reached_fine _ _ _ R) as (H & F & _). destruct (read_msg_us k w s c g H U) as (s1 & q & Rq & [Dd|(N & _)]); [|contradiction].
  unfold step in E. cbn [fst snd handle] in E.
  destruct (find_conn (t_srv s) c) as [x|] eqn:Fc; [|discriminate].
  unfold read_cb in E. rewrite run_bind, Dd in E.
  destruct (run (dispatch k w s1 q) f d) as [[[[s2 o2]| |] d2] f2] eqn:Rn; try discriminate. clear E.
  pose proof (rr_gsup _ _ _ _ _ _ Rq) as Eg. unfold dispatch in Rn. rewrite Eg, T, Z.eqb_refl in Rn. unfold same in Rn. rewrite run_bind in Rn. unfold rx_send_auth_info in Rn. rewrite Eg in Rn.
  rewrite run_bind in Rn. destruct (run (create_on_demand k w (g_imsi g)) f d) as [[o0 d0] f0] eqn:R0.
  assert (F0 : fine d0) by (rewrite <- (run_dbE _ _ _ _ _ _ R0); apply cod_fine; auto).
  destruct (cod_run _ _ _ _ _ _ _ _ R0) as [NU _]. destruct o0 as [rc0| |]; [|discriminate|congruence].
  rewrite run_bind in Rn. destruct (run (db_ind (q_src q)) f0 d0) as [[o1 d1] f1] eqn:R1.
  assert (F1 : fine d1) by (rewrite <- (run_dbE _ _ _ _ _ _ R1); apply ind_fine; auto).
  destruct o1 as [[rc1 i1]| |]; [|discriminate|].
  2:{ destruct (defined_run _ (ind_defined (q_src q)) _ _ _ _ _ R1 eq_refl). }
  rewrite run_bind in Rn. destruct (run (db_get_auc _ _ _ _ _ _ _) f1 d1) as [[o3 d3] f3] eqn:R3.
  destruct (auc_cases _ _ _ _ _ _ _ _ _ _ _ _ (proj1 F1) (proj2 F1) (num_vectors_pos g) R3) as [NU3 _].
  destruct o3 as [[]| |]; [|discriminate|congruence]. cbn [run] in Rn. discriminate.
Qed.

(** a result for inserted data ends at most one update, one of its subscriber *)
Lemma c20_at_most k d es s d1 o w c g f s2 d2 o2 : hist k (hst0, d) es = Some (s, d1, o) -> for_us k (t_srv s) c g ->
  g_type g = MSGT_INSERT_DATA_RESULT -> no_crash f -> step k (s, d1) (w, ERx c g, f) = Some (s2, d2, o2) ->
  (o2 = [ORx (t_nr s) c g; OFree (t_nr s)] /\ (forall n i, waiting s2 n i <-> waiting s n i) /\ forall n, ~ waiting s n (g_imsi g)) \/
  exists nr r co, waiting s nr (g_imsi g) /\ o2 = [ORx (t_nr s) c g; OFree (t_nr s); OResp nr r true co] /\ g_type r = 6 /\
    forall n i, waiting s2 n i <-> waiting s n i /\ n <> nr.
Proof.
  intros Hs U T NC E. destruct (inv_of_hist _ _ _ _ _ _ Hs) as [H LO].
  destruct (rx_step _ _ _ _ _ _ _ _ _ _ H U E) as (s1 & q & R & [(o' & f' & -> & Rn)|(_ & _ & C & _)]); [|destruct (NC C)].
  pose proof (rr_gsup _ _ _ _ _ _ R) as Eg.
  assert (Rn' : run (Ret (lu_rx k s1 q)) f d1 = (Fin (s2, o'), d2, f')) by (rewrite <- Rn; unfold dispatch; rewrite Eg, T; reflexivity).
  apply fin_ret in Rn' as (Ex & -> & _). unfold lu_rx in Ex. rewrite (rr_lus _ _ _ _ _ _ R), Eg in Ex.
  destruct (find _ _) as [l'|] eqn:Fd.
  2:{ left. unfold respond_err in Ex. rewrite Eg, T in Ex. injection Ex as -> ->. rewrite (rr_nr _ _ _ _ _ _ R). split; auto. unfold waiting. rewrite (rr_lus _ _ _ _ _ _ R). split; [intros; apply iff_refl|].
      intros n (l & I & _ & Ei). apply (find_none _ _ Fd) in I. rewrite Ei, String.eqb_refl in I. discriminate. }
  right. apply find_some in Fd as [Il' El']. apply String.eqb_eq in El'.
  rewrite T in Ex. change (MSGT_INSERT_DATA_RESULT =? MSGT_INSERT_DATA_RESULT) with true in Ex. cbn iota in Ex.
  unfold respond_msgt in Ex. destruct (respond_plain_out (tx k s1) (l_req l') (msg0 MSGT_UPDATE_LOCATION_RESULT) (is_error MSGT_UPDATE_LOCATION_RESULT) true 6) as (r & Er & Ty & _); [repeat split|reflexivity|discriminate|].
  rewrite Er, (rr_nr _ _ _ _ _ _ R) in Ex. injection Ex as -> ->. exists (q_nr (l_req l')), r, (tx k s1 (l_req l') r).
  split; [exists l'; auto|]. split; auto. split; auto.
  intros n i. unfold waiting. cbn [lu_del with_lus t_lus]. rewrite (rr_lus _ _ _ _ _ _ R). split.
  - intros (y & Iy & Ny & Hy). apply filter_In in Iy as [Iy Fy]. apply Bool.negb_true_iff, Nat.eqb_neq in Fy. split; [exists y; auto|congruence].
  - intros [(y & Iy & Ny & Hy) Nn]. exists y. split; auto. apply filter_In. split; auto. apply Bool.negb_true_iff, Nat.eqb_neq. congruence.
Qed.
