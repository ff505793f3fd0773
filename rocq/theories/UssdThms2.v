(** USSD sessions (C30). *)
From Verif Require Import Base PeerId Db DbSpec DbProofs DbThms DbThms2 DbThms3 Auth AuthSpec AuthThms AuthThms2 AuthThms3 Gsup Router Hlr UssdCfg PeerSpec PeerThms HlrSpec UssdSpec HlrThms RouterThms HlrThms2 HlrThms3 HlrStep HlrThms4 HlrThms5 HlrThms6 HlrThms7 HlrThms8 UssdThms.

(** what is known about every session *)
Record sess_wf (z : session) : Prop := {
  so_wf : ipa_wf (z_vlr z);
  so_key : forall q, z_ms z = Some q -> z_imsi z = g_imsi (q_gsup q) /\ z_sid z = g_sid (q_gsup q) }.
Definition at_rest (z : session) : Prop := forall i, z_hdl z = HInt i -> i = TestIdle.
Definition sess_ok (z : session) : Prop := sess_wf z /\ at_rest z.

Lemma same_refl z : same_parties z z. Proof. split; auto. Qed.
Lemma same_state z st : same_parties z (z_with_state z st). Proof. split; auto. Qed.
Lemma same_trans a b c : same_parties a b -> same_parties b c -> same_parties a c.
Proof.
  intros [A1 A2 A3 A4 A5 A6] [B1 B2 B3 B4 B5 B6]. split; try congruence. destruct B6 as [->|[Bm Bv]]; auto. destruct A6 as [E|]; auto. right. split; congruence.
Qed.
Lemma to_party_same v d z z' g y : same_parties z z' -> z_vlr z' = z_vlr z -> to_party v d z' g y -> to_party v d z g y.
Proof.
  intros [A1 A2 A3 A4 A5 A6] V T. destruct T.
  - apply tp_ms. congruence.
  - eapply tp_entity; eauto. congruence.
  - rewrite V in *. apply tp_node; congruence.
  - rewrite V in *. apply tp_serving with row; congruence.
  - apply tp_drop. rewrite <- A4, <- A5. auto.
Qed.

Lemma bytes_nil n : ipa_wf n -> (in_len n = 0%nat <-> ipa_bytes n = []).
Proof.
  intros [W1 W2]. unfold ipa_bytes. split; [intros ->; auto|]. intros E. apply (f_equal (@length _)) in E. rewrite firstn_length in E. cbn in E. lia.
Qed.

Lemma send_ms_run k s z m f d z' o d' f' g : sinv (t_srv s) -> sess_wf z -> run (ss_send_to_ms k s z m) f d = (Fin (z', o), d', f') ->
  d' = d /\ same_parties z z' /\ sess_wf z' /\ z_state z' = z_state z /\ forall y, In y o -> to_party (t_srv s) d z g y.
Proof.
  intros SV OK R. unfold ss_send_to_ms in R. destruct (z_ms z) as [q|] eqn:M.
  { apply fin_ret in R as ([= -> ->] & -> & _). split; auto. split; [apply same_refl|]. split; auto. split; auto.
    unfold respond. destruct (make_response _ _ _ _) as [rc r]. destruct (rc =? 0); cbn; [|tauto]. intros y [<-|[]]. apply tp_ms. auto. }
  destruct (negb (k_enc k m)). { apply fin_ret in R as ([= -> ->] & -> & _). split; auto. split; [apply same_refl|]. split; auto. split; auto. intros y []. }
  apply fin_bind in R as (zo & d1 & f1 & R1 & R). destruct OK as [O2 O3].
  assert (Z : d1 = d /\ (zo = None \/ exists z1, zo = Some z1 /\ same_parties z z1 /\ sess_wf z1 /\ z_state z1 = z_state z /\
     ((ipa_bytes (z_vlr z) <> [] /\ z1 = z) \/ (ipa_bytes (z_vlr z) = [] /\ exists row, In row (d_sub d) /\ s_imsi row = z_imsi z /\
        ipa_bytes (z_vlr z1) = bytes_of (str_take 31 (match serving CS row with Some n => n | None => "" end)) ++ [nul])))).
  { destruct (Nat.eqb_spec (in_len (z_vlr z)) 0) as [L|L].
    - pose proof (proj1 (bytes_nil _ O2) L) as Lb. apply fin_bind in R1 as ([rc sub] & d2 & f2 & R1 & R2).
      apply get_imsi_run in R1 as (-> & [(-> & row & h & -> & Ir & Er & Sr)|[(-> & _)|(-> & _)]]).
      + cbn [Z.ltb Z.compare] in R2. destruct (ipa_set_str (z_vlr z) (Some (h_vlr h))) as [n|] eqn:Es; [|discriminate].
        apply fin_ret in R2 as (-> & -> & _). split; auto. right. eexists. split; [reflexivity|].
        destruct (ipa_set_str_bytes _ _ _ O2 Es) as [Wn Bn]. split; [split; auto|]. split; [split; auto|]. split; auto. right. split; auto. exists row.
        split; auto. split; auto. cbn [z_vlr z_with_vlr]. rewrite Bn. f_equal. f_equal.
        unfold sub_of_row in Sr. destruct (ipa_set_str _ _); [|discriminate]. destruct (ipa_set_str _ _); [|discriminate]. injection Sr as <-. cbn [h_vlr serving].
        destruct (s_vlr row) as [v|]; cbn [text_to_buf Nat.sub]; [|reflexivity]. apply str_take_all. pose proof (str_take_len 31 v). lia.
      + cbn in R2. injection R2 as <- <- <-. auto.
      + cbn in R2. injection R2 as <- <- <-. auto.
    - apply fin_ret in R1 as (-> & -> & _). split; auto. right. exists z. split; auto. split; [apply same_refl|]. split; [split; auto|]. split; auto. left. split; auto. intros X. apply L. apply bytes_nil; auto. }
  destruct Z as [-> [->|(z1 & -> & Sp & [P2 P3] & St & V)]].
  { apply fin_ret in R as ([= -> ->] & -> & _). split; auto. split; [apply same_refl|]. split; [split; auto|]. split; auto. intros y []. }
  destruct (Nat.leb_spec (in_len (z_vlr z1)) 1) as [L|L].
  { apply fin_ret in R as ([= -> ->] & -> & _). split; auto. split; auto. split; [split; auto|]. split; auto. intros y []. }
  destruct (send_to_ok (t_srv s) (z_vlr z1) m SV P2) as (rc & o1 & Es & C). { intros X. apply bytes_nil in X; auto. lia. }
  rewrite Es in R. apply fin_ret in R as ([= -> ->] & -> & _). split; auto. split; auto. split; [split; auto|]. split; auto.
  intros y Iy. destruct C as [(_ & c & -> & Lc)|(_ & -> & _)]; [|destruct Iy]. destruct Iy as [<-|[]].
  destruct V as [(Nv & ->)|(Nv & row & Ir & Er & Bv)].
  - apply tp_node; auto.
  - apply tp_serving with row; auto. rewrite Bv in Lc. unfold addr_of in Lc. rewrite last_last in Lc. exact Lc.
Qed.

(** the outcome of dispatching a message of session [z] *)
Record disp_ok (s : hst) (z : session) (g : gsup) (d : db) (x : hst * bool * list out) (d' : db) : Prop := {
  do_db : d' = d;
  do_srv : t_srv (fst (fst x)) = t_srv s;
  do_out : forall y, In y (snd x) -> to_party (t_srv s) d z g y;
  do_ss : forall z', In z' (t_ss (fst (fst x))) -> exists y, In y (t_ss s) /\ same_parties y z' /\ (sess_wf y -> sess_wf z') /\
            (z_key z' = z_key z -> snd (fst x) = false /\ at_rest z') }.

Lemma key_is z y : ss_is (z_imsi z) (z_sid z) y = true <-> z_key y = z_key z.
Proof.
  unfold ss_is, z_key. rewrite andb_true_iff, String.eqb_eq, Z.eqb_eq. split; [intros [-> ->]; auto|]. intros [= -> ->]. auto.
Qed.
Lemma same_key z z' : same_parties z z' -> z_key z' = z_key z. Proof. intros S1. unfold z_key. rewrite (sp_imsi _ _ S1), (sp_sid _ _ S1). auto. Qed.
Lemma same_rest z z' : same_parties z z' -> at_rest z -> at_rest z'. Proof. intros S1 A i. rewrite (sp_hdl _ _ S1). apply A. Qed.

Lemma put_ok s z z1 g d o : keys_ok s -> In z (t_ss s) -> same_parties z z1 -> sess_wf z1 -> at_rest z ->
  (forall y, In y o -> to_party (t_srv s) d z g y) -> disp_ok s z g d (ss_put s z1, false, o) d.
Proof.
  intros K I Sp OK Ar To. split; cbn [fst snd]; auto. intros z' Iz. unfold ss_put in Iz. cbn [t_ss with_ss] in Iz. apply in_map_iff in Iz as (y & Ey & Iy).
  destruct (ss_is (z_imsi z1) (z_sid z1) y) eqn:S1.
  - apply key_is in S1. rewrite (same_key _ _ Sp) in S1. assert (y = z) by (eapply NoDup_key_inj; eauto). subst. exists z. split; auto. split; auto. split; auto.
    intros _. split; auto. eapply same_rest; eauto.
  - subst z'. exists y. split; auto. split; [apply same_refl|]. split; auto. intros E. rewrite <- (same_key _ _ Sp) in E. apply key_is in E. congruence.
Qed.
Lemma free_ok s z z1 g d o : keys_ok s -> same_parties z z1 -> (forall y, In y o -> to_party (t_srv s) d z g y) ->
  disp_ok s z g d (fst (ss_free s z1), true, o ++ snd (ss_free s z1)) d.
Proof.
  intros K Sp To. split; cbn [fst snd ss_free with_ss t_srv t_ss]; auto.
  - intros y Iy. apply in_app_iff in Iy as [Iy|Iy]; auto. rewrite (sp_ms _ _ Sp), (sp_euse _ _ Sp) in Iy.
    apply in_app_iff in Iy as [Iy|Iy]; [destruct (z_ms z) eqn:E|destruct (z_euse z) eqn:E]; try (destruct Iy; fail); destruct Iy as [<-|[]]; apply tp_drop; auto.
  - intros z' Iz. apply filter_In in Iz as [Iz Nz]. exists z'. split; auto. split; [apply same_refl|]. split; auto.
    intros E. rewrite <- (same_key _ _ Sp) in E. apply key_is in E. rewrite E in Nz. discriminate.
Qed.

Lemma tx_error_run k s z inv code f d z' o d' f' g : sinv (t_srv s) -> sess_wf z -> run (ss_tx_error k s z inv code) f d = (Fin (z', o), d', f') ->
  d' = d /\ same_parties z z' /\ sess_wf z' /\ z_state z' = SS_END /\ forall y, In y o -> to_party (t_srv s) d z g y.
Proof.
  intros SV [W1 W2] R. unfold ss_tx_error, ss_tx_to_ms in R. apply (send_ms_run _ _ _ _ _ _ _ _ _ _ g) in R as (-> & Sp & W & St & To); auto; [|split; auto].
  split; auto. split; [exact (same_trans _ _ _ (same_state z SS_END) Sp)|]. split; auto. split; auto.
  intros y Iy. eapply to_party_same; [apply (same_state z SS_END)|reflexivity|auto].
Qed.
Lemma tx_text_run k s z inv t st f d z' o d' f' g : sinv (t_srv s) -> sess_wf z -> run (ss_tx_text k s (z_with_state z st) inv t) f d = (Fin (z', o), d', f') ->
  d' = d /\ same_parties z z' /\ sess_wf z' /\ z_state z' = st /\ forall y, In y o -> to_party (t_srv s) d z g y.
Proof.
  intros SV [W1 W2] R. unfold ss_tx_text, ss_tx_to_ms in R. apply (send_ms_run _ _ _ _ _ _ _ _ _ _ g) in R as (-> & Sp & W & St & To); auto; [|split; auto].
  split; auto. split; [exact (same_trans _ _ _ (same_state z st) Sp)|]. split; auto. split; auto.
  intros y Iy. eapply to_party_same; [apply (same_state z st)|reflexivity|auto].
Qed.
Lemma iuse_ok k s z i inv f d z' o d' f' g : sinv (t_srv s) -> sess_wf z -> run (run_iuse k s z i inv) f d = (Fin (z', o), d', f') ->
  d' = d /\ same_parties z z' /\ sess_wf z' /\ z_state z' = match i with TestIdle => SS_CONTINUE | _ => SS_END end /\ forall y, In y o -> to_party (t_srv s) d z g y.
Proof.
  intros SV W R. destruct i; cbn [run_iuse] in R; [|eapply tx_text_run; eauto..].
  apply fin_bind in R as ([rc sub] & d1 & f1 & R1 & R).
  assert (d1 = d) as -> by (apply get_imsi_run in R1 as [-> _]; auto).
  assert (ER : forall c, run (ss_tx_error k s (z_with_state z SS_END) inv c) f1 d = (Fin (z', o), d', f') ->
    d' = d /\ same_parties z z' /\ sess_wf z' /\ z_state z' = SS_END /\ forall y, In y o -> to_party (t_srv s) d z g y).
  { intros c Rc. apply (tx_error_run _ _ _ _ _ _ _ _ _ _ _ g) in Rc as (-> & Sp & W' & St & To); auto; [|destruct W; split; auto].
    split; auto. split; [exact (same_trans _ _ _ (same_state z SS_END) Sp)|]. split; auto. split; auto.
    intros y Iy. eapply to_party_same; [apply (same_state z SS_END)|reflexivity|auto]. }
  destruct rc as [|p|p]; [destruct sub as [h|]; [eapply tx_text_run; eauto|]| |]; eapply ER; eauto.
Qed.

Lemma dispatch_ok k s z fe g r f d x d' f' : keys_ok s -> sinv (t_srv s) -> In z (t_ss s) -> sess_wf z ->
  at_rest z \/ (fe = false /\ op_is_ussd (r_op r) = true) -> run (ss_dispatch k s z fe g r) f d = (Fin x, d', f') -> disp_ok s z g d x d'.
Proof.
  intros K SV I W A R. unfold ss_dispatch in R. destruct (op_is_ussd (r_op r)) eqn:Op.
  2:{ destruct A as [A|[_ A]]; [|discriminate]. unfold handle_ss in R. apply fin_bind in R as ([z1 o1] & d1 & f1 & R1 & R). apply fin_ret in R as (-> & -> & _).
      apply (tx_error_run _ _ _ _ _ _ _ _ _ _ _ g) in R1 as (-> & Sp & W1 & _ & To); auto. apply put_ok; auto. }
  assert (HN : z_hdl z = HNone \/ at_rest z \/ exists i, z_hdl z = HInt i).
  { destruct (z_hdl z) eqn:E; eauto; right; left; intros j; rewrite E; discriminate. }
  assert (NR : z_hdl z = HNone -> at_rest z) by (intros E j; rewrite E; discriminate).
  assert (FE : fe = true -> at_rest z) by (destruct A as [A|[-> _]]; auto; discriminate).
  unfold handle_ussd in R. destruct (z_hdl z) as [|i|n|n] eqn:Hd.
  - apply fin_bind in R as ([z1 o1] & d1 & f1 & R1 & R). apply fin_ret in R as (-> & -> & _).
    apply (tx_error_run _ _ _ _ _ _ _ _ _ _ _ g) in R1 as (-> & Sp & W1 & _ & To); auto. apply put_ok; auto.
  - destruct fe.
    { apply fin_bind in R as ([z1 o1] & d1 & f1 & R1 & R). apply fin_ret in R as (-> & -> & _).
      apply (send_ms_run _ _ _ _ _ _ _ _ _ _ g) in R1 as (-> & Sp & W1 & _ & To); auto. apply put_ok; auto. }
    apply fin_bind in R as ([z1 o1] & d1 & f1 & R1 & R). apply (iuse_ok _ _ _ _ _ _ _ _ _ _ _ g) in R1 as (-> & Sp & W1 & St & To); auto.
    cbn [fst snd] in R. rewrite St in R. destruct i; cbn [Z.eqb Pos.eqb SS_END SS_CONTINUE] in R.
    + unfold ss_free in R. apply fin_ret in R as (-> & -> & _). exact (free_ok s z z1 g d o1 K Sp To).
    + unfold ss_free in R. apply fin_ret in R as (-> & -> & _). exact (free_ok s z z1 g d o1 K Sp To).
    + apply fin_ret in R as (-> & -> & _). apply put_ok; auto. intros j. rewrite Hd. congruence.
  - assert (Ar : at_rest z) by (intros j; rewrite Hd; discriminate). destruct fe.
    { apply fin_bind in R as ([z1 o1] & d1 & f1 & R1 & R). apply fin_ret in R as (-> & -> & _).
      apply (send_ms_run _ _ _ _ _ _ _ _ _ _ g) in R1 as (-> & Sp & W1 & _ & To); auto. apply put_ok; auto. }
    destruct (route_find _ _) as [c|] eqn:Rf.
    + apply fin_ret in R as (-> & -> & _). apply route_find_some in Rf. split; cbn [fst snd]; auto.
      * intros y [<-|[]]. eapply tp_entity; eauto.
      * intros z' Iz. exists z'. split; auto. split; [apply same_refl|]. split; auto. intros E. split; auto.
        assert (z' = z) as -> by (eapply NoDup_key_inj; eauto). auto.
    + apply fin_bind in R as ([z1 o1] & d1 & f1 & R1 & R). apply fin_ret in R as (-> & -> & _).
      apply (tx_error_run _ _ _ _ _ _ _ _ _ _ _ g) in R1 as (-> & Sp & W1 & _ & To); auto. apply put_ok; auto.
  - assert (Ar : at_rest z) by (intros j; rewrite Hd; discriminate). destruct fe; [|discriminate].
    apply fin_bind in R as ([z1 o1] & d1 & f1 & R1 & R). apply fin_ret in R as (-> & -> & _).
    apply (send_ms_run _ _ _ _ _ _ _ _ _ _ g) in R1 as (-> & Sp & W1 & _ & To); auto. apply put_ok; auto.
Qed.

(** ** Reception *)
Lemma conn_rx_src enc v nr c g v' q : sinv v -> conn_rx enc v nr c g = (v', inl q) ->
  sinv v' /\ q_nr q = nr /\ q_gsup q = g /\ p_type (q_src q) = PT_IPA /\ ipa_wf (p_ipa (q_src q)) /\ sends_as v c g (ipa_bytes (p_ipa (q_src q))).
Proof.
  intros SV. unfold conn_rx. destruct (find_conn v c) as [x|] eqn:F; [|discriminate]. apply find_some in F as [Ix Cx]. apply Nat.eqb_eq in Cx.
  assert (W : ipa_wf (c_name x)) by (apply (si_wf _ SV), in_map; auto).
  assert (Ic : In c (map c_id (v_conns v))) by (rewrite <- Cx; apply in_map; auto).
  assert (RA : forall a rc v1, route_add v c a = (rc, v1) -> sinv v1) by (intros a rc v1 A; apply (route_add_ok _ _ _ _ _ A SV Ic)).
  unfold req_new. destruct (g_src g) as [|y l] eqn:Eg.
  - destruct (negb (imsi_valid _)); [discriminate|]. change (peer_is_empty (q_via _)) with true. cbn [negb]. intros [= -> <-]. cbn.
    do 4 (split; auto). split; auto. right. split; auto. exists x. auto.
  - unfold peer_set. destruct (ipa_set _ _) as [rc src] eqn:E. cbn [p_ipa] in E.
    destruct (ipa_set_bytes _ _ _ _ W E) as (W2 & [(-> & B)|(-> & -> & B)]); [|discriminate]. cbn [negb Z.eqb].
    assert (Sn : sends_as v c g (ipa_bytes src)) by (left; split; congruence).
    destruct (peer_cmp _ _ =? 0) eqn:C; cbn [negb]; destruct (imsi_valid _); cbn [negb]; try discriminate.
    + change (peer_is_empty (q_via _)) with true. cbn [negb]. intros [= -> <-]. cbn. auto 10.
    + destruct (negb (peer_is_empty _)); [|intros [= -> <-]; cbn; auto 10].
      destruct (route_add _ _ _) as [rc v1] eqn:A. destruct (negb (rc =? 0)); [discriminate|]. intros [= -> <-]. cbn. split; [eapply RA; eauto|auto 10].
Qed.

Lemma ss_is_key g z : ss_is (g_imsi g) (g_sid g) z = true <-> z_imsi z = g_imsi g /\ z_sid z = g_sid g.
Proof. unfold ss_is. rewrite andb_true_iff, String.eqb_eq, Z.eqb_eq. tauto. Qed.

Lemma new_same k nr g a z z' : new_session k nr g a z -> same_parties z z' -> new_session k nr g a z'.
Proof.
  intros [N1 N2 N3 N4 N5] [S1 S2 S3 S4 S5 S6]. split; try congruence.
  - intros E. destruct (N4 E) as (A & B & C & D). rewrite S3, S4, S5. split; auto. split; auto. split; auto.
    destruct S6 as [->|[M _]]; auto. destruct A as (q & Q & _). congruence.
  - intros E. rewrite S3, S4, S5. auto.
Qed.

(** the effect on the sessions of a message for one of them *)
Record ss_eff (k : cfg) (s : hst) (nr : nat) (g : gsup) (a : list ascii) (d : db) (s' : hst) (o : list out) : Prop := {
  se_out : forall y, In y o -> about nr y \/ exists z, (In z (t_ss s) \/ new_session k nr g a z) /\ z_imsi z = g_imsi g /\ z_sid z = g_sid g /\ to_party (t_srv s) d z g y;
  se_ss : forall z', In z' (t_ss s') -> sess_ok z' /\ ((exists z, In z (t_ss s) /\ same_parties z z') \/ new_session k nr g a z');
  se_end : g_ss g = SS_END -> ss_decodable k g -> forall z, In z (t_ss s') -> ~ (z_imsi z = g_imsi g /\ z_sid z = g_sid g) }.

Lemma disp_end s z g d x d' z' o' : disp_ok s z g d x d' -> keys_ok s -> In z (t_ss s) -> ss_free (fst (fst x)) z = (z', o') ->
  (forall y, In y o' -> to_party (t_srv s) d z g y) /\ forall y, In y (t_ss z') -> In y (t_ss (fst (fst x))) /\ z_key y <> z_key z.
Proof.
  intros [A B C D] K I E. unfold ss_free in E. injection E as <- <-. split.
  - intros y Iy. apply in_app_iff in Iy as [Iy|Iy]; [destruct (z_ms z) eqn:Em|destruct (z_euse z) eqn:Em]; try (destruct Iy; fail); destruct Iy as [<-|[]]; apply tp_drop; auto.
  - cbn. intros y Iy. apply filter_In in Iy as [Iy N]. split; auto. intros E. apply key_is in E. rewrite E in N. discriminate.
Qed.

Lemma euse_name_of p k n : p_type p = PT_IPA -> peer_is_euse p = true -> euse_by_name k p = Some (Some n) ->
  In n (k_euses k) /\ forall m, ~ In nul m -> ipa_bytes (p_ipa p) = bytes_of "EUSE-" ++ m ++ [nul] -> m = bytes_of n.
Proof.
  intros T E H. unfold euse_by_name in H. rewrite E in H. destruct (cstr _) as [t|] eqn:Ct; [|discriminate]. injection H as H.
  apply find_some in H as [I Eq]. apply String.eqb_eq in Eq. subst t. split; auto. intros m Nm Eb. apply cstr_inv in Ct as (Nn & rest & Er).
  assert (X : exists rest', in_val (p_ipa p) = bytes_of "EUSE-" ++ m ++ nul :: rest').
  { exists (skipn (in_len (p_ipa p)) (in_val (p_ipa p))). rewrite <- (firstn_skipn (in_len (p_ipa p)) (in_val (p_ipa p))) at 1. fold (ipa_bytes (p_ipa p)). rewrite Eb, <- !app_assoc. reflexivity. }
  destruct X as (rest' & X). rewrite X in Er. change (skipn 5 (bytes_of "EUSE-" ++ m ++ nul :: rest')) with (m ++ nul :: rest') in Er.
  clear - Nm Nn Er. revert Nn Er. generalize (bytes_of n). induction m as [|x m IH]; intros [|y l] Nn Er; cbn in Er; auto.
  - injection Er as <- _. destruct Nn. left; auto.
  - injection Er as -> _. destruct Nm. left; auto.
  - injection Er as -> Er. f_equal. apply IH; auto; intros I; [apply Nm|apply Nn]; right; auto.
Qed.

Lemma rx_ss_run k s q f d s' o d' f' : keys_ok s -> sinv (t_srv s) -> Forall sess_ok (t_ss s) -> p_type (q_src q) = PT_IPA -> ipa_wf (p_ipa (q_src q)) ->
  run (rx_proc_ss_req k s q) f d = (Fin (s', o), d', f') ->
  d' = d /\ t_srv s' = t_srv s /\ ss_eff k s (q_nr q) (q_gsup q) (ipa_bytes (p_ipa (q_src q))) d s' o.
Proof.
  intros K SV SO T W R. unfold rx_proc_ss_req in R. unfold is_ipa in R. rewrite T in R. cbn [negb] in R. rewrite Forall_forall in SO.
  set (g := q_gsup q) in *.
  assert (KEEP : forall z', In z' (t_ss s) -> sess_ok z' /\ ((exists z, In z (t_ss s) /\ same_parties z z') \/ new_session k (q_nr q) g (ipa_bytes (p_ipa (q_src q))) z')).
  { intros z' I. split; auto. left. exists z'. split; auto. apply same_refl. }
  assert (ERR : forall c, (g_ss g = SS_END -> ss_decodable k g -> forall z, In z (t_ss s) -> ~ (z_imsi z = g_imsi g /\ z_sid z = g_sid g)) -> run (Ret (s, respond_err (tx k s) q c)) f d = (Fin (s', o), d', f') -> d' = d /\ t_srv s' = t_srv s /\ ss_eff k s (q_nr q) g (ipa_bytes (p_ipa (q_src q))) d s' o).
  { intros c Nk Rc. apply fin_ret in Rc as ([= -> ->] & -> & _). split; auto. split; auto. split; auto. intros y Iy. left.
    unfold respond_err in Iy. destruct (negb _); [destruct Iy as [<-|[]]; reflexivity|]. unfold respond in Iy. destruct (make_response _ _ _ _) as [rc r].
    destruct (rc =? 0); cbn in Iy; [destruct Iy as [<-|[]]|destruct Iy as [<-|[]]]; reflexivity. }
  set (pl := pl_octets (x_ss (g_x g))) in *. fold g in R.
  assert (FIND : forall z, ss_find s (g_imsi g) (g_sid g) = Some z -> In z (t_ss s) /\ z_imsi z = g_imsi g /\ z_sid z = g_sid g).
  { intros z F. apply find_some in F as [I E]. apply ss_is_key in E. tauto. }
  destruct (match pl with [] => _ | _ => _ end) as [r|] eqn:Er.
  2:{ eapply ERR; [|eauto]. intros Se De. exfalso. rewrite Se in Er. unfold pl, pl_octets in Er. destruct (x_ss (g_x g)) as [|l| |] eqn:Ex; try discriminate. destruct l; [discriminate|]. eapply De; eauto. discriminate. }
  assert (NF : ss_find s (g_imsi g) (g_sid g) = None -> forall z, In z (t_ss s) -> ~ (z_imsi z = g_imsi g /\ z_sid z = g_sid g)).
  { intros F z I E. pose proof (find_none _ _ F z I) as N. apply ss_is_key in E. congruence. }
  destruct (g_ss g =? SS_BEGIN) eqn:Sb.
  - apply Z.eqb_eq in Sb. destruct (ss_find s (g_imsi g) (g_sid g)) as [z|] eqn:Fz; [eapply ERR; [|eauto]; rewrite Sb; discriminate|].
    destruct (ss_handler k q (peer_is_euse (q_src q)) r) as [h|] eqn:Hh; [|discriminate].
    set (z := if peer_is_euse (q_src q) then _ else _) in R. set (s1 := with_ss s (t_ss s ++ [z])) in R.
    apply fin_bind in R as (x & d1 & f1 & R1 & R). apply fin_ret in R as ([= -> ->] & -> & _).
    assert (Zk : z_imsi z = g_imsi g /\ z_sid z = g_sid g) by (unfold z; destruct (peer_is_euse _); auto).
    assert (Zh : z_hdl z = h) by (unfold z; destruct (peer_is_euse _); auto).
    assert (ZN : forall y, In y (t_ss s) -> z_key y <> z_key z).
    { intros y Iy E. unfold z_key in E. injection E as E1 E2. destruct Zk as [Z1 Z2]. pose proof (find_none _ _ Fz y Iy) as N. assert (X : ss_is (g_imsi g) (g_sid g) y = true) by (apply ss_is_key; split; congruence). congruence. }
    assert (K1 : keys_ok s1). { unfold keys_ok, s1. cbn [with_ss t_ss]. rewrite map_app. cbn [map]. apply NoDup_snoc; auto. intros I. apply in_map_iff in I as (y & E & Iy). exact (ZN y Iy E). }
    assert (I1 : In z (t_ss s1)) by (unfold s1; cbn; apply in_app_iff; right; left; auto).
    assert (Wz : sess_wf z). { unfold z. destruct (peer_is_euse _); split; cbn; auto; try discriminate; [apply ipa_empty_wf|]. intros q0 [= <-]. auto. }
    assert (PLR : exists l, x_ss (g_x g) = PlRaw l /\ k_facility k l = Some r).
    { destruct pl as [|n0 l0] eqn:Ep; [rewrite Sb in Er; discriminate|]. unfold pl, pl_octets in Ep. destruct (x_ss (g_x g)) as [|l1| |]; try discriminate. exists l1. split; auto. rewrite Ep. exact Er. }
    assert (NS : new_session k (q_nr q) g (ipa_bytes (p_ipa (q_src q))) z).
    { split; try tauto.
      - intros Ne. destruct (peer_is_euse (q_src q)) eqn:Pe; [apply is_entity in Pe; tauto|]. unfold z. cbn [z_ms z_euse z_vlr z_hdl].
        split; [exists q; auto|]. split; auto. split; auto. unfold ss_handler in Hh. destruct (negb _); [injection Hh as <-; auto|]. destruct PLR as (l & L1 & L2).
        assert (CF : forall t, (0 <= r_dcs r -> chosen k r (Some t)) -> chosen_for k g t) by (intros t Ct; exists l, r; auto).
        pose proof (lookup_spec k r) as Lk. destruct (ussd_lookup k r) as [[i|n]|]; [injection Hh as <-; apply CF; auto..|].
        destruct (k_euse_default k); injection Hh as <-; auto.
      - intros Ne. destruct (peer_is_euse (q_src q)) eqn:Pe; [|apply is_entity in Ne; auto; congruence]. unfold z. cbn [z_ms z_euse z_vlr z_hdl].
        split; [exists q; auto|]. split; auto. unfold ss_handler in Hh. destruct (negb _); [injection Hh as <-; auto|].
        destruct (euse_by_name k (q_src q)) as [[n|]|] eqn:En; try discriminate; injection Hh as <-; auto. eapply euse_name_of; eauto. }
    assert (Az : at_rest z \/ peer_is_euse (q_src q) = false /\ op_is_ussd (r_op r) = true).
    { destruct (peer_is_euse (q_src q)) eqn:Pe.
      - left. intros i. rewrite Zh. unfold ss_handler in Hh. destruct (negb _); [injection Hh as <-; discriminate|]. destruct (euse_by_name k (q_src q)) as [[n|]|]; try discriminate; injection Hh as <-; discriminate.
      - destruct (op_is_ussd (r_op r)) eqn:Op; auto. left. intros i. rewrite Zh. unfold ss_handler in Hh. rewrite Op in Hh. injection Hh as <-. discriminate. }
    destruct (dispatch_ok _ _ _ _ _ _ _ _ _ _ _ K1 SV I1 Wz Az R1) as [Dd Ds Do Dz]. split; auto. split; auto. split.
    + intros y Iy. right. exists z. split; auto. destruct Zk. split; auto.
    + intros z' Iz. destruct (Dz z' Iz) as (y & Iy & Sp & Wy & Ay). unfold s1 in Iy. cbn [with_ss t_ss] in Iy. apply in_app_iff in Iy as [Iy|[<-|[]]].
      * destruct (SO y Iy) as [S1 S2]. split; [split; auto; eapply same_rest; eauto|]. left. eauto.
      * split; [split; auto; apply Ay; apply same_key; auto|]. right. eapply new_same; eauto.
    + rewrite Sb. intros X. discriminate X.
  - destruct (g_ss g =? SS_CONTINUE) eqn:Sc.
    + apply Z.eqb_eq in Sc. destruct (ss_find s (g_imsi g) (g_sid g)) as [z|] eqn:Fz; [|eapply ERR; eauto; fail]. destruct (FIND z eq_refl) as (I & Z1 & Z2).
      apply fin_bind in R as (x & d1 & f1 & R1 & R). apply fin_ret in R as ([= -> ->] & -> & _). destruct (SO z I) as [S1 S2].
      destruct (dispatch_ok _ _ _ _ _ _ _ _ _ _ _ K SV I S1 (or_introl S2) R1) as [Dd Ds Do Dz]. split; auto. split; auto. split.
      * intros y Iy. apply in_app_iff in Iy as [Iy|[<-|[]]]; [|left; reflexivity]. right. exists z. auto 6.
      * intros z' Iz. destruct (Dz z' Iz) as (y & Iy & Sp & Wy & Ay). destruct (SO y Iy) as [X1 X2]. split; [split; auto; eapply same_rest; eauto|]. left. eauto.
      * rewrite Sc. discriminate.
    + destruct (g_ss g =? SS_END) eqn:Se.
      2:{ apply fin_ret in R as ([= -> ->] & -> & _). split; auto. split; auto. split; auto; [|apply Z.eqb_neq in Se; tauto]. intros y [<-|[]]. left. reflexivity. }
      apply Z.eqb_eq in Se. destruct (ss_find s (g_imsi g) (g_sid g)) as [z|] eqn:Fz; [|eapply ERR; eauto; fail]. destruct (FIND z eq_refl) as (I & Z1 & Z2). destruct (SO z I) as [S1 S2].
      apply fin_bind in R as (x & d1 & f1 & R1 & R).
      assert (D : disp_ok s z g d x d1).
      { assert (DP : run (ss_dispatch k s z (peer_is_euse (q_src q)) g r) f d = (Fin x, d1, f1) -> disp_ok s z g d x d1) by (intros X; exact (dispatch_ok _ _ _ _ _ _ _ _ _ _ _ K SV I S1 (or_introl S2) X)).
        destruct pl; auto. apply fin_ret in R1 as (-> & -> & _). split; cbn; auto; [intros y []|]. intros z' Iz. exists z'. split; auto. split; [apply same_refl|]. split; auto.
        intros E. assert (z' = z) as -> by (eapply NoDup_key_inj; eauto). auto. }
      destruct (snd (fst x)) eqn:Fr; [discriminate|]. destruct (ss_free (fst (fst x)) z) as [s2 o2] eqn:Sf. apply fin_ret in R as ([= -> ->] & -> & _).
      destruct (disp_end _ _ _ _ _ _ _ _ D K I Sf) as [O2 Z3]. destruct D as [Dd Ds Do Dz]. split; auto. split; [unfold ss_free in Sf; injection Sf as <- _; auto|]. split.
      * intros y Iy. apply in_app_iff in Iy as [Iy|Iy]; [right; exists z; auto 6|]. apply in_app_iff in Iy as [Iy|[<-|[]]]; [right; exists z; auto 6|left; reflexivity].
      * intros z' Iz. destruct (Z3 z' Iz) as [Iz' _]. destruct (Dz z' Iz') as (y & Iy & Sp & Wy & Ay). destruct (SO y Iy) as [X1 X2]. split; [split; auto; eapply same_rest; eauto|]. left. eauto.
      * intros _ _ y Iy [Y1 Y2]. apply Z3 in Iy as [_ N]. apply N. unfold z_key. congruence.
Qed.

Lemma respond_about tx q m e fi y : In y (snd (respond tx q m e fi)) -> about (q_nr q) y.
Proof. unfold respond. destruct (make_response _ _ _ _) as [rc r]. destruct (rc =? 0); cbn; [|destruct fi; cbn]; intros [<-|[]] || intros []; reflexivity. Qed.
Lemma respond_err_about tx q c y : In y (respond_err tx q c) -> about (q_nr q) y.
Proof. unfold respond_err. destruct (negb _); [intros [<-|[]]; reflexivity|]. apply respond_about. Qed.
Lemma conn_rx_err enc v nr c g v' o : sinv v -> conn_rx enc v nr c g = (v', inr o) -> sinv v' /\ forall y, In y o -> about nr y.
Proof.
  intros SV. unfold conn_rx. destruct (find_conn v c) as [x|] eqn:F; [|intros [= -> <-]; split; auto; intros y []]. apply find_some in F as [Ix Cx]. apply Nat.eqb_eq in Cx.
  assert (Ic : In c (map c_id (v_conns v))) by (rewrite <- Cx; apply in_map; auto).
  assert (RA : forall a rc v1, route_add v c a = (rc, v1) -> sinv v1) by (intros a rc v1 A; apply (route_add_ok _ _ _ _ _ A SV Ic)).
  assert (NQ : forall q, req_new (srv_tx enc v) nr c (mk_peer PT_IPA (c_name x)) g = inl q -> q_nr q = nr).
  { intros q. unfold req_new. destruct (g_src g).
    - destruct (negb _); [discriminate|]. intros [= <-]. auto.
    - destruct (peer_set _ _). destruct (negb _); [discriminate|]. destruct (negb _); (destruct (negb _); [discriminate|]); intros [= <-]; auto. }
  destruct (req_new _ _ _ _ _) as [q|o1] eqn:Q.
  - destruct (negb (peer_is_empty _)); [|discriminate]. destruct (route_add _ _ _) as [rc v1] eqn:A. destruct (negb (rc =? 0)); [|discriminate].
    intros [= <- <-]. split; [eapply RA; eauto|]. intros y Iy. rewrite <- (NQ q eq_refl). eapply respond_about. exact Iy.
  - intros [= <- <-]. split; auto. clear NQ RA. unfold req_new in Q. destruct (g_src g).
    + destruct (negb _); [|discriminate]. injection Q as <-. intros y. apply respond_err_about.
    + destruct (peer_set _ _). destruct (negb _); [injection Q as <-; intros y; apply respond_about|]. destruct (negb _); (destruct (negb _); [|discriminate]); injection Q as <-; intros y; apply respond_err_about.
Qed.

(** other messages leave the sessions alone *)
Lemma same_ss s p : all_rets (fun x => t_ss (fst x) = t_ss s) (same s p).
Proof. unfold same. induction p as [a|st f IH|]; cbn; auto. Qed.
Lemma all_rets_bind_any {A B} (P : B -> Prop) (p : prog A) (f : A -> prog B) : (forall a, all_rets P (f a)) -> all_rets P (bind p f).
Proof. intros H. induction p; cbn; auto. Qed.
Lemma upd_loc_ss k w s q : all_rets (fun x => t_ss (fst x) = t_ss s) (rx_upd_loc_req k w s q).
Proof.
  unfold rx_upd_loc_req. repeat first [exact I | reflexivity | apply same_ss | apply all_rets_bind_any; intros | progress cbn [all_rets fst t_ss] | match goal with
    | |- all_rets _ (let '(_, _) := ?x in _) => destruct x
    | |- all_rets _ (if ?b then _ else _) => destruct b
    | |- all_rets _ (match ?x with _ => _ end) => destruct x
    | |- all_rets _ (lu_start _ _ _ _) => unfold lu_start
    end].
Qed.
Lemma lu_rx_ss k s q : t_ss (fst (lu_rx k s q)) = t_ss s.
Proof.
  unfold lu_rx. repeat first [reflexivity | match goal with
    | |- context [let '(_, _) := ?x in _] => destruct x
    | |- context [if ?b then _ else _] => destruct b
    | |- context [match ?x with _ => _ end] => destruct x
    end].
Qed.
Lemma dispatch_ss k w s q : ~ ss_type (g_type (q_gsup q)) -> all_rets (fun x => t_ss (fst x) = t_ss s) (dispatch k w s q).
Proof.
  intros N. unfold dispatch. set (t := g_type (q_gsup q)) in *.
  destruct (t =? MSGT_SEND_AUTH_INFO_REQUEST); [apply same_ss|]. destruct (t =? MSGT_UPDATE_LOCATION_REQUEST); [apply upd_loc_ss|].
  destruct (t =? MSGT_PURGE_MS_REQUEST); [apply same_ss|]. destruct (_ || _); [reflexivity|].
  destruct ((t =? MSGT_PROC_SS_REQUEST) || (t =? MSGT_PROC_SS_RESULT)) eqn:E. { destruct N. unfold ss_type. apply orb_true_iff in E as [E|E]; apply Z.eqb_eq in E; auto. }
  destruct (t =? MSGT_PROC_SS_ERROR); [reflexivity|]. destruct (_ || _ || _ || _); [apply lu_rx_ss|].
  destruct (t =? MSGT_CHECK_IMEI_REQUEST); [apply same_ss|]. destruct (t =? MSGT_MO_FORWARD_SM_REQUEST); [apply same_ss|]. destruct (t =? MSGT_MT_FORWARD_SM_REQUEST); [apply same_ss|].
  destruct (t =? MSGT_READY_FOR_SM_REQUEST); [apply same_ss|reflexivity].
Qed.

(** what reception of a message comes to *)
Inductive rx_kind (k : cfg) (w : world) (s : hst) (c : nat) (g : gsup) : prog (hst * list out) -> Prop :=
| rk_refused v o : sinv v -> (forall y, In y o -> about (t_nr s) y) -> rx_kind k w s c g (Ret (mk_hst v (t_lus s) (t_ss s) (S (t_nr s)), o))
| rk_undef : g_dst g <> [] -> rx_kind k w s c g Undef
| rk_forward v dest q : ~ addressed_here k g -> rx_kind k w s c g (same (mk_hst v (t_lus s) (t_ss s) (S (t_nr s))) (read_cb_forward k (mk_hst v (t_lus s) (t_ss s) (S (t_nr s))) dest q))
| rk_dispatch v q : sinv v -> q_nr q = t_nr s -> q_gsup q = g -> p_type (q_src q) = PT_IPA -> ipa_wf (p_ipa (q_src q)) ->
    sends_as (t_srv s) c g (ipa_bytes (p_ipa (q_src q))) -> rx_kind k w s c g (dispatch k w (mk_hst v (t_lus s) (t_ss s) (S (t_nr s))) q).
Lemma read_msg_kind k w s c g : sinv (t_srv s) -> rx_kind k w s c g (read_msg k w s c g).
Proof.
  intros SV. unfold read_msg. destruct (conn_rx _ _ _ _ _) as [v [q|o]] eqn:E.
  - apply conn_rx_src in E as (S1 & A & B & C & D & F); auto.
    assert (DI := rk_dispatch k w s c g v q S1 A B C D F).
    destruct (g_dst g) as [|y l] eqn:Ed; auto. destruct (ipa_set_str ipa_empty (Some (k_serno k))) as [my|] eqn:Em; [|constructor; congruence].
    destruct (ipa_set ipa_empty (Some (y :: l))) as [rc dest] eqn:Es.
    destruct (ipa_set_bytes _ _ _ _ ipa_empty_wf Es) as (W2 & [(-> & Bd)|(-> & _ & Bd)]); [|exact DI].
    destruct (ipa_cmp dest my =? 0) eqn:Cm; [exact DI|]. cbn [negb Z.eqb andb]. apply rk_forward. intros [X|X]; [congruence|].
    apply Z.eqb_neq in Cm. apply Cm. destruct (ipa_set_str_bytes _ _ _ ipa_empty_wf Em) as (Wm & Bm). apply c27_spec; auto. rewrite Bd, <- Ed, X. symmetry. exact Bm.
  - apply conn_rx_err in E as [S1 O]; auto. constructor; auto.
Qed.

Definition sess_all (s : hst) : Prop := Forall sess_ok (t_ss s).
(** the sessions after an event and where they come from *)
Definition sess_from (k : cfg) (s : hst) (e : event) (s' : hst) : Prop :=
  forall z', In z' (t_ss s') -> sess_ok z' /\ ((exists z, In z (t_ss s) /\ same_parties z z') \/
    exists c g a, e = ERx c g /\ ss_type (g_type g) /\ sends_as (t_srv s) c g a /\ new_session k (t_nr s) g a z').
Lemma from_sub k s e s' : sess_all s -> incl (t_ss s') (t_ss s) -> sess_from k s e s'.
Proof. intros A I z' Iz. apply I in Iz. unfold sess_all in A. rewrite Forall_forall in A. split; auto. left. exists z'. split; auto. apply same_refl. Qed.

Lemma rx_ss_dispatch k w s q : ss_type (g_type (q_gsup q)) -> dispatch k w s q = rx_proc_ss_req k s q.
Proof. intros [T|T]; unfold dispatch; rewrite T; reflexivity. Qed.

Lemma ss_type_dec t : ss_type t \/ ~ ss_type t.
Proof. unfold ss_type. destruct (Z.eq_dec t MSGT_PROC_SS_REQUEST); auto. destruct (Z.eq_dec t MSGT_PROC_SS_RESULT); auto. right. tauto. Qed.

Lemma step_sess k s d w e f s' d' o : inv s -> sess_all s -> step k (s, d) (w, e, f) = Some (s', d', o) -> sess_from k s e s'.
Proof.
  intros [HI SV] SA E. unfold step in E. cbn [fst snd] in E. destruct (run (handle k w s e) f d) as [[[[s2 o2]| |] d2] f2] eqn:R; [| |discriminate].
  2:{ injection E as <- _ _. intros z' []. }
  injection E as -> -> ->.
  assert (SM : forall p, run (same s p) f d = (Fin (s', o), d', f2) -> sess_from k s e s').
  { intros p Rp. unfold same in Rp. apply fin_bind in Rp as (o' & d1 & f1 & R1 & Rp). apply fin_ret in Rp as ([= -> ->] & _). apply from_sub; auto. apply incl_refl. }
  destruct e as [|c tag|c|c g|nr|imsi sid|x m|x cs ps|a]; cbn [handle] in R.
  1,2,3: apply fin_ret in R as ([= -> ->] & _); apply from_sub; auto; apply incl_refl.
  - destruct (find_conn (t_srv s) c) eqn:Fc.
    2:{ apply fin_ret in R as ([= -> ->] & _). apply from_sub; auto. apply incl_refl. }
    unfold read_cb in R. apply fin_bind in R as ([s3 o3] & d1 & f1 & R1 & R). apply fin_ret in R as (Ex & -> & ->). injection Ex as -> ->. cbn [fst].
    destruct (read_msg_kind k w s c g SV) as [v o' Sv O|N|v dest q N|v q Sv Q1 Q2 Q3 Q4 Q5].
    + apply fin_ret in R1 as ([= -> ->] & _). apply from_sub; auto. apply incl_refl.
    + discriminate.
    + unfold same in R1. apply fin_bind in R1 as (o' & d3 & f3 & R1 & Rp). apply fin_ret in Rp as ([= -> ->] & _). apply from_sub; auto. apply incl_refl.
    + destruct (ss_type_dec (g_type g)) as [T|T].
      * rewrite rx_ss_dispatch in R1 by (rewrite Q2; auto). apply rx_ss_run in R1 as (-> & Sr & [A B C]); auto; [|apply HI].
        intros z' Iz. destruct (B z' Iz) as [Z1 [Z2|Z2]]; split; auto. right. rewrite Q1, Q2 in Z2. eauto 10.
      * apply run_outE in R1. assert (Ts : t_ss (fst (s3, o3)) = t_ss s). { apply (all_rets_run _ _ (dispatch_ss k w _ q ltac:(rewrite Q2; exact T)) _ _ _ R1). }
        cbn in Ts. apply from_sub; auto. rewrite Ts. apply incl_refl.
  - apply fin_ret in R as (E & _). unfold lu_timeout in E. destruct (find _ _); [|injection E as -> ->; apply from_sub; auto; apply incl_refl].
    injection E as -> _. apply from_sub; auto. apply incl_refl.
  - apply fin_ret in R as (E & _). unfold ss_timeout in E. destruct (ss_find _ _ _); [|injection E as -> ->; apply from_sub; auto; apply incl_refl].
    unfold ss_free in E. injection E as -> _. apply from_sub; auto. intros y Iy. cbn in Iy. apply filter_In in Iy. tauto.
  - eapply SM; eauto.
  - eapply SM; eauto.
  - apply fin_bind in R as (x & d1 & f1 & R1 & R). apply fin_ret in R as ([= -> ->] & _). apply from_sub; auto. apply incl_refl.
Qed.

Lemma hist_sess k es : forall s d s' d' o, inv s -> sess_all s -> hist k (s, d) es = Some (s', d', o) -> sess_all s'.
Proof.
  induction es as [|[[w e] f] es IH]; intros s d s' d' o H SA E; cbn [hist] in E.
  - injection E as <- <- <-. auto.
  - destruct (step k (s, d) (w, e, f)) as [[[s1 d1] o1]|] eqn:S1; [|discriminate]. destruct (hist k (s1, d1) es) as [[[s2 d2] o2]|] eqn:H2; [|discriminate]. injection E as <- <- <-.
    eapply IH; [|eapply Forall_forall|exact H2].
    + assert (Hh : hist k (s, d) [(w, e, f)] = Some (s1, d1, o1 ++ [])) by (cbn [hist]; rewrite S1; auto). eapply hist_ltr; [exact H|exact Hh].
    + intros z Iz. eapply step_sess; eauto.
Qed.
Lemma reached_sess k s d : reached k s d -> sess_all s.
Proof. intros (d0 & es & o & A & B & E). eapply hist_sess; [apply inv0|constructor|exact E]. Qed.

(** ** C30 *)
Lemma c30_one k s d : reached k s d -> one_session_per_id s.
Proof.
  intros R. destruct (reached_fine _ _ _ R) as (H & _). pose proof (hi_keys _ (proj1 H)) as K. unfold keys_ok in K. intros i j z z' Ni Nj E1 E2.
  rewrite NoDup_nth_error in K. apply K.
  - rewrite map_length. apply nth_error_Some. congruence.
  - rewrite (map_nth_error z_key i (t_ss s) Ni), (map_nth_error z_key j (t_ss s) Nj). unfold z_key. congruence.
Qed.

Lemma c30_parties k s d w e f s' d' o : reached k s d -> step k (s, d) (w, e, f) = Some (s', d', o) -> forall z', In z' (t_ss s') ->
  (exists z, In z (t_ss s) /\ same_parties z z') \/
  (exists c g a, e = ERx c g /\ ss_type (g_type g) /\ sends_as (t_srv s) c g a /\ new_session k (t_nr s) g a z').
Proof.
  intros R E z' I. destruct (reached_fine _ _ _ R) as (H & _). exact (proj2 (step_sess _ _ _ _ _ _ _ _ _ H (reached_sess _ _ _ R) E z' I)).
Qed.

Lemma c30_delivery k s d w c g f s' d' o : reached k s d -> ss_type (g_type g) -> addressed_here k g -> step k (s, d) (w, ERx c g, f) = Some (s', d', o) ->
  (forall y, In y o -> y = ORx (t_nr s) c g \/ about (t_nr s) y \/
    exists z a, sends_as (t_srv s) c g a /\ (In z (t_ss s) \/ new_session k (t_nr s) g a z) /\ z_imsi z = g_imsi g /\ z_sid z = g_sid g /\ to_party (t_srv s') d z g y) /\
  (for_us k (t_srv s) c g -> g_ss g = SS_END -> ss_decodable k g -> forall z, In z (t_ss s') -> ~ (z_imsi z = g_imsi g /\ z_sid z = g_sid g)).
Proof.
  intros Rc T Ad E. destruct (reached_fine _ _ _ Rc) as (H & _). pose proof (reached_sess _ _ _ Rc) as SA. destruct (H) as [HI SV].
  unfold step in E. cbn [fst snd] in E. destruct (run (handle k w s (ERx c g)) f d) as [[[[s2 o2]| |] d2] f2] eqn:R; [| |discriminate].
  2:{ injection E as <- _ <-. split; [intros y []|intros _ _ _ z []]. }
  injection E as -> -> ->. cbn [handle] in R. destruct (find_conn (t_srv s) c) eqn:Fc.
  2:{ apply fin_ret in R as ([= -> ->] & _). split; [intros y []|]. intros [(x & Ix & Cx) _ _ _]. exfalso. apply (proj2 (find_conn_iff (t_srv s) c)); auto. rewrite <- Cx. apply in_map; auto. }
  unfold read_cb in R. apply fin_bind in R as ([s3 o3] & d1 & f1 & R1 & R). apply fin_ret in R as (Ex & -> & ->). injection Ex as -> ->. cbn [fst snd].
  assert (EF : forall v q, sinv v -> q_nr q = t_nr s -> q_gsup q = g -> p_type (q_src q) = PT_IPA -> ipa_wf (p_ipa (q_src q)) -> sends_as (t_srv s) c g (ipa_bytes (p_ipa (q_src q))) ->
    run (dispatch k w (mk_hst v (t_lus s) (t_ss s) (S (t_nr s))) q) f d = (Fin (s3, o3), d1, f1) ->
    (forall y, In y o3 -> about (t_nr s) y \/ exists z a, sends_as (t_srv s) c g a /\ (In z (t_ss s) \/ new_session k (t_nr s) g a z) /\ z_imsi z = g_imsi g /\ z_sid z = g_sid g /\ to_party (t_srv s3) d z g y) /\
    (g_ss g = SS_END -> ss_decodable k g -> forall z, In z (t_ss s3) -> ~ (z_imsi z = g_imsi g /\ z_sid z = g_sid g))).
  { intros v q Sv Q1 Q2 Q3 Q4 Q5 Rd. rewrite rx_ss_dispatch in Rd by (rewrite Q2; auto). apply rx_ss_run in Rd as (-> & Sr & [A B C]); auto; [|apply HI]. rewrite Q1, Q2 in *. split; auto.
    intros y Iy. destruct (A y Iy) as [X|(z & Z1 & Z2 & Z3 & Z4)]; auto. right. exists z, (ipa_bytes (p_ipa (q_src q))). rewrite Sr. auto 10. }
  split.
  - assert (G : forall y, In y o3 -> about (t_nr s) y \/ exists z a, sends_as (t_srv s) c g a /\ (In z (t_ss s) \/ new_session k (t_nr s) g a z) /\ z_imsi z = g_imsi g /\ z_sid z = g_sid g /\ to_party (t_srv s3) d z g y).
    { destruct (read_msg_kind k w s c g SV) as [v o' Sv O|N|v dest q N|v q Sv Q1 Q2 Q3 Q4 Q5].
      + apply fin_ret in R1 as ([= -> ->] & _). auto.
      + discriminate.
      + contradiction.
      + apply (EF v q); auto. }
    intros y [<-|Iy]; auto.
  - intros U. destruct (read_msg_us k w s c g H U) as (s1 & q & Rq & [D|(_ & D)]); [|rewrite D in R1; discriminate]. rewrite D in R1.
    destruct Rq as [Q1 _ Q2 Q3 Q4 Q5 _ L1 L2 L3 _ Sv _ _]. destruct s1 as [v l1 l2 n1]. cbn in L1, L2, L3, Sv. subst l1 l2 n1. apply (EF v q); auto.
Qed.

Lemma c30_timer k s d w imsi sid f s' d' o : step k (s, d) (w, ESsTimer imsi sid, f) = Some (s', d', o) ->
  (forall z, In z (t_ss s') <-> In z (t_ss s) /\ ~ (z_imsi z = imsi /\ z_sid z = sid)) /\
  forall y, In y o -> exists z q, In z (t_ss s) /\ z_imsi z = imsi /\ z_sid z = sid /\ (z_ms z = Some q \/ z_euse z = Some q) /\ y = OFree (q_nr q).
Proof.
  unfold step. cbn. unfold ss_timeout. destruct (ss_find s imsi sid) as [z|] eqn:F.
  - apply find_some in F as [I E]. unfold ss_is in E. apply andb_true_iff in E as [E1 E2]. apply String.eqb_eq in E1. apply Z.eqb_eq in E2. intros [= <- <- <-]. split.
    + intros y. cbn. rewrite filter_In, negb_true_iff. assert (X : ss_is (z_imsi z) (z_sid z) y = false <-> ~ (z_imsi y = imsi /\ z_sid y = sid)).
      { rewrite <- not_true_iff_false, key_is. unfold z_key. split; intros N M; apply N; [destruct M; congruence|injection M as M1 M2; split; congruence]. }
      rewrite X. tauto.
    + intros y Iy. apply in_app_iff in Iy as [Iy|Iy]; [destruct (z_ms z) as [q|] eqn:Em|destruct (z_euse z) as [q|] eqn:Em]; try (destruct Iy; fail); destruct Iy as [<-|[]]; exists z, q; auto 8.
  - intros [= <- <- <-]. split; [|intros y []]. intros z. split; [|tauto]. intros I. split; auto. intros [E1 E2]. pose proof (find_none _ _ F z I) as N. unfold ss_is in N.
    rewrite E1, E2, String.eqb_refl, Z.eqb_refl in N. discriminate.
Qed.

(** *** No undefined behaviour *)
Definition safe {A} (p : prog A) (d : db) : Prop := forall f o d' f', run p f d = (o, d', f') -> o <> Ub.
Lemma safe_ret {A} (a : A) d : safe (Ret a) d. Proof. intros f o d' f' [= <- _ _]. discriminate. Qed.
Lemma safe_bind {A B} (p : prog A) (h : A -> prog B) d : safe p d -> (forall a d1 f f1, run p f d = (Fin a, d1, f1) -> safe (h a) d1) -> safe (bind p h) d.
Proof.
  intros Sp Sh f o d' f' R. rewrite run_bind in R. destruct (run p f d) as [[[a| |] d1] f1] eqn:Rp.
  - exact (Sh a d1 f f1 Rp _ _ _ _ R).
  - injection R as <- _ _. discriminate.
  - destruct (Sp _ _ _ _ Rp eq_refl).
Qed.
Lemma get_safe tz imsi d : plain_nodes d imsi -> safe (db_subscr_get_by_imsi tz imsi) d.
Proof.
  intros P f o d' f' R -> . unfold db_subscr_get_by_imsi, db_sel in R. cbn [run] in R.
  assert (G : forall row, find (by_imsi imsi) (d_sub d) = Some row -> exists h, sub_of_row tz row = Some h).
  { intros row F. apply find_some in F as [I E]. apply String.eqb_eq in E. unfold sub_of_row.
    destruct (ipa_set_str_plain ipa_empty (s_vlr_proxy row)) as [n1 ->]; [intros t Et; eapply P; eauto|].
    destruct (ipa_set_str_plain ipa_empty (s_sgsn_proxy row)) as [n2 ->]; [intros t Et; eapply P; eauto|]. eauto. }
  destruct f as [|[] f]; cbn [exec] in R; unfold sel in R; try discriminate; destruct (find _ _) as [row|] eqn:F; try discriminate; destruct (G row eq_refl) as [h Hh]; rewrite Hh in R; discriminate.
Qed.

Lemma send_ms_safe k s z m d : sinv (t_srv s) -> sess_wf z -> plain_nodes d (z_imsi z) -> safe (ss_send_to_ms k s z m) d.
Proof.
  intros SV [W _] P. unfold ss_send_to_ms. destruct (z_ms z); [apply safe_ret|]. destruct (negb _); [apply safe_ret|].
  assert (ST : forall z1 d1, ipa_wf (z_vlr z1) -> safe (if (in_len (z_vlr z1) <=? 1)%nat then Ret (z1, []) else match send_to (t_srv s) (z_vlr z1) m with None => Undef | Some (_, o) => Ret (z1, o) end) d1).
  { intros z1 d1 W1. destruct (Nat.leb_spec (in_len (z_vlr z1)) 1); [apply safe_ret|].
    destruct (send_to_ok (t_srv s) (z_vlr z1) m SV W1) as (rc & o & -> & _); [|apply safe_ret]. intros X. apply bytes_nil in X; auto. lia. }
  apply safe_bind with (p := if (in_len (z_vlr z) =? 0)%nat then _ else _).
  - destruct (_ =? 0)%nat; [|apply safe_ret]. apply safe_bind; [apply get_safe; auto|]. intros [rc sub] d1 f f1 R.
    apply get_imsi_run in R as (-> & [(-> & row & h & -> & I & E & H)|[(-> & _)|(-> & _)]]); try apply safe_ret. cbn [Z.ltb Z.compare].
    destruct (ipa_set_str_plain (z_vlr z) (Some (h_vlr h))) as [n ->]; [|apply safe_ret]. intros t [= <-].
    unfold sub_of_row in H. destruct (ipa_set_str _ _); [|discriminate]. destruct (ipa_set_str _ _); [|discriminate]. injection H as <-. cbn [h_vlr].
    destruct (s_vlr row) as [v|] eqn:Ev; [|intros j; destruct j; discriminate]. cbn [text_to_buf Nat.sub]. assert (Pv : plain_text v) by (eapply P; eauto).
    intros j. pose proof (Pv j) as Pj. clear - Pj. revert j v Pj. generalize 31%nat. induction n as [|n IH]; intros j v Pj; [destruct j; discriminate|].
    destruct v as [|a v]; [destruct j; discriminate|]. destruct j; cbn in Pj; [exact Pj|]. apply IH, Pj.
  - intros zo d1 f f1 R. destruct (Nat.eqb_spec (in_len (z_vlr z)) 0).
    + destruct zo as [z1|]; [|apply safe_ret]. apply ST. apply fin_bind in R as ([rc sub] & d2 & f2 & R1 & R). destruct (rc <? 0); [discriminate|]. destruct sub as [h|]; [|discriminate].
      destruct (ipa_set_str (z_vlr z) _) as [n|] eqn:Es; [|discriminate]. apply fin_ret in R as ([= ->] & _). exact (proj1 (ipa_set_str_bytes _ _ _ W Es)).
    + apply fin_ret in R as (-> & _). apply ST; auto.
Qed.
Lemma iuse_safe k s z i inv d : sinv (t_srv s) -> sess_wf z -> plain_nodes d (z_imsi z) -> safe (run_iuse k s z i inv) d.
Proof.
  intros SV W P. assert (W' : forall st, sess_wf (z_with_state z st)) by (intros st; destruct W; split; auto).
  destruct i; cbn [run_iuse]; try (apply send_ms_safe; auto; fail).
  apply safe_bind; [apply get_safe; auto|]. intros [rc sub] d1 f f1 R. assert (d1 = d) as -> by (apply get_imsi_run in R as [-> _]; auto).
  assert (X : forall c, safe (ss_tx_error k s (z_with_state z SS_END) inv c) d).
  { intros c. unfold ss_tx_error, ss_tx_to_ms. apply send_ms_safe; auto. exact (W' SS_END). }
  destruct rc as [|p|p]; [destruct sub as [h|]; [apply send_ms_safe; auto; fail|]| |]; apply X.
Qed.
Lemma dispatch_safe k s z fe g r d : sinv (t_srv s) -> sess_wf z -> plain_nodes d (z_imsi z) -> (forall n, z_hdl z = HOrig n -> fe = true) -> safe (ss_dispatch k s z fe g r) d.
Proof.
  intros SV W P Or. assert (W' : sess_wf (z_with_state z SS_END)) by (destruct W; split; auto).
  assert (TE : forall code, safe (do x <- ss_tx_error k s z (r_invoke r) code;; Ret (ss_put s (fst x), false, snd x)) d).
  { intros code. apply safe_bind; [apply send_ms_safe; auto|]. intros. apply safe_ret. }
  assert (TM : safe (do x <- ss_send_to_ms k s z g;; Ret (ss_put s (fst x), false, snd x)) d).
  { apply safe_bind; [apply send_ms_safe; auto|]. intros. apply safe_ret. }
  unfold ss_dispatch. destruct (op_is_ussd _); [|apply TE]. unfold handle_ussd. destruct (z_hdl z) as [|i|n|n] eqn:Hd; [apply TE| | |].
  - destruct fe; [apply TM|]. apply safe_bind; [apply iuse_safe; auto|]. intros [z1 o1] d1 f f1 _. cbn [fst snd]. destruct (_ =? _); [|apply safe_ret]. unfold ss_free. apply safe_ret.
  - destruct fe; [apply TM|]. destruct (route_find _ _); [apply safe_ret|apply TE].
  - rewrite (Or n eq_refl). apply TM.
Qed.
Lemma rx_ss_safe k s q d : keys_ok s -> sinv (t_srv s) -> Forall sess_ok (t_ss s) -> p_type (q_src q) = PT_IPA -> ipa_wf (p_ipa (q_src q)) ->
  plain_nodes d (g_imsi (q_gsup q)) -> (entity_name (ipa_bytes (p_ipa (q_src q))) -> In nul (ipa_bytes (p_ipa (q_src q)))) ->
  (forall z n, In z (t_ss s) -> z_imsi z = g_imsi (q_gsup q) -> z_sid z = g_sid (q_gsup q) -> z_hdl z = HOrig n -> entity_name (ipa_bytes (p_ipa (q_src q)))) ->
  safe (rx_proc_ss_req k s q) d.
Proof.
  intros K SV SO T W P Nu Or. unfold rx_proc_ss_req. unfold is_ipa. rewrite T. cbn [negb]. rewrite Forall_forall in SO. set (g := q_gsup q) in *.
  set (pl := pl_octets (x_ss (g_x g))) in *.
  assert (FIND : forall z, ss_find s (g_imsi g) (g_sid g) = Some z -> In z (t_ss s) /\ z_imsi z = g_imsi g /\ z_sid z = g_sid g).
  { intros z F. apply find_some in F as [I E]. apply ss_is_key in E. tauto. }
  assert (DS : forall z r, ss_find s (g_imsi g) (g_sid g) = Some z -> safe (ss_dispatch k s z (peer_is_euse (q_src q)) g r) d).
  { intros z r F. destruct (FIND z F) as (I & Z1 & Z2). destruct (SO z I). apply dispatch_safe; auto; [rewrite Z1; auto|]. intros n Hn. apply is_entity; auto. eapply Or; eauto. }
  destruct (match pl with [] => _ | _ => _ end) as [r|]; [|apply safe_ret].
  destruct (g_ss g =? SS_BEGIN).
  - destruct (ss_find s (g_imsi g) (g_sid g)) as [z|] eqn:Fz; [apply safe_ret|].
    destruct (ss_handler k q (peer_is_euse (q_src q)) r) as [h|] eqn:Hh.
    2:{ exfalso. unfold ss_handler in Hh. destruct (negb _); [discriminate|]. destruct (peer_is_euse (q_src q)) eqn:Pe.
        - unfold euse_by_name in Hh. rewrite Pe in Hh. destruct (cstr _) eqn:Ct; [destruct (find _ _); discriminate|]. apply is_entity in Pe; auto. specialize (Nu Pe).
          destruct Pe as (ch & l & Eb). assert (X : exists u, in_val (p_ipa (q_src q)) = bytes_of "EUSE-" ++ (ch :: l) ++ u).
          { exists (skipn (in_len (p_ipa (q_src q))) (in_val (p_ipa (q_src q)))). rewrite <- (firstn_skipn (in_len (p_ipa (q_src q))) (in_val (p_ipa (q_src q)))) at 1. fold (ipa_bytes (p_ipa (q_src q))). rewrite Eb, <- !app_assoc. reflexivity. }
          destruct X as [u X]. rewrite X in Ct. change (skipn 5 (bytes_of "EUSE-" ++ (ch :: l) ++ u)) with ((ch :: l) ++ u) in Ct. rewrite Eb in Nu. apply in_app_iff in Nu as [Nu|Nu].
          { cbn in Nu. repeat (destruct Nu as [Nu|Nu]; [discriminate|]). destruct Nu. }
          clear - Ct Nu. revert Ct Nu. generalize (ch :: l). intros m. induction m as [|x m IH]; cbn; [tauto|]. destruct (Ascii.eqb_spec x "000"%char); [discriminate|].
          destruct (cstr (m ++ u)); [discriminate|]. intros _ [->|I]; [apply n; reflexivity|auto].
        - destruct (ussd_lookup k r) as [[]|]; discriminate. }
    apply safe_bind; [|intros; apply safe_ret].
    apply dispatch_safe; auto.
    + destruct (peer_is_euse _); split; cbn; auto; try discriminate; [apply ipa_empty_wf|]. intros q0 [= <-]. auto.
    + destruct (peer_is_euse _); exact P.
    + intros n. destruct (peer_is_euse (q_src q)) eqn:Pe; auto. cbn [z_hdl]. intros ->. unfold ss_handler in Hh. destruct (negb _); [discriminate|].
      destruct (ussd_lookup k r) as [[]|]; try discriminate. destruct (k_euse_default k); discriminate.
  - destruct (g_ss g =? SS_CONTINUE).
    + destruct (ss_find s (g_imsi g) (g_sid g)) as [z|] eqn:Fz; [|apply safe_ret]. apply safe_bind; [apply DS; auto|]. intros. apply safe_ret.
    + destruct (g_ss g =? SS_END); [|apply safe_ret]. destruct (ss_find s (g_imsi g) (g_sid g)) as [z|] eqn:Fz; [|apply safe_ret].
      apply safe_bind; [destruct pl; [apply safe_ret|apply DS; auto]|]. intros x d1 f f1 R. destruct (snd (fst x)) eqn:Fr; [|destruct (ss_free _ _); apply safe_ret].
      exfalso. destruct pl; [apply fin_ret in R as (-> & _); discriminate|]. destruct (FIND z eq_refl) as (I & Z1 & Z2). destruct (SO z I) as [S1 S2].
      unfold ss_dispatch in R. destruct (op_is_ussd _).
      2:{ unfold handle_ss in R. apply fin_bind in R as (y & d2 & f2 & _ & R). apply fin_ret in R as (-> & _). discriminate. }
      assert (NK : forall p : prog (session * list out), run (do x <- p;; Ret (ss_put s (fst x), false, snd x)) f d = (Fin x, d1, f1) -> False).
      { intros p Rp. apply fin_bind in Rp as (y & d2 & f2 & _ & Rp). apply fin_ret in Rp as (-> & _). discriminate. }
      unfold handle_ussd in R. destruct (z_hdl z) as [|i|m|m] eqn:Hd; [exact (NK _ R)| | |].
      * destruct (peer_is_euse _); [exact (NK _ R)|]. rewrite (S2 i Hd) in R. apply fin_bind in R as ([z1 o1] & d2 & f2 & R1 & R).
        apply (iuse_ok _ _ _ _ _ _ _ _ _ _ _ g) in R1 as (_ & _ & _ & St & _); auto. cbn [fst snd] in R. rewrite St in R. apply fin_ret in R as (-> & _). discriminate.
      * destruct (peer_is_euse _); [exact (NK _ R)|]. destruct (route_find _ _); [|exact (NK _ R)]. apply fin_ret in R as (-> & _). discriminate.
      * destruct (peer_is_euse _); [exact (NK _ R)|discriminate].
Qed.

Lemma c30_defined k s d w c g f : reached k s d -> ss_type (g_type g) -> g_dst g = [] -> plain_nodes d (g_imsi g) ->
  (forall a, sends_as (t_srv s) c g a -> entity_name a -> In nul a) ->
  (forall z n a, In z (t_ss s) -> z_imsi z = g_imsi g -> z_sid z = g_sid g -> z_hdl z = HOrig n -> sends_as (t_srv s) c g a -> entity_name a) ->
  step k (s, d) (w, ERx c g, f) <> None.
Proof.
  intros Rc T Ds P Nu Or E. destruct (reached_fine _ _ _ Rc) as (H & _). pose proof (reached_sess _ _ _ Rc) as SA. destruct (H) as [HI SV].
  unfold step in E. cbn [fst snd handle] in E. destruct (find_conn (t_srv s) c); [|discriminate]. unfold read_cb in E. rewrite run_bind in E.
  destruct (run (read_msg k w s c g) f d) as [[[x| |] d2] f2] eqn:R; try discriminate. clear E. revert R.
  destruct (read_msg_kind k w s c g SV) as [v o' Sv O|N|v dest q N|v q Sv Q1 Q2 Q3 Q4 Q5]; intros R.
  - discriminate.
  - contradiction.
  - apply N. left. auto.
  - rewrite rx_ss_dispatch in R by (rewrite Q2; auto). 
    apply (rx_ss_safe k (mk_hst v (t_lus s) (t_ss s) (S (t_nr s))) q d) in R; auto; try (apply HI); try (rewrite Q2; auto; fail).
    rewrite Q2. intros z n I Z1 Z2 Hd. eapply Or; eauto.
Qed.
