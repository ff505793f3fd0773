(** Lemmas behind C47. *)
From Verif Require Import Base PeerId Auth Gsup ClientMux MuxSpec.
Local Open Scope Z_scope.

Lemma classify_belongs g : 0 <= g_type g -> ~ sent_by_msc (g_type g) -> mux_classify g = belongs g.
Proof.
  intros P N. unfold mux_classify, belongs. destruct (g_class g =? 0) eqn:C; cbn [negb]; [|reflexivity].
  unfold procedure_class. set (t := g_type g) in *. clearbody t.
  unfold MSGT_PROC_SS_REQUEST, MSGT_PROC_SS_RESULT, MSGT_PROC_SS_ERROR, MSGT_MO_FORWARD_SM_ERROR, MSGT_MO_FORWARD_SM_RESULT, MSGT_READY_FOR_SM_ERROR,
    MSGT_READY_FOR_SM_RESULT, MSGT_MT_FORWARD_SM_REQUEST, CLASS_USSD, CLASS_SMS, CLASS_SUBSCRIBER_MANAGEMENT.
  unfold sent_by_msc in N.
  pose proof (Z.div_mod t 4 ltac:(lia)). pose proof (Z.mod_pos_bound t 4 ltac:(lia)).
  repeat match goal with |- context [?x =? ?y] => destruct (Z.eqb_spec x y) end; cbn [orb andb]; try lia;
  repeat match goal with |- context [?x <=? ?y] => destruct (Z.leb_spec x y) end; cbn [orb andb]; lia.
Qed.

Lemma mux_deliver m g cls : g_imsi g <> "" ->
  (In (MDeliver cls g) (mux_rx m (Some g)) <-> cls = mux_classify g /\ 1 <= cls <= 4 /\ m_rx m cls = true).
Proof.
  intros N. unfold mux_rx. apply String.eqb_neq in N. rewrite N. unfold CLASS_UNSET, CLASS_ARRAYSIZE.
  destruct ((mux_classify g <=? 0) || (5 <=? mux_classify g)) eqn:R.
  - split; [intros []|]. intros (-> & B & _). rewrite orb_true_iff, !Z.leb_le in R. lia.
  - rewrite orb_false_iff, !Z.leb_gt in R. destruct (m_rx m (mux_classify g)) eqn:X; cbn [negb].
    + split; [intros [H|[]]; injection H as <-; split; [reflexivity|]; split; [lia|exact X]|]. intros (-> & _). left. reflexivity.
    + split; [intros []|]. intros (-> & _ & Y). congruence.
Qed.

Lemma mux_outputs m d : mux_rx m d = [] \/ (exists g, d = Some g /\ mux_rx m d = [MDeliver (mux_classify g) g]) \/
  (exists g r, d = Some g /\ g_imsi g = "" /\ is_request (g_type g) = true /\ mux_rx m d = [MSend r] /\ error_for m 96 g r).
Proof.
  destruct d as [g|]; [|left; reflexivity]. unfold mux_rx. destruct (String.eqb_spec (g_imsi g) "") as [E|E].
  - unfold mux_tx_error_reply, enc_send. destruct (is_request (g_type g)) eqn:R; cbn [negb]; [|left; reflexivity].
    match goal with |- context [m_enc m ?r] => destruct (m_enc m r && m_conn m); [|left; reflexivity]; right; right; exists g, r end.
    split; [reflexivity|]. split; [exact E|]. split; [exact R|]. split; [reflexivity|].
    unfold error_for, mux_set_source, is_request, to_error, CAUSE_INV_MAND_INFO, SS_NONE, SS_END in *. apply Z.eqb_eq in R.
    destruct (m_name m) as [s|]; cbn [with_src g_type g_imsi g_cause g_class g_dst g_mr g_src g_ss g_sid].
    + repeat (split; [first [reflexivity|lia]|]). split; [intros s' X; injection X as <-; reflexivity|].
      destruct (Z.eqb_spec (g_ss g) 0); cbn [negb g_cn g_x]; repeat split; intros; auto; contradiction.
    + repeat (split; [first [reflexivity|lia]|]). split; [discriminate|].
      destruct (Z.eqb_spec (g_ss g) 0); cbn [negb g_cn g_x]; repeat split; intros; auto; contradiction.
  - destruct (_ || _); [left; reflexivity|]. destruct (negb _); [left; reflexivity|]. right; left. eauto.
Qed.

Lemma mux_answers m g : g_imsi g = "" -> is_request (g_type g) = true -> m_conn m = true -> (forall r, m_enc m r = true) ->
  exists r, mux_rx m (Some g) = [MSend r] /\ error_for m 96 g r.
Proof.
  intros E R C N. destruct (mux_outputs m (Some g)) as [X|[(g' & X & Y)|(g' & r & X & _ & _ & Y & Z)]].
  - exfalso. unfold mux_rx, mux_tx_error_reply, enc_send in X. rewrite E, R, N, C in X. discriminate.
  - exfalso. unfold mux_rx, mux_tx_error_reply, enc_send in Y. rewrite E, R, N, C in Y. discriminate.
  - injection X as <-. eauto.
Qed.

Lemma mux_error_reply m g cause :
  (g_type g mod 4 <> 0 -> mux_tx_error_reply m g cause = []) /\
  (g_type g mod 4 = 0 -> m_conn m = true -> (forall r, m_enc m r = true) -> exists r, mux_tx_error_reply m g cause = [MSend r] /\ error_for m cause g r).
Proof.
  unfold mux_tx_error_reply. split.
  - intros N. unfold is_request. destruct (Z.eqb_spec (g_type g mod 4) 0) as [E|E]; cbn [negb]; [contradiction|reflexivity].
  - intros R C N. unfold enc_send.
    assert (R' : is_request (g_type g) = true) by (apply Z.eqb_eq; exact R).
    rewrite R', N, C. cbn [negb andb]. eexists. split; [reflexivity|].
    unfold error_for, mux_set_source, is_request, to_error, SS_NONE, SS_END in *. apply Z.eqb_eq in R'.
    destruct (m_name m) as [s|]; cbn [with_src g_type g_imsi g_cause g_class g_dst g_mr g_src g_ss g_sid].
    + repeat (split; [first [reflexivity|lia]|]). split; [intros s' X; injection X as <-; reflexivity|].
      destruct (Z.eqb_spec (g_ss g) 0); cbn [negb g_cn g_x]; repeat split; intros; auto; contradiction.
    + repeat (split; [first [reflexivity|lia]|]). split; [discriminate|].
      destruct (Z.eqb_spec (g_ss g) 0); cbn [negb g_cn g_x]; repeat split; intros; auto; contradiction.
Qed.
