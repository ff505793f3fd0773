(** The VTY commands: what they do for the subscriber named. *)
From Verif Require Import Base PeerId PeerThms Db DbSpec DbProofs DbThms DbThms2 DbThms3 Auth AuthSpec AuthThms Gsup Router Hlr PeerSpec HlrSpec HlrSpec2 HlrThms RouterThms Ctrl CtrlSpec CtrlThms CtrlThms2 CtrlThms3 CtrlThms4 VtySubscr VtySpec VtyThms VtyThms2.
Local Open Scope string_scope.
Local Open Scope list_scope.
Local Open Scope Z_scope.

Lemma sole_number d t i r : db_inv d -> ids_fit d -> sole d t i r -> number_if_id t i.
Proof.
  intros V FT (I & N & _) E. destruct N; try discriminate. eexists. split; [eassumption|]. exact (row_range d _ V FT I).
Qed.
Lemma on_sole' k t i d r h f : db_inv d -> ids_fit d -> imeis_ok d -> sole d t i r -> sub_of_row (k_tz k) r = Some h -> run (on_argv k t i f) [] d = run (f h) [] d.
Proof. intros V FT IM S. apply on_sole; auto. exact (sole_number d t i r V FT S). Qed.

(** ** Updates of the row *)
Lemma imsi_split d r : db_inv d -> In r (d_sub d) -> exists a b, d_sub d = a ++ r :: b /\
  forall y f x2 x3 xi, s_imsi y = s_imsi r -> upd_sub (by_imsi (s_imsi r)) f (mk_db (a ++ y :: b) x2 x3 xi) = (RDone 1, mk_db (a ++ f y :: b) x2 x3 xi).
Proof.
  intros V I. pose proof (rows_nodup d V) as ND. pose proof I as I'. apply in_split in I' as (a & b & E). exists a, b. split; [exact E|]. intros y f x2 x3 xi Y.
  assert (X : forall x, In x (a ++ b) -> by_imsi (s_imsi r) x = false).
  { intros x Ix. unfold by_imsi. apply String.eqb_neq. intros Q. rewrite E in ND. apply NoDup_remove_2 in ND. destruct ND.
    replace r with x; [exact Ix|]. apply (row_eq d); auto. rewrite E. apply in_app_iff in Ix. apply in_app_iff. cbn. tauto. }
  assert (Z : forall l, (forall x, In x l -> by_imsi (s_imsi r) x = false) -> upd (by_imsi (s_imsi r)) f l = l /\ filter (by_imsi (s_imsi r)) l = []).
  { induction l as [|x l IH]; intros H; [split; reflexivity|]. cbn. rewrite (H x) by now left. destruct (IH (fun z Iz => H z (or_intror Iz))) as [A B]. unfold upd in A. rewrite A, B. split; reflexivity. }
  destruct (Z a) as [A1 A2]; [intros x Ix; apply X, in_app_iff; auto|]. destruct (Z b) as [B1 B2]; [intros x Ix; apply X, in_app_iff; auto|].
  assert (C : by_imsi (s_imsi r) y = true) by (unfold by_imsi; rewrite Y; apply String.eqb_refl).
  unfold upd_sub, upd, cnt in *. cbn [d_sub]. rewrite map_app, filter_app. cbn [map filter]. rewrite C, A1, B1, A2, B2. reflexivity.
Qed.
Lemma send_delete_some k v i n : no_percent n = true -> exists o, send_delete k v i n = Some o.
Proof.
  intros NP. unfold send_delete. destruct (n =? "")%string; [eauto|]. destruct (ipa_set_str ipa_empty (Some n)) as [nm|] eqn:E.
  - destruct (ipa_set_str_bytes _ _ _ ipa_empty_wf E) as (W & B). unfold enc_send_to. destruct (k_enc k _); [|eauto].
    unfold send_to. destruct (in_len nm) eqn:L; [|destruct (_ =? _)%char; [destruct (route_find _ _); eauto|destruct (_ <=? _)%nat; [eauto|destruct (route_find _ _); eauto]]].
    exfalso. unfold text_names, ipa_bytes in B. rewrite L in B. cbn [firstn] in B. symmetry in B. apply app_eq_nil in B as [_ B]. discriminate.
  - unfold ipa_set_str in E. rewrite NP in E. discriminate.
Qed.
Lemma take_percent n s : no_percent s = true -> no_percent (str_take n s) = true.
Proof.
  unfold no_percent. revert s. induction n as [|n IH]; intros [|c s] H; try reflexivity. change (str_take (Datatypes.S n) (String c s)) with (String c (str_take n s)). cbn [str_forall] in *. apply andb_true_iff in H as [H1 H2]. rewrite H1, (IH s H2). reflexivity.
Qed.
Lemma callable_nodes tz r h : callable r -> sub_of_row tz r = Some h -> no_percent (h_vlr h) = true /\ no_percent (h_sgsn h) = true.
Proof.
  intros [_ C] H. unfold sub_of_row in H. destruct (ipa_set_str _ _); [|discriminate]. destruct (ipa_set_str _ _); [|discriminate]. injection H as <-. cbn [h_vlr h_sgsn].
  assert (G : forall o, (o = s_vlr r \/ o = s_sgsn r) -> no_percent (text_to_buf 32 o) = true).
  { intros [p|] O; [|reflexivity]. apply take_percent. unfold no_percent. rewrite get_forall. intros n c E. apply negb_true_iff, Ascii.eqb_neq. intros ->. apply (C p) with (n := n); [destruct O; auto|exact E]. }
  split; apply G; auto.
Qed.
Lemma row_fields tz d r h : db_inv d -> imeis_ok d -> In r (d_sub d) -> sub_of_row tz r = Some h -> shows r h.
Proof.
  intros V IM I H. pose proof (row_imsi tz d r h V I H) as E. unfold shows.
  pose proof (proj1 (Forall_forall _ _) (iv_wf d V) r I) as W.
  unfold sub_of_row in H. destruct (ipa_set_str _ _); [|discriminate]. destruct (ipa_set_str _ _); [|discriminate]. injection H as <-. cbn in *.
  split; [reflexivity|]. split; [exact E|]. split; [|split; [|auto]].
  - destruct W as [_ W]. destruct (s_msisdn r) as [m|]; [|reflexivity]. cbn. apply str_take_all. pose proof (msisdn_len m) as L. specialize (L ltac:(auto)). lia.
  - destruct (s_imei r) as [m|] eqn:Q; [|reflexivity]. destruct (IM r m I Q) as [L _]. cbn. apply str_take_all. lia.
Qed.

Lemma quoted_app s t : (quoted s ++ t)%string = ("'" ++ s ++ "'" ++ t)%string.
Proof. unfold quoted. cbn [String.append]. f_equal. induction s as [|c s IH]; [reflexivity|]. cbn [String.append]. now rewrite IH. Qed.
Lemma db_sel_nil tz s cond d : (forall d0, exec s d0 = sel cond d0) ->
  run (db_sel tz s) [] d = (match find cond (d_sub d) with Some r => match sub_of_row tz r with Some h => Fin (0, Some h) | None => Ub end | None => Fin (- ENOENT, None) end, d, []).
Proof.
  intros X. destruct (db_sel_run tz s cond [] d X) as [c' R]. destruct (run_nil (db_sel tz s) d) as (o & d' & E'). rewrite E' in R. injection R as -> -> <-. exact E'.
Qed.
(** the database with one row in place of another *)
Lemma nam_step k v h r y d a b x2 x3 xi val (ps : bool) : db_inv d -> no_percent (h_vlr h) = true -> no_percent (h_sgsn h) = true -> h_imsi h = s_imsi r -> s_imsi y = s_imsi r ->
  (forall y f x2 x3 xi, s_imsi y = s_imsi r -> upd_sub (by_imsi (s_imsi r)) f (mk_db (a ++ y :: b) x2 x3 xi) = (RDone 1, mk_db (a ++ f y :: b) x2 x3 xi)) ->
  exists o, run (if Bool.eqb val (if ps then h_nam_ps h else h_nam_cs h) then Ret [] else do r <- hlr_subscr_nam k v h val ps;; Ret (snd r)) [] (mk_db (a ++ y :: b) x2 x3 xi) =
    (Fin o, mk_db (a ++ (if Bool.eqb val (if ps then h_nam_ps h else h_nam_cs h) then y else if ps then set_nam_ps val y else set_nam_cs val y) :: b) x2 x3 xi, []).
Proof.
  intros V N1 N2 E Y U. destruct (Bool.eqb val _) eqn:Q; [exists []; reflexivity|]. unfold hlr_subscr_nam.
  replace (Bool.eqb (if ps then h_nam_ps h else h_nam_cs h) val) with false by (destruct (if ps then h_nam_ps h else h_nam_cs h), val; cbn in *; congruence).
  rewrite run_bind, run_bind, E. unfold db_subscr_nam.
  destruct (send_delete_some k v (s_imsi r) (h_vlr h) N1) as [o1 O1]. destruct (send_delete_some k v (s_imsi r) (h_sgsn h) N2) as [o2 O2].
  destruct ps; cbn [run exec]; rewrite (U y _ x2 x3 xi Y); cbn [run]; (destruct val; [exists []; reflexivity|]); rewrite O1, O2; exists (o1 ++ o2); reflexivity.
Qed.
Lemma contains_word w b1 b2 : access_word w b1 b2 -> contains "cs" w = b1 /\ contains "ps" w = b2.
Proof. intros []; split; reflexivity. Qed.
Theorem vty_write k s cmd t i c d r r' : db_ok d -> ids_fit d -> imeis_ok d -> no_fault c -> about cmd t i -> sole d t i r -> callable r -> asks cmd r r' ->
  (forall m, s_msisdn r' = Some m -> forall x, In x (d_sub d) -> s_msisdn x = Some m -> s_imsi x = s_imsi r) ->
  exists text o, run_out (vty_run k s cmd) c d = Fin (VOk text, o) /\ says cmd r' text /\ replaced r r' d (run_db (vty_run k s cmd) c d).
Proof.
  intros OK FT IM NF AB S CA W U. rewrite (proj1 (run_no_fault _ c d NF)), (proj2 (run_no_fault _ c d NF)). apply db_ok_inv in OK.
  destruct (readable_sub (k_tz k) r (proj1 CA)) as [h H]. pose proof S as (I & _). pose proof (row_imsi (k_tz k) d r h OK I H) as FI.
  destruct (imsi_split d r OK I) as (a & b & ED & EU). unfold replaced.
  assert (D0 : mk_db (a ++ r :: b) (d_auc2 d) (d_auc3 d) (d_ind d) = d) by (rewrite <- ED; destruct d; reflexivity).
  assert (EM : forall o, (forall m, o = Some m -> is_msisdn m /\ forall x, In x (d_sub d) -> s_msisdn x = Some m -> s_imsi x = s_imsi r) ->
     run (db_subscr_update_msisdn_by_imsi (s_imsi r) o) [] d = (Fin 0, mk_db (a ++ set_msisdn o r :: b) (d_auc2 d) (d_auc3 d) (d_ind d), [])).
  { intros o Q. destruct o as [m|]; cbn [db_subscr_update_msisdn_by_imsi].
    - destruct (Q m eq_refl) as [Qm Qu]. apply msisdn_valid_spec in Qm. rewrite Qm. cbn [negb run exec].
      rewrite (proj2 (existsb_conflict d (s_imsi r) m)) by exact Qu. rewrite andb_false_r. rewrite <- D0 at 1. rewrite EU by reflexivity. reflexivity.
    - cbn [run exec]. rewrite <- D0 at 1. rewrite EU by reflexivity. reflexivity. }
  assert (EI : forall o, (forall m, o = Some m -> is_imei14 m) ->
     run (db_subscr_update_imei_by_imsi (s_imsi r) o) [] d = (Fin 0, mk_db (a ++ set_imei o r :: b) (d_auc2 d) (d_auc3 d) (d_ind d), [])).
  { intros o Q. destruct o as [m|]; cbn [db_subscr_update_imei_by_imsi].
    - specialize (Q m eq_refl). apply imei_valid_spec in Q. rewrite Q. cbn [negb run exec]. rewrite <- D0 at 1. rewrite EU by reflexivity. reflexivity.
    - cbn [run exec]. rewrite <- D0 at 1. rewrite EU by reflexivity. reflexivity. }
  destruct W as [t0 x m i0 im ms ie vl sg cs ps pc pp lc lp vp sp M|t0 x i0 im ms ie vl sg cs ps pc pp lc lp vp sp|t0 x m i0 im ms ie vl sg cs ps pc pp lc lp vp sp M
    |t0 x m ch i0 im ms ie vl sg cs ps pc pp lc lp vp sp M|t0 x i0 im ms ie vl sg cs ps pc pp lc lp vp sp|t0 x w b1 b2 i0 im ms ie vl sg cs ps pc pp lc lp vp sp AW];
    destruct AB as [<- <-]; cbn [vty_run says s_imsi s_msisdn s_imei] in *.
  - unfold vty_set_msisdn. pose proof (proj2 (msisdn_valid_spec m) M) as MV. pose proof (msisdn_len m MV) as L.
    assert (NN : (m =? "none")%string = false). { apply String.eqb_neq. intros ->. discriminate MV. } rewrite NN. cbv zeta match.
    rewrite MV. replace (15 <? String.length m)%nat with false by (symmetry; apply Nat.ltb_ge; lia). cbn [negb].
    unfold run_out, run_db. rewrite (on_sole' k t i d _ h _ OK FT IM S H), FI, run_bind, (EM (Some m)).
    + cbn [negb Z.eqb]. rewrite run_bind. change (db_subscr_get_by_msisdn (k_tz k) m) with (db_sel (k_tz k) (SEL_BY_MSISDN m)).
      set (d' := mk_db _ _ _ _). rewrite (db_sel_nil (k_tz k) (SEL_BY_MSISDN m) (by_msisdn m) d' (fun _ => eq_refl)).
      assert (RD : forall y, In y (d_sub d') -> by_msisdn m y = true -> exists h', sub_of_row (k_tz k) y = Some h').
      { intros y Iy By. assert (Y : y = mk_sub i0 im (Some m) ie vl sg cs ps pc pp lc lp vp sp).
        { subst d'. cbn [d_sub] in Iy. apply in_app_iff in Iy as [Iy|[<-|Iy]]; [|reflexivity|]; exfalso.
          all: assert (Iy' : In y (d_sub d)) by (rewrite ED; apply in_app_iff; cbn; tauto).
          all: assert (My : s_msisdn y = Some m) by (unfold by_msisdn in By; destruct (s_msisdn y); [apply String.eqb_eq in By; congruence|discriminate]).
          all: pose proof (U m eq_refl y Iy' My) as Q; pose proof (rows_nodup d OK) as ND; rewrite ED in ND; apply NoDup_remove_2 in ND; destruct ND.
          all: match goal with |- In ?r _ => replace r with y; [apply in_app_iff; tauto|apply (row_eq d); auto] end. }
        subst y. apply readable_sub. exact (proj1 CA). }
      destruct (find (by_msisdn m) (d_sub d')) as [y|] eqn:Fd.
      * apply find_some in Fd as [Iy By]. destruct (RD y Iy By) as [h' H']. rewrite H'. cbn [run fst snd]. eexists _, _. split; [reflexivity|]. split; [try rewrite quoted_app; reflexivity|]. exists a, b. split; [exact ED|reflexivity].
      * cbn [run fst snd]. eexists _, _. split; [reflexivity|]. split; [try rewrite quoted_app; reflexivity|]. exists a, b. split; [exact ED|reflexivity].
    + intros m' [= <-]. split; [exact M|]. exact (U m eq_refl).
  - unfold vty_set_msisdn. cbn [String.eqb Ascii.eqb Bool.eqb]. cbv zeta match.
    unfold run_out, run_db. rewrite (on_sole' k t i d _ h _ OK FT IM S H), FI, run_bind, (EM None) by discriminate.
    cbn [negb Z.eqb run fst snd]. eexists _, _. split; [reflexivity|]. split; [try rewrite quoted_app; reflexivity|]. exists a, b. split; [exact ED|reflexivity].
  - unfold vty_set_imei. assert (NN : (m =? "none")%string = false). { apply String.eqb_neq. intros ->. destruct M as [L _]. cbn in L. lia. } rewrite NN. cbv zeta match.
    assert (CC : cut_check m = m) by (unfold cut_check; now rewrite (imei14_not15 m M)). rewrite CC.
    rewrite (proj2 (imei_valid_spec m) M). cbn [negb]. rewrite andb_false_r.
    unfold run_out, run_db. rewrite (on_sole' k t i d _ h _ OK FT IM S H), FI, run_bind, (EI (Some m)) by (intros ? [= <-]; exact M).
    cbn [negb Z.eqb run fst snd]. eexists _, _. split; [reflexivity|]. split; [try rewrite quoted_app; reflexivity|]. exists a, b. split; [exact ED|reflexivity].
  - unfold vty_set_imei. assert (M14 : is_imei14 m) by apply M.
    assert (NN : ((m ++ String ch "") =? "none")%string = false). { apply String.eqb_neq. intros Q. destruct M14 as [L _]. apply (f_equal String.length) in Q. rewrite str_len_app in Q. cbn in Q. lia. } rewrite NN. cbv zeta match.
    pose proof (cut_checked m ch M) as C1. pose proof (proj1 (is_imei14_digits m) M14) as [L14 _]. rewrite C1, (proj2 (imei15_is m ch L14) M). cbn [negb andb].
    unfold run_out, run_db. rewrite (on_sole' k t i d _ h _ OK FT IM S H), FI, run_bind, (EI (Some m)) by (intros ? [= <-]; exact M14).
    cbn [negb Z.eqb run fst snd]. eexists _, _. split; [reflexivity|]. split; [try rewrite quoted_app; reflexivity|]. exists a, b. split; [exact ED|reflexivity].
  - unfold vty_set_imei. cbn [String.eqb Ascii.eqb Bool.eqb]. cbv zeta match.
    unfold run_out, run_db. rewrite (on_sole' k t i d _ h _ OK FT IM S H), FI, run_bind, (EI None) by discriminate.
    cbn [negb Z.eqb run fst snd]. eexists _, _. split; [reflexivity|]. split; [try rewrite quoted_app; reflexivity|]. exists a, b. split; [exact ED|reflexivity].
  - unfold vty_set_nam. destruct (contains_word w b1 b2 AW) as [-> ->]. cbv zeta.
    destruct (callable_nodes _ _ h CA H) as [N1 N2]. pose proof (row_fields _ d _ h OK IM I H) as SH. destruct SH as (_ & _ & _ & _ & F1 & F2 & _). cbn [s_nam_cs s_nam_ps] in F1, F2.
    unfold run_out, run_db. rewrite (on_sole' k t i d _ h _ OK FT IM S H), run_bind.
    match type of I with In ?r0 _ => set (r := r0) in * end.
    destruct (nam_step k (t_srv s) h r r d a b (d_auc2 d) (d_auc3 d) (d_ind d) b1 false OK N1 N2 FI eq_refl EU) as [o1 E1]. cbv match in E1. rewrite D0 in E1. rewrite E1. clear E1.
    rewrite run_bind.
    match goal with |- context [run _ [] (mk_db (a ++ ?y0 :: b) _ _ _)] => set (y := y0) end.
    assert (Y : s_imsi y = s_imsi r) by (unfold y; destruct (Bool.eqb b1 (h_nam_cs h)); reflexivity).
    destruct (nam_step k (t_srv s) h r y d a b (d_auc2 d) (d_auc3 d) (d_ind d) b2 true OK N1 N2 FI Y EU) as [o2 E2]. cbv match in E2. rewrite E2. clear E2.
    cbn [run fst snd]. eexists _, _. split; [reflexivity|]. split; [try rewrite quoted_app; reflexivity|]. exists a, b. split; [exact ED|]. f_equal. f_equal. f_equal.
    unfold y. rewrite F1, F2. unfold r. destruct b1, b2, cs, ps; reflexivity.
Qed.
