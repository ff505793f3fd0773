(** One step of the load test client. *)
From Verif Require Import Base Gsup Client CtrlSpec TestClient TestSpec TestThms TestThms2.
Local Open Scope Z_scope.

Lemma no_answer_ask x : ~ lu_answer x TAsk.
Proof. intros [H|H]; discriminate. Qed.
Lemma sai_ne x t : sai_answer x (TRx (Some (x, t))) <-> t = 9 \/ t = 10.
Proof. unfold sai_answer. split; intros [H|H]; [left|right|left|right]; congruence. Qed.

Lemma step_ask enc s tr r : tinv enc s tr -> tstep enc TAsk s = Some r ->
  exists s' o, r = TOk (s', o) /\ made enc tr (is_up s) TAsk o /\ tinv enc s' (tr ++ [(TAsk, o)]).
Proof.
  intros V H. cbn [tstep] in H. destruct (N.ltb_spec (t_i s) 10000) as [L|]; [|discriminate]. injection H as <-.
  set (x := imsi_at (t_i s)). pose proof (imsi_at_ok _ L) as K. fold x in K.
  assert (NX : ~ In x (tried 8 tr)).
  { rewrite (v_asked _ _ _ V), asked_in. intros (k & LK & E). apply imsi_at_inj in E; lia. }
  assert (NT : ~ In x (tried 4 tr)) by (intros M; apply NX; now apply (v_sub _ _ _ V)).
  assert (NS : ~ In (mk_op x OpSai) (t_ops s)) by (rewrite (v_sai _ _ _ V); intros [A _]; auto).
  unfold request, imsi_op_alloc.
  assert (F : imsi_op_find x OpSai (with_i s (t_i s + 1)) = None) by (apply find_none_op; exact NS). rewrite F. rewrite take_id by (destruct K; lia). cbn [p_imsi].
  match goal with |- context [encode_send enc _ x ?st] => set (s1 := st) end.
  destruct (encode_shape enc MSGT_SEND_AUTH_INFO_REQUEST x s1) as (b & s2 & o & E & O & E1 & E2 & E3 & E4 & E5 & G). rewrite E.
  exists s2, o. split; [reflexivity|]. replace (is_up s1) with (is_up s) in O by (destruct s; reflexivity).
  assert (LL : length (tried 8 tr) = N.to_nat (t_i s)) by (rewrite (v_asked _ _ _ V); apply asked_len).
  split. { apply m_ask with (x := x); [rewrite LL, N2Nat.id; exact K|exact O]. }
  pose proof (one_tried _ _ _ _ _ 8 O) as T8. pose proof (one_tried _ _ _ _ _ 4 O) as T4. cbn [Z.eqb MSGT_SEND_AUTH_INFO_REQUEST Pos.eqb] in T8, T4.
  pose proof (one_given _ _ _ _ _ 18 O ltac:(discriminate)) as S18.
  assert (TK : forall ts, took ts (TAsk, o) = false) by reflexivity.
  subst s1. destruct V. destruct s as [gc ops a u d i n]. cbn in *. rename s2 into s'.
  constructor; rewrite ?E1, ?E2, ?E3, ?E4, ?E5, ?tried_snoc, ?given_snoc, ?handled_snoc, ?TK, ?T8, ?T4, ?S18, ?app_nil_r, ?Nat.add_0_r; auto.
  - lia.
  - replace (N.to_nat (i + 1)) with (S (N.to_nat i)) by lia. rewrite asked_S, v_asked, N2Nat.id. reflexivity.
  - intros y M. apply in_or_app. left. now apply v_sub.
  - constructor; auto.
  - intros y. unfold awaits_info. rewrite !tried_snoc, T8, T4, app_nil_r, in_app_iff. cbn [In]. rewrite v_sai. unfold awaits_info. split.
    + intros [[= <-]|[A B]]; tauto.
    + intros [[A|[<-|[]]] B]; tauto.
  - intros y. rewrite awaits_none by auto. rewrite <- v_lu. cbn [In]. split; [intros [X|M]; [discriminate|]; split; auto; apply no_answer_ask|tauto].
  - intros y. unfold stuck_insert. rewrite map_app, in_app_iff. cbn [map fst In]. specialize (v_isd y). unfold stuck_insert in v_isd. split.
    + intros [X|M]; [discriminate|]. apply v_isd in M. tauto.
    + intros (A & B & [C|[C|[]]]); [|discriminate]. right. apply v_isd. auto.
  - unfold stats_are in *. cbn. destruct v_ssai as (A1 & A2 & A3 & A4 & A5). rewrite app_length. repeat split; auto. now apply counts_inc.
  - rewrite app_length. unfold open_ops in *. cbn [filter p_type op_eqb length]. lia.
Qed.

Lemma step_link enc s tr now rc e r : tinv enc s tr -> tstep enc (TLink now rc e) s = Some r ->
  exists s' o, r = TOk (s', o) /\ made enc tr (is_up s) (TLink now rc e) o /\ tinv enc s' (tr ++ [(TLink now rc e, o)]).
Proof.
  intros V H. cbn [tstep] in H. assert (exists c, t_gc s = Some c /\ exists c' o, cstep now (env rc) e c = Some (c', o) /\ r = TOk (with_gc s (Some c'), [TClient o])) as (c & G & c' & o & C & ->).
  { destruct e; try discriminate; destruct (t_gc s) as [c|] eqn:G; try discriminate; exists c; split; auto; destruct (t_i s =? 0)%N; try discriminate;
      destruct (cstep now (env rc) _ c) as [[c' o]|] eqn:C; try discriminate; injection H as <-; eauto. }
  exists (with_gc s (Some c')), [TClient o]. split; [reflexivity|]. split; [constructor|].
  eapply tinv_quiet; eauto; try (destruct s; reflexivity).
  - unfold gc_ok. destruct s. cbn in *. subst. pose proof (v_gc _ _ _ V) as K. unfold gc_ok in K. cbn in K. eapply cstep_conn; eauto.
  - intros x [X|X]; discriminate.
  - discriminate.
Qed.

Lemma rx_kept enc s tr m : tinv enc s tr -> (forall x, lu_answer x (TRx m) -> ~ awaits_update x tr) -> (forall x, m = Some (x, 16) -> x <> ""%string -> stuck_insert enc x tr) ->
  tinv enc s (tr ++ [(TRx m, [TKept])]).
Proof. intros V A B. eapply tinv_quiet; eauto; try reflexivity. - apply (v_gc _ _ _ V). - intros x [= ->]. now apply B. Qed.

Lemma by_msgt t : match op_type_by_gsup_msgt t with
  | Some OpSai => t = 9 \/ t = 10 | Some OpLu => t = 5 \/ t = 6 | Some OpIsd => t = 16 | None => ~ In t [5; 6; 9; 10; 16] end.
Proof.
  unfold op_type_by_gsup_msgt, MSGT_SEND_AUTH_INFO_RESULT, MSGT_SEND_AUTH_INFO_REQUEST, MSGT_UPDATE_LOCATION_RESULT, MSGT_UPDATE_LOCATION_REQUEST, MSGT_INSERT_DATA_REQUEST.
  cbn [Z.add Pos.add]. destruct (Z.eqb_spec t 10), (Z.eqb_spec t 9), (Z.eqb_spec t 6), (Z.eqb_spec t 5), (Z.eqb_spec t 16); cbn [orb]; auto;
    intros [X|[X|[X|[X|[X|[]]]]]]; congruence.
Qed.

Lemma nonempty_asked enc s tr x : tinv enc s tr -> In x (tried 8 tr) -> x <> ""%string.
Proof.
  intros V M. rewrite (v_asked _ _ _ V), asked_in in M. destruct M as (k & L & ->). pose proof (v_max _ _ _ V).
  destruct (imsi_at_ok (N.of_nat k) ltac:(lia)) as [_ B]. intros E. rewrite E in B. discriminate.
Qed.

Lemma step_rx enc s tr m r : tinv enc s tr -> tstep enc (TRx m) s = Some r ->
  exists s' o, r = TOk (s', o) /\ made enc tr (is_up s) (TRx m) o /\ tinv enc s' (tr ++ [(TRx m, o)]).
Proof.
  intros V H. cbn [tstep] in H. destruct (t_gc s) as [c|] eqn:G; [|discriminate]. destruct (c_link c) eqn:LK; try discriminate.
  destruct (t_i s =? 0)%N; [discriminate|].
  assert (UP : is_up s = true). { pose proof (v_gc _ _ _ V) as K. unfold gc_ok, is_up in *. rewrite G in *. now apply K. }
  destruct m as [[x t]|].
  2:{ injection H as <-. exists s, [TKept]. split; [reflexivity|]. split; [constructor|]. apply rx_kept; auto; [intros x [X|X]; discriminate|discriminate]. }
  destruct (Nat.leb_spec (String.length x) 16) as [LX|]; [|discriminate]. injection H as <-. cbn [gsupc_read_cb].
  destruct (String.eqb_spec x "") as [->|NE].
  { exists s, [TKept]. split; [reflexivity|]. split; [constructor|]. apply rx_kept; auto.
    - intros y [X|X]; injection X as <- _; intros A; apply awaits_tried in A; apply (v_sub _ _ _ V) in A; now apply (nonempty_asked _ _ _ _ V) in A.
    - intros y X N. injection X as <- _. congruence. }
  pose proof (by_msgt t) as T. destruct (op_type_by_gsup_msgt t) as [[| |]|].
  - (* authentication info *)
    assert (NL : forall y, ~ lu_answer y (TRx (Some (x, t)))) by (intros y [X|X]; injection X as _ X; lia).
    destruct (imsi_op_find x OpSai s) as [io|] eqn:F.
    2:{ exists s, [TKept]. split; [reflexivity|]. apply find_none_op in F. rewrite (v_sai _ _ _ V) in F. split; [now apply m_no_info|].
        apply rx_kept; auto. - intros y L. destruct (NL _ L). - intros y [= <- ->]. lia. }
    apply find_some_op in F as [-> M]. pose proof (proj1 (v_sai _ _ _ V x) M) as A.
    assert (NO : ~ In (mk_op x OpLu) (t_ops s)). { rewrite (v_lu _ _ _ V). intros B. apply awaits_tried in B. now apply A in B. }
    unfold imsi_op_rx_gsup. cbn [p_type p_imsi stats_of with_stats].
    match goal with |- context [request enc _ _ _ ?st] => set (s1 := st) end.
    assert (F : imsi_op_find x OpLu s1 = None) by (apply find_none_op; exact NO). unfold request, imsi_op_alloc. rewrite F, take_id by auto. cbn [p_imsi].
    match goal with |- context [encode_send enc _ x ?st] => set (s2 := st) end.
    destruct (encode_shape enc MSGT_UPDATE_LOCATION_REQUEST x s2) as (b & s3 & o & E & O & E1 & E2 & E3 & E4 & E5 & GK). rewrite E.
    eexists _, _. split; [reflexivity|]. replace (is_up s2) with true in O by (destruct s; cbn in *; congruence).
    split; [now apply m_info|].
    pose proof (one_tried _ _ _ _ _ 8 O) as T8. pose proof (one_tried _ _ _ _ _ 4 O) as T4. cbn [Z.eqb MSGT_UPDATE_LOCATION_REQUEST Pos.eqb] in T8, T4.
    pose proof (one_given _ _ _ _ _ 18 O ltac:(discriminate)) as S18.
    rewrite <- (tried_free 8) in T8. rewrite <- (tried_free 4) in T4. rewrite <- sent_free in S18.
    pose proof (fun ts => took_free ts x t o) as TK. set (o' := o ++ [TFreed]) in *. clearbody o'.
    subst s1 s2. destruct V. destruct s as [gc ops a u d i n]. cbn [t_gc t_ops t_sai t_lu t_isd t_i t_nr with_stats with_ops stats_of with_nr with_gc imsi_op_release p_type p_imsi drop_op n_alloc n_released n_success n_error n_timeout] in * |-. unfold imsi_op_release. cbn [p_type p_imsi stats_of with_stats].
    assert (ND : NoDup (mk_op x OpLu :: ops)) by (constructor; auto).
    assert (MD : In (mk_op x OpSai) (mk_op x OpLu :: ops)) by now right.
    pose proof (open_drop x OpSai _ ND MD) as OD.
    constructor; cbn [t_gc t_ops t_sai t_lu t_isd t_i with_ops];
      rewrite ?E1, ?E2, ?E3, ?E4, ?E5, ?tried_snoc, ?given_snoc, ?handled_snoc, ?TK, ?T8, ?T4, ?S18, ?app_nil_r, ?Nat.add_0_r; auto.
    + apply (NoDup_Add (a := x) (l := tried 4 tr)). { rewrite <- (app_nil_r (tried 4 tr)) at 1. apply Add_app. } split; auto. apply A.
    + intros y Y. apply in_app_or in Y as [Y|[<-|[]]]; [now apply v_sub|apply A].
    + apply drop_nodup. auto.
    + intros y. rewrite drop_in by auto. unfold awaits_info. rewrite !tried_snoc, T8, T4, app_nil_r, in_app_iff. cbn [In]. rewrite v_sai. unfold awaits_info. split.
      * intros [[X|[P Q]] N]; [discriminate|]. split; auto. intros [R|[<-|[]]]; auto.
      * intros [P Q]. split; [right; split; auto|]. intros [= ->]. apply Q. right. now left.
    + intros y. rewrite drop_in by auto. rewrite (awaits_some y x) by auto. rewrite <- v_lu. cbn [In]. split.
      * intros [[[= ->]|P] _]; auto.
      * intros [->|P]; split; auto; discriminate.
    + intros y. rewrite drop_in by auto. cbn [In]. unfold stuck_insert. rewrite map_app, in_app_iff. cbn [map fst In]. specialize (v_isd y). unfold stuck_insert in v_isd. split.
      * intros [[X|P] _]; [discriminate|]. apply v_isd in P. tauto.
      * intros (P & Q & [R|[R|[]]]); [|injection R as _ R; lia]. split; [right; apply v_isd; auto|discriminate].
    + destruct v_ssai as (A1 & A2 & A3 & A4 & A5). unfold stats_are. destruct T as [-> | ->]; cbn; rewrite ?Nat.add_0_r; repeat split; auto; now apply counts_inc.
    + destruct v_slu as (A1 & A2 & A3 & A4 & A5). unfold stats_are. rewrite app_length. destruct T as [-> | ->]; cbn; rewrite ?Nat.add_0_r; repeat split; auto; now apply counts_inc.
    + destruct T as [-> | ->]; cbn; rewrite ?Nat.add_0_r; auto.
    + specialize (OD OpSai). cbn in OD. unfold open_ops in *. cbn in OD, v_osai |- *. destruct T as [-> | ->]; cbn; lia.
    + specialize (OD OpLu). rewrite app_length. cbn in OD. unfold open_ops in *. cbn in OD, v_olu |- *. destruct T as [-> | ->]; cbn; lia.
    + specialize (OD OpIsd). cbn in OD. unfold open_ops in *. cbn in OD, v_oisd |- *. destruct T as [-> | ->]; cbn; lia.
    + rewrite app_length. destruct T as [-> | ->]; cbn; lia.
  - (* location update *)
    destruct (imsi_op_find x OpLu s) as [io|] eqn:F.
    2:{ exists s, [TKept]. split; [reflexivity|]. apply find_none_op in F. rewrite (v_lu _ _ _ V) in F. split; [now apply m_no_update|].
        apply rx_kept; auto. - intros y [L|L]; injection L as <- _; auto. - intros y [= <- ->]. lia. }
    apply find_some_op in F as [-> M]. pose proof (proj1 (v_lu _ _ _ V x) M) as A.
    unfold imsi_op_rx_gsup. cbn [p_type p_imsi stats_of with_stats].
    eexists _, _. split; [reflexivity|]. split; [now apply m_update|]. change ([] ++ [TFreed]) with [TFreed].
    pose proof (fun ts => took_free ts x t []) as TK. cbn [app] in TK.
    destruct V. destruct s as [gc ops a u d i n]. cbn [t_gc t_ops t_sai t_lu t_isd t_i t_nr with_stats with_ops stats_of with_nr with_gc imsi_op_release p_type p_imsi drop_op n_alloc n_released n_success n_error n_timeout] in * |-. unfold imsi_op_release. cbn [p_type p_imsi stats_of with_stats].
    pose proof (open_drop x OpLu _ v_ops M) as OD.
    assert (T8 : tried_out 8 [TFreed] = []) by reflexivity. assert (T4 : tried_out 4 [TFreed] = []) by reflexivity. assert (S18 : sent_out 18 [TFreed] = []) by reflexivity.
    constructor; cbn [t_gc t_ops t_sai t_lu t_isd t_i with_ops];
      rewrite ?tried_snoc, ?given_snoc, ?handled_snoc, ?TK, ?T8, ?T4, ?S18, ?app_nil_r, ?Nat.add_0_r; auto.
    + apply drop_nodup. auto.
    + intros y. rewrite drop_in by auto. unfold awaits_info. rewrite !tried_snoc, T8, T4, !app_nil_r. rewrite v_sai. unfold awaits_info. split; [tauto|]. intros P. split; auto. discriminate.
    + intros y. rewrite drop_in by auto. rewrite awaits_none by auto. rewrite <- v_lu. split; intros [P Q]; split; auto.
      * intros [L|L]; injection L as -> ->; auto.
      * intros [= ->]. apply Q. destruct T as [-> | ->]; [now left|now right].
    + intros y. rewrite drop_in by auto. unfold stuck_insert. rewrite map_app, in_app_iff. cbn [map fst In]. specialize (v_isd y). unfold stuck_insert in v_isd. split.
      * intros [P _]. apply v_isd in P. tauto.
      * intros (P & Q & [R|[R|[]]]); [|injection R as _ R; lia]. split; [apply v_isd; auto|discriminate].
    + destruct v_ssai as (A1 & A2 & A3 & A4 & A5). unfold stats_are. destruct T as [-> | ->]; cbn; rewrite ?Nat.add_0_r; repeat split; auto.
    + destruct v_slu as (A1 & A2 & A3 & A4 & A5). unfold stats_are. destruct T as [-> | ->]; cbn; rewrite ?Nat.add_0_r; repeat split; auto; now apply counts_inc.
    + destruct T as [-> | ->]; cbn; rewrite ?Nat.add_0_r; auto.
    + specialize (OD OpSai). cbn in OD. destruct T as [-> | ->]; cbn; lia.
    + specialize (OD OpLu). cbn in OD. destruct T as [-> | ->]; cbn; lia.
    + specialize (OD OpIsd). cbn in OD. destruct T as [-> | ->]; cbn; lia.
    + destruct T as [-> | ->]; cbn; lia.
  - (* insert data *)
    subst t. unfold imsi_op_alloc. destruct (imsi_op_find x OpIsd s) as [io|] eqn:F.
    { apply find_some_op in F as [-> M]. apply (v_isd _ _ _ V) in M. exists s, [TKept]. split; [reflexivity|]. split; [now apply m_again|].
      apply rx_kept; auto. - intros y [L|L]; discriminate. - intros y [= <-] _. exact M. }
    apply find_none_op in F. pose proof F as NM. rewrite (v_isd _ _ _ V) in F. rewrite take_id by auto.
    unfold imsi_op_rx_gsup. cbn [p_type p_imsi stats_of with_stats]. change (is_error 16) with false. cbv iota.
    assert (NL : forall y, ~ lu_answer y (TRx (Some (x, 16)))) by (intros y [X|X]; discriminate).
    change MSGT_INSERT_DATA_RESULT with 18. destruct (enc 18 x) eqn:EN.
    + match goal with |- context [send 18 x ?st] => set (s1 := st) end.
      destruct (send_shape 18 x s1) as (s2 & k & E & E1 & E2 & E3 & E4 & E5 & GK). rewrite E.
      assert (U : match t_gc s1 with Some c0 => c_conn c0 | None => false end = true) by (destruct s; cbn in *; exact UP). rewrite U. clear E.
      eexists _, _. split; [reflexivity|]. cbn [app]. split; [now apply m_insert|].
      pose proof (fun ts => took_free ts x 16 [TSend k 18 x true]) as TK. cbn [app] in TK.
      set (o := [TSend k 18 x true; TFreed]) in *. assert (T8 : tried_out 8 o = []) by reflexivity. assert (T4 : tried_out 4 o = []) by reflexivity.
      assert (S18 : sent_out 18 o = [x]) by reflexivity. clearbody o. subst s1.
      destruct V. destruct s as [gc ops a u d i n]. cbn [t_gc t_ops t_sai t_lu t_isd t_i t_nr with_stats with_ops stats_of with_nr with_gc imsi_op_release p_type p_imsi drop_op n_alloc n_released n_success n_error n_timeout] in * |-. rewrite (proj2 (is_op_iff x OpIsd _) eq_refl) in E1. unfold stats_are in v_sisd.
      constructor; rewrite ?E1, ?E2, ?E3, ?E4, ?E5, ?tried_snoc, ?given_snoc, ?handled_snoc, ?TK, ?T8, ?T4, ?S18, ?app_nil_r; cbn [existsb Z.eqb Pos.eqb orb]; rewrite ?Nat.add_0_r; auto.
      * intros y. unfold awaits_info. rewrite !tried_snoc, T8, T4, !app_nil_r. apply v_sai.
      * intros y. rewrite awaits_none by auto. rewrite <- v_lu. split; [auto|tauto].
      * intros y. rewrite v_isd. unfold stuck_insert. rewrite map_app, in_app_iff. cbn [map fst In]. split; [tauto|]. intros (P & Q & [R|[R|[]]]); auto. injection R as <-. congruence.
      * destruct v_sisd as (A1 & A2 & A3 & A4 & A5). unfold stats_are. cbn. rewrite app_length. repeat split; auto; now apply counts_inc.
      * rewrite app_length. cbn. lia.
    + eexists _, _. split; [reflexivity|]. cbn [app]. split; [now apply m_stuck|].
      pose proof (fun ts => took_free ts x 16 [TLost 18 x]) as TK. cbn [app] in TK.
      set (o := [TLost 18 x; TFreed]) in *. assert (T8 : tried_out 8 o = []) by reflexivity. assert (T4 : tried_out 4 o = []) by reflexivity.
      assert (S18 : sent_out 18 o = []) by reflexivity. clearbody o.
      destruct V. destruct s as [gc ops a u d i n]. cbn [t_gc t_ops t_sai t_lu t_isd t_i t_nr with_stats with_ops stats_of with_nr with_gc imsi_op_release p_type p_imsi drop_op n_alloc n_released n_success n_error n_timeout] in * |-.
      constructor; cbn [t_gc t_ops t_sai t_lu t_isd t_i with_ops with_stats stats_of];
        rewrite ?tried_snoc, ?given_snoc, ?handled_snoc, ?TK, ?T8, ?T4, ?S18, ?app_nil_r; cbn [existsb Z.eqb Pos.eqb orb]; rewrite ?Nat.add_0_r; auto.
      * constructor; auto.
      * intros y. unfold awaits_info. rewrite !tried_snoc, T8, T4, !app_nil_r. cbn [In]. split; [intros [X|P]; [discriminate|now apply v_sai]|right; now apply v_sai].
      * intros y. rewrite awaits_none by auto. rewrite <- v_lu. cbn [In]. split; [intros [X|P]; [discriminate|auto]|tauto].
      * intros y. cbn [In]. rewrite v_isd. unfold stuck_insert. rewrite map_app, in_app_iff. cbn [map fst In]. split.
        -- intros [[= <-]|P]; [auto 10|tauto].
        -- intros (P & Q & [R|[R|[]]]); auto. left. congruence.
      * destruct v_sisd as (A1 & A2 & A3 & A4 & A5). unfold stats_are. cbn. repeat split; auto; now apply counts_inc.
      * unfold open_ops in *. cbn. lia.
  - exists s, [TKept]. split; [reflexivity|]. split; [now apply m_other|]. apply rx_kept; auto.
    + intros y [L|L]; injection L as <- ->; exfalso; apply T; cbn; auto.
    + intros y [= <- ->]. exfalso. apply T. cbn. auto 10.
Qed.

Lemma step_all enc s tr e r : tinv enc s tr -> tstep enc e s = Some r ->
  exists s' o, r = TOk (s', o) /\ made enc tr (is_up s) e o /\ tinv enc s' (tr ++ [(e, o)]).
Proof. destruct e; [apply step_ask|apply step_link|apply step_rx]. Qed.

Lemma start_inv enc now rc : tinv enc (tstart now rc) [].
Proof.
  assert (A : forall x, ~ awaits_update x []). { intros x (a & e & o & b & H & _). destruct a; discriminate. }
  constructor; cbn; auto; try lia; try (now constructor).
  - unfold gc_ok, tstart. cbn. destruct (client_create now (env rc)) as [[c o]|] eqn:E; auto. apply create_conn in E. apply E.
  - intros x []. 
  - intros x. unfold awaits_info. cbn. tauto.
  - intros x. split; [tauto|apply A].
  - intros x. unfold stuck_insert. cbn. tauto.
Qed.

Lemma run_inv enc l : forall s tr, tinv enc s tr -> match trun enc l s tr with Some (TOk (s', tr')) => tinv enc s' tr' | Some TUb => False | None => True end.
Proof.
  induction l as [|e l IH]; intros s tr V; cbn [trun]; auto. destruct (tstep enc e s) as [r|] eqn:E; auto.
  destruct (step_all _ _ _ _ _ V E) as (s' & o & -> & _ & V'). now apply IH.
Qed.
Lemma reached_inv enc s tr : treached enc s tr -> tinv enc s tr.
Proof. intros (now & rc & l & H). pose proof (run_inv enc l _ _ (start_inv enc now rc)) as R. now rewrite H in R. Qed.
