(** Saving and reading (C56), PDP profiles (C57) *)
From Verif Require Import Base PeerId Db DbSpec DbProofs DbThms DbThms2 DbThms3 Auth Gsup Router Hlr UssdCfg SmsCfg UssdSpec UssdThms MsLookup Mdns Proxy MsServer PeerSpec PeerThms MsServerSpec MsServerThms Ctrl CtrlSpec CtrlThms CtrlThms4 VtyListThms Config ConfigSpec ConfigThms ConfigThms2 ConfigThms3 ConfigThms4 ConfigThms5 ConfigThms6.
Local Open Scope string_scope.
Local Open Scope list_scope.

(** what the lines before ps or mslookup make of the initial configuration *)
Definition hlr_but_ps (c d : conf) : Prop :=
  f_reject c = f_reject d /\ f_noproxy c = f_noproxy d /\ f_imei c = f_imei d /\ f_db c = f_db d /\ cod_same c d /\
  f_bind c = f_bind d /\ f_name c = f_name d /\ ussd_same (f_ussd c) (f_ussd d) /\ f_ncss c = f_ncss d /\ ussd_same (f_smsc c) (f_smsc d).
Lemma hlr_sec e R c : cinv e c -> no_dangling c -> exists u s d, write_euse c = Val u /\ write_smsc c = Val s /\
  sec e 1 NdHlr R (tl (write_hlr c) ++ write_gsup c ++ u ++ s) conf0 d /\ hlr_but_ps c d /\ f_pdp d = f_pdp conf0 /\ f_srv d = f_srv conf0 /\ f_cli d = f_cli conf0.
Proof.
  intros I [D1 D2]. destruct I as [I1 I2 I3 I4 I5 I6 I7 I8 [I9 I9'] _ _ _].
  destruct (table_some _ D1) as [t T]. destruct (table_some _ D2) as [t2 T2]. destruct (smsc_ext _ _ I9' T2) as (t3 & T3 & ->).
  destruct (rebuilt _ _ I7 T) as [U1 U2]. destruct (rebuilt _ _ I9 T2) as [V1 V2]. rewrite <- srebuild_u in V1, V2.
  set (d5 := cod_put (set_db (set_imei (set_noproxy (set_reject conf0 (f_reject c)) (f_noproxy c)) (f_imei c)) (f_db c)) c).
  assert (E5 : f_bind d5 = None /\ f_ussd d5 = ucfg0 /\ f_smsc d5 = ucfg0 /\ f_ncss d5 = NCSS_DEFAULT) by (unfold d5, cod_put; destruct (f_cod c); cbn; auto).
  destruct E5 as (E1 & E2 & E3 & E4).
  set (d7 := set_name (set_bind d5 (f_bind c)) (f_name c)).
  set (d8 := set_ussd d7 (ucmds_run ucfg0 (rebuild (f_ussd c) t))).
  set (d9 := set_ncss d8 (f_ncss c)).
  set (d10 := set_smsc d9 (ucmds_run ucfg0 (map as_ucmd (srebuild (f_smsc c) t3)))).
  eexists. eexists. exists d10. split; [apply write_euse_lines; eauto|]. split; [apply write_smsc_lines; eauto|]. split; [|split; [|split; [|split]]].
  - unfold write_hlr. cbn [app tl].
    change (out 1 ["reject-cause"; "not-found"; cause_name (f_reject c)] :: out 1 ["reject-cause"; "no-proxy"; cause_name (f_noproxy c)] :: ?x)
      with ([out 1 ["reject-cause"; "not-found"; cause_name (f_reject c)]] ++ [out 1 ["reject-cause"; "no-proxy"; cause_name (f_noproxy c)]] ++ x).
    rewrite <- !app_assoc.
    eapply sec_app; [apply (reject_sec e R conf0 (f_reject c)); auto|].
    eapply sec_app; [apply noproxy_sec; auto|].
    eapply sec_app; [apply imei_sec; reflexivity|].
    eapply sec_app; [apply db_sec; auto|].
    eapply sec_app; [apply cod_sec; auto|]. fold d5.
    eapply sec_app; [apply gsup_sec; auto|]. fold d7.
    eapply sec_app; [apply ussd_sec; [apply rebuild_uwords; auto|change (f_ussd d7) with (f_ussd d5); rewrite E2; auto]|].
    change (f_ussd d7) with (f_ussd d5). rewrite E2. fold d8.
    eapply sec_app; [apply ncss_sec; auto|]. fold d9.
    assert (Q : f_smsc d9 = ucfg0) by (change (f_smsc d9) with (f_smsc d5); auto).
    unfold d10. rewrite <- Q at 1. apply smsc_sec; [|rewrite Q; auto].
    pose proof (rebuild_uwords _ _ I9 T2) as P. rewrite <- srebuild_u, Forall_map in P. exact P.
  - unfold hlr_but_ps, d10, d9, d8, d7, d5. assert (X : cod_same c (cod_put (set_db (set_imei (set_noproxy (set_reject conf0 (f_reject c)) (f_noproxy c)) (f_imei c)) (f_db c)) c)).
    { unfold cod_same, cod_put. destruct (f_cod c); cbn; split; auto; congruence. }
    assert (Y : forall d, f_reject (cod_put d c) = f_reject d /\ f_noproxy (cod_put d c) = f_noproxy d /\ f_imei (cod_put d c) = f_imei d /\ f_db (cod_put d c) = f_db d)
      by (intros d; unfold cod_put; destruct (f_cod c); cbn; auto).
    cbn [set_smsc set_ncss set_ussd set_name set_bind f_reject f_noproxy f_imei f_db f_bind f_name f_ussd f_ncss f_smsc].
    destruct (Y (set_db (set_imei (set_noproxy (set_reject conf0 (f_reject c)) (f_noproxy c)) (f_imei c)) (f_db c))) as (Y1 & Y2 & Y3 & Y4). rewrite Y1, Y2, Y3, Y4.
    cbn [set_db set_imei set_noproxy set_reject f_reject f_noproxy f_imei f_db]. repeat (split; [solve [auto | exact X]|]). exact V2.
  - unfold d10, d9, d8, d7, d5, cod_put. destruct (f_cod c); reflexivity.
  - unfold d10, d9, d8, d7, d5, cod_put. destruct (f_cod c); reflexivity.
  - unfold d10, d9, d8, d7, d5, cod_put. destruct (f_cod c); reflexivity.
Qed.
Lemma hlr_ps_file e c : cinv e c -> no_dangling c -> packed (f_pdp c) -> apns_ok e c -> exists u s d, write_euse c = Val u /\ write_smsc c = Val s /\
  sec e 0 NdConfig [] (write_hlr c ++ write_gsup c ++ u ++ s ++ write_ps c) conf0 d /\ hlr_same c d /\ f_srv d = f_srv conf0 /\ f_cli d = f_cli conf0.
Proof.
  intros I D P A. destruct (hlr_sec e [(Some 0%nat, NdConfig)] c I D) as (u & s & d & U & S & X & H & E1 & E2 & E3).
  destruct (ps_sec e [(Some 0%nat, NdConfig)] d c (i_pdp _ _ I) A P E1) as (p & Y & Q). exists u, s, (set_pdp d p). split; auto. split; auto. split; [|split; [|auto]].
  - change (write_hlr c) with (out 0 ["hlr"] :: tl (write_hlr c)). cbn [app]. eapply sec_block; [kws|reflexivity|reflexivity|].
    rewrite !app_assoc. rewrite !app_assoc in X. eapply sec_app; [exact X|exact Y].
  - destruct H as (A1 & A2 & A3 & A4 & A5 & A6 & A7 & A8 & A9 & A10). do 10 (split; [auto|]). exact Q.
Qed.

Lemma no_ms_lines e c : no_mslookup c -> write_ms e c = [].
Proof. intros (A & B & C). unfold write_ms. rewrite A, B, C. reflexivity. Qed.
Lemma no_ms_same c : no_mslookup c -> srv_same (f_srv c) (f_srv conf0) /\ cli_same (f_cli c) (f_cli conf0).
Proof.
  intros (A & B & C). split.
  - split; [auto|]. rewrite B, A. split; [intros; cbn; tauto|discriminate].
  - split; [auto|]. rewrite C. discriminate.
Qed.
(** the block mslookup without its first line *)
Definition ms_inner (e : venv) (c : conf) : list string := tl (write_ms e c).
Lemma ms_head e c : ~ no_mslookup c -> write_ms e c = out 0 ["mslookup"] :: ms_inner e c.
Proof.
  intros N. unfold ms_inner, write_ms. destruct (negb (sr_on (f_srv c) || negb (is_nil (sr_mscs (f_srv c)))) && negb (cl_on (f_cli c))) eqn:B; [|reflexivity].
  exfalso. apply N. apply andb_true_iff in B as [B1 B2]. apply negb_true_iff in B1, B2. apply orb_false_iff in B1 as [B0 B1]. split; auto. split; auto.
  destruct (sr_mscs (f_srv c)); auto. discriminate.
Qed.
Lemma no_ms_dec c : no_mslookup c \/ ~ no_mslookup c.
Proof.
  unfold no_mslookup. destruct (sr_on (f_srv c)); [right; intros (A & _); discriminate|]. destruct (sr_mscs (f_srv c)); [|right; intros (_ & A & _); discriminate].
  destruct (cl_on (f_cli c)); [right; intros (_ & _ & A); discriminate|left; auto].
Qed.
Lemma ms_sec e R c d : cinv e c -> addrs_ok e c -> ~ no_mslookup c -> f_srv d = f_srv conf0 -> f_cli d = f_cli conf0 ->
  exists s k, sec e 1 NdMs R (ms_inner e c) d (set_cli (set_srv d s) k) /\ srv_same (f_srv c) s /\ cli_same (f_cli c) k.
Proof.
  intros I (A1 & A2 & A3 & A4) N Es Ec. unfold ms_inner, write_ms.
  destruct (negb (sr_on (f_srv c) || negb (is_nil (sr_mscs (f_srv c)))) && negb (cl_on (f_cli c))) eqn:B.
  { exfalso. pose proof (ms_head e c N) as H. unfold write_ms in H. rewrite B in H. discriminate. }
  clear B N. cbn [app tl].
  assert (S : exists s, srv_same (f_srv c) s /\ sec e 1 NdMs R (if sr_on (f_srv c) || negb (is_nil (sr_mscs (f_srv c))) then
          [out 1 ["server"]]
          ++ opt (sr_mdns (f_srv c)) (out 2 (["mdns"; "bind"] ++ if sa_nonzero (sr_bind (f_srv c)) then [v_show e (sr_bind (f_srv c)); showN (sa_port (sr_bind (f_srv c)))] else []))
          ++ opt (negb (sr_suffix (f_srv c) =? SUFFIX_DEFAULT)%string) (out 2 ["mdns"; "domain-suffix"; sr_suffix (f_srv c)])
          ++ match msc_get (sr_mscs (f_srv c)) ipa_empty with Some m => write_services e 2 (m_svcs m) | None => [] end
          ++ flat_map (msc_lines e) (sr_mscs (f_srv c))
          ++ opt (negb (sr_on (f_srv c))) (out 1 ["no"; "server"]) else []) d (set_srv d s)).
  { destruct (sr_on (f_srv c) || negb (is_nil (sr_mscs (f_srv c)))) eqn:B.
    - apply server_sec; auto. apply (i_srv _ _ I).
    - apply orb_false_iff in B as [B0 B1]. exists (f_srv d). split.
      + rewrite Es. split; auto. rewrite B0. split; [|discriminate]. destruct (sr_mscs (f_srv c)); [|discriminate]. intros; cbn; tauto.
      + replace (set_srv d (f_srv d)) with d by (destruct d; reflexivity). apply sec_nil. }
  destruct S as (s & S1 & S2). exists s.
  assert (K : exists k, cli_same (f_cli c) k /\ sec e 1 NdMs R (if cl_on (f_cli c) then
          [out 1 ["client"]]
          ++ opt (sa_nonzero (cl_gw (f_cli c))) (out 2 ["gateway-proxy"; v_show e (cl_gw (f_cli c)); showN (sa_port (cl_gw (f_cli c)))])
          ++ opt (cl_mdns (f_cli c) && sa_nonzero (cl_query (f_cli c))) (out 2 ["mdns"; "bind"; v_show e (cl_query (f_cli c)); showN (sa_port (cl_query (f_cli c)))])
          ++ opt (negb (cl_suffix (f_cli c) =? SUFFIX_DEFAULT)%string) (out 2 ["mdns"; "domain-suffix"; cl_suffix (f_cli c)])
          ++ opt (negb (cl_timeout (f_cli c) =? TIMEOUT_DEFAULT)%Z) (out 2 ["timeout"; show (cl_timeout (f_cli c))]) else []) (set_srv d s) (set_cli (set_srv d s) k)).
  { destruct (cl_on (f_cli c)) eqn:B.
    - apply client_sec; auto. apply (i_cli _ _ I).
    - exists (f_cli d). split.
      + rewrite Ec. split; auto. rewrite B. discriminate.
      + replace (set_cli (set_srv d s) (f_cli d)) with (set_srv d s) by (destruct d; reflexivity). apply sec_nil. }
  destruct K as (k & K1 & K2). exists k. split; auto. eapply sec_app; [exact S2|exact K2].
Qed.
Lemma ms_file e c d : cinv e c -> addrs_ok e c -> f_srv d = f_srv conf0 -> f_cli d = f_cli conf0 ->
  exists s k, sec e 0 NdConfig [] (write_ms e c) d (set_cli (set_srv d s) k) /\ srv_same (f_srv c) s /\ cli_same (f_cli c) k.
Proof.
  intros I A Es Ec. destruct (no_ms_dec c) as [N|N].
  - exists (f_srv d), (f_cli d). rewrite (no_ms_lines e c N). replace (set_cli (set_srv d (f_srv d)) (f_cli d)) with d by (destruct d; reflexivity).
    split; [apply sec_nil|]. rewrite Es, Ec. apply no_ms_same; auto.
  - destruct (ms_sec e [(Some 0%nat, NdConfig)] c d I A N Es Ec) as (s & k & S & X & Y). exists s, k. split; auto. rewrite (ms_head e c N).
    eapply sec_block; [kws|reflexivity|reflexivity|exact S].
Qed.

(** ** C56 *)
Lemma c56_hlr e h c : Forall act_ok h -> acts e h conf0 = Val c -> no_dangling c -> packed (f_pdp c) -> apns_ok e c -> no_mslookup c ->
  exists ls d, write e c = Val ls /\ read_file e ls = Val (Some d) /\ conf_same c d.
Proof.
  intros F X D P A N. pose proof (acts_inv e h _ _ (cinv0 e) F X) as I. destruct (hlr_ps_file e c I D P A) as (u & s & d & U & S & Sc & H & Es & Ec).
  eexists. exists d. split; [unfold write; rewrite U, S; cbn [mbind]; reflexivity|]. split.
  - apply sec_read. rewrite (no_ms_lines e c N). exact Sc.
  - split; auto. rewrite Es, Ec. apply no_ms_same; auto.
Qed.
Lemma c56_order e h c : Forall act_ok h -> acts e h conf0 = Val c -> no_dangling c -> packed (f_pdp c) -> apns_ok e c -> addrs_ok e c ->
  exists ls d, ps_first e c = Val ls /\ read_file e ls = Val (Some d) /\ conf_same c d.
Proof.
  intros F X D P A Q. pose proof (acts_inv e h _ _ (cinv0 e) F X) as I. destruct (hlr_ps_file e c I D P A) as (u & s & d & U & S & Sc & H & Es & Ec).
  destruct (ms_file e c d I Q Es Ec) as (x & k & M & X1 & X2). eexists. exists (set_cli (set_srv d x) k). split; [unfold ps_first; rewrite U, S; cbn [mbind]; reflexivity|]. split.
  - apply sec_read. rewrite !app_assoc. rewrite !app_assoc in Sc. eapply sec_app; [exact Sc|exact M].
  - split; [exact H|split; auto].
Qed.
Lemma c56_mslookup e h c : Forall act_ok h -> acts e h conf0 = Val c -> no_dangling c -> addrs_ok e c -> ~ no_mslookup c ->
  exists ls, write e c = Val ls /\ read_file e ls = Val None.
Proof.
  intros F X D Q N. pose proof (acts_inv e h _ _ (cinv0 e) F X) as I. destruct (hlr_sec e [(Some 0%nat, NdConfig)] c I D) as (u & s & d & U & S & Sc & H & _ & Es & Ec).
  eexists. split; [unfold write; rewrite U, S; cbn [mbind]; reflexivity|].
  assert (Sh : sec e 0 NdConfig [] (write_hlr c ++ write_gsup c ++ u ++ s) conf0 d).
  { change (write_hlr c) with (out 0 ["hlr"] :: tl (write_hlr c)). cbn [app]. eapply sec_block; [kws|reflexivity|reflexivity|exact Sc]. }
  unfold read_file. replace (write_hlr c ++ write_gsup c ++ u ++ s ++ write_ms e c ++ write_ps c) with ((write_hlr c ++ write_gsup c ++ u ++ s) ++ (write_ms e c ++ write_ps c)) by (rewrite <- !app_assoc; auto).
  destruct (Sh [(Some 0%nat, NdConfig)] (write_ms e c ++ write_ps c)) as (st & O & ->); [intros j _; reflexivity|].
  rewrite (ms_head e c N). cbn [app]. rewrite (read_line e 0 NdConfig [] st "mslookup" [] _ d O); [|kws|reflexivity]. cbn [exec cmds dispatch args fits is_kw String.eqb Ascii.eqb Bool.eqb].
  change (exec e true NdConfig ["mslookup"] d) with (XOk d (Some NdMs)). cbn [push app].
  destruct (ms_sec e [(Some 0%nat, NdConfig)] c d I Q N Es Ec) as (x & k & M & _ & _). destruct (M ((None, NdMs) :: [(Some 0%nat, NdConfig)]) (write_ps c) (on_enter 0 NdConfig NdMs [])) as (st2 & O2 & ->).
  unfold write_ps. cbn [app]. rewrite (read_line e 1 NdMs _ st2 "ps" [] _ _ O2); [reflexivity|kws|reflexivity].
Qed.

(** ** C57 *)
Lemma c57_packed e h c : Forall act_ok h -> acts e h conf0 = Val c -> packed (f_pdp c) -> pd_on (f_pdp c) = true -> pdp_sent c = Some (profiles (f_pdp c)).
Proof.
  intros F X P O. pose proof (acts_inv e h _ _ (cinv0 e) F X) as I. unfold pdp_sent. rewrite O. f_equal. apply packed_sent; auto. apply (i_pdp _ _ I).
Qed.
Lemma c57_count e h c : Forall act_ok h -> acts e h conf0 = Val c ->
  NoDup (map sl_ctx (profiles (f_pdp c))) /\ (length (profiles (f_pdp c)) <= 10)%nat /\ Forall (fun s => (1 <= sl_ctx s <= 10)%Z) (profiles (f_pdp c)) /\
  forall l, pdp_sent c = Some l -> length l = length (profiles (f_pdp c)).
Proof.
  intros F X. pose proof (acts_inv e h _ _ (cinv0 e) F X) as I. destruct (i_pdp _ _ I) as (L & C & D & U). split; auto.
  assert (LL : (length (profiles (f_pdp c)) <= 10)%nat).
  { change 10%nat with MAX_PDP. rewrite <- L. unfold profiles. clear. induction (pd_slots (f_pdp c)) as [|x l IH]; cbn; [lia|]. destruct (negb _); cbn; lia. }
  split; auto. split.
  - rewrite Forall_forall. intros s J. apply filter_In in J as [J B]. specialize (C s J). apply negb_true_iff, Z.eqb_neq in B. lia.
  - unfold pdp_sent. destruct (pd_on (f_pdp c)); [|discriminate]. intros l [= <-]. rewrite firstn_length, U, L. unfold MAX_PDP. lia.
Qed.
(** creating a profile always succeeds *)
Lemma pigeon (l : list Z) : NoDup l -> Forall (fun z => (1 <= z <= 10)%Z) l -> (length l <= 10)%nat.
Proof.
  intros N F. change 10%nat with (length (map Z.of_nat (seq 1 10))). apply NoDup_incl_length; auto. intros z I. rewrite Forall_forall in F. specialize (F z I).
  apply in_map_iff. exists (Z.to_nat z). split; [lia|]. apply in_seq. lia.
Qed.
Lemma used_all l : slot_of 0 l = None -> prof l = l.
Proof.
  intros H. apply prof_used. rewrite Forall_forall. intros s I. unfold used. apply negb_true_iff, Z.eqb_neq. apply (slot_of_none 0 l H s I).
Qed.
Lemma c57_enter e h c f id : Forall act_ok h -> acts e h conf0 = Val c -> (1 <= id <= 10)%Z ->
  exists d k, exec e f NdPdps ["profile"; show id] c = XOk d (Some (NdProfile k)) /\
    (exists s, nth_error (pd_slots (f_pdp d)) k = Some s /\ sl_ctx s = id) /\
    forall x, In x (profiles (f_pdp c)) -> In x (profiles (f_pdp d)).
Proof.
  intros F X R. pose proof (acts_inv e h _ _ (cinv0 e) F X) as I. destruct (i_pdp _ _ I) as (L & C & D & U).
  destruct (show_range id 1 10) as (A1 & A2 & A3); [lia|lia|lia|].
  assert (E : exec e f NdPdps ["profile"; show id] c = profile_enter c id).
  { unfold exec. cbn [cmds dispatch args fits is_kw String.eqb Ascii.eqb Bool.eqb]. rewrite A1. cbn [argn nth]. rewrite A2. reflexivity. }
  rewrite E. unfold profile_enter. destruct (slot_of id (pd_slots (f_pdp c))) as [k|] eqn:S1.
  - exists c, k. split; auto. split; auto. destruct (slot_of_split _ _ _ S1) as (a & s & b & El & La & Cs & _). exists s. split; auto. rewrite El, nth_error_app2 by lia. subst k. rewrite Nat.sub_diag. reflexivity.
  - destruct (slot_of 0 (pd_slots (f_pdp c))) as [k|] eqn:S0.
    + eexists. exists k. split; [reflexivity|]. cbn [set_pdp f_pdp pd_slots]. destruct (slot_of_split _ _ _ S0) as (a & s & b & El & La & Cs & _). split.
      * exists (mk_pslot id None). split; auto. rewrite El. subst k. rewrite slot_put_split, nth_error_app2, Nat.sub_diag by lia. reflexivity.
      * intros x Ix. rewrite !profiles_prof in *. cbn [pd_slots]. rewrite El in *. subst k. rewrite slot_put_split, prof_split in *. apply in_app_or in Ix as [Ix|Ix]; apply in_or_app; [left; auto|].
        right. apply in_or_app. right. apply in_app_or in Ix as [Ix|Ix]; auto. exfalso. unfold used in Ix. rewrite Cs in Ix. destruct Ix.
    + exfalso. pose proof (used_all _ S0) as Q. rewrite profiles_prof in *. rewrite Q in *.
      assert (NN : NoDup (id :: map sl_ctx (pd_slots (f_pdp c)))).
      { constructor; auto. intros J. apply in_map_iff in J as (x & Ex & J). apply (slot_of_none _ _ S1 x J); auto. }
      apply pigeon in NN.
      * cbn [length] in NN. rewrite map_length, L in NN. unfold MAX_PDP in NN. lia.
      * constructor; auto. rewrite Forall_map, Forall_forall. intros x J. specialize (C x J). pose proof (slot_of_none _ _ S0 x J). lia.
Qed.
