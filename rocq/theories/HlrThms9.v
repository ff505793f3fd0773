(** Notifications (C28). *)
From Verif Require Import Base PeerId Db DbSpec DbProofs DbThms DbThms2 DbThms3 Auth AuthSpec AuthThms AuthThms2 AuthThms3 Gsup Router Hlr PeerSpec PeerThms HlrSpec HlrSpec2 HlrThms RouterThms HlrThms2 HlrThms3 HlrStep HlrThms4 HlrThms5 HlrThms6 HlrThms7 HlrThms8.

Lemma get_by_run k x f d rc sub d' f' : run (get_by k x) f d = (Fin (rc, sub), d', f') -> no_fault f -> forall row, selects d x row ->
  d' = d /\ rc = 0 /\ exists h, sub = Some h /\ sub_of_row (k_tz k) row = Some h.
Proof.
  intros R NF row (I & Mn & Un).
  assert (G : forall cond, (forall r, cond r = true <-> means x r) -> run (match find cond (d_sub d) with Some r => match sub_of_row (k_tz k) r with Some h => Ret (0, Some h) | None => Undef end | None => Ret (- ENOENT, None) end) [] d = (Fin (rc, sub), d', []) ->
     d' = d /\ rc = 0 /\ exists h, sub = Some h /\ sub_of_row (k_tz k) row = Some h).
  { intros cond C. destruct (find cond (d_sub d)) as [r|] eqn:Fd.
    - apply find_some in Fd as [Ir Er]. apply C in Er. rewrite (Un r Ir Er). destruct (sub_of_row (k_tz k) row) as [h|]; [|discriminate]. cbn. intros [= <- <- <-]. eauto.
    - apply (find_none _ _ Fd) in I. apply C in Mn. congruence. }
  assert (R' : run (get_by k x) [] d = (Fin (rc, sub), d', [])).
  { pose proof (run_no_fault (get_by k x) f d NF) as [A B]. unfold run_out, run_db in *. rewrite R in A, B. cbn in A, B.
    destruct (run (get_by k x) [] d) as [[o1 d1] f1] eqn:E. cbn in A, B. subst. f_equal. destruct f1; auto.
    exfalso. eapply (run_rest _ _ _ _ _ _ E). left; reflexivity. }
  clear R. destruct x as [i|m|i|m]; cbn [get_by] in R'; unfold db_subscr_get_by_imsi, db_subscr_get_by_msisdn, db_subscr_get_by_id, db_subscr_get_by_imei, db_sel in R';
    cbn [run exec] in R'; unfold sel in R'.
  - apply (G (by_imsi i)). { intros r. apply String.eqb_eq. } destruct (find _ _); auto.
  - apply (G (by_msisdn m)). { intros r. unfold by_msisdn. cbn. split; [|intros ->; cbn; apply String.eqb_refl]. destruct (s_msisdn r); cbn; [|discriminate]. intros E. apply String.eqb_eq in E. congruence. } destruct (find _ _); auto.
  - apply (G (by_id i)). { intros r. apply Z.eqb_eq. } destruct (find _ _); auto.
  - apply (G (by_imei m)). { intros r. unfold by_imei. cbn. split; [|intros ->; cbn; apply String.eqb_refl]. destruct (s_imei r); cbn; [|discriminate]. intros E. apply String.eqb_eq in E. congruence. } destruct (find _ _); auto.
Qed.

Lemma run_nil_rest {A} (p : prog A) d o d' c' : run p [] d = (o, d', c') -> c' = [].
Proof. intros E. destruct c'; auto. exfalso. eapply (run_rest _ _ _ _ _ _ E). left; reflexivity. Qed.
Lemma step_nofault k s d w e f : no_fault f -> step k (s, d) (w, e, f) = step k (s, d) (w, e, []).
Proof.
  intros NF. unfold step. cbn [fst snd]. pose proof (run_no_fault (handle k w s e) f d NF) as [A B]. unfold run_out, run_db in *.
  destruct (run (handle k w s e) f d) as [[o1 d1] f1], (run (handle k w s e) [] d) as [[o2 d2] f2]. cbn in A, B. subst. destruct o2 as [[]| |]; auto.
Qed.

Lemma node_fields tz row h : sub_of_row tz row = Some h -> h_vlr h = node CS row /\ h_sgsn h = node PS row.
Proof.
  unfold sub_of_row. destruct (ipa_set_str _ _); [|discriminate]. destruct (ipa_set_str _ _); [|discriminate]. intros [= <-]. cbn [h_vlr h_sgsn].
  unfold node, serving. split; destruct (s_vlr row), (s_sgsn row); reflexivity.
Qed.
Definition del_msg (imsi : string) : gsup := mk_gsup MSGT_DELETE_DATA_REQUEST imsi 0 0 [] [] None 0 SS_NONE 0 ext0.

Lemma send_delete_spec k v imsi n o : sinv v -> (forall g, k_enc k g = true) -> (String.length n <= 31)%nat -> send_delete k v imsi n = Some o ->
  forall y, In y o <-> n <> "" /\ exists c, leads v (name_of n) c /\ y = OTx c (del_msg imsi).
Proof.
  intros SV Enc L E y. unfold send_delete in E. destruct (String.eqb_spec n "") as [->|Nn].
  { injection E as <-. cbn. tauto. }
  destruct (ipa_set_str ipa_empty (Some n)) as [nm|] eqn:Es; [|discriminate].
  destruct (ipa_set_str_bytes _ _ _ ipa_empty_wf Es) as (W & B). unfold text_names in B. rewrite str_take_all in B by lia.
  unfold enc_send_to in E. fold (del_msg imsi) in E. rewrite Enc in E.
  destruct (send_to_ok v nm (del_msg imsi) SV W) as (rc & o' & Es' & C). { rewrite B. intros X. apply app_eq_nil in X as [_ X]. discriminate. }
  rewrite Es' in E. injection E as <-. assert (Ad : addr_of (ipa_bytes nm) = name_of n).
  { rewrite B. unfold addr_of. rewrite last_last. reflexivity. }
  rewrite Ad in C. assert (Rt : forall a c c', leads v a c -> leads v a c' -> c = c').
  { intros a c c' A1 A2. apply (route_find_iff _ _ _ (si_addr _ SV)) in A1, A2. congruence. }
  destruct C as [(-> & c & -> & Lc)|(_ & -> & [Nl|Nl])].
  - cbn. split; [intros [<-|[]]; split; eauto|]. intros (_ & c' & Lc' & ->). left. rewrite (Rt _ _ _ Lc Lc'). auto.
  - cbn. split; [tauto|]. intros (_ & c & Lc & _). destruct (Nl c Lc).
  - exfalso. unfold name_of in Nl. rewrite app_length, bytes_len in Nl. cbn in Nl. lia.
Qed.

Lemma nam_run k v h row d val x rc o d' c' : db_inv d -> sinv v -> (forall g, k_enc k g = true) -> has_imsi d (s_imsi row) ->
  h_imsi h = s_imsi row -> h_vlr h = node CS row -> h_sgsn h = node PS row -> (if is_ps x then h_nam_ps h else h_nam_cs h) <> val ->
  run (hlr_subscr_nam k v h val (is_ps x)) [] d = (Fin (rc, o), d', c') ->
  d' = rows_of (s_imsi row) (with_access x val) d /\
  forall y, In y o <-> val = false /\ exists z c, node z row <> "" /\ leads v (name_of (node z row)) c /\ y = OTx c (del_msg (s_imsi row)).
Proof.
  intros Hd SV Enc HI Ei Ev Es Nv. unfold hlr_subscr_nam. destruct (Bool.eqb _ val) eqn:Eb; [apply Bool.eqb_prop in Eb; contradiction|].
  unfold db_subscr_nam. rewrite Ei, Ev, Es. cbn [bind run].
  assert (EX : exec (if is_ps x then UPD_NAM_PS_BY_IMSI val (s_imsi row) else UPD_NAM_CS_BY_IMSI val (s_imsi row)) d =
     (RDone (cnt (by_imsi (s_imsi row)) (d_sub d)), rows_of (s_imsi row) (with_access x val) d)) by (destruct x; reflexivity).
  rewrite EX. replace (cnt (by_imsi (s_imsi row)) (d_sub d)) with 1%nat.
  2:{ pose proof (cnt_imsi_le1 d (s_imsi row) Hd). pose proof (proj2 (cnt_imsi_has d (s_imsi row)) HI). lia. }
  cbn [upd_rc Z.eqb negb run]. destruct val.
  - cbn. intros [= <- <- <- <-]. split; auto. intros y. split; [intros []|intros [X _]; discriminate].
  - destruct (send_delete k v (s_imsi row) (node CS row)) as [o1|] eqn:S1; [|discriminate]. destruct (send_delete k v (s_imsi row) (node PS row)) as [o2|] eqn:S2; [|discriminate].
    cbn. intros [= <- <- <- <-]. split; auto. intros y. rewrite in_app_iff.
    rewrite (send_delete_spec _ _ _ _ _ SV Enc (str_take_len _ _) S1), (send_delete_spec _ _ _ _ _ SV Enc (str_take_len _ _) S2). split.
    + intros [(N & c & Lc & ->)|(N & c & Lc & ->)]; (split; [auto|]); [exists CS, c|exists PS, c]; auto.
    + intros (_ & [|] & c & N & Lc & ->); [left|right]; eauto.
Qed.

Lemma rows_of_id imsi f d : db_inv d -> (forall row, In row (d_sub d) -> s_imsi row = imsi -> f row = row) -> rows_of imsi f d = d.
Proof.
  intros Hd H. unfold rows_of. destruct d as [su a2 a3 i]. unfold with_sub. cbn in *. f_equal. rewrite <- (map_id su) at 2. apply map_ext_in. intros y I.
  destruct (String.eqb_spec (s_imsi y) imsi); auto.
Qed.
Lemma rows_of_twice imsi f g d : (forall r, s_imsi (f r) = s_imsi r) -> rows_of imsi g (rows_of imsi f d) = rows_of imsi (fun r => g (f r)) d.
Proof.
  intros Hf. unfold rows_of. destruct d as [su a2 a3 i]. unfold with_sub. cbn. f_equal. rewrite map_map. apply map_ext. intros r.
  destruct (String.eqb_spec (s_imsi r) imsi) as [E|E].
  - rewrite Hf, E, String.eqb_refl. auto.
  - apply String.eqb_neq in E. rewrite E. auto.
Qed.
Lemma imsi_row d r r' : db_inv d -> In r (d_sub d) -> In r' (d_sub d) -> s_imsi r = s_imsi r' -> r = r'.
Proof. intros Hd. eapply NoDup_key_inj. apply (iv_imsi _ Hd). Qed.

Lemma c28_nam k s d w x row cs ps f s' d' o : reached k s d -> selects d x row -> no_fault f -> (forall g, k_enc k g = true) ->
  step k (s, d) (w, EVtyNam x cs ps, f) = Some (s', d', o) ->
  d' = rows_of (s_imsi row) (fun r => with_access PS ps (with_access CS cs r)) d /\
  forall y, In y o <-> ((access CS row = true /\ cs = false) \/ (access PS row = true /\ ps = false)) /\
    exists z c, node z row <> "" /\ leads (t_srv s) (name_of (node z row)) c /\ y = OTx c (del_msg (s_imsi row)).
Proof.
  intros Re Sel NF Enc E. destruct (reached_fine _ _ _ Re) as ([_ SV] & [Hd _] & _). rewrite (step_nofault _ _ _ _ _ _ NF) in E. clear NF f.
  unfold step in E. cbn [fst snd handle] in E. destruct (run (same s (vty_nam k s x cs ps)) [] d) as [[[[s2 o2]| |] d2] f2] eqn:R; try discriminate.
  2:{ apply run_crash in R as []. }
  injection E as <- <- <-. unfold same in R. apply fin_bind in R as (o1 & d1 & f1 & R & R'). apply fin_ret in R' as ([= -> ->] & -> & ->).
  unfold vty_nam in R. apply fin_bind in R as ([rc sub] & d3 & f3 & R & R2).
  assert (NF0 : no_fault []) by constructor. pose proof (run_nil_rest _ _ _ _ _ R) as ->.
  destruct (get_by_run _ _ _ _ _ _ _ _ R NF0 row Sel) as (-> & -> & h & -> & Sr). clear R.
  destruct Sel as (Ir & _ & _). assert (HI : has_imsi d (s_imsi row)) by (exists row; auto).
  pose proof (iv_wf _ Hd) as W. rewrite Forall_forall in W. destruct (W row Ir) as [W1 W2]. apply imsi_valid_spec in W1.
  destruct (sub_fields _ _ _ Sr W1) as (_ & Ei & _ & Nc & Np). { intros m Em. apply msisdn_valid_spec. auto. }
  destruct (node_fields _ _ _ Sr) as [Ev Es]. cbn iota in R2.
  apply fin_bind in R2 as (a & da & fa & Ra & R2). apply fin_bind in R2 as (b & d4 & fb & Rb & R2). apply fin_ret in R2 as (-> & -> & ->).
  pose proof (run_nil_rest _ _ _ _ _ Ra) as ->. pose proof (run_nil_rest _ _ _ _ _ Rb) as ->. 
  set (P := fun y => exists z c, node z row <> "" /\ leads (t_srv s) (name_of (node z row)) c /\ y = OTx c (del_msg (s_imsi row))).
  assert (A : da = rows_of (s_imsi row) (with_access CS cs) d /\ forall y, In y a <-> (access CS row = true /\ cs = false) /\ P y).
  { destruct (Bool.eqb cs (h_nam_cs h)) eqn:Eb.
    - apply fin_ret in Ra as (-> & -> & _). apply Bool.eqb_prop in Eb. rewrite Nc in Eb. split.
      + symmetry. apply rows_of_id; auto. intros r Irr Er. assert (r = row) as -> by (eapply imsi_row; eauto). destruct row; cbn in *; subst; auto.
      + intros y. cbn. split; [tauto|]. intros [[X ->] _]. congruence.
    - apply Bool.eqb_false_iff in Eb. apply fin_bind in Ra as ([rc a'] & dx & fx & Ra & Rx). apply fin_ret in Rx as (-> & -> & <-).
      destruct (nam_run k (t_srv s) h row d cs CS rc a' dx []) as [D1 D2]; auto. cbn [snd]. split; auto.
      intros y. rewrite D2. unfold P. rewrite Nc in Eb. cbn [access]. split; [intros [-> X]|intros [[X ->] Y]]; split; auto. split; auto. destruct (s_nam_cs row); congruence. }
  destruct A as [-> Aa]. set (da := rows_of (s_imsi row) (with_access CS cs) d) in *.
  assert (Hda : db_inv da).
  { assert (X : da = snd (exec (UPD_NAM_CS_BY_IMSI cs (s_imsi row)) d)) by reflexivity. rewrite X. apply inv_exec; auto. exact I. }
  assert (Ira : In (with_access CS cs row) (d_sub da)).
  { unfold da, rows_of. cbn [d_sub with_sub]. apply in_map_iff. exists row. rewrite String.eqb_refl. auto. }
  assert (HIa : has_imsi da (s_imsi row)) by (exists (with_access CS cs row); auto).
  assert (B : d4 = rows_of (s_imsi row) (with_access PS ps) da /\ forall y, In y b <-> (access PS row = true /\ ps = false) /\ P y).
  { destruct (Bool.eqb ps (h_nam_ps h)) eqn:Eb.
    - apply fin_ret in Rb as (-> & -> & _). apply Bool.eqb_prop in Eb. rewrite Np in Eb. split.
      + symmetry. apply rows_of_id; auto. intros r Irr Er. assert (r = with_access CS cs row) as -> by (eapply imsi_row; eauto). destruct row; cbn in *; subst; auto.
      + intros y. cbn. split; [tauto|]. intros [[X ->] _]. congruence.
    - apply Bool.eqb_false_iff in Eb. apply fin_bind in Rb as ([rc b'] & dx & fx & Rb & Rx). apply fin_ret in Rx as (-> & -> & <-).
      destruct (nam_run k (t_srv s) h row da ps PS rc b' dx []) as [D1 D2]; auto. cbn [snd]. split; auto.
      intros y. rewrite D2. unfold P. rewrite Np in Eb. cbn [access]. split; [intros [-> X]|intros [[X ->] Y]]; split; auto. split; auto. destruct (s_nam_ps row); congruence. }
  destruct B as [-> Bb]. split; [unfold da; apply rows_of_twice; reflexivity|].
  intros y. rewrite in_app_iff, Aa, Bb. fold (P y). tauto.
Qed.

Definition isd (k : cfg) (imsi m : string) (x : domain) : gsup :=
  mk_gsup MSGT_INSERT_DATA_REQUEST imsi 0 0 [] [] None 0 SS_NONE (if is_ps x then CN_PS else CN_CS)
    (mk_ext None None 0 0 [] None false (Some m) (if is_ps x then match k_pdp k with Some l => l | None => [-1] end else []) PlNone None None None []).
Lemma notify_spec k v h row : sinv v -> (forall m, k_msisdn_enc k m = true) -> h_vlr h = node CS row -> h_sgsn h = node PS row -> forall y,
  In y (update_notify k v h) <-> exists cn x p c, In cn (v_conns v) /\ serves x cn /\ c_ccm cn = Some p /\ until_nul p = node x row /\ leads v p c /\ y = OTx c (isd k (h_imsi h) (h_msisdn h) x).
Proof.
  intros SV Me Ev Es y. unfold update_notify. rewrite in_flat_map. unfold notify_conn, isd_msg. rewrite Ev, Es. split.
  - intros (cn & I & H). destruct (c_ps cn) eqn:Ps, (c_cs cn) eqn:Cs; cbn [negb andb] in H; try destruct H;
      destruct (c_ccm cn) as [p|] eqn:Ec; try destruct H; rewrite Me in H.
    all: match type of H with context [(?a =? ?b)%string] => destruct (String.eqb_spec a b) as [En|]; cbn [negb] in H; [|destruct H] end.
    all: destruct (route_find _ _) as [c|] eqn:Er; [|destruct H]; destruct H as [<-|[]]; apply (route_find_iff _ _ _ (si_addr _ SV)) in Er; exists cn.
    1,2: exists PS, p, c. 3: exists CS, p, c. all: unfold serves; auto 10.
  - intros (cn & x & p & c & I & Sx & Ec & En & L & ->). exists cn. split; auto. apply (route_find_iff _ _ _ (si_addr _ SV)) in L. rewrite Ec, Me, L.
    destruct x; cbn [serves] in Sx; [destruct Sx as [-> ->]|rewrite Sx]; cbn [negb andb]; rewrite En, String.eqb_refl; left; auto.
Qed.

Lemma until_nul_name n : ~ In nul (bytes_of n) -> until_nul (name_of n) = n.
Proof.
  unfold name_of. induction n as [|a n IH]; cbn; auto. intros H. destruct (Ascii.eqb_spec a nul); [subst; destruct H; auto|]. rewrite IH; auto.
Qed.

Lemma msisdn_exec d row m : db_inv d -> In row (d_sub d) -> (forall r, In r (d_sub d) -> s_msisdn r = Some m -> r = row) ->
  exec (SET_MSISDN_BY_IMSI m (s_imsi row)) d = (RDone 1, rows_of (s_imsi row) (with_msisdn (Some m)) d).
Proof.
  intros Hd I Fr. cbn [exec]. replace (existsb (fun r => by_msisdn m r && negb (by_imsi (s_imsi row) r)) (d_sub d)) with false.
  2:{ symmetry. apply not_true_is_false. intros X. apply existsb_exists in X as (r & Ir & Er). apply andb_true_iff in Er as [E1 E2].
      assert (r = row) as ->. { apply Fr; auto. unfold by_msisdn in E1. destruct (s_msisdn r); [|discriminate]. apply String.eqb_eq in E1. congruence. }
      unfold by_imsi in E2. rewrite String.eqb_refl in E2. discriminate. }
  rewrite andb_false_r. unfold upd_sub. replace (cnt (by_imsi (s_imsi row)) (d_sub d)) with 1%nat; [reflexivity|].
  pose proof (cnt_imsi_le1 d (s_imsi row) Hd). assert (HI : has_imsi d (s_imsi row)) by (exists row; auto). pose proof (proj2 (cnt_imsi_has d (s_imsi row)) HI). lia.
Qed.

Lemma c28_msisdn k s d w x row m f s' d' o : reached k s d -> selects d x row -> no_fault f -> (forall m, k_msisdn_enc k m = true) ->
  is_msisdn m -> (forall r, In r (d_sub d) -> s_msisdn r = Some m -> r = row) ->
  step k (s, d) (w, EVtyMsisdn x (Some m), f) = Some (s', d', o) ->
  d' = rows_of (s_imsi row) (with_msisdn (Some m)) d /\
  forall y, In y o <-> exists cn z p c, In cn (v_conns (t_srv s)) /\ serves z cn /\ c_ccm cn = Some p /\ until_nul p = node z row /\ leads (t_srv s) p c /\
    y = OTx c (isd k (s_imsi row) m z).
Proof.
  intros Re Sel NF Me Im Fr E. destruct (reached_fine _ _ _ Re) as ([_ SV] & [Hd _] & _). rewrite (step_nofault _ _ _ _ _ _ NF) in E. clear NF f.
  unfold step in E. cbn [fst snd handle] in E. destruct (run (same s (vty_msisdn k s x (Some m))) [] d) as [[[[s2 o2]| |] d2] f2] eqn:R; try discriminate.
  2:{ apply run_crash in R as []. }
  injection E as <- <- <-. unfold same in R. apply fin_bind in R as (o1 & d1 & f1 & R & R'). apply fin_ret in R' as ([= -> ->] & -> & ->).
  unfold vty_msisdn in R. pose proof (proj2 (msisdn_valid_spec m) Im) as Vm.
  replace ((15 <? String.length m)%nat || negb (msisdn_valid m)) with false in R.
  2:{ rewrite Vm. symmetry. rewrite orb_false_r. apply Nat.ltb_ge. destruct Im as [? _]. lia. }
  apply fin_bind in R as ([rc sub] & d3 & f3 & R & R2).
  assert (NF0 : no_fault []) by constructor. pose proof (run_nil_rest _ _ _ _ _ R) as ->.
  destruct (get_by_run _ _ _ _ _ _ _ _ R NF0 row Sel) as (-> & -> & h & -> & Sr). clear R.
  destruct Sel as (Ir & _ & _).
  pose proof (iv_wf _ Hd) as W. rewrite Forall_forall in W. destruct (W row Ir) as [W1 W2]. apply imsi_valid_spec in W1.
  destruct (sub_fields _ _ _ Sr W1) as (_ & Ei & _). { intros m' Em. apply msisdn_valid_spec. auto. }
  cbn iota in R2. rewrite Ei in R2. unfold db_subscr_update_msisdn_by_imsi in R2. rewrite Vm in R2. cbn [negb bind run] in R2.
  pose proof (msisdn_exec _ _ _ Hd Ir Fr) as EX. assert (Hd2 : db_inv (rows_of (s_imsi row) (with_msisdn (Some m)) d)).
  { replace (rows_of _ _ _) with (snd (exec (SET_MSISDN_BY_IMSI m (s_imsi row)) d)) by (rewrite EX; auto). apply inv_exec; auto. }
  rewrite EX in R2. cbn [upd_rc Z.eqb negb run bind] in R2. set (d4 := rows_of _ _ _) in *.
  assert (I4 : In (with_msisdn (Some m) row) (d_sub d4)).
  { unfold d4, rows_of. cbn [d_sub with_sub]. apply in_map_iff. exists row. rewrite String.eqb_refl. auto. }
  apply fin_bind in R2 as ([rc sub] & d5 & f5 & R & R2). pose proof (run_nil_rest _ _ _ _ _ R) as ->.
  assert (Sel4 : selects d4 (ByMsisdn m) (with_msisdn (Some m) row)).
  { split; [auto|]. split; [reflexivity|]. intros r Irr Er. unfold d4, rows_of in Irr. cbn [d_sub with_sub] in Irr.
    apply in_map_iff in Irr as (r0 & <- & I0). cbn in Er. destruct (String.eqb_spec (s_imsi r0) (s_imsi row)) as [Q|Q].
    - rewrite (imsi_row _ _ _ Hd I0 Ir Q). auto.
    - rewrite (Fr _ I0 Er) in Q. contradiction. }
  destruct (get_by_run k (ByMsisdn m) _ _ _ _ _ _ R NF0 _ Sel4) as (-> & -> & h2 & -> & Sr2). cbn iota in R2. apply fin_ret in R2 as (-> & -> & _).
  split; [reflexivity|]. destruct (node_fields _ _ _ Sr2) as [Ev Es].
  destruct (sub_fields _ _ _ Sr2 W1) as (_ & Ei2 & Em2 & _). { intros m' [= <-]. auto. }
  intros y. rewrite (notify_spec k (t_srv s) h2 row SV Me Ev Es y), Ei2, Em2. reflexivity.
Qed.
