(** Entities, routes and services are rebuilt by the commands written for them (C56) *)
From Verif Require Import Base PeerId Db DbSpec DbProofs DbThms DbThms2 DbThms3 Auth Gsup Router Hlr UssdCfg SmsCfg UssdSpec UssdThms MsLookup Mdns Proxy MsServer PeerSpec PeerThms MsServerSpec MsServerThms Ctrl CtrlSpec CtrlThms CtrlThms4 VtyListThms Config ConfigSpec ConfigThms ConfigThms2 ConfigThms3.
Local Open Scope string_scope.
Local Open Scope list_scope.

(** ** USSD and SMSC *)
Fixpoint uok (u : ucfg) (xs : list ucmd) : bool := match xs with [] => true | x :: r => ucmd_ok u x && uok (ucmd_run u x) r end.
Lemma uok_app u a b : uok u (a ++ b) = uok u a && uok (ucmds_run u a) b.
Proof. revert u. induction a as [|x a IH]; intros u; cbn [app uok ucmds_run fold_left]; auto. rewrite IH, andb_assoc. auto. Qed.
Lemma ucmds_app u a b : ucmds_run u (a ++ b) = ucmds_run (ucmds_run u a) b.
Proof. apply fold_left_app. Qed.
Lemma build_euses names : forall u, NoDup (map e_name (u_euses u) ++ names) -> u_wf u ->
  uok u (map CEuse names) = true /\ let v := ucmds_run u (map CEuse names) in
  map e_name (u_euses v) = map e_name (u_euses u) ++ names /\ u_routes v = u_routes u /\ u_default v = u_default u /\ u_wf v.
Proof.
  induction names as [|n names IH]; intros u N W; cbn [map uok].
  - cbn. rewrite app_nil_r. auto.
  - assert (F : euse_find u n = None).
    { unfold euse_find. destruct (find _ _) as [y|] eqn:F; auto. apply find_some in F as [I E]. apply String.eqb_eq in E. exfalso.
      apply NoDup_remove_2 in N. apply N. apply in_or_app. left. rewrite <- E. apply in_map; auto. }
    pose proof (u_wf_run u (CEuse n) W) as W1. change (ucmds_run u (CEuse n :: map CEuse names)) with (ucmds_run (ucmd_run u (CEuse n)) (map CEuse names)).
    assert (E1 : map e_name (u_euses (ucmd_run u (CEuse n))) = map e_name (u_euses u) ++ [n]) by (cbn [ucmd_run]; rewrite F; cbn; rewrite map_app; auto).
    destruct (IH (ucmd_run u (CEuse n))) as (A & B & C & D & E); [rewrite E1, <- app_assoc; auto|auto|]. cbn [ucmd_ok]. split; auto. cbn zeta. rewrite B, E1, C, D, <- app_assoc.
    split; auto. split; [|split; [|exact E]]; cbn [ucmd_run]; rewrite F; auto.
Qed.
Lemma all_some_app {A} (a b : list (option A)) x y : all_some a = Some x -> all_some b = Some y -> all_some (a ++ b) = Some (x ++ y).
Proof.
  revert x. induction a as [|[z|] a IH]; intros x; cbn [all_some app]; [intros [= <-]; auto| |discriminate].
  destruct (all_some a) as [r|]; [|discriminate]. intros [= <-] H. rewrite (IH r eq_refl H). auto.
Qed.
Lemma find_euse_name u n y : u_wf u -> euse_find u n = Some y -> euse_name u (e_nr y) = Some n.
Proof.
  intros (A & B & C & D) F. unfold euse_find in F. apply find_some in F as [I E]. apply String.eqb_eq in E. unfold euse_name.
  rewrite (find_unique (fun x => (e_nr x =? e_nr y)%nat) (u_euses u) y); [congruence|auto|apply Nat.eqb_refl|].
  intros x Ix Ex. apply Nat.eqb_eq in Ex. eapply NoDup_key_inj with (f := e_nr); eauto.
Qed.
Definition route_cmd (r : string * ussd_target) : ucmd := match snd r with TInt i => CRouteInt (fst r) i | TExt n => CRouteExt (fst r) n end.
Lemma table_add u p a t T : route_table u = Some t -> aim_target u a = Some T -> route_table (set_routes u (u_routes u ++ [(p, a)])) = Some (t ++ [(p, T)]).
Proof.
  intros H X. unfold route_table. cbn [set_routes u_routes]. rewrite map_app. apply all_some_app.
  - exact H.
  - cbn [map snd fst all_some]. change (aim_target (set_routes u (u_routes u ++ [(p, a)])) a) with (aim_target u a). rewrite X. auto.
Qed.
Lemma build_routes t : forall u t0, u_wf u -> NoDup (map fst (u_routes u) ++ map fst t) -> (forall p n, In (p, TExt n) t -> In n (map e_name (u_euses u))) ->
  route_table u = Some t0 ->
  uok u (map route_cmd t) = true /\ let v := ucmds_run u (map route_cmd t) in
  u_euses v = u_euses u /\ u_default v = u_default u /\ route_table v = Some (t0 ++ t) /\ u_wf v.
Proof.
  induction t as [|[p T] t IH]; intros u t0 W N H R; cbn [map uok].
  - cbn. rewrite app_nil_r. auto.
  - assert (F : find_prefix u p = None).
    { apply find_prefix_none. cbn [map fst] in N. apply NoDup_remove_2 in N. intros I. apply N. apply in_or_app. auto. }
    pose proof (u_wf_run u (route_cmd (p, T)) W) as W1.
    change (ucmds_run u (route_cmd (p, T) :: map route_cmd t)) with (ucmds_run (ucmd_run u (route_cmd (p, T))) (map route_cmd t)).
    assert (S : ucmd_ok u (route_cmd (p, T)) = true /\ exists a, ucmd_run u (route_cmd (p, T)) = set_routes u (u_routes u ++ [(p, a)]) /\ aim_target u a = Some T).
    { destruct T as [i|n]; cbn [route_cmd snd fst ucmd_run ucmd_ok]; rewrite F; cbn [is_some negb andb].
      - split; auto. exists (AInt i). auto.
      - destruct (euse_find u n) as [y|] eqn:G.
        + split; auto. exists (AExt (e_nr y)). split; auto. cbn. rewrite (find_euse_name u n y W G). auto.
        + exfalso. specialize (H p n (or_introl eq_refl)). apply in_map_iff in H as (y & E & I). unfold euse_find in G. apply (find_none _ _ G) in I. rewrite E, String.eqb_refl in I. discriminate. }
    destruct S as (S1 & a & S2 & S3). rewrite S1. rewrite S2 in *. destruct (IH (set_routes u (u_routes u ++ [(p, a)])) (t0 ++ [(p, T)]) W1) as (A & B & C & D & E).
    + cbn [set_routes u_routes]. rewrite map_app. cbn [map fst]. rewrite <- app_assoc. auto.
    + intros q n I. cbn. apply (H q n). now right.
    + apply table_add; auto.
    + split; auto. cbn zeta. rewrite B, C, D. rewrite <- app_assoc. auto.
Qed.
Definition default_of (u : ucfg) : option string := match u_default u with Some d => euse_name u d | None => None end.
Definition rebuild (u : ucfg) (t : list (string * ussd_target)) : list ucmd :=
  map CEuse (map e_name (u_euses u)) ++ map route_cmd t ++ match default_of u with Some n => [CDefault n] | None => [] end.
Lemma all_some_map {A B} (f : A -> option B) l t : all_some (map f l) = Some t -> Forall2 (fun a b => f a = Some b) l t.
Proof.
  revert t. induction l as [|a l IH]; intros t; cbn [map all_some]; [intros [= <-]; constructor|]. destruct (f a) as [b|] eqn:F; [|discriminate].
  destruct (all_some (map f l)) as [r|]; [|discriminate]. intros [= <-]. constructor; auto.
Qed.
Lemma all_some_none {A} (l : list (option A)) : all_some l = None -> In None l.
Proof. induction l as [|[x|] l IH]; cbn [all_some]; [discriminate| |now left]. destruct (all_some l); [discriminate|]. intros _. right. auto. Qed.
Definition points (u : ucfg) : Prop := forall p nr, In (p, AExt nr) (u_routes u) -> exists x, In x (u_euses u) /\ e_nr x = nr.
Lemma table_some u : points u -> exists t, route_table u = Some t.
Proof.
  intros P. destruct (route_table u) as [t|] eqn:R; [eauto|]. exfalso. unfold route_table in R. apply all_some_none in R. apply in_map_iff in R as ([p a] & E & I).
  cbn [snd fst] in E. destruct a as [i|nr]; [discriminate|]. cbn [aim_target] in E. destruct (P p nr I) as (x & Ix & Ex).
  assert (Q : euse_name u nr <> None) by (apply euse_name_iff; rewrite <- Ex; apply in_map; auto). destruct (euse_name u nr); [discriminate|congruence].
Qed.
Lemma table_keys u t : route_table u = Some t -> map fst t = map fst (u_routes u) /\ forall p n, In (p, TExt n) t -> In n (map e_name (u_euses u)).
Proof.
  intros R. unfold route_table in R. apply all_some_map in R. induction R as [|[p a] [q T] l t H R IH]; cbn [map fst].
  - split; auto. intros p n [].
  - cbn [snd fst] in H. destruct (aim_target u a) as [T0|] eqn:E; [|discriminate]. injection H as <- <-. destruct IH as [IH1 IH2]. split; [f_equal; auto|].
    intros q n [[= <- ->]|I]; [|eauto]. destruct a as [i|nr]; cbn in E; [discriminate|]. unfold euse_name in E. destruct (find _ _) as [y|] eqn:F; [|discriminate].
    injection E as <-. apply find_some in F as [I _]. apply in_map; auto.
Qed.
Lemma rebuilt u t : u_ok u -> route_table u = Some t -> uok ucfg0 (rebuild u t) = true /\ ussd_same u (ucmds_run ucfg0 (rebuild u t)).
Proof.
  intros (W & N & E & R) T. destruct (table_keys u t T) as [K1 K2]. unfold rebuild. rewrite !uok_app, !ucmds_app.
  destruct (build_euses (map e_name (u_euses u)) ucfg0) as (A1 & A2 & A3 & A4 & A5); [apply W|apply (u_wf_all [])|]. cbn zeta in *. cbn [ucfg0 u_euses u_routes u_default map app] in A2, A3, A4.
  set (v := ucmds_run ucfg0 (map CEuse (map e_name (u_euses u)))) in *.
  destruct (build_routes t v []) as (B1 & B2 & B3 & B4 & B5); auto.
  { rewrite A3. cbn. rewrite K1. auto. }
  { intros p n I. rewrite A2. eauto. }
  { unfold route_table. rewrite A3. auto. }
  cbn zeta in *. set (w := ucmds_run v (map route_cmd t)) in *. rewrite A1, B1. cbn [andb app] in *.
  unfold ussd_same. change (match u_default u with Some d => euse_name u d | None => None end) with (default_of u). destruct (default_of u) as [n|] eqn:D.
  - assert (F : exists y, euse_find w n = Some y).
    { destruct (euse_find w n) as [y|] eqn:F; eauto. exfalso. unfold default_of in D. destruct (u_default u) as [d|]; [|discriminate]. unfold euse_name in D.
      destruct (find _ _) as [y|] eqn:G; [|discriminate]. injection D as <-. apply find_some in G as [I _].
      assert (J : In (e_name y) (map e_name (u_euses w))) by (rewrite B2, A2; apply in_map; auto). apply in_map_iff in J as (z & Ez & Iz).
      unfold euse_find in F. apply (find_none _ _ F) in Iz. rewrite Ez, String.eqb_refl in Iz. discriminate. }
    destruct F as [y F]. cbn [uok ucmd_ok ucmds_run fold_left ucmd_run]. rewrite F. cbn [is_some andb]. split; auto.
    cbn [u_euses u_default]. split; [rewrite B2, A2; auto|]. split.
    + rewrite T, <- B4. reflexivity.
    + symmetry. apply (find_euse_name w n y B5 F).
  - split; auto. cbn [ucmds_run fold_left]. rewrite B2, A2, B3, A4, B4, T. auto.
Qed.
Lemma rebuild_words u t : u_ok u -> route_table u = Some t -> Forall (fun x => ucmd_words x /\ forall n, x = CDefault n -> is_word n) (rebuild u t).
Proof.
  intros (W & N & E & R) T. destruct (table_keys u t T) as [K1 K2]. unfold rebuild. rewrite !Forall_app. split; [|split].
  - rewrite Forall_map, Forall_map, Forall_forall. intros x I. split; [apply E; auto|discriminate].
  - rewrite Forall_map, Forall_forall. intros [p T0] I. assert (P : is_word p).
    { assert (J : In p (map fst (u_routes u))) by (rewrite <- K1; apply (in_map fst _ _ I)). apply in_map_iff in J as (r & <- & J). auto. }
    destruct T0 as [i|n]; cbn; (split; [|discriminate]); auto. split; auto. pose proof (K2 p n I) as J. apply in_map_iff in J as (y & <- & J). auto.
  - unfold default_of, euse_name. destruct (u_default u); [|constructor]. destruct (find _ _) as [y|] eqn:F; [|constructor]. constructor; auto.
    split; [exact Logic.I|]. intros n0 [= <-]. apply find_some in F as [I _]. auto.
Qed.
