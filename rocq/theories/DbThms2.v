(** Lemmas behind C03, C04, C05, C10. *)
From Verif Require Import Base PeerId Db DbSpec DbProofs DbThms.

(** * C03 *)
Lemma c03_delete d id c :
  db_ok d -> no_fault c ->
  let d' := run_db (db_subscr_delete_by_id id) c d in
  run_out (db_subscr_delete_by_id id) c d =
    Fin (if existsb (fun r => s_id r =? id) (d_sub d) || existsb (fun a => a2_id a =? id) (d_auc2 d)
            || existsb (fun a => a3_id a =? id) (d_auc3 d) then 0 else -2) /\
  ~ has_id d' id /\ ~ has_auc2 d' id /\ ~ has_auc3 d' id /\
  (forall r, s_id r <> id -> (In r (d_sub d') <-> In r (d_sub d))) /\
  (forall a, a2_id a <> id -> (In a (d_auc2 d') <-> In a (d_auc2 d))) /\
  (forall a, a3_id a <> id -> (In a (d_auc3 d') <-> In a (d_auc3 d))) /\
  d_ind d' = d_ind d.
Proof.
  intros Hok Hc d'. apply db_ok_inv in Hok.
  destruct (run_no_fault (db_subscr_delete_by_id id) c d Hc) as [Ho Hd].
  subst d'. rewrite Ho, Hd. unfold run_out, run_db. rewrite run_delete by auto. cbn [fst snd].
  unfold delete_result. split; [reflexivity|].
  unfold has_id, has_auc2, has_auc3; cbn [d_sub d_auc2 d_auc3 d_ind].
  unfold ids_differ.
  repeat split; try (intros (r & Hr & E); apply filter_In in Hr as [_ Hr]; lia);
    try (rewrite filter_In; tauto); rewrite filter_In; intros Hin; split; auto; lia.
Qed.

(** every key record belongs to an existing subscriber *)
Definition no_orphan_keys (d : db) : Prop :=
  (forall a, In a (d_auc2 d) -> has_id d (a2_id a)) /\ (forall a, In a (d_auc3 d) -> has_id d (a3_id a)).

(** a call that is not a key change for a non-existing subscriber (all callers look the
    subscriber up first: hlr_vty_subscr.c, ctrl.c) *)
Definition sane_call (d : db) (a : api) : Prop :=
  match a with AAud id _ => has_id d id | _ => True end.

Lemma has_id_map d d' : map s_id (d_sub d') = map s_id (d_sub d) -> forall i, has_id d i -> has_id d' i.
Proof.
  intros E i (r & Hr & <-). assert (H : In (s_id r) (map s_id (d_sub d'))) by (rewrite E; now apply in_map).
  apply in_map_iff in H as (r' & E' & Hr'). now exists r'.
Qed.

(** keys are only inserted for the given subscriber *)
Definition stmt_keeps_keys (oid : option Z) (s : stmt) : Prop :=
  match s with
  | DEL_BY_ID _ => False
  | AUC_2G_INSERT i _ _ => oid = Some i
  | AUC_3G_INSERT i _ _ _ _ _ => oid = Some i
  | _ => True
  end.

Lemma upd_in {R} cond f (l : list R) x : In x (upd cond f l) -> exists y, In y l /\ (x = y \/ x = f y).
Proof.
  unfold upd. rewrite in_map_iff. intros (y & E & Hy). exists y. split; auto. destruct (cond y); auto.
Qed.


Lemma no_orphans_exec oid s d :
  stmt_keeps_keys oid s -> no_orphan_keys d /\ (forall i, oid = Some i -> has_id d i) ->
  no_orphan_keys (snd (exec s d)) /\ (forall i, oid = Some i -> has_id (snd (exec s d)) i).
Proof.
  intros Hs [[H2 H3] Hid].
  assert (U : forall d', map s_id (d_sub d') = map s_id (d_sub d) ->
     (forall a, In a (d_auc2 d') -> has_id d (a2_id a)) ->
     (forall a, In a (d_auc3 d') -> has_id d (a3_id a)) ->
     no_orphan_keys d' /\ (forall i, oid = Some i -> has_id d' i)).
  { intros d' E K2 K3. split; [split|]; intros; eapply has_id_map; eauto. }
  destruct s; cbn [exec]; unfold sel, upd_sub; cbn [fst snd];
    try (apply U; cbn; auto; now apply map_upd_same);
    try (match goal with |- context [find ?f ?l] => destruct (find f l) end; cbn; apply U; auto);
    try (apply U; auto; fail).
  - apply U; cbn; auto. intros a Ha. apply upd_in in Ha as (y & Hy & [->| ->]); cbn; auto.
  - destruct (existsb _ _); cbn; [apply U; auto|].
    assert (M : forall i, has_id d i -> has_id (with_sub d (d_sub d ++ [new_row (next_rowid (map s_id (d_sub d))) imsi nam_cs nam_ps])) i).
    { intros i (r & Hr & E). exists r. cbn. split; auto. apply in_or_app. auto. }
    split; [split|]; cbn; auto.
  - cbn in Hs. contradiction.
  - destruct (_ && _); cbn; apply U; cbn; auto. now apply map_upd_same.
  - destruct (existsb _ _); cbn; apply U; auto. cbn. cbn in Hs.
    intros a Ha. apply in_app_or in Ha as [Ha|[<-|[]]]; auto.
  - apply U; cbn; auto. intros a Ha. unfold del in Ha. apply filter_In in Ha as [Ha _]. auto.
  - destruct (existsb _ _); cbn; apply U; auto. cbn. cbn in Hs.
    intros a Ha. apply in_app_or in Ha as [Ha|[<-|[]]]; auto.
  - apply U; cbn; auto. intros a Ha. unfold del in Ha. apply filter_In in Ha as [Ha _]. auto.
  - destruct (existsb _ _); cbn; apply U; auto.
Qed.

Fixpoint clean_hist (d : db) (h : list (api * sched)) : Prop :=
  match h with
  | [] => True
  | (a, c) :: r => sane_call d a /\ (match a with ADelete _ => no_fault c | _ => True end)
                   /\ clean_hist (db_step d (a, c)) r
  end.

Lemma api_keeps_keys a :
  (match a with ADelete _ => False | _ => True end) ->
  all_stmts (stmt_keeps_keys (match a with AAud id _ => Some id | _ => None end)) (api_prog a).
Proof.
  intros Ha. destruct a; cbn [api_prog]; try contradiction.
  - unfold db_subscr_create. destruct (imsi_valid imsi); cbn; auto.
  - destruct msisdn as [m|]; cbn; auto. destruct (msisdn_valid m); cbn; auto.
  - destruct aud as [algo ki|algo k opc op bl|]; cbn [db_subscr_update_aud_by_id]; [| |exact I].
    + destruct (negb _); [exact I|]. destruct (_ && _); [exact I|].
      cbn [all_stmts]. split; [exact I|]. intros r.
      destruct (_ && _); [exact I|]. destruct (algo =? ALG_NONE); cbn; auto.
    + destruct (negb _); [exact I|]. destruct (_ && _); [exact I|].
      cbn [all_stmts]. split; [exact I|]. intros r.
      destruct (_ && _); [exact I|]. destruct (algo =? ALG_NONE); cbn; auto.
  - destruct imei as [m|]; cbn; auto. destruct (imei_valid14 m); cbn; auto.
  - destruct is_ps; cbn; auto.
  - destruct is_ps; cbn; auto.
  - unfold db_subscr_lu. destruct (ipa_cstr vlr); cbn; auto.
    destruct (lu_proxy via); cbn; auto.
    split; [destruct is_ps; exact I|]. intros r. destruct (upd_rc r =? 0); cbn; auto.
    destruct now; cbn; auto. split; [destruct is_ps; exact I|auto].
  - cbn; auto.
  - unfold db_ind. destruct (ind_vlr_name vlr); cbn; auto. split; auto.
    intros [| |n| | |i|]; cbn; auto; (split; [exact I|]); intros [| |m| | |j|]; cbn; auto;
      (split; [exact I|]); intros []; cbn; auto.
  - unfold db_ind_del. destruct (ind_vlr_name vlr); cbn; auto.
  - cbn. split; auto. intros []; cbn; auto. destruct (sub_of_row _ _); cbn; auto.
  - cbn. split; auto. intros []; cbn; auto. destruct (sub_of_row _ _); cbn; auto.
  - cbn. split; auto. intros []; cbn; auto. destruct (sub_of_row _ _); cbn; auto.
  - cbn. split; auto. intros []; cbn; auto. destruct (sub_of_row _ _); cbn; auto.
  - cbn; auto.
  - cbn; auto.
Qed.

Lemma no_orphans_step d a c :
  db_inv d -> no_orphan_keys d -> sane_call d a -> (match a with ADelete _ => no_fault c | _ => True end) ->
  no_orphan_keys (db_step d (a, c)).
Proof.
  intros Hi Ho Hs Hc. unfold db_step. cbn [fst snd].
  assert (D : (exists id, a = ADelete id) \/ (match a with ADelete _ => False | _ => True end)).
  { destruct a; eauto. }
  destruct D as [[id ->]|D].
  - cbn [api_prog]. destruct (c03_delete d id c) as (_ & _ & N2 & N3 & F & F2 & F3 & _); auto.
    { now apply db_ok_inv. }
    set (d' := run_db _ _ _) in *. destruct Ho as [O2 O3].
    split.
    + intros x Hx. destruct (Z.eq_dec (a2_id x) id) as [E|E]; [exfalso; apply N2; now exists x|].
      destruct (O2 x) as (r & Hr & Er); [now apply F2|]. exists r. split; auto. apply F; congruence.
    + intros x Hx. destruct (Z.eq_dec (a3_id x) id) as [E|E]; [exfalso; apply N3; now exists x|].
      destruct (O3 x) as (r & Hr & Er); [now apply F3|]. exists r. split; auto. apply F; congruence.
  - set (oid := match a with AAud id _ => Some id | _ => None end).
    assert (H : no_orphan_keys (run_db (api_prog a) c d) /\ (forall i, oid = Some i -> has_id (run_db (api_prog a) c d) i)).
    { apply (run_inv (fun d => no_orphan_keys d /\ (forall i, oid = Some i -> has_id d i)) (stmt_keeps_keys oid)).
      - intros s d0. apply no_orphans_exec.
      - now apply api_keeps_keys.
      - split; auto. intros i E. subst oid. destruct a; try discriminate. cbn in *. congruence. }
    apply H.
Qed.

Lemma no_orphans_hist h d :
  db_inv d -> no_orphan_keys d -> clean_hist d h -> no_orphan_keys (db_hist h d).
Proof.
  revert d. induction h as [|[a c] h IH]; intros d Hi Ho Hc; [exact Ho|].
  cbn in Hc. destruct Hc as (H1 & H2 & H3). unfold db_hist in *. cbn [fold_left].
  apply IH; auto using db_step_inv. now apply no_orphans_step.
Qed.

Lemma c03_fresh h d imsi fl c :
  db_ok d -> no_orphan_keys d -> clean_hist d h ->
  let d1 := db_hist h d in
  let d2 := run_db (db_subscr_create imsi fl) c d1 in
  run_out (db_subscr_create imsi fl) c d1 = Fin 0 ->
  exists r, In r (d_sub d2) /\ s_imsi r = imsi /\ ~ has_auc2 d2 (s_id r) /\ ~ has_auc3 d2 (s_id r).
Proof.
  intros Hok Ho Hc d1 d2 Hr. apply db_ok_inv in Hok.
  assert (Ho1 := no_orphans_hist h d Hok Ho Hc). fold d1 in Ho1.
  pose proof (c02_effect d1 imsi fl c) as He. rewrite Hr in He. fold d2 in He.
  destruct He as [(_ & Hi & Hn & id & Hid & ->)|[_ [[E _]|[[E _]|[E _]]]]]; try discriminate.
  eexists. split; [apply in_or_app; right; left; reflexivity|]. cbn. split; auto.
  destruct Ho1 as [O2 O3].
  split; intros (a & Ha & E); cbn in Ha; apply Hid; rewrite <- E; auto.
Qed.

(** * C04 *)
Lemma existsb_conflict d imsi m :
  existsb (fun r => by_msisdn m r && negb (by_imsi imsi r)) (d_sub d) = false <->
  (forall r, In r (d_sub d) -> s_msisdn r = Some m -> s_imsi r = imsi).
Proof.
  rewrite existsb_false. split.
  - intros H r Hr E. specialize (H r Hr). unfold by_msisdn, by_imsi in H.
    rewrite (proj2 (str_opt_is_spec _ _) E) in H. cbn in H. apply negb_false_iff in H.
    now apply String.eqb_eq in H.
  - intros H r Hr. unfold by_msisdn, by_imsi. destruct (str_opt_is m (s_msisdn r)) eqn:E; auto.
    apply str_opt_is_spec in E. rewrite (H r Hr E), String.eqb_refl. reflexivity.
Qed.

Lemma cnt_imsi_le1 d i : db_inv d -> (cnt (by_imsi i) (d_sub d) <= 1)%nat.
Proof.
  intros Hd. pose proof (iv_imsi d Hd) as H. unfold cnt. clear Hd.
  induction (d_sub d) as [|r l IH]; cbn; auto. cbn in H. inversion H as [|? ? Hn Hnd]; subst.
  unfold by_imsi at 1. destruct (String.eqb_spec (s_imsi r) i) as [E|E]; cbn; auto.
  replace (filter (by_imsi i) l) with (@nil sub_row); cbn; auto.
  symmetry. clear IH H Hnd. induction l as [|x l IH]; cbn; auto.
  unfold by_imsi at 1. destruct (String.eqb_spec (s_imsi x) i).
  - exfalso. apply Hn. left. congruence.
  - apply IH. intros Hin. apply Hn. now right.
Qed.

Lemma cnt_imsi_has d i : (0 < cnt (by_imsi i) (d_sub d))%nat <-> has_imsi d i.
Proof.
  rewrite cnt_pos_iff. unfold has_imsi, by_imsi.
  split; intros (r & H & E); exists r; split; auto; [now apply String.eqb_eq in E|now apply String.eqb_eq].
Qed.

(** exact success condition and effect of setting a number, storage working *)
Lemma c04_set d imsi m :
  db_ok d ->
  let p := db_subscr_update_msisdn_by_imsi imsi (Some m) in
  (run_out p [] d = Fin 0 <->
     is_msisdn m /\ has_imsi d imsi /\ (forall r, In r (d_sub d) -> s_msisdn r = Some m -> s_imsi r = imsi)).
Proof.
  intros Hok p. apply db_ok_inv in Hok. unfold p, db_subscr_update_msisdn_by_imsi, run_out.
  destruct (msisdn_valid m) eqn:E; cbn [negb].
  2:{ cbn. split; [discriminate|]. intros [H _]. apply msisdn_valid_spec in H. congruence. }
  apply msisdn_valid_spec in E.
  cbn [run exec].
  destruct (existsb (by_imsi imsi) (d_sub d)) eqn:Ex; cbn [andb].
  - destruct (existsb (fun r => by_msisdn m r && negb (by_imsi imsi r)) (d_sub d)) eqn:Em.
    + cbn. split; [discriminate|]. intros (_ & _ & H). rewrite <- (existsb_conflict d imsi m) in H. congruence.
    + unfold upd_sub. cbn [run fst]. apply has_imsi_existsb in Ex. rewrite (existsb_conflict d imsi m) in Em.
      pose proof (cnt_imsi_le1 d imsi Hok). pose proof (proj2 (cnt_imsi_has d imsi) Ex).
      assert (cnt (by_imsi imsi) (d_sub d) = 1%nat) as -> by lia. cbn. tauto.
  - unfold upd_sub. cbn [run fst]. rewrite cnt_existsb in Ex. apply negb_false_iff in Ex.
    apply Nat.eqb_eq in Ex. rewrite Ex. cbn. split; [discriminate|].
    intros (_ & H & _). apply cnt_imsi_has in H. lia.
Qed.

Definition with_msisdn (v : option string) (r : sub_row) : sub_row :=
  {| s_id := s_id r; s_imsi := s_imsi r; s_msisdn := v; s_imei := s_imei r; s_vlr := s_vlr r;
     s_sgsn := s_sgsn r; s_nam_cs := s_nam_cs r; s_nam_ps := s_nam_ps r; s_purged_cs := s_purged_cs r;
     s_purged_ps := s_purged_ps r; s_lu_cs := s_lu_cs r; s_lu_ps := s_lu_ps r;
     s_vlr_proxy := s_vlr_proxy r; s_sgsn_proxy := s_sgsn_proxy r |}.

Lemma upd_rc_cases r : upd_rc r = 0 -> r = RDone 1.
Proof. destruct r as [| |[|[|n]]| | | |]; cbn; auto; discriminate. Qed.

Lemma c04_effect d imsi v c :
  db_ok d ->
  let p := db_subscr_update_msisdn_by_imsi imsi v in
  let d' := run_db p c d in
  (run_out p c d = Fin 0 ->
     d_sub d' = map (fun r => if (s_imsi r =? imsi)%string then with_msisdn v r else r) (d_sub d) /\
     d_auc2 d' = d_auc2 d /\ d_auc3 d' = d_auc3 d /\ d_ind d' = d_ind d) /\
  (run_out p c d <> Fin 0 -> d' = d) /\
  run_out p c d <> Ub.
Proof.
  intros Hok p d'. apply db_ok_inv in Hok. subst p d'.
  assert (G : forall m s, s = SET_MSISDN_BY_IMSI m imsi /\ v = Some m \/ s = DELETE_MSISDN_BY_IMSI imsi /\ v = None ->
    (run_out (Exec s (fun r => Ret (upd_rc r))) c d = Fin 0 ->
     d_sub (run_db (Exec s (fun r => Ret (upd_rc r))) c d) = map (fun r => if (s_imsi r =? imsi)%string then with_msisdn v r else r) (d_sub d) /\
     d_auc2 (run_db (Exec s (fun r => Ret (upd_rc r))) c d) = d_auc2 d /\
     d_auc3 (run_db (Exec s (fun r => Ret (upd_rc r))) c d) = d_auc3 d /\
     d_ind (run_db (Exec s (fun r => Ret (upd_rc r))) c d) = d_ind d) /\
  (run_out (Exec s (fun r => Ret (upd_rc r))) c d <> Fin 0 -> run_db (Exec s (fun r => Ret (upd_rc r))) c d = d) /\
  run_out (Exec s (fun r => Ret (upd_rc r))) c d <> Ub).
  { intros m s Hs.
    assert (E : (exec s d = (RUnique, d)) \/
                (exec s d = (RDone (cnt (by_imsi imsi) (d_sub d)), with_sub d (upd (by_imsi imsi) (with_msisdn v) (d_sub d))))).
    { destruct Hs as [[-> ->]|[-> ->]]; cbn [exec]; [destruct (_ && _)|]; auto. }
    pose proof (cnt_imsi_le1 d imsi Hok) as L.
    unfold run_out, run_db. cbn [run].
    assert (K : forall c', let x := (let '(r, d') := exec s d in run (Ret (upd_rc r)) c' d') in
       (fst (fst x) = Fin 0 -> d_sub (snd (fst x)) = map (fun r => if (s_imsi r =? imsi)%string then with_msisdn v r else r) (d_sub d) /\
         d_auc2 (snd (fst x)) = d_auc2 d /\ d_auc3 (snd (fst x)) = d_auc3 d /\ d_ind (snd (fst x)) = d_ind d) /\
       (fst (fst x) <> Fin 0 -> snd (fst x) = d) /\ fst (fst x) <> Ub).
    { intros c' x. subst x. destruct E as [-> | ->]; cbn [run fst snd].
      - split; [discriminate|]. split; auto. discriminate.
      - split; [intros _; repeat split|]. split; [|discriminate].
        intros H. destruct (cnt (by_imsi imsi) (d_sub d)) as [|[|n]] eqn:Ec; try lia.
        + rewrite cnt0_upd by auto. now destruct d.
        + exfalso. apply H. reflexivity. }
    destruct c as [|[] c']; cbn [run fst snd].
    - apply (K []).
    - apply (K c').
    - split; [discriminate|]. split; auto. discriminate.
    - split; [discriminate|]. split; auto. discriminate. }
  destruct v as [m|]; cbn [db_subscr_update_msisdn_by_imsi].
  - destruct (negb (msisdn_valid m)).
    + cbn. split; [discriminate|]. split; auto. discriminate.
    + apply (G m). auto.
  - apply (G EmptyString). auto.
Qed.

Lemma find_unique {A} (f : A -> bool) l x :
  In x l -> f x = true -> (forall y, In y l -> f y = true -> y = x) -> find f l = Some x.
Proof.
  intros Hx Hf Hu. destruct (find f l) as [y|] eqn:E.
  - apply find_some in E as [Ey Hy]. f_equal. auto.
  - exfalso. eapply find_none in E; eauto. congruence.
Qed.

(** lookups after a successful change: the new number finds this subscriber, the previous one nobody *)
Lemma c04_lookup d imsi m c :
  db_ok d ->
  let p := db_subscr_update_msisdn_by_imsi imsi (Some m) in
  let d' := run_db p c d in
  run_out p c d = Fin 0 ->
  (exists r, In r (d_sub d') /\ s_imsi r = imsi /\ fst (exec (SEL_BY_MSISDN m) d') = RSub r) /\
  (forall r0 m0, In r0 (d_sub d) -> s_imsi r0 = imsi -> s_msisdn r0 = Some m0 -> m0 <> m ->
     fst (exec (SEL_BY_MSISDN m0) d') = RDone 0).
Proof.
  intros Hok p d' Hr.
  destruct (c04_effect d imsi (Some m) c Hok) as [He _]. fold p in He. fold d' in He.
  specialize (He Hr) as (Es & _ & _ & _).
  assert (Hok' : db_inv d').
  { apply db_ok_inv in Hok. exact (db_step_inv d (AMsisdn imsi (Some m), c) Hok). }
  assert (Hu := inv_unique d' Hok').
  assert (Hin : has_imsi d imsi).
  { unfold p, run_out, db_subscr_update_msisdn_by_imsi in Hr. destruct (negb _); [discriminate|].
    destruct (existsb (by_imsi imsi) (d_sub d)) eqn:Ex; [now apply has_imsi_existsb|].
    exfalso. rewrite cnt_existsb in Ex. apply negb_false_iff, Nat.eqb_eq in Ex.
    assert (Ex' : existsb (by_imsi imsi) (d_sub d) = false) by (rewrite cnt_existsb, Ex; auto).
    destruct c as [|[] c']; cbn [run exec] in Hr; rewrite ?Ex' in Hr; cbn [andb] in Hr;
      unfold upd_sub in Hr; rewrite ?Ex in Hr; cbn in Hr; discriminate. }
  destruct Hin as (r & Hin & Er).
  assert (Hr' : In (with_msisdn (Some m) r) (d_sub d')).
  { rewrite Es. apply in_map_iff. exists r. rewrite Er, String.eqb_refl. auto. }
  split.
  - exists (with_msisdn (Some m) r). split; auto. split; auto. cbn [exec]. unfold sel.
    rewrite (find_unique _ _ (with_msisdn (Some m) r)); auto.
    + cbn. apply String.eqb_refl.
    + intros y Hy Ey. apply str_opt_is_spec in Ey.
      apply In_nth_error in Hy as [i Hi]. apply In_nth_error in Hr' as [j Hj].
      assert (i = j). { eapply Hu; [exact Hi|exact Hj|]. right; right. exists m. auto. } congruence.
  - intros r0 m0 H0 E0 Em Hne. cbn [exec]. unfold sel.
    destruct (find (by_msisdn m0) (d_sub d')) as [y|] eqn:Ey; auto. exfalso.
    apply find_some in Ey as [Hy Ey]. apply str_opt_is_spec in Ey.
    rewrite Es in Hy. apply in_map_iff in Hy as (z & Ez & Hz).
    destruct (String.eqb_spec (s_imsi z) imsi) as [Ei|Ei].
    + subst y. cbn in Ey. congruence.
    + subst y. apply db_ok_inv, inv_unique in Hok.
      apply In_nth_error in Hz as [i Hi]. apply In_nth_error in H0 as [j Hj].
      assert (i = j). { eapply Hok; [exact Hi|exact Hj|]. right; right. exists m0. auto. } congruence.
Qed.

(** * C05 *)
Definition upd_domain (x : domain) (f : sub_row -> sub_row) : Prop := forall r, same_other_domain x r (f r).

Lemma only_domain_refl x tgt d : only_domain_changed x tgt d d.
Proof.
  split; [|auto]. induction (d_sub d); constructor; auto. split; auto. destruct x; reflexivity.
Qed.

Lemma Forall2_upd x (tgt : sub_row -> Prop) cond f l :
  upd_domain x f -> (forall r, cond r = true -> tgt r) ->
  Forall2 (fun r r' => same_other_domain x r r' /\ (tgt r \/ r = r')) l (upd cond f l).
Proof.
  intros Hf Ht. induction l as [|r l IH]; cbn; constructor; auto.
  destruct (cond r) eqn:E; split; auto. destruct x; reflexivity.
Qed.

Lemma only_domain_trans x (tgt : sub_row -> Prop) d1 d2 d3 :
  (forall r r', same_other_domain x r r' -> tgt r' -> tgt r) ->
  only_domain_changed x tgt d1 d2 -> only_domain_changed x tgt d2 d3 -> only_domain_changed x tgt d1 d3.
Proof.
  intros Ht (H1 & A1 & B1 & C1) (H2 & A2 & B2 & C2).
  split; [|rewrite A2, B2, C2; auto].
  clear -H1 H2 Ht. revert H2. generalize (d_sub d3). induction H1 as [|r r' l l' [Ha Hb] H1 IH]; intros l3 H2.
  - inversion H2; constructor.
  - inversion H2 as [|? r'' ? l'' [Hc Hd] H3]; subst. constructor; auto. split.
    + destruct x; cbn in *; congruence.
    + destruct Hb as [Hb|Hb]; [now left|]. destruct Hd as [Hd|Hd]; [left; eauto|right; congruence].
Qed.

Lemma run_single_rel {A} (R : db -> db -> Prop) s (f : res -> A) c d :
  R d d -> R d (snd (exec s d)) -> R d (run_db (Exec s (fun r => Ret (f r))) c d).
Proof.
  intros Hr He. unfold run_db. cbn [run].
  destruct c as [|[] c']; cbn; auto; destruct (exec s d); exact He.
Qed.

Lemma c05_nam x d imsi v c :
  only_domain_changed x (fun r => s_imsi r = imsi) d (run_db (db_subscr_nam imsi v (is_ps x)) c d).
Proof.
  unfold db_subscr_nam. apply run_single_rel; [apply only_domain_refl|].
  destruct x; cbn; unfold upd_sub; cbn; (split; [|auto]); apply Forall2_upd;
    try (intros r; reflexivity); intros r Hr; now apply String.eqb_eq in Hr.
Qed.

Lemma c05_purge x d imsi v c :
  only_domain_changed x (fun r => s_imsi r = imsi) d (run_db (db_subscr_purge imsi v (is_ps x)) c d).
Proof.
  unfold db_subscr_purge. apply run_single_rel; [apply only_domain_refl|].
  destruct x; cbn; unfold upd_sub; cbn; (split; [|auto]); apply Forall2_upd;
    try (intros r; reflexivity); intros r Hr; now apply String.eqb_eq in Hr.
Qed.

Lemma c05_lu x d id vlr via now c :
  only_domain_changed x (fun r => s_id r = id) d (run_db (db_subscr_lu id vlr (is_ps x) via now) c d).
Proof.
  unfold db_subscr_lu. destruct (ipa_cstr vlr) as [number|]; [|apply only_domain_refl].
  destruct (lu_proxy via) as [proxy|]; [|apply only_domain_refl].
  set (s1 := if is_ps x then UPD_SGSN_BY_ID (Some number) proxy id else UPD_VLR_BY_ID (Some number) proxy id).
  assert (T : forall r r' : sub_row, same_other_domain x r r' -> s_id r' = id -> s_id r = id).
  { intros r r' H. destruct x; cbn in H; unfold not_cs, not_ps in H; congruence. }
  assert (S1 : forall d, only_domain_changed x (fun r => s_id r = id) d (snd (exec s1 d))).
  { intros d0. subst s1. destruct x; cbn; unfold upd_sub; cbn; (split; [|auto]); apply Forall2_upd;
      try (intros r; reflexivity); intros r Hr; unfold by_id in Hr; lia. }
  set (k := fun r : res => let rc := upd_rc r in _).
  assert (S2 : forall r c d, only_domain_changed x (fun r => s_id r = id) d (run_db (k r) c d)).
  { intros r c0 d0. subst k. cbv beta zeta. destruct (negb _); [apply only_domain_refl|].
    destruct now as [t|]; [|apply only_domain_refl].
    apply run_single_rel; [apply only_domain_refl|].
    destruct x; cbn; unfold upd_sub; cbn; (split; [|auto]); apply Forall2_upd;
      try (intros q; reflexivity); intros q Hq; unfold by_id in Hq; lia. }
  unfold run_db in *. cbn [run].
  destruct c as [|[] c']; cbn; try apply only_domain_refl; auto.
  - specialize (S1 d). destruct (exec s1 d) as [r d']. cbn in S1. eapply only_domain_trans; eauto.
  - specialize (S1 d). destruct (exec s1 d) as [r d']. cbn in S1. eapply only_domain_trans; eauto.
Qed.

(** * C10 *)
Lemma single_upd_unchanged s cond f d c :
  (exec s d = upd_sub cond f d \/ exec s d = (RUnique, d)) -> (cnt cond (d_sub d) <= 1)%nat ->
  run_out (Exec s (fun r => Ret (upd_rc r))) c d <> Fin 0 ->
  run_db (Exec s (fun r => Ret (upd_rc r))) c d = d.
Proof.
  intros E L. unfold run_out, run_db. cbn [run]. destruct c as [|[] c']; cbn; auto.
  - destruct E as [-> | ->]; [|auto]. cbn. destruct (cnt cond (d_sub d)) as [|[|n]] eqn:Ec; try lia.
    + rewrite cnt0_upd by auto. now destruct d.
    + intros H. exfalso. now apply H.
  - destruct E as [-> | ->]; [|auto]. cbn. destruct (cnt cond (d_sub d)) as [|[|n]] eqn:Ec; try lia.
    + rewrite cnt0_upd by auto. now destruct d.
    + intros H. exfalso. now apply H.
Qed.

Definition single_record_call (a : api) : Prop :=
  match a with
  | ACreate _ _ | AMsisdn _ _ | AImei _ _ | ANam _ _ _ | APurge _ _ _ | ASqn _ _ => True
  | _ => False
  end.

Lemma c10_unchanged a d c :
  db_ok d -> single_record_call a ->
  run_out (api_prog a) c d <> Fin 0 -> run_db (api_prog a) c d = d.
Proof.
  intros Hok Ha Hn. pose proof (proj1 (db_ok_inv d) Hok) as Hi. destruct a; try contradiction; cbn [api_prog] in *.
  - pose proof (c02_effect d imsi flags c) as H.
    destruct (run_out (db_subscr_create imsi flags) c d) as [rc| |]; [|auto|contradiction].
    destruct H as [(-> & _)|(H & _)]; [congruence|auto].
  - now apply (c04_effect d imsi msisdn c).
  - assert (G : forall m, run_out (Exec (UPD_IMEI_BY_IMSI m imsi) (fun r => Ret (upd_rc r))) c d <> Fin 0 ->
       run_db (Exec (UPD_IMEI_BY_IMSI m imsi) (fun r => Ret (upd_rc r))) c d = d).
    { intros m. eapply single_upd_unchanged; [left; reflexivity|]. now apply cnt_imsi_le1. }
    destruct imei as [m|]; cbn [db_subscr_update_imei_by_imsi] in *; auto.
    destruct (negb (imei_valid14 m)); auto.
  - unfold db_subscr_nam in *. destruct is_ps; (eapply single_upd_unchanged; [left; reflexivity| |exact Hn]); now apply cnt_imsi_le1.
  - unfold db_subscr_purge in *. destruct is_ps; (eapply single_upd_unchanged; [left; reflexivity| |exact Hn]); now apply cnt_imsi_le1.
  - unfold db_update_sqn in *.
    assert (L3 : (cnt (fun a => (a3_id a =? id)%Z) (d_auc3 d) <= 1)%nat) by (apply cnt_le1; apply Hi).
    unfold run_out, run_db in *. cbn [run exec] in *.
    destruct c as [|[] c']; cbn in *; auto;
      destruct (cnt (fun a => (a3_id a =? id)%Z) (d_auc3 d)) as [|[|n]] eqn:Ec; try lia;
      try (rewrite cnt0_upd by auto; now destruct d); exfalso; now apply Hn.
Qed.
