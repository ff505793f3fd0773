(** Lemmas behind the database properties C01-C05, C09, C10. *)
From Verif Require Import Base PeerId Db DbSpec DbProofs.

(** * C01 *)
Lemma aud_stmts_ok id aud : all_stmts stmt_ok (db_subscr_update_aud_by_id id aud).
Proof.
  destruct aud as [algo ki|algo k opc op bl|]; cbn [db_subscr_update_aud_by_id]; [| |exact I].
  - destruct (negb _); [exact I|]. destruct (_ && _); [exact I|].
    cbn [all_stmts]. split; [exact I|]. intros r.
    destruct (_ && _); [exact I|]. destruct (algo =? ALG_NONE); cbn; auto.
  - destruct (negb _); [exact I|]. destruct (_ && _); [exact I|].
    cbn [all_stmts]. split; [exact I|]. intros r.
    destruct (_ && _); [exact I|]. destruct (algo =? ALG_NONE); cbn; auto.
Qed.

Lemma api_stmts_ok a : all_stmts stmt_ok (api_prog a).
Proof.
  destruct a; cbn [api_prog].
  - unfold db_subscr_create. destruct (imsi_valid imsi) eqn:E; cbn; auto.
  - unfold db_subscr_delete_by_id. cbn [all_stmts]. split; [exact I|].
    intros [| |n| | | |]; try exact I.
    apply all_stmts_bind; [apply aud_stmts_ok|]. intros rc2.
    apply all_stmts_bind; [apply aud_stmts_ok|]. intros rc3. exact I.
  - destruct msisdn as [m|]; cbn; auto. destruct (msisdn_valid m) eqn:E; cbn; auto.
  - apply aud_stmts_ok.
  - destruct imei as [m|]; cbn; auto. destruct (imei_valid14 m); cbn; auto.
  - destruct is_ps; cbn; auto.
  - destruct is_ps; cbn; auto.
  - unfold db_subscr_lu. destruct (ipa_cstr vlr); cbn; auto.
    destruct (lu_proxy via); cbn; auto.
    split; [destruct is_ps; exact I|]. intros r. destruct (upd_rc r =? 0); cbn; auto.
    destruct now; cbn; auto. split; [destruct is_ps; exact I|auto].
  - cbn; auto.
  - unfold db_ind. destruct (ind_vlr_name vlr); cbn; auto. split; auto.
    intros [| |n| | |i|]; cbn; auto; (split; [exact I|]); intros [| |m| | |j|]; cbn; auto;
      (split; [exact I|]); intros []; cbn; auto.
  - unfold db_ind_del. destruct (ind_vlr_name vlr); cbn; auto.
  - cbn. split; auto. intros []; cbn; auto. destruct (sub_of_row _ _); cbn; auto.
  - cbn. split; auto. intros []; cbn; auto. destruct (sub_of_row _ _); cbn; auto.
  - cbn. split; auto. intros []; cbn; auto. destruct (sub_of_row _ _); cbn; auto.
  - cbn. split; auto. intros []; cbn; auto. destruct (sub_of_row _ _); cbn; auto.
  - cbn; auto.
  - cbn; auto.
Qed.

Lemma db_step_inv d x : db_inv d -> db_inv (db_step d x).
Proof.
  intros H. unfold db_step. eapply run_inv; eauto using inv_exec, api_stmts_ok.
Qed.

Lemma db_hist_inv h d : db_inv d -> db_inv (db_hist h d).
Proof.
  unfold db_hist. revert d. induction h as [|x h IH]; cbn; auto using db_step_inv.
Qed.

Lemma msisdns_unique l i j r r' m :
  NoDup (msisdns l) -> nth_error l i = Some r -> nth_error l j = Some r' ->
  s_msisdn r = Some m -> s_msisdn r' = Some m -> i = j.
Proof.
  revert i j. induction l as [|x l IH]; intros i j H Hi Hj Er Er'; [destruct i; discriminate|].
  cbn in H.
  destruct i as [|i], j as [|j]; cbn in Hi, Hj; auto.
  - injection Hi as <-. rewrite Er in H. cbn in H. inversion H; subst.
    exfalso. apply H2. apply msisdns_in. exists r'. split; auto. eapply nth_error_In; eauto.
  - injection Hj as <-. rewrite Er' in H. cbn in H. inversion H; subst.
    exfalso. apply H2. apply msisdns_in. exists r. split; auto. eapply nth_error_In; eauto.
  - f_equal. eapply IH; eauto. destruct (s_msisdn x); cbn in H; [inversion H|]; auto.
Qed.

Lemma inv_unique d : db_inv d -> identities_unique d.
Proof.
  intros [] i j r r' Hi Hj [E|[E|(m & E & E')]].
  - apply NoDup_map_inj with (i := i) (j := j) (x := r) (y := r') in iv_id; auto.
  - apply NoDup_map_inj with (i := i) (j := j) (x := r) (y := r') in iv_imsi; auto.
  - eapply msisdns_unique; eauto.
Qed.

Lemma inv_wellformed d : db_inv d -> identities_wellformed d.
Proof.
  intros [] r Hr. rewrite Forall_forall in iv_wf. destruct (iv_wf r Hr) as [H1 H2].
  split; [now apply imsi_valid_spec|]. intros m E. apply msisdn_valid_spec. auto.
Qed.

(** A well-formed database: what every history from the empty one yields; also the assumption made on
    a database file found at start. *)
Definition db_ok (d : db) : Prop :=
  identities_unique d /\ identities_wellformed d /\
  Forall (fun r => 0 < s_id r) (d_sub d) /\
  NoDup (map a2_id (d_auc2 d)) /\ NoDup (map a3_id (d_auc3 d)) /\
  NoDup (map i_ind (d_ind d)) /\ NoDup (map i_vlr (d_ind d)).

Lemma msisdns_nodup_of_unique l :
  (forall i j r r' m, nth_error l i = Some r -> nth_error l j = Some r' ->
     s_msisdn r = Some m -> s_msisdn r' = Some m -> i = j) -> NoDup (msisdns l).
Proof.
  induction l as [|x l IH]; intros H; [constructor|].
  assert (Hl : NoDup (msisdns l)).
  { apply IH. intros i j r r' m Hi Hj E E'.
    assert (S i = S j) by (eapply H; eauto). congruence. }
  cbn. destruct (s_msisdn x) as [m|] eqn:E; cbn; auto. constructor; auto.
  intros Hin. apply msisdns_in in Hin as (r & Hr & Er). apply In_nth_error in Hr as [n Hn].
  assert (0 = S n)%nat by exact (H 0%nat (S n) x r m eq_refl Hn E Er). discriminate.
Qed.

Lemma db_ok_inv d : db_ok d <-> db_inv d.
Proof.
  split.
  - intros (H1 & H2 & H3 & H4 & H5 & H6 & H7). constructor; auto.
    + apply NoDup_map_inj. intros. eapply H1; eauto.
    + apply NoDup_map_inj. intros. eapply H1; eauto.
    + apply msisdns_nodup_of_unique. intros. eapply H1; eauto.
    + apply Forall_forall. intros r Hr. destruct (H2 r Hr) as [Ha Hb].
      split; [now apply imsi_valid_spec|]. intros m E. apply msisdn_valid_spec. auto.
  - intros H. split; [now apply inv_unique|]. split; [now apply inv_wellformed|].
    destruct H; auto 10.
Qed.

Lemma c01_unique h d : db_ok d -> identities_unique (db_hist h d) /\ identities_wellformed (db_hist h d).
Proof.
  intros H. apply db_ok_inv in H. apply (db_hist_inv h) in H.
  split; [now apply inv_unique|now apply inv_wellformed].
Qed.

(** crash points inside one call, made explicit *)
Lemma c01_crash a c d : db_ok d -> identities_unique (run_db (api_prog a) c d).
Proof.
  intros H. apply db_ok_inv in H. apply inv_unique. exact (db_step_inv d (a, c) H).
Qed.

(** * C02 *)
Lemma has_imsi_existsb d i : existsb (by_imsi i) (d_sub d) = true <-> has_imsi d i.
Proof.
  rewrite existsb_exists. unfold has_imsi, by_imsi.
  split; intros (r & H & E); exists r; split; auto; [now apply String.eqb_eq in E|now apply String.eqb_eq].
Qed.

Lemma c02_success_iff d imsi flags :
  run_out (db_subscr_create imsi flags) [] d = Fin 0 <-> is_imsi imsi /\ ~ has_imsi d imsi.
Proof.
  unfold db_subscr_create, run_out.
  destruct (imsi_valid imsi) eqn:E; cbn.
  - destruct (existsb (by_imsi imsi) (d_sub d)) eqn:Ex; cbn.
    + split; [discriminate|]. intros [_ H]. apply has_imsi_existsb in Ex. tauto.
    + split; auto. intros _. split; [now apply imsi_valid_spec|].
      intros H. apply has_imsi_existsb in H. congruence.
  - split; [discriminate|]. intros [H _]. apply imsi_valid_spec in H. congruence.
Qed.

Lemma c02_effect d imsi flags c :
  match run_out (db_subscr_create imsi flags) c d with
  | Fin rc =>
      (rc = 0 /\ is_imsi imsi /\ ~ has_imsi d imsi /\
       exists id, ~ has_id d id /\
         run_db (db_subscr_create imsi flags) c d =
         mk_db (d_sub d ++
                [{| s_id := id; s_imsi := imsi; s_msisdn := None; s_imei := None; s_vlr := None;
                    s_sgsn := None; s_nam_cs := N.testbit flags 1; s_nam_ps := N.testbit flags 2;
                    s_purged_cs := false; s_purged_ps := false; s_lu_cs := None; s_lu_ps := None;
                    s_vlr_proxy := None; s_sgsn_proxy := None |}])
               (d_auc2 d) (d_auc3 d) (d_ind d))
      \/ (run_db (db_subscr_create imsi flags) c d = d /\
          ((rc = -22 /\ ~ is_imsi imsi) \/ (rc = -17 /\ is_imsi imsi /\ has_imsi d imsi) \/
           (rc = -5 /\ is_imsi imsi /\ In EvFail c)))
  | Crashed => run_db (db_subscr_create imsi flags) c d = d
  | Ub => False
  end.
Proof.
  unfold db_subscr_create, run_out, run_db.
  destruct (imsi_valid imsi) eqn:E; cbn.
  2:{ right. split; auto. left. split; auto. rewrite <- imsi_valid_spec. congruence. }
  assert (Hi : is_imsi imsi) by now apply imsi_valid_spec.
  assert (Hok : forall c',
    match run (Ret (match fst (if existsb (by_imsi imsi) (d_sub d) then (RUnique, d)
               else (RDone 1, with_sub d (d_sub d ++ [new_row (next_rowid (map s_id (d_sub d))) imsi (N.testbit flags 1) (N.testbit flags 2)])))
       with RDone _ => 0 | RUnique => - EEXIST | _ => - EIO end)) c'
       (snd (if existsb (by_imsi imsi) (d_sub d) then (RUnique, d)
               else (RDone 1, with_sub d (d_sub d ++ [new_row (next_rowid (map s_id (d_sub d))) imsi (N.testbit flags 1) (N.testbit flags 2)])))) with
    | (Fin rc, d', _) =>
      (rc = 0 /\ is_imsi imsi /\ ~ has_imsi d imsi /\
       exists id, ~ has_id d id /\
         d' =
         mk_db (d_sub d ++ [new_row id imsi (N.testbit flags 1) (N.testbit flags 2)])
               (d_auc2 d) (d_auc3 d) (d_ind d))
      \/ (d' = d /\ rc = -17 /\ is_imsi imsi /\ has_imsi d imsi)
    | _ => False end).
  { intros c'. cbn. destruct (existsb (by_imsi imsi) (d_sub d)) eqn:Ex; cbn.
    - right. split; [auto|]. split; [auto|]. split; [exact Hi|]. now apply has_imsi_existsb.
    - left. split; auto. split; auto. split.
      + intros H. apply has_imsi_existsb in H. congruence.
      + exists (next_rowid (map s_id (d_sub d))). split; auto.
        intros (r & Hr & Er). apply (next_rowid_fresh (map s_id (d_sub d))). rewrite <- Er. now apply in_map. }
  destruct c as [|[] c']; cbn.
  - specialize (Hok []). destruct (existsb (by_imsi imsi) (d_sub d)); cbn in *; destruct Hok as [H|H]; auto.
    + right. split; [tauto|]. right; left; tauto.
    + right. split; [tauto|]. right; left; tauto.
  - specialize (Hok c'). destruct (existsb (by_imsi imsi) (d_sub d)); cbn in *; destruct Hok as [H|H]; auto.
    + right. split; [tauto|]. right; left; tauto.
    + right. split; [tauto|]. right; left; tauto.
  - right. split; auto. right; right. auto.
  - reflexivity.
Qed.

Lemma find_app_none {A} f (l1 l2 : list A) : find f l1 = None -> find f (l1 ++ l2) = find f l2.
Proof. induction l1 as [|x l IH]; cbn; auto. destruct (f x); [discriminate|auto]. Qed.

Lemma str_take_all n s : (String.length s <= n)%nat -> str_take n s = s.
Proof.
  revert n. induction s as [|c s IH]; intros n H; destruct n; cbn [String.length] in *; auto; try lia.
  change (String c (str_take n s) = String c s). f_equal. apply IH. lia.
Qed.

Lemma c02_readback d imsi flags c tz :
  run_out (db_subscr_create imsi flags) c d = Fin 0 ->
  exists s, run_out (db_subscr_get_by_imsi tz imsi) [] (run_db (db_subscr_create imsi flags) c d) = Fin (0, Some s)
    /\ h_imsi s = imsi /\ h_msisdn s = EmptyString /\ h_imei s = EmptyString
    /\ h_vlr s = EmptyString /\ h_sgsn s = EmptyString
    /\ h_nam_cs s = N.testbit flags 1 /\ h_nam_ps s = N.testbit flags 2
    /\ h_purged_cs s = false /\ h_purged_ps s = false /\ h_lu_cs s = 0 /\ h_lu_ps s = 0
    /\ in_len (h_vlr_proxy s) = 0%nat /\ in_len (h_sgsn_proxy s) = 0%nat.
Proof.
  intros H. pose proof (c02_effect d imsi flags c) as He. rewrite H in He.
  destruct He as [(_ & Hi & Hn & id & Hid & ->)|[_ [[E _]|[[E _]|[E _]]]]]; try discriminate.
  unfold run_out, db_subscr_get_by_imsi, db_sel. cbn.
  unfold sel. cbn [d_sub].
  rewrite find_app_none.
  - cbn [find]. unfold by_imsi. cbn [s_imsi]. rewrite String.eqb_refl. cbn.
    eexists. split; [reflexivity|]. cbn [h_imsi h_msisdn h_imei h_vlr h_sgsn h_nam_cs h_nam_ps h_purged_cs h_purged_ps h_lu_cs h_lu_ps h_vlr_proxy h_sgsn_proxy].
    repeat split. apply str_take_all. destruct Hi as [[_ Hl] _]. exact Hl.
  - destruct (find (by_imsi imsi) (d_sub d)) as [r|] eqn:E; auto.
    apply find_some in E as [E1 E2]. exfalso. apply Hn. exists r. split; auto.
    now apply String.eqb_eq in E2.
Qed.

(** * C03 *)
Definition no_fault (c : sched) : Prop := Forall (eq EvOk) c.

Lemma run_no_fault {A} (p : prog A) c d :
  no_fault c -> run_out p c d = run_out p [] d /\ run_db p c d = run_db p [] d.
Proof.
  revert c d. induction p as [a|s k IH|]; intros c d H; auto.
  unfold run_out, run_db in *. cbn. destruct c as [|[] c']; auto.
  - inversion H; subst. destruct (exec s d) as [r d']. apply IH. auto.
  - inversion H; discriminate.
  - inversion H; discriminate.
Qed.

Lemma cnt_le1 {R} (key : R -> Z) (l : list R) i :
  NoDup (map key l) -> (cnt (fun r => (key r =? i)%Z) l <= 1)%nat.
Proof.
  unfold cnt. induction l as [|r l IH]; cbn; auto. intros H. inversion H as [|? ? Hn Hd]; subst.
  destruct (Z.eqb_spec (key r) i) as [E|E]; cbn; auto.
  replace (filter (fun r0 => key r0 =? i) l) with (@nil R); cbn; auto.
  symmetry.
  clear IH H Hd. induction l as [|x l IH]; cbn; auto.
  destruct (Z.eqb_spec (key x) i); [exfalso; apply Hn; left; congruence|].
  apply IH. intros Hin. apply Hn. right. auto.
Qed.

Lemma find_none_filter {R} f (l : list R) : find f l = None -> del f l = l.
Proof.
  unfold del. induction l as [|x l IH]; cbn; auto. destruct (f x) eqn:E; [discriminate|]. cbn.
  intros H. f_equal; auto.
Qed.

Lemma cnt0_del {R} f (l : list R) : cnt f l = O -> del f l = l.
Proof.
  unfold cnt, del. induction l as [|x l IH]; cbn; auto. destruct (f x) eqn:E; cbn; [discriminate|].
  intros H. f_equal; auto.
Qed.
Lemma cnt0_upd {R} f g (l : list R) : cnt f l = O -> upd f g l = l.
Proof.
  unfold cnt, upd. induction l as [|x l IH]; cbn; auto. destruct (f x) eqn:E; cbn; [discriminate|].
  intros H. f_equal; auto.
Qed.

Definition ids_differ {R} (key : R -> Z) (i : Z) (r : R) : bool := negb (key r =? i).

Lemma cnt_pos_iff {R} f (l : list R) : (0 < cnt f l)%nat <-> exists r, In r l /\ f r = true.
Proof.
  unfold cnt. induction l as [|x l IH]; cbn.
  - split; [lia|]. intros (r & [] & _).
  - destruct (f x) eqn:E; cbn.
    + split; [|lia]. intros _. exists x. auto.
    + rewrite IH. split; intros (r & Hr & Er); exists r; intuition congruence.
Qed.

Lemma del_not_in {R} f (l : list R) r : In r (del f l) -> f r = false.
Proof. unfold del. rewrite filter_In. intros [_ H]. now apply negb_true_iff in H. Qed.

Definition delete_result (d : db) (id : Z) : Z :=
  if existsb (by_id id) (d_sub d) || existsb (fun a => a2_id a =? id) (d_auc2 d)
     || existsb (fun a => a3_id a =? id) (d_auc3 d) then 0 else - ENOENT.

Lemma cnt_existsb {R} f (l : list R) : existsb f l = negb (cnt f l =? 0)%nat.
Proof.
  unfold cnt. induction l as [|x l IH]; cbn; auto. destruct (f x); cbn; auto.
Qed.

Lemma cnt_le1_id d i : db_inv d -> (cnt (by_id i) (d_sub d) <= 1)%nat.
Proof. intros []. apply (cnt_le1 s_id). auto. Qed.

Lemma run_aud2_none id c d :
  run (db_subscr_update_aud_by_id id (AudGsm ALG_NONE "")) c d =
  run (Exec (AUC_2G_DELETE id) (fun r => Ret (aud_del_rc r))) c d.
Proof.
  change (db_subscr_update_aud_by_id id (AudGsm ALG_NONE "")) with
    (Exec (AUC_2G_DELETE id) (fun r => let ret := aud_del_rc r in
       if negb (ret =? 0) && negb (ret =? - ENOENT) then Ret ret else Ret ret)).
  cbn [run]. destruct c as [|[] c]; cbn [exec]; cbv zeta; auto;
    match goal with |- context [if ?b then _ else _] => destruct b end; reflexivity.
Qed.
Lemma run_aud3_none id c d :
  run (db_subscr_update_aud_by_id id (AudUmts ALG_NONE "" "" false 0)) c d =
  run (Exec (AUC_3G_DELETE id) (fun r => Ret (aud_del_rc r))) c d.
Proof.
  change (db_subscr_update_aud_by_id id (AudUmts ALG_NONE "" "" false 0)) with
    (Exec (AUC_3G_DELETE id) (fun r => let ret := aud_del_rc r in
       if negb (ret =? 0) && negb (ret =? - ENOENT) then Ret ret else Ret ret)).
  cbn [run]. destruct c as [|[] c]; cbn [exec]; cbv zeta; auto;
    match goal with |- context [if ?b then _ else _] => destruct b end; reflexivity.
Qed.

Lemma run_delete d id :
  db_inv d ->
  run (db_subscr_delete_by_id id) [] d =
    (Fin (delete_result d id),
     mk_db (filter (ids_differ s_id id) (d_sub d)) (filter (ids_differ a2_id id) (d_auc2 d))
           (filter (ids_differ a3_id id) (d_auc3 d)) (d_ind d), []).
Proof.
  intros Hi.
  assert (L1 := cnt_le1_id d id Hi).
  assert (L2 : (cnt (fun a => (a2_id a =? id)%Z) (d_auc2 d) <= 1)%nat) by (apply cnt_le1; apply Hi).
  assert (L3 : (cnt (fun a => (a3_id a =? id)%Z) (d_auc3 d) <= 1)%nat) by (apply cnt_le1; apply Hi).
  unfold delete_result. rewrite !cnt_existsb.
  unfold db_subscr_delete_by_id. cbn [run exec]. cbv zeta.
  rewrite run_bind, run_aud2_none. cbn [run exec].
  rewrite run_bind, run_aud3_none. cbn [run exec]. cbn [d_auc2 d_auc3 d_sub d_ind with_sub with_auc2 with_auc3].
  set (n1 := cnt (by_id id) (d_sub d)) in *.
  set (n2 := cnt (fun a => (a2_id a =? id)%Z) (d_auc2 d)) in *.
  set (n3 := cnt (fun a => (a3_id a =? id)%Z) (d_auc3 d)) in *.
  assert (H1 : n1 = 0%nat \/ n1 = 1%nat) by lia.
  assert (H2 : n2 = 0%nat \/ n2 = 1%nat) by lia.
  assert (H3 : n3 = 0%nat \/ n3 = 1%nat) by lia.
  destruct H1 as [->| ->]; destruct H2 as [->| ->]; destruct H3 as [->| ->]; reflexivity.
Qed.
