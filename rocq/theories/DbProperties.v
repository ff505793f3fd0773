(** Properties C01-C05, C09, C10: the subscriber database. Each theorem is closed by a lemma
    proved elsewhere; the Examples show that the hypotheses are met by concrete states. *)
From Verif Require Import Base PeerId Db DbSpec DbProofs DbThms DbThms2 DbThms3.
From Verif Require DbThms4.

(** ** A concrete database built through the API *)
Definition ex_hist : list (api * sched) :=
  [ (ACreate "901700000001" 6, []);
    (ACreate "901700000002" 6, []);
    (AMsisdn "901700000001" (Some "1001"), []);
    (AMsisdn "901700000002" (Some "1002"), []);
    (AAud 1 (AudGsm 1 "00112233445566778899aabbccddeeff"), []);
    (AAud 2 (AudUmts 5 "000102030405060708090a0b0c0d0e0f" "101112131415161718191a1b1c1d1e1f" false 5), []) ].
Definition ex_db : db := Eval vm_compute in db_hist ex_hist db_init.

Lemma db_ok_init : db_ok db_init.
Proof. apply db_ok_inv, db_inv_init. Qed.
Example ex_db_reachable : ex_db = db_hist ex_hist db_init.
Proof. vm_compute. reflexivity. Qed.
Example ex_db_ok : db_ok ex_db.
Proof. rewrite ex_db_reachable. apply db_ok_inv, db_hist_inv, db_inv_init. Qed.

(** ** C01 *)
Theorem C01_identities_unique : forall h : list (api * sched),
  identities_unique (db_hist h db_init) /\ identities_wellformed (db_hist h db_init).
Proof. intros h. exact (c01_unique h db_init db_ok_init). Qed.
Print Assumptions C01_identities_unique.

(** the same from any database that satisfies the table constraints *)
Theorem C01_identities_unique_from : forall h d, db_ok d ->
  identities_unique (db_hist h d) /\ identities_wellformed (db_hist h d).
Proof. exact c01_unique. Qed.
Print Assumptions C01_identities_unique_from.

(** a crash in the middle of creating, a rejected duplicate and a rejected malformed IMSI *)
Example C01_case :
  let h := ex_hist ++ [(ACreate "901700000003" 2, [EvCrash]); (ACreate "901700000001" 2, []);
                       (ACreate "9017x" 2, []); (AMsisdn "901700000002" (Some "1001"), [])] in
  map (fun r => (s_id r, s_imsi r, s_msisdn r)) (d_sub (db_hist h db_init)) =
  [(1, "901700000001", Some "1001"); (2, "901700000002", Some "1002")]%string.
Proof. vm_compute. reflexivity. Qed.

(** ** C02 *)
Theorem C02_create_success_exact : forall d imsi flags,
  run_out (db_subscr_create imsi flags) [] d = Fin 0 <-> is_imsi imsi /\ ~ has_imsi d imsi.
Proof. exact c02_success_iff. Qed.
Print Assumptions C02_create_success_exact.

Theorem C02_create_effect : forall d imsi flags c,
  match run_out (db_subscr_create imsi flags) c d with
  | Fin rc =>
      (rc = 0 /\ is_imsi imsi /\ ~ has_imsi d imsi /\
       exists id, ~ has_id d id /\
         run_db (db_subscr_create imsi flags) c d =
         mk_db (d_sub d ++
                [{| s_id := id; s_imsi := imsi; s_msisdn := None; s_imei := None; s_vlr := None;
                    s_sgsn := None; s_nam_cs := N.testbit flags 1; s_nam_ps := N.testbit flags 2;
                    s_purged_cs := false; s_purged_ps := false; s_lu_cs := None; s_lu_ps := None;
                    s_vlr_proxy := None; s_sgsn_proxy := None |}])
               (d_auc2 d) (d_auc3 d) (d_ind d))
      \/ (run_db (db_subscr_create imsi flags) c d = d /\
          ((rc = -22 /\ ~ is_imsi imsi) \/ (rc = -17 /\ is_imsi imsi /\ has_imsi d imsi) \/
           (rc = -5 /\ is_imsi imsi /\ In EvFail c)))
  | Crashed => run_db (db_subscr_create imsi flags) c d = d
  | Ub => False
  end.
Proof. exact c02_effect. Qed.
Print Assumptions C02_create_effect.

Theorem C02_create_readback : forall d imsi flags c tz,
  run_out (db_subscr_create imsi flags) c d = Fin 0 ->
  exists s, run_out (db_subscr_get_by_imsi tz imsi) [] (run_db (db_subscr_create imsi flags) c d) = Fin (0, Some s)
    /\ h_imsi s = imsi /\ h_msisdn s = EmptyString /\ h_imei s = EmptyString
    /\ h_vlr s = EmptyString /\ h_sgsn s = EmptyString
    /\ h_nam_cs s = N.testbit flags 1 /\ h_nam_ps s = N.testbit flags 2
    /\ h_purged_cs s = false /\ h_purged_ps s = false /\ h_lu_cs s = 0 /\ h_lu_ps s = 0
    /\ in_len (h_vlr_proxy s) = 0%nat /\ in_len (h_sgsn_proxy s) = 0%nat.
Proof. exact c02_readback. Qed.
Print Assumptions C02_create_readback.

Example C02_case_ok : run_out (db_subscr_create "901700000003" 4) [] ex_db = Fin 0 /\
  map (fun r => (s_id r, s_nam_cs r, s_nam_ps r)) (d_sub (run_db (db_subscr_create "901700000003" 4) [] ex_db))
  = [(1, true, true); (2, true, true); (3, false, true)].
Proof. vm_compute. auto. Qed.
Example C02_case_dup : run_out (db_subscr_create "901700000001" 6) [] ex_db = Fin (-17).
Proof. vm_compute. reflexivity. Qed.
Example C02_case_invalid : run_out (db_subscr_create "90170000000a" 6) [] ex_db = Fin (-22).
Proof. vm_compute. reflexivity. Qed.

(** ** C03 *)
(** with working storage a deletion is complete and touches nothing else *)
Theorem C03_delete_partial : forall d id c,
  db_ok d -> no_fault c ->
  let d' := run_db (db_subscr_delete_by_id id) c d in
  run_out (db_subscr_delete_by_id id) c d =
    Fin (if existsb (fun r => s_id r =? id) (d_sub d) || existsb (fun a => a2_id a =? id) (d_auc2 d)
            || existsb (fun a => a3_id a =? id) (d_auc3 d) then 0 else -2) /\
  ~ has_id d' id /\ ~ has_auc2 d' id /\ ~ has_auc3 d' id /\
  (forall r, s_id r <> id -> (In r (d_sub d') <-> In r (d_sub d))) /\
  (forall a, a2_id a <> id -> (In a (d_auc2 d') <-> In a (d_auc2 d))) /\
  (forall a, a3_id a <> id -> (In a (d_auc3 d') <-> In a (d_auc3 d))) /\
  d_ind d' = d_ind d.
Proof. exact c03_delete. Qed.
Print Assumptions C03_delete_partial.

(** if no deletion was hit by a fault and keys are only set for existing ids, a subscriber
    created later has no keys *)
Theorem C03_fresh_subscriber_has_no_keys_partial : forall h d imsi fl c,
  db_ok d -> no_orphan_keys d -> clean_hist d h ->
  let d1 := db_hist h d in
  let d2 := run_db (db_subscr_create imsi fl) c d1 in
  run_out (db_subscr_create imsi fl) c d1 = Fin 0 ->
  exists r, In r (d_sub d2) /\ s_imsi r = imsi /\ ~ has_auc2 d2 (s_id r) /\ ~ has_auc3 d2 (s_id r).
Proof. exact c03_fresh. Qed.
Print Assumptions C03_fresh_subscriber_has_no_keys_partial.

Example C03_case :
  let h := ex_hist ++ [(ADelete 2, [])] in
  clean_hist db_init h /\ no_orphan_keys db_init /\
  map s_id (d_sub (db_hist (h ++ [(ACreate "901700000009" 6, [])]) db_init)) = [1; 2] /\
  d_auc3 (db_hist (h ++ [(ACreate "901700000009" 6, [])]) db_init) = [].
Proof.
  cbv zeta. split; [|split; [split; intros a []|vm_compute; auto]].
  cbn [clean_hist app ex_hist]. repeat split; try exact I; try (constructor; fail).
  - unfold has_id. vm_compute. eexists. split; [left; reflexivity|reflexivity].
  - unfold has_id. vm_compute. eexists. split; [right; left; reflexivity|reflexivity].
Qed.

(** Whatever the storage does: nothing of other subscribers changes, nothing is added, keys are
    left alone or gone, and after success the subscriber is gone. *)
Theorem C03_any_faults : forall d id c,
  let d' := run_db (db_subscr_delete_by_id id) c d in
  (forall r, s_id r <> id -> (In r (d_sub d') <-> In r (d_sub d))) /\
  (forall a, a2_id a <> id -> (In a (d_auc2 d') <-> In a (d_auc2 d))) /\
  (forall a, a3_id a <> id -> (In a (d_auc3 d') <-> In a (d_auc3 d))) /\ d_ind d' = d_ind d /\
  (forall r, In r (d_sub d') -> In r (d_sub d)) /\
  (d_auc2 d' = d_auc2 d \/ ~ has_auc2 d' id) /\ (d_auc3 d' = d_auc3 d \/ ~ has_auc3 d' id) /\
  (run_out (db_subscr_delete_by_id id) c d = Fin 0 -> ~ has_id d' id).
Proof. exact DbThms4.c03_any. Qed.
Print Assumptions C03_any_faults.

(** The first deletion fails: an error is reported and the subscriber is still there. *)
Example C03_any_faults_case :
  has_id (run_db (db_subscr_delete_by_id 2) [EvFail] ex_db) 2 /\
  run_out (db_subscr_delete_by_id 2) [EvFail] ex_db <> Fin 0 /\
  run_out (db_subscr_delete_by_id 2) [] ex_db = Fin 0.
Proof.
  split; [|split; [vm_compute; discriminate|vm_compute; reflexivity]].
  unfold has_id. vm_compute. eexists. split; [right; left; reflexivity|reflexivity].
Qed.

(** The full claim fails: when the storage rejects the two key deletions, the call still
    reports success (0) although the keys of the deleted subscriber remain. *)
Theorem C03_delete_reports_done_with_keys_left_refuted : exists d id c,
  db_ok d /\ run_out (db_subscr_delete_by_id id) c d = Fin 0 /\
  ~ has_id (run_db (db_subscr_delete_by_id id) c d) id /\
  has_auc3 (run_db (db_subscr_delete_by_id id) c d) id.
Proof.
  exists ex_db, 2, [EvOk; EvOk; EvFail]. split; [exact ex_db_ok|]. split; [vm_compute; reflexivity|].
  split.
  - intros (r & Hr & E). vm_compute in Hr. destruct Hr as [<-|[]]. discriminate E.
  - eexists. split; [vm_compute; left; reflexivity|reflexivity].
Qed.
Print Assumptions C03_delete_reports_done_with_keys_left_refuted.

(** ... and so does a crash; then the next subscriber created gets the reused id and the dead
    subscriber's keys. *)
Theorem C03_new_subscriber_inherits_keys_refuted : exists h imsi id,
  (forall a c, In (a, c) h -> a <> ACreate imsi 6) /\
  let d := db_hist h db_init in
  let d' := run_db (db_subscr_create imsi 6) [] d in
  run_out (db_subscr_create imsi 6) [] d = Fin 0 /\
  (exists r, In r (d_sub d') /\ s_imsi r = imsi /\ s_id r = id) /\ has_auc3 d' id.
Proof.
  exists (ex_hist ++ [(ADelete 2, [EvOk; EvCrash])]), "901700000009"%string, 2.
  split; [|split; [vm_compute; reflexivity|split]].
  - intros a c Hin E. subst a. cbn in Hin. repeat destruct Hin as [Hin|Hin]; try discriminate Hin; contradiction.
  - vm_compute. eexists. split; [right; left; reflexivity|]. split; reflexivity.
  - eexists. split; [vm_compute; left; reflexivity|reflexivity].
Qed.
Print Assumptions C03_new_subscriber_inherits_keys_refuted.

(** ** C04 *)
Theorem C04_set_success_exact : forall d imsi m,
  db_ok d ->
  let p := db_subscr_update_msisdn_by_imsi imsi (Some m) in
  (run_out p [] d = Fin 0 <->
     is_msisdn m /\ has_imsi d imsi /\ (forall r, In r (d_sub d) -> s_msisdn r = Some m -> s_imsi r = imsi)).
Proof. exact c04_set. Qed.
Print Assumptions C04_set_success_exact.

Theorem C04_effect : forall d imsi v c,
  db_ok d ->
  let p := db_subscr_update_msisdn_by_imsi imsi v in
  let d' := run_db p c d in
  (run_out p c d = Fin 0 ->
     d_sub d' = map (fun r => if (s_imsi r =? imsi)%string then with_msisdn v r else r) (d_sub d) /\
     d_auc2 d' = d_auc2 d /\ d_auc3 d' = d_auc3 d /\ d_ind d' = d_ind d) /\
  (run_out p c d <> Fin 0 -> d' = d) /\
  run_out p c d <> Ub.
Proof. exact c04_effect. Qed.
Print Assumptions C04_effect.

Theorem C04_lookup : forall d imsi m c,
  db_ok d ->
  let p := db_subscr_update_msisdn_by_imsi imsi (Some m) in
  let d' := run_db p c d in
  run_out p c d = Fin 0 ->
  (exists r, In r (d_sub d') /\ s_imsi r = imsi /\ fst (exec (SEL_BY_MSISDN m) d') = RSub r) /\
  (forall r0 m0, In r0 (d_sub d) -> s_imsi r0 = imsi -> s_msisdn r0 = Some m0 -> m0 <> m ->
     fst (exec (SEL_BY_MSISDN m0) d') = RDone 0).
Proof. exact c04_lookup. Qed.
Print Assumptions C04_lookup.

Example C04_case_change :
  run_out (db_subscr_update_msisdn_by_imsi "901700000001" (Some "555")) [] ex_db = Fin 0 /\
  map s_msisdn (d_sub (run_db (db_subscr_update_msisdn_by_imsi "901700000001" (Some "555")) [] ex_db))
  = [Some "555"; Some "1002"]%string.
Proof. vm_compute. auto. Qed.
Example C04_case_taken : run_out (db_subscr_update_msisdn_by_imsi "901700000001" (Some "1002")) [] ex_db = Fin (-5).
Proof. vm_compute. reflexivity. Qed.
Example C04_case_remove :
  map s_msisdn (d_sub (run_db (db_subscr_update_msisdn_by_imsi "901700000001" None) [] ex_db)) = [None; Some "1002"]%string.
Proof. vm_compute. reflexivity. Qed.

(** ** C05 *)
Theorem C05_nam_one_domain : forall x d imsi v c,
  only_domain_changed x (fun r => s_imsi r = imsi) d (run_db (db_subscr_nam imsi v (is_ps x)) c d).
Proof. exact c05_nam. Qed.
Print Assumptions C05_nam_one_domain.
Theorem C05_purge_one_domain : forall x d imsi v c,
  only_domain_changed x (fun r => s_imsi r = imsi) d (run_db (db_subscr_purge imsi v (is_ps x)) c d).
Proof. exact c05_purge. Qed.
Print Assumptions C05_purge_one_domain.
Theorem C05_lu_one_domain : forall x d id vlr via now c,
  only_domain_changed x (fun r => s_id r = id) d (run_db (db_subscr_lu id vlr (is_ps x) via now) c d).
Proof. exact c05_lu. Qed.
Print Assumptions C05_lu_one_domain.

(** ... and the change asked for is made *)
Theorem C05_nam_takes_effect : forall x d imsi v c,
  run_out (db_subscr_nam imsi v (is_ps x)) c d = Fin 0 ->
  dom_changed x (fun r => (s_imsi r =? imsi)%string) (fun f => mk_dom (f_number f) (f_proxy f) v (f_purged f) (f_seen f))
    d (run_db (db_subscr_nam imsi v (is_ps x)) c d).
Proof. exact c05_nam_sets. Qed.
Print Assumptions C05_nam_takes_effect.
Theorem C05_purge_takes_effect : forall x d imsi v c,
  run_out (db_subscr_purge imsi v (is_ps x)) c d = Fin 0 ->
  dom_changed x (fun r => (s_imsi r =? imsi)%string) (fun f => mk_dom (f_number f) (f_proxy f) (f_nam f) v (f_seen f))
    d (run_db (db_subscr_purge imsi v (is_ps x)) c d).
Proof. exact c05_purge_sets. Qed.
Print Assumptions C05_purge_takes_effect.
Theorem C05_lu_takes_effect : forall x d id vlr via now c,
  run_out (db_subscr_lu id vlr (is_ps x) via now) c d = Fin 0 ->
  exists number proxy t, ipa_cstr vlr = Some number /\ lu_proxy via = Some proxy /\ now = Some t /\
  dom_changed x (fun r => s_id r =? id) (fun f => mk_dom (Some number) proxy (f_nam f) (f_purged f) (Some t))
    d (run_db (db_subscr_lu id vlr (is_ps x) via now) c d).
Proof. exact c05_lu_sets. Qed.
Print Assumptions C05_lu_takes_effect.

Definition ex_name (s : string) : ipa_name := p_ipa (peer_set_str s).
(** a PS location update followed by the fields of both domains *)
Example C05_case :
  map (fun r => (s_vlr r, s_sgsn r, s_lu_cs r, s_lu_ps r))
    (d_sub (run_db (db_subscr_lu 2 (ex_name "SGSN-1") true None (Some 1234)) [] ex_db))
  = [(None, None, None, None); (None, Some "SGSN-1", None, Some 1234)]%string.
Proof. vm_compute. reflexivity. Qed.

(** ** C09 *)
Theorem C09_index_distinct_and_stable : forall h0 h1 p q s t c1 c2 i j,
  let d0 := db_hist h0 db_init in
  let d1 := run_db (db_ind p) c1 d0 in
  let d2 := db_hist h1 d1 in
  Z.of_nat (length h0 + length h1) < 4294967294 ->
  proper_name p s -> proper_name q t -> not_released s h1 ->
  run_out (db_ind p) c1 d0 = Fin (0, i) ->
  run_out (db_ind q) c2 d2 = Fin (0, j) ->
  (i = j <-> s = t).
Proof. exact c09_index. Qed.
Print Assumptions C09_index_distinct_and_stable.

Theorem C09_index_given : forall p s c d, proper_name p s -> no_fault c ->
  exists i, run_out (db_ind p) c d = Fin (0, i).
Proof. exact c09_total. Qed.
Print Assumptions C09_index_given.

Definition ex_peer (s : string) : peer_id := peer_set_str s.
Example C09_proper : proper_name (ex_peer "MSC-1") "MSC-1".
Proof.
  repeat split; try reflexivity; try discriminate; try (vm_compute; lia).
  vm_compute. intros H. repeat destruct H as [H|H]; discriminate H || contradiction.
Qed.
(** two peers, one released and one crash in between *)
Example C09_case :
  let h := [(AInd (ex_peer "MSC-1"), []); (AInd (ex_peer "MSC-2"), [EvOk; EvCrash]); (AInd (ex_peer "MSC-3"), []);
            (AInd (ex_peer "MSC-2"), []); (AIndDel (ex_peer "MSC-3"), [])] in
  (run_out (db_ind (ex_peer "MSC-1")) [] (db_hist h db_init), run_out (db_ind (ex_peer "MSC-2")) [] (db_hist h db_init))
  = (Fin (0, 1%N), Fin (0, 3%N)).
Proof. vm_compute. reflexivity. Qed.

(** Names with an embedded NUL are cut there: two different peer names get one index. *)
Theorem C09_embedded_nul_refuted : exists p q i,
  p_type p = PT_IPA /\ p_type q = PT_IPA /\ ipa_wf (p_ipa p) /\ ipa_wf (p_ipa q) /\
  ipa_bytes (p_ipa p) <> ipa_bytes (p_ipa q) /\
  run_out (db_ind p) [] db_init = Fin (0, i) /\
  run_out (db_ind q) [] (run_db (db_ind p) [] db_init) = Fin (0, i).
Proof.
  exists (snd (peer_set peer_zero (Some ["A"; "000"; "x"; "000"]%char))),
         (snd (peer_set peer_zero (Some ["A"; "000"; "y"; "000"]%char))), 1%N.
  repeat split; try (vm_compute; reflexivity || lia). vm_compute. discriminate.
Qed.
Print Assumptions C09_embedded_nul_refuted.

(** ** C10 *)
Theorem C10_failed_call_changes_nothing : forall a d c,
  db_ok d -> single_record_call a ->
  run_out (api_prog a) c d <> Fin 0 -> run_db (api_prog a) c d = d.
Proof. exact c10_unchanged. Qed.
Print Assumptions C10_failed_call_changes_nothing.

Example C10_case : db_ok ex_db /\ single_record_call (ANam "999999" true false) /\
  run_out (api_prog (ANam "999999" true false)) [] ex_db = Fin (-2) /\
  run_out (api_prog (ASqn 2 64)) [EvFail] ex_db = Fin (-5).
Proof. split; [exact ex_db_ok|]. vm_compute. auto. Qed.

(** Not part of C10's list: a location update is two statements and can fail half way. *)
Theorem C10_location_update_not_atomic_refuted : exists d id n t c,
  db_ok d /\ run_out (db_subscr_lu id n false None (Some t)) c d = Fin (-5) /\
  run_db (db_subscr_lu id n false None (Some t)) c d <> d.
Proof.
  exists ex_db, 1, (ex_name "MSC-1"), 1234, [EvOk; EvFail].
  split; [exact ex_db_ok|]. split; [vm_compute; reflexivity|]. vm_compute. discriminate.
Qed.
Print Assumptions C10_location_update_not_atomic_refuted.
