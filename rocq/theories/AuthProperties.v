(** Properties C06, C07, C11, C12, C14-C16: authentication data and vectors. *)
From Verif Require Import Base PeerId Db DbSpec DbProofs DbThms DbThms2 DbThms3 DbProperties
  Auth AuthSpec AuthThms AuthThms2 AuthThms3 AuthThms4 AuthThms5.

(** a subscriber with both kinds of key next to the two of [ex_db] *)
Definition ex_hist2 : list (api * sched) :=
  ex_hist ++ [(AAud 2 (AudGsm 3 "FFEEDDCCBBAA99887766554433221100"), [])].
Definition ex_db2 : db := Eval vm_compute in db_hist ex_hist2 db_init.
Example ex_db2_reachable : ex_db2 = db_hist ex_hist2 db_init.
Proof. vm_compute. reflexivity. Qed.
Example ex_db2_ok : db_ok ex_db2 /\ keys_wellformed ex_db2.
Proof. rewrite ex_db2_reachable. split; [apply db_ok_inv, db_hist_inv, db_inv_init|apply keys_hist, keys_init]. Qed.
Definition ex_row3 : auc3_row :=
  mk_auc3 2 5 "000102030405060708090a0b0c0d0e0f" None (Some "101112131415161718191a1b1c1d1e1f"%string) 0 5.
Example ex_key3 : key3 ex_db2 2 ex_row3.
Proof. split; [now left|reflexivity]. Qed.
Example ex_sub2 : is_subscriber ex_db2 "901700000002" 2.
Proof. exists (nth 1 (d_sub ex_db2) (new_row 0 "" false false)). cbn. auto. Qed.

(** ** C06 *)
(** stored keys are always such as the API accepts *)
Theorem C06_stored_keys_wellformed : forall h d, keys_wellformed d -> keys_wellformed (db_hist h d).
Proof. exact keys_hist. Qed.
Print Assumptions C06_stored_keys_wellformed.

Theorem C06_readback_2g : forall d imsi id algo ki c c',
  db_ok d -> keys_wellformed d -> is_subscriber d imsi id -> no_fault c' ->
  run_out (db_subscr_update_aud_by_id id (AudGsm algo ki)) c d = Fin 0 -> algo <> 0 ->
  exists l u, spells ki l /\ length l = 16%nat /\
    run_out (db_get_auth_data imsi) c' (run_db (db_subscr_update_aud_by_id id (AudGsm algo ki)) c d) =
      Fin (inr (mk_auth (Some (mk_aud2 algo l)) u id)) /\
    (forall g3, run_out (db_get_auth_data imsi) c' d = Fin (inr g3) -> u = ad_3g g3).
Proof. exact c06_2g. Qed.
Print Assumptions C06_readback_2g.

Theorem C06_readback_3g : forall d imsi id algo k opc is_op bl c c',
  db_ok d -> keys_wellformed d -> is_subscriber d imsi id -> no_fault c' ->
  run_out (db_subscr_update_aud_by_id id (AudUmts algo k opc is_op bl)) c d = Fin 0 -> algo <> 0 ->
  exists lk lo g, spells k lk /\ spells opc lo /\
    run_out (db_get_auth_data imsi) c' (run_db (db_subscr_update_aud_by_id id (AudUmts algo k opc is_op bl)) c d) =
      Fin (inr (mk_auth g (Some (mk_aud3 algo lk lo is_op 0 bl 0 false)) id)) /\
    (forall a, run_out (db_get_auth_data imsi) c' d = Fin (inr a) -> g = ad_2g a).
Proof. exact c06_3g. Qed.
Print Assumptions C06_readback_3g.

(** a hex string spells at most one byte string *)
Theorem C06_spelling_unique : forall s l l', spells s l -> spells s l' -> l = l'.
Proof. exact spells_inj. Qed.
Print Assumptions C06_spelling_unique.

(** refused exactly when malformed, then nothing is touched *)
Theorem C06_malformed_refused : forall id a c d,
  (run_out (db_subscr_update_aud_by_id id a) c d = Fin (-22) <-> ~ acceptable a) /\
  (~ acceptable a -> run_db (db_subscr_update_aud_by_id id a) c d = d).
Proof. exact c06_refused. Qed.
Print Assumptions C06_malformed_refused.

(** well-formed data is accepted when the storage works *)
Theorem C06_acceptable_accepted : forall id a c d, no_fault c -> acceptable a -> aud_algo a <> 0 -> db_ok d ->
  run_out (db_subscr_update_aud_by_id id a) c d = Fin 0 /\
  keys_new (is_3g a) id a (run_db (db_subscr_update_aud_by_id id a) c d).
Proof. exact c07_no_fault. Qed.
Print Assumptions C06_acceptable_accepted.

(** removing keys (algorithm NONE) *)
Theorem C06_removal : forall d id c (three : bool),
  db_ok d -> no_fault c ->
  let a := if three then AudUmts 0 "" "" false 0 else AudGsm 0 "" in
  let had := if three then has_auc3 d id else has_auc2 d id in
  let d' := run_db (db_subscr_update_aud_by_id id a) c d in
  (had -> run_out (db_subscr_update_aud_by_id id a) c d = Fin 0) /\
  (~ had -> run_out (db_subscr_update_aud_by_id id a) c d = Fin (- ENOENT)) /\
  (if three then ~ has_auc3 d' id else ~ has_auc2 d' id).
Proof. exact c06_remove. Qed.
Print Assumptions C06_removal.

(** both keys of subscriber 2, upper case digits included *)
Example C06_case :
  run_out (db_get_auth_data "901700000002") [] ex_db2 =
  Fin (inr (mk_auth
    (Some (mk_aud2 3 [255;238;221;204;187;170;153;136;119;102;85;68;51;34;17;0]%N))
    (Some (mk_aud3 5 [0;1;2;3;4;5;6;7;8;9;10;11;12;13;14;15]%N
                   [16;17;18;19;20;21;22;23;24;25;26;27;28;29;30;31]%N false 0 5 0 false)) 2)).
Proof. vm_compute. reflexivity. Qed.
Example C06_case_refused :
  run_out (db_subscr_update_aud_by_id 2 (AudGsm 3 "FFEEDDCCBBAA9988776655443322110")) [] ex_db2 = Fin (-22) /\
  run_out (db_subscr_update_aud_by_id 2 (AudGsm 4 "FFEEDDCCBBAA99887766554433221100")) [] ex_db2 = Fin (-22) /\
  run_out (db_subscr_update_aud_by_id 2 (AudUmts 5 "000102030405060708090a0b0c0d0e0f" "101112131415161718191a1b1c1d1e1f" true 29)) [] ex_db2 = Fin (-22).
Proof. vm_compute. auto. Qed.

(** ** C07 *)
(** Full claim (refuted below): after any run, [keys_old] or [keys_new]. What holds: the keys are the
    old ones, gone, or the new ones, never a mixture; success means the new ones; everything else
    in the database is untouched. *)
Theorem C07_key_states_partial : forall id a c d,
  let p := db_subscr_update_aud_by_id id a in
  let d' := run_db p c d in
  others_same (is_3g a) id d d' /\
  (keys_old (is_3g a) id d d' \/ keys_none (is_3g a) id d' \/ keys_new (is_3g a) id a d') /\
  (run_out p c d = Fin 0 -> keys_new (is_3g a) id a d').
Proof. exact c07_states. Qed.
Print Assumptions C07_key_states_partial.

(** all-or-nothing when there was no key before *)
Theorem C07_first_keys_atomic_partial : forall id a c d,
  keys_none (is_3g a) id d ->
  let d' := run_db (db_subscr_update_aud_by_id id a) c d in
  keys_old (is_3g a) id d d' \/ keys_new (is_3g a) id a d'.
Proof. exact c07_first_time. Qed.
Print Assumptions C07_first_keys_atomic_partial.

(** replacing a key: a crash or an error between DELETE and INSERT loses it *)
Theorem C07_replacement_loses_key_refuted : exists d id a c,
  db_ok d /\ acceptable a /\ has_auc3 d id /\ run_out (db_subscr_update_aud_by_id id a) c d = Crashed /\
  ~ keys_old (is_3g a) id d (run_db (db_subscr_update_aud_by_id id a) c d) /\
  ~ keys_new (is_3g a) id a (run_db (db_subscr_update_aud_by_id id a) c d).
Proof.
  exists ex_db2, 2, (AudUmts 5 "ffffffffffffffffffffffffffffffff" "101112131415161718191a1b1c1d1e1f" false 5), [EvOk; EvCrash].
  split; [apply ex_db2_ok|]. split.
  { right. split; [auto|]. rewrite <- !is_hexstr_spec. split; [reflexivity|]. split; [reflexivity|lia]. }
  split; [exists ex_row3; exact ex_key3|]. split; [reflexivity|]. split.
  - intros H. destruct (proj2 (H ex_row3) ex_key3) as [[] _].
  - intros H. destruct (proj2 (H _) (conj (ltac:(discriminate) : 5 <> 0) eq_refl)) as [[] _].
Qed.
Print Assumptions C07_replacement_loses_key_refuted.

Theorem C07_storage_error_loses_key_refuted : exists d id a c,
  db_ok d /\ acceptable a /\ has_auc3 d id /\ run_out (db_subscr_update_aud_by_id id a) c d = Fin (- EIO) /\
  ~ keys_old (is_3g a) id d (run_db (db_subscr_update_aud_by_id id a) c d) /\
  ~ keys_new (is_3g a) id a (run_db (db_subscr_update_aud_by_id id a) c d).
Proof.
  exists ex_db2, 2, (AudUmts 5 "ffffffffffffffffffffffffffffffff" "101112131415161718191a1b1c1d1e1f" false 5), [EvOk; EvFail].
  split; [apply ex_db2_ok|]. split.
  { right. split; [auto|]. rewrite <- !is_hexstr_spec. split; [reflexivity|]. split; [reflexivity|lia]. }
  split; [exists ex_row3; exact ex_key3|]. split; [reflexivity|]. split.
  - intros H. destruct (proj2 (H ex_row3) ex_key3) as [[] _].
  - intros H. destruct (proj2 (H _) (conj (ltac:(discriminate) : 5 <> 0) eq_refl)) as [[] _].
Qed.
Print Assumptions C07_storage_error_loses_key_refuted.

Example C07_case_first : keys_none true 1 ex_db2 /\
  run_db (db_subscr_update_aud_by_id 1 (AudUmts 5 "ffffffffffffffffffffffffffffffff" "101112131415161718191a1b1c1d1e1f" false 5)) [EvOk; EvCrash] ex_db2 = ex_db2.
Proof. split; [|reflexivity]. intros (r & [<-|[]] & E). discriminate E. Qed.

(** ** A crypto environment that keeps the contract, for the examples *)
Definition toy_vec (b : Z) (rnd : list N) (q : N) : vec :=
  mk_vec rnd [q] [] [] [] [] [] true true (Some (q mod 2 ^ 48)%N).
Definition toy_sim (u : aud3) (auts ra : list N) : option N :=
  match auts with [x] => if (x <? 2 ^ 48)%N then Some x else None | _ => None end.
Definition toy : crypto :=
  mk_crypto (fun i => if (i <? 5)%nat then Some [N.of_nat i] else None)
    (fun g rnd => Some (mk_vec rnd [] [] [] [] (g_ki g) [] true false None))
    (fun u rnd => if (u_ind u <? 2 ^ Z.to_N (u_bitlen u))%N
                  then let q := (next_sqn (u_bitlen u) (u_sqn u) (u_ind u) mod 2 ^ 64)%N in (Some (toy_vec (u_bitlen u) rnd q), q)
                  else (None, u_sqn u))
    (fun u auts ra rnd => match toy_sim u auts ra with
       | Some ms => if (u_ind u <? 2 ^ Z.to_N (u_bitlen u))%N
                    then let q := (next_sqn (u_bitlen u) ms (u_ind u) mod 2 ^ 64)%N in (Some (toy_vec (u_bitlen u) rnd q), q)
                    else (None, ms)
       | None => (None, u_sqn u)
       end).
Lemma toy_contract alg : sqn_contract toy alg toy_sim.
Proof.
  constructor; cbn [toy c_gen3 c_gen2 c_auts].
  - intros u rnd v q _. destruct (N.ltb_spec (u_ind u) (2 ^ Z.to_N (u_bitlen u))); [|discriminate].
    intros E. injection E as <- <-. auto.
  - intros u rnd q _. destruct (N.ltb_spec (u_ind u) (2 ^ Z.to_N (u_bitlen u))); [discriminate|]. now intros E; injection E.
  - intros u auts ra rnd v q _. destruct (toy_sim u auts ra) as [ms|]; [|discriminate].
    destruct (N.ltb_spec (u_ind u) (2 ^ Z.to_N (u_bitlen u))); [|discriminate].
    intros E. injection E as <- <-. exists ms. auto.
  - intros u auts ra rnd q _. destruct (toy_sim u auts ra) as [ms|].
    + destruct (N.ltb_spec (u_ind u) (2 ^ Z.to_N (u_bitlen u))); [discriminate|]. intros E. injection E as <-. auto.
    + intros E. injection E as <-. auto.
  - intros g rnd v E. injection E as <-. reflexivity.
  - intros u auts ra ms. unfold toy_sim. destruct auts as [|x []]; try discriminate.
    destruct (N.ltb_spec x (2 ^ 48)); [|discriminate]. intros E. injection E as <-. auto.
Qed.

(** ** C11 *)
(** Full claim: without the bound on the number of vectors asked for. It fails once the stored
    number passes 2^48 (see the refutation). The bound says that the number range is not used up. *)
Theorem C11_sequence_numbers_increase_partial : forall imsi h d id a,
  db_ok d -> keys_wellformed d -> is_subscriber d imsi id -> key3 d id a -> a3_algo a <> 0 ->
  Forall (keeps_key id) h -> Forall (plain_request imsi (a3_algo a)) h ->
  (a3_sqn a + total_asked imsi h * (2 * 2 ^ Z.to_N (a3_ind_bitlen a)) < 2 ^ 48)%N ->
  increasing (sqns (snd (op_hist imsi d h))) /\
  (forall x, In x (sqns (snd (op_hist imsi d h))) -> (a3_sqn a < x)%N).
Proof. exact c11_increasing. Qed.
Print Assumptions C11_sequence_numbers_increase_partial.

Theorem C11_increasing_means_distinct : forall l, increasing l -> NoDup l.
Proof. exact increasing_nodup. Qed.
Print Assumptions C11_increasing_means_distinct.

(** two VLRs, a failed and a crashed store, unrelated changes in between *)
Definition ex_ops : list op :=
  [ OpAuc toy "901700000002" 3 2 None None false [];
    OpAuc toy "901700000002" 7 2 None None false [EvOk; EvFail];
    OpApi (AMsisdn "901700000002" (Some "7")) [];
    OpApi (AAud 2 (AudGsm 0 "")) [];
    OpAuc toy "901700000002" 7 1 None None true [EvOk; EvCrash];
    OpApi (ADelete 1) [EvOk; EvCrash];
    OpAuc toy "901700000002" 7 9 None None false [];
    OpAuc toy "901700000002" 3 1 None None false [] ].
Example C11_case_hyps : Forall (keeps_key 2) ex_ops /\ Forall (plain_request "901700000002" 5) ex_ops /\
  (a3_sqn ex_row3 + total_asked "901700000002" ex_ops * (2 * 2 ^ Z.to_N (a3_ind_bitlen ex_row3)) < 2 ^ 48)%N.
Proof.
  split; [|split]; [repeat constructor; cbn; discriminate| |reflexivity].
  repeat constructor; cbn; auto; exists toy_sim; apply toy_contract.
Qed.
Example C11_case : sqns (snd (op_hist "901700000002" ex_db2 ex_ops)) = [35; 67; 103; 135; 167; 199; 231; 259]%N.
Proof. vm_compute. reflexivity. Qed.

(** at the end of the number range the numbers start again *)
Theorem C11_wraps_at_2_48_refuted : exists imsi h d id a,
  db_ok d /\ keys_wellformed d /\ is_subscriber d imsi id /\ key3 d id a /\ a3_algo a <> 0 /\
  Forall (keeps_key id) h /\ Forall (plain_request imsi (a3_algo a)) h /\
  ~ increasing (sqns (snd (op_hist imsi d h))).
Proof.
  exists "901700000002"%string, [OpAuc toy "901700000002" 0 2 None None false []],
    (db_hist [(ASqn 2 281474976710600%N, [])] ex_db2), 2,
    (mk_auc3 2 5 "000102030405060708090a0b0c0d0e0f" None (Some "101112131415161718191a1b1c1d1e1f"%string) 281474976710600 5).
  split; [apply db_ok_inv, db_hist_inv, db_ok_inv, ex_db2_ok|]. split; [apply keys_hist, ex_db2_ok|].
  split; [exists (nth 1 (d_sub ex_db2) (new_row 0 "" false false)); cbn; auto|].
  split; [split; [now left|reflexivity]|]. split; [discriminate|].
  split; [repeat constructor|]. split; [repeat constructor; exists toy_sim; apply toy_contract|].
  vm_compute. intros H. inversion H as [| |x y l L _ E]. discriminate L.
Qed.
Print Assumptions C11_wraps_at_2_48_refuted.
(** also over the end of the range: the numbers are the lower 48 bits of increasing ones, *)
Theorem C11_lower_bits : forall imsi h d id a,
  db_ok d -> keys_wellformed d -> is_subscriber d imsi id -> key3 d id a -> a3_algo a <> 0 ->
  Forall (keeps_key id) h -> Forall (plain_request imsi (a3_algo a)) h ->
  (a3_sqn a + total_asked imsi h * (2 * 2 ^ Z.to_N (a3_ind_bitlen a)) < 2 ^ 64)%N ->
  exists us, sqns (snd (op_hist imsi d h)) = map (fun u => u mod 2 ^ 48)%N us /\ increasing us /\
    forall u, In u us -> (a3_sqn a < u <= a3_sqn a + total_asked imsi h * (2 * 2 ^ Z.to_N (a3_ind_bitlen a)))%N.
Proof. exact c11_lower_bits. Qed.
Print Assumptions C11_lower_bits.
(** and none comes twice until as many are asked for as fill the range, wherever in it the first one is. *)
Theorem C11_never_repeat_partial : forall imsi h d id a,
  db_ok d -> keys_wellformed d -> is_subscriber d imsi id -> key3 d id a -> a3_algo a <> 0 ->
  Forall (keeps_key id) h -> Forall (plain_request imsi (a3_algo a)) h ->
  (total_asked imsi h * (2 * 2 ^ Z.to_N (a3_ind_bitlen a)) <= 2 ^ 48)%N -> (a3_sqn a < 2 ^ 63)%N ->
  NoDup (sqns (snd (op_hist imsi d h))).
Proof. exact c11_distinct. Qed.
Print Assumptions C11_never_repeat_partial.
Definition ex_end : db := db_hist [(ASqn 2 281474976710600%N, [])] ex_db2.
Example C11_never_repeat_case :
  (total_asked "901700000002" ex_ops * (2 * 2 ^ 5) <= 2 ^ 48)%N /\ map a3_sqn (d_auc3 ex_end) = [281474976710600%N] /\  sqns (snd (op_hist "901700000002" ex_end ex_ops)) = [281474976710627; 3; 39; 71; 103; 135; 167; 195]%N.
Proof. split; [vm_compute; discriminate|]. vm_compute. auto. Qed.

(** ** C12 *)
Theorem C12_vectors_only_after_store : forall cr f imsi ind n ra au sep c d id a rc vs,
  db_ok d -> keys_wellformed d -> is_subscriber d imsi id -> key3 d id a -> a3_algo a <> 0 ->
  sqn_contract cr (a3_algo a) f ->
  run_out (db_get_auc cr imsi ind n ra au sep) c d = Fin (rc, vs) -> vs <> [] ->
  exists a' l s, key3 (run_db (db_get_auc cr imsi ind n ra au sep) c d) id a' /\
    sqns vs = l ++ [s] /\ length (sqns vs) = length vs /\
    (a3_sqn a' mod 2 ^ 48 = s \/
     a3_sqn a' mod 2 ^ 48 = next_sqn (a3_ind_bitlen a) s (ind mod 2 ^ Z.to_N (a3_ind_bitlen a)) mod 2 ^ 48)%N.
Proof. exact c12_stored. Qed.
Print Assumptions C12_vectors_only_after_store.

Theorem C12_store_failure_gives_no_vector : forall cr imsi ind n ra au sep d id a e c,
  db_ok d -> keys_wellformed d -> is_subscriber d imsi id -> key3 d id a -> a3_algo a <> 0 -> e <> EvOk ->
  let p := db_get_auc cr imsi ind n ra au sep in
  (run_out p (EvOk :: e :: c) d = Fin (-1, []) \/ run_out p (EvOk :: e :: c) d = Crashed) /\
  run_db p (EvOk :: e :: c) d = d.
Proof. exact c12_store_fails. Qed.
Print Assumptions C12_store_failure_gives_no_vector.

Example C12_case :
  let p := db_get_auc toy "901700000002" 3 2 None None false in
  map v_sqn (match run_out p [] ex_db2 with Fin (_, vs) => vs | _ => [] end) = [Some 35; Some 67]%N /\
  map a3_sqn (d_auc3 (run_db p [] ex_db2)) = [67]%N /\
  run_out p [EvOk; EvFail] ex_db2 = Fin (-1, []).
Proof. vm_compute. auto. Qed.

(** ** C13, database part: never more vectors than asked for, the return code is their number *)
Theorem C13_number_of_vectors : forall cr imsi ind n ra au sep c d rc vs,
  run_out (db_get_auc cr imsi ind n ra au sep) c d = Fin (rc, vs) ->
  (length vs <= n)%nat /\ (rc = Z.of_nat (length vs) \/ (rc < 0 /\ vs = [])).
Proof. exact auc_count. Qed.
Print Assumptions C13_number_of_vectors.

(** the random source of [toy] gives out after five *)
Example C13_case :
  match run_out (db_get_auc toy "901700000002" 3 7 None None false) [] ex_db2 with Fin (rc, vs) => Some (rc, length vs) | _ => None end
  = Some (5, 5%nat).
Proof. vm_compute. reflexivity. Qed.

(** ** C14 *)
Theorem C14_ind_in_sqn : forall cr f imsi ind n ra au sep c d id a rc vs,
  db_ok d -> keys_wellformed d -> is_subscriber d imsi id -> key3 d id a -> a3_algo a <> 0 ->
  sqn_contract cr (a3_algo a) f ->
  run_out (db_get_auc cr imsi ind n ra au sep) c d = Fin (rc, vs) ->
  length (sqns vs) = length vs /\
  forall s, In s (sqns vs) -> (s mod 2 ^ Z.to_N (a3_ind_bitlen a) = ind mod 2 ^ Z.to_N (a3_ind_bitlen a))%N.
Proof. exact c14_ind. Qed.
Print Assumptions C14_ind_in_sqn.

(** index 37 with 5 bits uses slot 5 *)
Example C14_case :
  match run_out (db_get_auc toy "901700000002" 37 2 None None false) [] ex_db2 with Fin (_, vs) => sqns vs | _ => [] end
  = [37; 69]%N.
Proof. vm_compute. reflexivity. Qed.

(** ** C15 *)
Theorem C15_resync_takes_effect : forall cr f imsi ind n ra au sep c d id a u ms rc vs,
  db_ok d -> keys_wellformed d -> is_subscriber d imsi id -> key3 d id a -> a3_algo a <> 0 ->
  sqn_contract cr (a3_algo a) f -> asked_key a u ->
  f (mk_aud3 (u_algo u) (u_k u) (u_opc u) (u_is_op u) (u_sqn u) (u_bitlen u)
             (ind mod 2 ^ Z.to_N (a3_ind_bitlen a)) sep) au ra = Some ms ->
  (ms + N.of_nat n * (2 * 2 ^ Z.to_N (a3_ind_bitlen a)) < 2 ^ 48)%N ->
  run_out (db_get_auc cr imsi ind n (Some ra) (Some au) sep) c d = Fin (rc, vs) -> vs <> [] ->
  increasing (sqns vs) /\ length (sqns vs) = length vs /\
  (forall s, In s (sqns vs) -> (ms < s)%N) /\
  (exists s l, sqns vs = s :: l /\ s = next_sqn (a3_ind_bitlen a) ms (ind mod 2 ^ Z.to_N (a3_ind_bitlen a))) /\
  exists a', key3 (run_db (db_get_auc cr imsi ind n (Some ra) (Some au) sep) c d) id a' /\
    forall s, In s (sqns vs) -> (s <= a3_sqn a')%N.
Proof. exact c15_valid. Qed.
Print Assumptions C15_resync_takes_effect.

Theorem C15_incomplete_refused : forall cr imsi ind n ra au sep c d id a,
  db_ok d -> keys_wellformed d -> is_subscriber d imsi id -> key3 d id a -> a3_algo a <> 0 ->
  (ra = None /\ au <> None \/ ra <> None /\ au = None) ->
  let p := db_get_auc cr imsi ind n ra au sep in
  run_db p c d = d /\ (run_out p c d = Crashed \/ exists rc, run_out p c d = Fin (rc, []) /\ rc < 0).
Proof. exact c15_incomplete. Qed.
Print Assumptions C15_incomplete_refused.

Theorem C15_bad_token_refused : forall cr f imsi ind n ra au sep c d id a u,
  db_ok d -> keys_wellformed d -> is_subscriber d imsi id -> key3 d id a -> a3_algo a <> 0 ->
  sqn_contract cr (a3_algo a) f -> asked_key a u ->
  f (mk_aud3 (u_algo u) (u_k u) (u_opc u) (u_is_op u) (u_sqn u) (u_bitlen u)
             (ind mod 2 ^ Z.to_N (a3_ind_bitlen a)) sep) au ra = None ->
  let p := db_get_auc cr imsi ind n (Some ra) (Some au) sep in
  run_db p c d = d /\ (run_out p c d = Crashed \/ exists rc, run_out p c d = Fin (rc, []) /\ rc <= 0).
Proof. exact c15_bad_token. Qed.
Print Assumptions C15_bad_token_refused.

Theorem C15_no_3g_refused : forall cr imsi ind n ra au sep c d id,
  db_ok d -> is_subscriber d imsi id -> ~ has_auc3 d id ->
  let p := db_get_auc cr imsi ind n (Some ra) (Some au) sep in
  run_db p c d = d /\ (run_out p c d = Crashed \/ exists rc, run_out p c d = Fin (rc, []) /\ rc < 0).
Proof. exact c15_no_3g. Qed.
Print Assumptions C15_no_3g_refused.

(** SIM at 1000: the three vectors come after it; a bad token (two bytes in the toy) and one
    without RAND are refused *)
Example C15_case :
  let p := db_get_auc toy "901700000002" 3 3 (Some [1]%N) (Some [1000]%N) false in
  match run_out p [] ex_db2 with Fin (_, vs) => sqns vs | _ => [] end = [1027; 1059; 1091]%N /\
  map a3_sqn (d_auc3 (run_db p [] ex_db2)) = [1091]%N /\
  run_out (db_get_auc toy "901700000002" 3 3 (Some [1]%N) (Some [1; 2]%N) false) [] ex_db2 = Fin (0, []) /\
  run_out (db_get_auc toy "901700000002" 3 3 None (Some [1000]%N) false) [] ex_db2 = Fin (-1, []) /\
  run_out (db_get_auc toy "901700000001" 3 3 (Some [1]%N) (Some [1000]%N) false) [] ex_db2 = Fin (-1, []).
Proof. vm_compute. auto 10. Qed.

(** ** C16 *)
Theorem C16_vector_content : forall cr imsi ind n ra au sep c d id rc vs,
  db_ok d -> keys_wellformed d -> is_subscriber d imsi id ->
  run_out (db_get_auc cr imsi ind n ra au sep) c d = Fin (rc, vs) ->
  Forall (fun v =>
    (exists u rnd q v3, usable3 d id u /\
       (c_gen3 cr u rnd = (Some v3, q) \/ exists a r, c_auts cr u a r rnd = (Some v3, q)) /\
       ((~ (exists al ki, usable2 d id al ki) /\ v = v3) \/
        (exists al ki w, usable2 d id al ki /\ c_gen2 cr (mk_aud2 al ki) rnd = Some w /\
           v_rand v = v_rand v3 /\ v_autn v = v_autn v3 /\ v_ck v = v_ck v3 /\ v_ik v = v_ik v3 /\ v_res v = v_res v3 /\
           v_umts v = v_umts v3 /\ v_kc v = v_kc w /\ v_sres v = v_sres w /\ v_gsm v = true)))
    \/
    (~ (exists u, usable3 d id u) /\
     exists al ki rnd, usable2 d id al ki /\ c_gen2 cr (mk_aud2 al ki) rnd = Some v)) vs.
Proof. exact c16_content. Qed.
Print Assumptions C16_vector_content.

Theorem C16_umts_iff_3g_key : forall cr imsi ind n ra au sep c d id rc vs,
  db_ok d -> keys_wellformed d -> is_subscriber d imsi id -> types_contract cr ->
  run_out (db_get_auc cr imsi ind n ra au sep) c d = Fin (rc, vs) ->
  forall v, In v vs -> (v_umts v = true <-> exists u, usable3 d id u).
Proof. exact c16_umts_iff. Qed.
Print Assumptions C16_umts_iff_3g_key.

(** a 3G record whose K is not hex is not used, whatever the 2G record *)
Theorem C16_malformed_3g_unused : forall cr imsi ind n ra au sep c d id a k ch,
  db_ok d -> is_subscriber d imsi id -> key3 d id a ->
  ((String.length (a3_k a) < 32)%nat \/
   (String.get k (a3_k a) = Some ch /\ ~ hex_digit ch /\ ~ In (N_of_ascii ch) [32; 9; 10; 13]%N)) ->
  run_db (db_get_auc cr imsi ind n ra au sep) c d = d /\
  forall rc vs, run_out (db_get_auc cr imsi ind n ra au sep) c d = Fin (rc, vs) -> vs = [] /\ rc < 0.
Proof.
  intros cr imsi ind n ra au sep c d id a k ch Hd Hs Ha [Hl|(Hg & Hx & Hw)].
  - eapply c16_malformed_3g; eauto. now apply short_is_malformed.
  - eapply c16_malformed_3g; eauto. eapply garbage_is_malformed; eauto.
    + unfold hex_val, acode. unfold hex_digit in Hx. cbv zeta in Hx.
      destruct ((48 <=? N_of_ascii ch)%N && (N_of_ascii ch <=? 57)%N) eqn:E1; [exfalso; rewrite Bool.andb_true_iff, !N.leb_le in E1; lia|].
      destruct ((97 <=? N_of_ascii ch)%N && (N_of_ascii ch <=? 102)%N) eqn:E2; [exfalso; rewrite Bool.andb_true_iff, !N.leb_le in E2; lia|].
      destruct ((65 <=? N_of_ascii ch)%N && (N_of_ascii ch <=? 70)%N) eqn:E3; [exfalso; rewrite Bool.andb_true_iff, !N.leb_le in E3; lia|]. reflexivity.
    + unfold is_hex_space, acode. cbn in Hw.
      destruct (N.eqb_spec (N_of_ascii ch) 32); [exfalso; lia|]. destruct (N.eqb_spec (N_of_ascii ch) 9); [exfalso; lia|].
      destruct (N.eqb_spec (N_of_ascii ch) 10); [exfalso; lia|]. destruct (N.eqb_spec (N_of_ascii ch) 13); [exfalso; lia|]. reflexivity.
Qed.
Print Assumptions C16_malformed_3g_unused.

(** subscriber 2: AUTN from the 3G key, Kc from the 2G key; subscriber 1: 2G only *)
Example C16_case :
  match run_out (db_get_auc toy "901700000002" 3 1 None None false) [] ex_db2 with
  | Fin (_, vs) => map (fun v => (v_autn v, v_umts v, v_kc v)) vs | _ => [] end
  = [([35], true, [255;238;221;204;187;170;153;136;119;102;85;68;51;34;17;0])]%N /\
  match run_out (db_get_auc toy "901700000001" 3 1 None None false) [] ex_db2 with
  | Fin (_, vs) => map (fun v => (v_autn v, v_umts v, v_kc v)) vs | _ => [] end
  = [([], false, [0;17;34;51;68;85;102;119;136;153;170;187;204;221;238;255])]%N.
Proof. vm_compute. auto. Qed.
