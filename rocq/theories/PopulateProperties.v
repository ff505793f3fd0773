(** C77: the script and the file that fill a database for tests. *)
From Verif Require Import Base PeerId Db DbSpec DbProofs DbThms Populate PopulateSpec PopulateThms PopulateThms2 PopulateThms3 PopulateThms4.

(** Whatever fails, rows are only added; without the commit there are none. *)
Theorem C77_only_added : forall fs commit killed d, only_added d (populate fs commit killed d) /\
  (killed <> None \/ commit = false -> populate fs commit killed d = d).
Proof. exact c77_only_added. Qed.
Print Assumptions C77_only_added.

(** Whatever fails, the constraints of the database are kept and nobody who was a subscriber before is given a key. *)
Theorem C77_not_others : forall fs commit killed d, db_ok d ->
  let d' := populate fs commit killed d in
  db_ok d' /\
  (forall a r, In a (d_auc2 d') -> In r (d_sub d) -> a2_id a = s_id r -> In a (d_auc2 d)) /\
  (forall a r, In a (d_auc3 d') -> In r (d_sub d) -> a3_id a = s_id r -> In a (d_auc3 d)).
Proof. exact c77_not_others. Qed.
Print Assumptions C77_not_others.

(** In a database that has none of the IMSIs and MSISDNs and no keys without subscriber, and if no statement fails, each of the million
    subscribers can be found by the HLR, with both of the keys. Full claim: for every database; see the refutations. *)
Theorem C77_filled_partial : forall d, db_ok d -> keys_owned d -> unused 1000000 d ->
  let d' := populate all_well true None d in
  (length (d_sub d') = length (d_sub d) + PL_COUNT)%nat /\ keys_owned d' /\
  forall i imsi msisdn, (i < 1000000)%N -> nth_subscr i imsi msisdn ->
    exists id, exec (SEL_BY_MSISDN msisdn) d' = (RSub (mk_sub id imsi (Some msisdn) None None None true true false false None None None None), d') /\
      exec (AUC_BY_IMSI imsi) d' = (RAuc id (Some (mk_auc2 id ALG_COMP128v1 "000102030405060708090a0b0c0d0e0f"))
        (Some (mk_auc3 id ALG_MILENAGE "000102030405060708090a0b0c0d0e0f" (Some "00102030405060708090a0b0c0d0e0f0"%string) None 0%N 5)), d').
Proof. exact c77_filled. Qed.
Print Assumptions C77_filled_partial.

Lemma db_init_ok : db_ok db_init. Proof. apply db_ok_inv, db_inv_init. Qed.
Example C77_hyps_case : db_ok db_init /\ keys_owned db_init /\ unused 1000000 db_init /\ nth_subscr 42 "901790000000042" "490000000042".
Proof.
  split; [apply db_init_ok|]. split; [split; intros a []|]. split; [intros i im ms r _ _ []|].
  apply (pl_nth 42). reflexivity.
Qed.
Example C77_case : map (fun r => (s_id r, s_imsi r, s_msisdn r)) (d_sub (p_db (pl_loop all_well 12 db_init))) =
  map (fun x => (Z.of_nat x + 1, ("90179000000000" ++ String (ascii_of_nat (48 + x)) "")%string, Some ("49000000000" ++ String (ascii_of_nat (48 + x)) "")%string)) (seq 0 10) ++
  [(11, "901790000000010"%string, Some "490000000010"%string); (12, "901790000000011"%string, Some "490000000011"%string)] /\
  map a2_id (d_auc2 (p_db (pl_loop all_well 3 db_init))) = [1; 2; 3] /\ map a3_id (d_auc3 (p_db (pl_loop all_well 3 db_init))) = [1; 2; 3].
Proof. vm_compute. auto. Qed.
(** the first INSERT fails for number 1, a key for number 0: the key for number 1 is then made for number 0 *)
Example C77_fault_case :
  let fs i := if (i =? 0)%N then mk_fates true true false else mk_fates (negb (i =? 1)%N) true true in
  let d' := p_db (pl_loop fs 3 db_init) in
  map (fun r => (s_id r, s_imsi r)) (d_sub d') = [(1, "901790000000000"%string); (2, "901790000000002"%string)] /\ d_auc2 d' = [pl_2g 1; pl_2g 2] /\ d_auc3 d' = [pl_3g 1; pl_3g 2].
Proof. vm_compute. auto. Qed.

(** Is the first IMSI in use, keys are added that belong to nobody: the number of the row inserted last is 0 then. *)
Definition ex_used : db := mk_db [mk_sub 7 "901790000000000" None None None None true true false false None None None None] [] [] [].
Lemma ex_used_ok : db_ok ex_used.
Proof.
  apply db_ok_inv. constructor; cbn; repeat constructor; auto; try lia; try discriminate. 
Qed.
Theorem C77_nobody_refuted : exists d, db_ok d /\ keys_owned d /\ ~ keys_owned (populate all_well true None d).
Proof.
  exists ex_used. split; [apply ex_used_ok|]. split; [split; intros a []|]. intros [H _].
  destruct (populate_first ex_used) as (a & b & c & _ & B & _).
  assert (I : In (pl_2g 0) (d_auc2 (populate all_well true None ex_used))) by (rewrite B; apply in_or_app; left; vm_compute; auto).
  destruct (H _ I) as (r & Ir & E). destruct (c77_not_others all_well true None ex_used ex_used_ok) as [Hok _].
  apply db_ok_inv in Hok. pose proof (proj1 (Forall_forall _ _) (iv_pos _ Hok) r Ir) as P. cbn in P, E. lia.
Qed.
Print Assumptions C77_nobody_refuted.

(** Keys left behind by a subscriber that was removed become those of a new one. *)
Definition ex_left : db := mk_db [] [mk_auc2 1 ALG_XOR_2G "ffffffffffffffffffffffffffffffff"] [] [].
Theorem C77_old_key_refuted : exists d r a, db_ok d /\ unused 1000000 d /\ let d' := populate all_well true None d in
  In r (d_sub d') /\ s_imsi r = "901790000000000"%string /\ In a (d_auc2 d') /\ a2_id a = s_id r /\ a2_algo a <> ALG_COMP128v1.
Proof.
  exists ex_left, (set_msisdn (Some "490000000000"%string) (new_row 1 "901790000000000" true true)), (mk_auc2 1 ALG_XOR_2G "ffffffffffffffffffffffffffffffff").
  split; [apply db_ok_inv; constructor; cbn; repeat constructor; auto|]. split; [intros i im ms r _ _ []|]. cbv zeta.
  destruct (populate_first ex_left) as (a & b & c & A & B & _). rewrite A, B.
  split; [apply in_or_app; left; vm_compute; auto|]. split; [reflexivity|]. split; [apply in_or_app; left; vm_compute; auto|]. split; [reflexivity|discriminate].
Qed.
Print Assumptions C77_old_key_refuted.

(** ** hlr_data.sql *)
Theorem C77_data_only_added : forall d, only_added d (hlr_data d).
Proof. exact data_added. Qed.
Print Assumptions C77_data_only_added.

(** Where the numbers 1 to 3 and the IMSIs are free, it adds its three subscribers with their keys. *)
Theorem C77_data_partial : forall d,
  (forall r, In r (d_sub d) -> 3 < s_id r /\ ~ In (s_imsi r) ["901990000000001"; "901990000000002"; "901990000000003"]%string) ->
  (forall a, In a (d_auc2 d) -> 3 < a2_id a) -> (forall a, In a (d_auc3 d) -> 3 < a3_id a) ->
  let row i imsi := mk_sub i imsi None None None None true true false false None None None None in
  let k2 i := mk_auc2 i ALG_COMP128v1 "000102030405060708090a0b0c0d0e0f" in
  let k3 i := mk_auc3 i ALG_MILENAGE "000102030405060708090a0b0c0d0e0f" None (Some "101112131415161718191a1b1c1d1e1f"%string) 0%N 5 in
  hlr_data d = mk_db (d_sub d ++ [row 1 "901990000000001"; row 2 "901990000000002"; row 3 "901990000000003"]%string)
    (d_auc2 d ++ [k2 1; k2 3]) (d_auc3 d ++ [k3 2; k3 3]) (d_ind d).
Proof. exact data_fresh. Qed.
Print Assumptions C77_data_partial.

(** Elsewhere the number 1 is somebody else's, who is given the key that everybody knows, if there is none yet. *)
Theorem C77_data_given_refuted : forall d r, db_ok d -> In r (d_sub d) -> s_id r = 1 -> (forall a, In a (d_auc2 d) -> a2_id a <> 1) ->
  exists a3, exec (AUC_BY_IMSI (s_imsi r)) (hlr_data d) = (RAuc 1 (Some (mk_auc2 1 ALG_COMP128v1 "000102030405060708090a0b0c0d0e0f")) a3, hlr_data d).
Proof. exact data_given. Qed.
Print Assumptions C77_data_given_refuted.
Definition ex_one : db := mk_db [mk_sub 1 "262420000000001" None None None None true true false false None None None None] [] [] [].
Example C77_data_case : db_ok ex_one /\ map s_imsi (d_sub (hlr_data ex_one)) = ["262420000000001"; "901990000000002"; "901990000000003"]%string /\
  map a2_id (d_auc2 (hlr_data ex_one)) = [1; 3] /\ map a3_id (d_auc3 (hlr_data ex_one)) = [2; 3] /\ hlr_data (hlr_data db_init) = hlr_data db_init.
Proof.
  split; [|vm_compute; auto]. apply db_ok_inv. constructor; cbn; repeat constructor; auto; try lia; try discriminate.
Qed.
