(** Property C53: the VTY commands on subscribers. *)
From Verif Require Import Base PeerId Db DbSpec DbProofs DbThms DbProperties Auth AuthSpec AuthThms AuthProperties Gsup Router Hlr HlrSpec HlrSpec2 RouterThms HlrExamples HlrProperties NotifyProperties Ctrl CtrlSpec CtrlThms CtrlThms2 CtrlProperties VtySubscr VtySpec VtyThms VtyThms2 VtyThms3 VtyThms4 VtyThms5 VtyThms6.
Local Open Scope string_scope.
Local Open Scope list_scope.
Local Open Scope Z_scope.

(** ** The case *)
(** [ex_db2] (see CtrlProperties); [ex_imei] where both subscribers have been given the same IMEI *)
Definition ex_imei : db := Eval vm_compute in db_hist (ex_hist2 ++ [(AImei "901700000001" (Some "35685103101010"), []); (AImei "901700000002" (Some "35685103101010"), [])]) db_init.
Example vty_case_db : db_ok ex_imei /\ ids_fit ex_imei /\ imeis_ok ex_imei /\ imeis_ok ex_db2 /\ map s_imei (d_sub ex_imei) = [Some "35685103101010"; Some "35685103101010"].
Proof.
  assert (E : ex_imei = db_hist (ex_hist2 ++ [(AImei "901700000001" (Some "35685103101010"), []); (AImei "901700000002" (Some "35685103101010"), [])]) db_init) by (vm_compute; reflexivity).
  assert (N : imeis_ok db_init) by (intros r m []).
  split; [rewrite E; apply db_ok_inv, db_hist_inv, db_inv_init|]. split; [intros r [<-|[<-|[]]]; vm_compute; congruence|].
  split; [rewrite E; now apply imeis_hist|]. split; [rewrite ex_db2_reachable; now apply imeis_hist|]. reflexivity.
Qed.
Definition ex_vty (cmd : vcmd) (c : sched) (d : db) := run (vty_run ex_cfg hst0 cmd) c d.
Definition ex_said (cmd : vcmd) (c : sched) (d : db) := fst (fst (ex_vty cmd c d)).
Definition ex_then (cmd : vcmd) (c : sched) (d : db) := snd (fst (ex_vty cmd c d)).

(** every history of calls of the database functions leaves 14 digits in the column of IMEIs *)
Theorem C53_imeis : forall h, imeis_ok (db_hist h db_init).
Proof. intros h. apply imeis_hist. intros r m []. Qed.
Print Assumptions C53_imeis.

(** ** Who is meant *)
(** Full statement: the words "TYPE ID" name at most one subscriber. Missing: IMEIs are not unique in the database, see
    [C53_imei_refuted]. *)
Theorem C53_unique_partial : forall d t i r, db_ok d -> t <> "imei" -> In r (d_sub d) -> vty_names t i r -> sole d t i r.
Proof.
  intros d t i r OK NI I N. split; [exact I|]. split; [exact N|]. intros x Ix Nx. apply (vty_unique d t i x r); auto. now apply db_ok_inv.
Qed.
Print Assumptions C53_unique_partial.
Example C53_names_case : sole ex_db2 "imsi" "901700000002" ex_r2 /\ sole ex_db2 "msisdn" "1001" ex_r1 /\ sole ex_db2 "id" "002" ex_r2 /\
  vty_names "imei" "356851031010107" (nth 0 (d_sub ex_imei) ex_r1) /\ ~ checked "35685103101010" "6".
Proof.
  destruct ex_db2_ok as [OK _]. assert (D : forall n c, 0 <= n <= 9 -> c = ascii_of_N (Z.to_N (48 + n)) -> digit c n) by (intros n c A B; split; assumption).
  split; [apply C53_unique_partial; [exact OK|discriminate|right; left; reflexivity|exact (vn_imsi ex_r2)]|].
  split; [apply C53_unique_partial; [exact OK|discriminate|left; reflexivity|apply vn_msisdn; reflexivity]|].
  split; [apply C53_unique_partial; [exact OK|discriminate|right; left; reflexivity|]|].
  { apply vn_id. left. apply (num_more "00" 0 "2" 2); [|apply D; [lia|reflexivity]]. apply (num_more "0" 0 "0" 0); [|apply D; [lia|reflexivity]]. apply (num_one "0" 0). apply D; [lia|reflexivity]. }
  assert (G : digits "35685103101010" [3;5;6;8;5;1;0;3;1;0;1;0;1;0]) by (repeat (constructor; [apply D; [lia|reflexivity]|]); constructor).
  split.
  - apply (vn_imei_checked "35685103101010" "7"); [reflexivity|]. split; [now apply imei_valid_spec|]. exists [3;5;6;8;5;1;0;3;1;0;1;0;1;0], 7. split; [exact G|]. split; [apply D; [lia|reflexivity]|reflexivity].
  - intros [_ (l & n & L & Hn & S)].
    assert (F : forall s a b, digits s a -> digits s b -> a = b).
    { clear. intros s a b H. revert b. induction H as [|c n s l C H IH]; intros b B; inversion B as [|c' n' s' l' C' B']; subst; [auto|]. rewrite (IH _ B').
      destruct C as [C1 C2], C' as [C3 C4]. rewrite C2 in C4. apply (f_equal N_of_ascii) in C4. rewrite !N_ascii_embedding in C4 by lia. f_equal. lia. }
    rewrite (F _ _ _ L G) in S. destruct Hn as [Hn1 Hn2]. apply (f_equal N_of_ascii) in Hn2. rewrite N_ascii_embedding in Hn2 by lia. change (N_of_ascii "6") with 54%N in Hn2.
    assert (n = 6) by lia. subst n. vm_compute in S. discriminate.
Qed.
(** Two phones can report the same IMEI; the command then acts on the first subscriber in the table. *)
Theorem C53_imei_refuted : exists d t i r r', db_ok d /\ imeis_ok d /\ ids_fit d /\ In r (d_sub d) /\ In r' (d_sub d) /\ r <> r' /\ vty_names t i r /\ vty_names t i r' /\
  ex_said (VDelete t i) [] d = Fin (VOk ("Deleted subscriber for IMSI '" ++ s_imsi r ++ "'")%string, []) /\ In r' (d_sub (ex_then (VDelete t i) [] d)).
Proof.
  destruct vty_case_db as (OK & FT & IM & _). exists ex_imei, "imei", "35685103101010", (nth 0 (d_sub ex_imei) ex_r1), (nth 1 (d_sub ex_imei) ex_r1).
  split; [exact OK|]. split; [exact IM|]. split; [exact FT|]. split; [left; reflexivity|]. split; [right; left; reflexivity|]. split; [discriminate|].
  split; [apply vn_imei; reflexivity|]. split; [apply vn_imei; reflexivity|]. split; [vm_compute; reflexivity|]. vm_compute. auto.
Qed.
Print Assumptions C53_imei_refuted.
(** The text of an id is read by atoll(): what follows the digits is ignored, and what is no number is 0. *)
Theorem C53_id_refuted : exists d t i r, db_ok d /\ In r (d_sub d) /\ (forall x, In x (d_sub d) -> ~ vty_names t i x) /\ ~ number_if_id t i /\
  ex_said (VDelete t i) [] d = Fin (VOk ("Deleted subscriber for IMSI '" ++ s_imsi r ++ "'")%string, []) /\ ~ In r (d_sub (ex_then (VDelete t i) [] d)).
Proof.
  exists ex_db2, "id", "2x", ex_r2. destruct ex_db2_ok as [OK _]. split; [exact OK|]. split; [right; left; reflexivity|].
  assert (NI : forall n, ~ integer "2x" n).
  { intros n [H|(u & E & H)]; [|discriminate E]. apply numeral_digits in H as [H _]. vm_compute in H. discriminate H. }
  split; [|split].
  - intros x _ N. remember "id" as ty eqn:Q. remember "2x" as y eqn:Q2. destruct N; try discriminate Q. subst. exact (NI _ H).
  - intros N. destruct (N eq_refl) as (n & H & _). exact (NI _ H).
  - split; [vm_compute; reflexivity|]. vm_compute. intros [H|[]]. discriminate.
Qed.
Print Assumptions C53_id_refuted.

(** ** What is done *)
(** A command that sets the MSISDN, the IMEI or the network access of a subscriber: the row of the one subscriber named is changed as
    asked, nothing else is, and the answer says so. *)
Theorem C53_write : forall k s cmd t i c d r r',
  db_ok d -> ids_fit d -> imeis_ok d -> no_fault c -> about cmd t i -> sole d t i r -> callable r -> asks cmd r r' ->
  (forall m, s_msisdn r' = Some m -> forall x, In x (d_sub d) -> s_msisdn x = Some m -> s_imsi x = s_imsi r) ->
  exists text o, run_out (vty_run k s cmd) c d = Fin (VOk text, o) /\ says cmd r' text /\ replaced r r' d (run_db (vty_run k s cmd) c d).
Proof. exact vty_write. Qed.
Print Assumptions C53_write.
Example C53_write_case :
  ex_said (VMsisdn "id" "2" "555") [] ex_db2 = Fin (VOk "Updated subscriber IMSI='901700000002' to MSISDN='555'", []) /\
  map s_msisdn (d_sub (ex_then (VMsisdn "id" "2" "555") [] ex_db2)) = [s_msisdn ex_r1; Some "555"] /\
  ex_said (VImei "msisdn" "1001" "356851031010107") [] ex_db2 = Fin (VOk "Updated subscriber IMSI='901700000001' to IMEI='35685103101010'", []) /\
  map s_imei (d_sub (ex_then (VImei "msisdn" "1001" "356851031010107") [] ex_db2)) = [Some "35685103101010"; s_imei ex_r2] /\
  ex_said (VImei "msisdn" "1001" "356851031010106") [] ex_db2 = Fin (VWarn "IMEI invalid: '356851031010106'", []) /\
  ex_said (VImei "imei" "356851031010107" "none") [] (ex_then (VImei "id" "2" "35685103101010") [] ex_db2) = Fin (VOk "Updated subscriber IMSI='901700000002': removed IMEI", []) /\
  map (fun r => (s_nam_cs r, s_nam_ps r)) (d_sub (ex_then (VNam "imsi" "901700000002" "ps") [] ex_db2)) = [(s_nam_cs ex_r1, s_nam_ps ex_r1); (false, true)].
Proof. vm_compute. auto 10. Qed.

(** The messages sent by these commands are those of C28, for the selector of the words. *)
Theorem C53_messages : forall k s t i x v c d, argv_selector t i = Some x ->
  (run_out (vty_msisdn k s x (if (v =? "none")%string then None else Some v)) c d =
     match run_out (vty_run k s (VMsisdn t i v)) c d with Fin (_, o) => Fin o | Crashed => Crashed | Ub => Ub end /\
   run_db (vty_msisdn k s x (if (v =? "none")%string then None else Some v)) c d = run_db (vty_run k s (VMsisdn t i v)) c d) /\
  (forall cs ps, access_word v cs ps ->
   run_out (vty_nam k s x cs ps) c d = match run_out (vty_run k s (VNam t i v)) c d with Fin (_, o) => Fin o | Crashed => Crashed | Ub => Ub end /\
   run_db (vty_nam k s x cs ps) c d = run_db (vty_run k s (VNam t i v)) c d).
Proof.
  intros k s t i x v c d X. split; [exact (sends_same _ _ c d (msisdn_sends k s t i v x X))|].
  intros cs ps W. rewrite <- (proj1 (sends_same _ _ c d (nam_sends k s t i v x X))), <- (proj2 (sends_same _ _ c d (nam_sends k s t i v x X))). destruct W; split; reflexivity.
Qed.
Print Assumptions C53_messages.
(** [ex_served]: MSC-1 and SGSN-1 serve the subscriber. *)
Definition ex_tells (cmd : vcmd) (c : sched) : option (outcome (vres * list (nat * Z * option string))) :=
  match ex_run ex_served with
  | Some (s, d, _) => Some (match run_out (vty_run ex_cfg s cmd) c d with
      | Fin (w, o) => Fin (w, flat_map (fun y => match y with OTx c g => [(c, g_type g, x_msisdn (g_x g))] | _ => [] end) o) | Crashed => Crashed | Ub => Ub end)
  | None => None
  end.
Example C53_messages_case :
  ex_tells (VMsisdn "imsi" ex_imsi "5551") [] = Some (Fin (VOk ("Updated subscriber IMSI='" ++ ex_imsi ++ "' to MSISDN='5551'"), [(0%nat, MSGT_INSERT_DATA_REQUEST, Some "5551"); (1%nat, MSGT_INSERT_DATA_REQUEST, Some "5551")])) /\
  ex_tells (VNam "imsi" ex_imsi "ps") [] = Some (Fin (VOk "", [(0%nat, MSGT_DELETE_DATA_REQUEST, None); (1%nat, MSGT_DELETE_DATA_REQUEST, None)])).
Proof. vm_compute. auto. Qed.
(** A number that has been changed is not told to the serving nodes if reading the subscriber again fails; the answer is the same. *)
Theorem C53_messages_refuted : exists cmd c w, ex_tells cmd [] = Some (Fin (VOk w, [(0%nat, MSGT_INSERT_DATA_REQUEST, Some "5551"); (1%nat, MSGT_INSERT_DATA_REQUEST, Some "5551")])) /\
  ex_tells cmd c = Some (Fin (VOk w, [])).
Proof. exists (VMsisdn "imsi" ex_imsi "5551"), [EvOk; EvOk; EvFail]. eexists. split; vm_compute; reflexivity. Qed.
Print Assumptions C53_messages_refuted.

(** "show subscriber" prints the subscriber named and its keys, and changes nothing *)
Theorem C53_show : forall k s t i c d r,
  db_ok d -> ids_fit d -> imeis_ok d -> keys_wellformed d -> no_fault c -> sole d t i r -> readable r ->
  exists h k2 k3, run_out (vty_run k s (VShow t i)) c d = Fin (VFull h (Some (k2, k3)), []) /\ run_db (vty_run k s (VShow t i)) c d = d /\
    shows r h /\ shows2 d (s_id r) k2 /\ shows3 d (s_id r) k3.
Proof. exact vty_showing. Qed.
Print Assumptions C53_show.
Example C53_show_case :
  match ex_said (VShow "msisdn" "1002") [] ex_db2 with
  | Fin (VFull h (Some (Some g, Some u)), []) => (h_imsi h, h_msisdn h, g_algo g, u_algo u, u_bitlen u) = ("901700000002", "1002", 3, 5, 5)
  | _ => False
  end.
Proof. vm_compute. reflexivity. Qed.

(** "create" *)
Theorem C53_create : forall k s v c d,
  db_ok d -> imeis_ok d -> keys_wellformed d -> no_fault c -> is_imsi v ->
  let p := vty_run k s (VCreate v) in
  (~ has_imsi d v -> exists h k2 k3, run_out p c d = Fin (VFull h (Some (k2, k3)), []) /\
     exists r, s_imsi r = v /\ s_nam_cs r = true /\ s_nam_ps r = true /\ s_msisdn r = None /\ s_imei r = None /\ s_vlr r = None /\ s_sgsn r = None /\
       (forall x, In x (d_sub d) -> s_id x < s_id r) /\ run_db p c d = mk_db (d_sub d ++ [r]) (d_auc2 d) (d_auc3 d) (d_ind d) /\
       shows r h /\ shows2 d (s_id r) k2 /\ shows3 d (s_id r) k3) /\
  (has_imsi d v -> run_out p c d = Fin (VWarn ("Subscriber already exists for IMSI = " ++ v)%string, []) /\ run_db p c d = d).
Proof. exact vty_creating. Qed.
Print Assumptions C53_create.
Theorem C53_create_invalid : forall k s v c d, ~ is_imsi v ->
  run_out (vty_run k s (VCreate v)) c d = Fin (VWarn ("Not a valid IMSI: " ++ v)%string, []) /\ run_db (vty_run k s (VCreate v)) c d = d.
Proof. exact vty_create_bad. Qed.
Print Assumptions C53_create_invalid.
Example C53_create_case :
  map s_imsi (d_sub (ex_then (VCreate "901700000009") [] ex_db2)) = ["901700000001"; "901700000002"; "901700000009"] /\
  ex_said (VCreate "901700000001") [] ex_db2 = Fin (VWarn "Subscriber already exists for IMSI = 901700000001", []) /\
  ex_said (VCreate "90170") [] ex_db2 = Fin (VWarn "Not a valid IMSI: 90170", []).
Proof. vm_compute. auto. Qed.
(** The subscriber created is read back without looking at the result: if that fails, memory that has not been set is printed. *)
Theorem C53_create_refuted : exists v c d, db_ok d /\ is_imsi v /\ ~ has_imsi d v /\ ex_said (VCreate v) c d = Ub /\ has_imsi (ex_then (VCreate v) c d) v.
Proof.
  exists "901700000009", [EvOk; EvFail], ex_db2. split; [apply ex_db2_ok|]. split; [now apply imsi_valid_spec|].
  split; [intros (r & I & E); destruct I as [<-|[<-|[]]]; discriminate E|]. split; [vm_compute; reflexivity|]. exists (new_row 3 "901700000009" true true). vm_compute. auto.
Qed.
Print Assumptions C53_create_refuted.

(** "delete" *)
Theorem C53_delete : forall k s t i c d r,
  db_ok d -> ids_fit d -> imeis_ok d -> no_fault c -> sole d t i r -> readable r ->
  let d' := run_db (vty_run k s (VDelete t i)) c d in
  run_out (vty_run k s (VDelete t i)) c d = Fin (VOk ("Deleted subscriber for IMSI '" ++ s_imsi r ++ "'")%string, []) /\
  removed (s_imsi r) d d' /\ ~ has_imsi d' (s_imsi r) /\ ~ has_id d' (s_id r) /\ ~ has_auc2 d' (s_id r) /\ ~ has_auc3 d' (s_id r).
Proof. exact vty_deleting. Qed.
Print Assumptions C53_delete.
Example C53_delete_case :
  ex_said (VDelete "msisdn" "1002") [] ex_db2 = Fin (VOk "Deleted subscriber for IMSI '901700000002'", []) /\
  (let d := ex_then (VDelete "msisdn" "1002") [] ex_db2 in map s_imsi (d_sub d) = ["901700000001"] /\ map a2_id (d_auc2 ex_db2) = [1; 2] /\ map a2_id (d_auc2 d) = [1] /\ d_auc3 d = []).
Proof. vm_compute. split; [reflexivity|]. split; [reflexivity|]. split; [reflexivity|]. split; reflexivity. Qed.

(** Keys. The 2G algorithms, each with a key of 16 octets. *)
Theorem C53_key_2g : forall k s t i n shown algo name ki c d r,
  db_ok d -> ids_fit d -> imeis_ok d -> no_fault c -> sole d t i r -> readable r ->
  gsm_algorithm n shown algo -> lowercase name n -> hex_string 32 32 ki ->
  run_out (vty_run k s (VAud2g t i name ki)) c d = Fin (VOk "", []) /\
  forall a, key2 (run_db (vty_run k s (VAud2g t i name ki)) c d) (s_id r) a <-> a = mk_auc2 (s_id r) algo ki.
Proof. exact vty_key2. Qed.
Print Assumptions C53_key_2g.
Theorem C53_key_milenage : forall k s t i name ke (is_op : bool) choice o b n c d r,
  db_ok d -> ids_fit d -> imeis_ok d -> no_fault c -> sole d t i r -> readable r ->
  lowercase name "milenage" -> hex_string 32 32 ke -> lowercase choice (if is_op then "op" else "opc") -> hex_string 32 32 o -> vty_bits b n ->
  run_out (vty_run k s (VAud3g t i name ke choice o b)) c d = Fin (VOk "", []) /\
  forall a, key3 (run_db (vty_run k s (VAud3g t i name ke choice o b)) c d) (s_id r) a <->
    a = mk_auc3 (s_id r) 5 ke (if is_op then Some o else None) (if is_op then None else Some o) 0 n.
Proof. exact vty_key3. Qed.
Print Assumptions C53_key_milenage.
Theorem C53_key_xor : forall k s t i ke b n c d r,
  db_ok d -> ids_fit d -> imeis_ok d -> no_fault c -> sole d t i r -> readable r -> hex_string 32 32 ke -> vty_bits b n ->
  run_out (vty_run k s (VAud3gXor t i ke b)) c d = Fin (VOk "", []) /\
  forall a, key3 (run_db (vty_run k s (VAud3gXor t i ke b)) c d) (s_id r) a <-> a = mk_auc3 (s_id r) 4 ke None (Some "00000000000000000000000000000000"%string) 0 n.
Proof. exact vty_key3_xor. Qed.
Print Assumptions C53_key_xor.
Theorem C53_key_none : forall k s t i (three : bool) c d r,
  db_ok d -> ids_fit d -> imeis_ok d -> no_fault c -> sole d t i r -> readable r ->
  let p := vty_run k s (if three then VNoAud3g t i else VNoAud2g t i) in
  run_out p c d = Fin (VOk "", []) /\ (if three then ~ has_auc3 (run_db p c d) (s_id r) else ~ has_auc2 (run_db p c d) (s_id r)).
Proof. exact vty_no_key. Qed.
Print Assumptions C53_key_none.
Example C53_key_case :
  d_auc2 (ex_then (VAud2g "id" "1" "COMP128v2" "00112233445566778899aabbccddeeff") [] ex_db2) = skipn 1 (d_auc2 ex_db2) ++ [mk_auc2 1 2 "00112233445566778899aabbccddeeff"] /\
  ex_said (VAud2g "id" "1" "xor-2g" "00112233445566778899aabbccddeef") [] ex_db2 = Fin (VWarn "Invalid value for KI: '00112233445566778899aabbccddeef'", []) /\
  d_auc3 (ex_then (VAud3g "id" "2" "milenage" "00112233445566778899aabbccddeeff" "op" "ffeeddccbbaa99887766554433221100" (Some "7")) [] ex_db2) =
    [mk_auc3 2 5 "00112233445566778899aabbccddeeff" (Some "ffeeddccbbaa99887766554433221100") None 0 7] /\
  d_auc3 (ex_then (VAud3gXor "id" "2" "00112233445566778899aabbccddeeff" None) [] ex_db2) =
    [mk_auc3 2 4 "00112233445566778899aabbccddeeff" None (Some "00000000000000000000000000000000") 0 5] /\
  d_auc3 (ex_then (VNoAud3g "id" "2") [] ex_db2) = [] /\ d_auc2 (ex_then (VNoAud3g "id" "2") [] ex_db2) = d_auc2 ex_db2.
Proof. vm_compute. auto 10. Qed.
(** The command line takes TUAK keys, and 3G keys for XOR from 12 octets on; the database refuses all of them. *)
Theorem C53_tuak_refuted : forall k s t i ke choice o b c d text m, run_out (vty_run k s (VAud3g t i "tuak" ke choice o b)) c d <> Fin (VOk text, m).
Proof. exact vty_tuak. Qed.
Print Assumptions C53_tuak_refuted.
Theorem C53_xor_short_refuted : forall k s t i ke b c d text m, hex_string 24 31 ke -> run_out (vty_run k s (VAud3gXor t i ke b)) c d <> Fin (VOk text, m).
Proof. exact vty_xor_short. Qed.
Print Assumptions C53_xor_short_refuted.
Example C53_refused_case :
  ex_said (VAud3g "id" "2" "tuak" "00112233445566778899aabbccddeef" "opc" "00" None) [] ex_db2 = Fin (VWarn "Invalid value for K: '00112233445566778899aabbccddeef'", []) /\
  ex_said (VAud3g "id" "2" "tuak" "00112233445566778899aabbccddeeff" "opc" "00112233445566778899aabbccddeeff00112233445566778899aabbccddeeff" None) [] ex_db2 =
    Fin (VWarn "Error: cannot set 3G auth data for IMSI='901700000002'", []) /\
  ex_said (VAud3gXor "id" "2" "00112233445566778899aabb" None) [] ex_db2 = Fin (VWarn "Error: cannot set 3G auth data for IMSI='901700000002'", []).
Proof. vm_compute. auto. Qed.

(** ** Every command *)
(** Whatever the words and whatever faults occur: the database stays as it is, or only what belongs to subscribers named differs, or it
    is the deletion of one named or the creation of the IMSI given. Texts of ids that are no numbers are excepted, see [C53_id_refuted]. *)
Theorem C53_commands : forall k s cmd c d,
  db_ok d -> ids_fit d -> imeis_ok d -> (forall t i, about cmd t i -> number_if_id t i) ->
  let d' := run_db (vty_run k s cmd) c d in
  d' = d \/
  (exists t i, about cmd t i /\ confined (vty_names t i) d d') \/
  (exists t i r, cmd = VDelete t i /\ In r (d_sub d) /\ vty_names t i r /\ removed (s_imsi r) d d') \/
  (exists i, cmd = VCreate i /\ added i d d').
Proof. intros k s cmd c d OK. apply vty_effect. now apply db_ok_inv. Qed.
Print Assumptions C53_commands.
Example C53_commands_case : let d' := ex_then (VAud3gXor "id" "2" "00112233445566778899aabbccddeeff" None) [EvOk; EvOk; EvFail] ex_db2 in
  d' <> ex_db2 /\ d_auc3 d' = [] /\ d_sub d' = d_sub ex_db2 /\ d_auc2 d' = d_auc2 ex_db2.
Proof. vm_compute. split; [discriminate|auto]. Qed.
(** words that name nobody get a warning, and nothing is changed *)
Theorem C53_unknown : forall k s cmd t i c d,
  db_ok d -> ids_fit d -> imeis_ok d -> no_fault c -> about cmd t i -> number_if_id t i -> (forall r, In r (d_sub d) -> ~ vty_names t i r) ->
  exists w, run_out (vty_run k s cmd) c d = Fin (VWarn w, []) /\ run_db (vty_run k s cmd) c d = d.
Proof. exact vty_unknown. Qed.
Print Assumptions C53_unknown.
Example C53_unknown_case :
  ex_said (VNam "msisdn" "1003" "cs") [] ex_db2 = Fin (VWarn "No subscriber for msisdn = '1003'", []) /\
  ex_said (VNam "imei" "356851031010107" "cs") [] ex_db2 = Fin (VWarn "No subscriber for imei = '35685103101010'", []).
Proof. vm_compute. auto. Qed.
(** with working storage a warning means that nothing was changed or sent *)
Theorem C53_warning : forall k s cmd c d w o, db_ok d -> no_fault c ->
  run_out (vty_run k s cmd) c d = Fin (VWarn w, o) -> run_db (vty_run k s cmd) c d = d /\ o = [].
Proof. exact vty_warning. Qed.
Print Assumptions C53_warning.
Example C53_warning_case : ex_said (VMsisdn "id" "2" "1001") [] ex_db2 = Fin (VWarn "Error: cannot update MSISDN for subscriber IMSI='901700000002'", []) /\
  ex_said (VMsisdn "id" "2" "1234567890123456") [] ex_db2 = Fin (VWarn "MSISDN is too long, max. 15 characters are allowed", []).
Proof. vm_compute. auto. Qed.
(** Full statement: a command that reports success has done what it does when nothing fails. Missing, and refuted below: the network
    access mode and the deletion. *)
Theorem C53_success_partial : forall k s cmd c d w o,
  run_out (vty_run k s cmd) c d = Fin (w, o) -> done w -> (forall t i, cmd <> VDelete t i) -> (forall t i v, cmd <> VNam t i v) ->
  run_db (vty_run k s cmd) c d = run_db (vty_run k s cmd) [] d.
Proof. exact vty_success. Qed.
Print Assumptions C53_success_partial.
Example C53_success_case : ex_said (VImei "id" "2" "35685103101010") [EvOk; EvFail] ex_db2 = Fin (VWarn "Error: cannot update IMEI for subscriber IMSI='901700000002'", []) /\
  ex_said (VAud2g "id" "1" "comp128v1" "00112233445566778899aabbccddeeff") [EvOk; EvOk; EvFail] ex_db2 = Fin (VWarn "Error: cannot set 2G auth data for IMSI='901700000001'", []).
Proof. vm_compute. auto. Qed.
(** after "delete" reports success the subscriber is gone, whatever faults there were *)
Theorem C53_deleted : forall k s t i c d w o, db_ok d -> ids_fit d -> imeis_ok d -> number_if_id t i ->
  run_out (vty_run k s (VDelete t i)) c d = Fin (VOk w, o) ->
  let d' := run_db (vty_run k s (VDelete t i)) c d in
  exists r, In r (d_sub d) /\ vty_names t i r /\ w = ("Deleted subscriber for IMSI '" ++ s_imsi r ++ "'")%string /\ o = [] /\ removed (s_imsi r) d d' /\ ~ has_id d' (s_id r) /\ ~ has_imsi d' (s_imsi r).
Proof.
  intros k s t i c d w o OK FT IM NI. apply db_ok_inv in OK. cbv zeta. unfold vty_run, vty_delete, on_argv, run_out. rewrite run_db_bind, run_bind. destruct (argv_get k t i c d) as (x & c' & E & H). rewrite E.
  destruct x as [[rc [h|]]| |]; try discriminate. destruct H as (y & r & S & M & I & Q). rewrite run_bind, run_db_after.
  assert (W : h_imsi h = s_imsi r) by (exact (row_imsi _ d r h OK I Q)). destruct (sub_of_row_fields _ _ _ Q) as (Hi & _). rewrite Hi, W.
  destruct (run (db_subscr_delete_by_id (s_id r)) c' d) as [[z d1] c1] eqn:R. destruct z as [rc1| |]; try discriminate. cbn [run]. destruct (Z.eqb_spec rc1 0) as [->|]; intros A; [|discriminate A]. injection A as <- <-.
  exists r. split; [exact I|]. split; [apply (argv_names d t i r IM NI I (row_range d r OK FT I)); eauto|]. split; [reflexivity|]. split; [reflexivity|].
  pose proof (delete_id_removed r c' d OK I) as Rm. pose proof (DbThms4.delete_done (s_id r) c' d) as G. unfold run_out in G. rewrite R in G. specialize (G eq_refl). split; [exact Rm|]. split; [exact G|].
  intros (r' & I' & E'). apply G. exists r'. split; [exact I'|]. destruct Rm as (Rm & _). specialize (Rm r' I'). f_equal. apply (DbThms3.NoDup_key_inj s_imsi (d_sub d)); auto. apply OK.
Qed.
Print Assumptions C53_deleted.
Example C53_deleted_case : ex_said (VDelete "imsi" "901700000002") [EvOk; EvFail] ex_db2 = Fin (VWarn "Error: Failed to remove subscriber for IMSI '901700000002'", []) /\
  ex_said (VDelete "imsi" "901700000002") [EvOk; EvOk; EvFail; EvFail] ex_db2 = Fin (VOk "Deleted subscriber for IMSI '901700000002'", []).
Proof. vm_compute. auto. Qed.
(** "network-access-mode none" succeeds although both writes failed: the subscriber keeps its access *)
Theorem C53_nam_success_refuted : exists d c t i r, db_ok d /\ sole d t i r /\ callable r /\ s_nam_cs r = true /\ s_nam_ps r = true /\
  ex_said (VNam t i "none") c d = Fin (VOk "", []) /\ ex_then (VNam t i "none") c d = d.
Proof.
  exists ex_db2, [EvOk; EvFail; EvFail], "imsi", "901700000002", ex_r2. split; [apply ex_db2_ok|]. split; [apply C53_names_case|].
  split; [split; [apply ctrl_case_db|intros p [H|H]; discriminate H]|]. split; [reflexivity|]. split; [reflexivity|]. split; vm_compute; reflexivity.
Qed.
Print Assumptions C53_nam_success_refuted.
(** "delete" succeeds although the keys could not be deleted: whoever gets the id next has the keys *)
Theorem C53_delete_success_refuted : exists d c t i r v, db_ok d /\ sole d t i r /\ readable r /\
  ex_said (VDelete t i) c d = Fin (VOk ("Deleted subscriber for IMSI '" ++ s_imsi r ++ "'")%string, []) /\
  (let d' := ex_then (VDelete t i) c d in ~ has_imsi d' (s_imsi r) /\ has_auc2 d' (s_id r) /\
   exists x, In x (d_sub (ex_then (VCreate v) [] d')) /\ s_imsi x = v /\ s_id x = s_id r).
Proof.
  exists ex_db2, [EvOk; EvOk; EvFail; EvFail], "imsi", "901700000002", ex_r2, "901700000009". split; [apply ex_db2_ok|]. split; [apply C53_names_case|].
  split; [apply ctrl_case_db|]. split; [vm_compute; reflexivity|]. cbv zeta. split; [intros (r & I & E); destruct I as [<-|[]]; discriminate E|].
  split; [eexists; split; [right; left; vm_compute; reflexivity|reflexivity]|]. exists (new_row 2 "901700000009" true true). vm_compute. auto.
Qed.
Print Assumptions C53_delete_success_refuted.
