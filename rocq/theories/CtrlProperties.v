(** Properties C46 and C52: the control interface. *)
From Verif Require Import Base PeerId Db DbSpec DbProofs DbThms DbProperties Auth AuthSpec AuthThms AuthProperties Ctrl CtrlSpec CtrlThms CtrlThms2 CtrlThms3 CtrlThms4 CtrlThms5 CtrlThms6 VtySpec VtyThms4.
Local Open Scope string_scope.
Local Open Scope list_scope.
Local Open Scope Z_scope.

(** [ex_db2] has subscribers 1 (901700000001, MSISDN 1001) and 2 (901700000002, 1002) *)
Definition ex_r1 : sub_row := Eval vm_compute in nth 0 (d_sub ex_db2) (new_row 0 "" false false).
Definition ex_r2 : sub_row := Eval vm_compute in nth 1 (d_sub ex_db2) (new_row 0 "" false false).
Example ctrl_case_db : d_sub ex_db2 = [ex_r1; ex_r2] /\ ids_fit ex_db2 /\ readable ex_r1 /\ readable ex_r2.
Proof.
  split; [reflexivity|]. split; [intros r [<-|[<-|[]]]; vm_compute; congruence|].
  split; intros p [H|H]; discriminate.
Qed.
Example ctrl_case_names : names "by-imsi-901700000002" ex_r2 /\ names "by-id-2" ex_r2 /\ names "by-id-002" ex_r2 /\ names "by-id-1" ex_r1.
Proof.
  split; [now apply (names_imsi "901700000002")|].
  assert (D : forall n c, 0 <= n <= 9 -> c = ascii_of_N (Z.to_N (48 + n)) -> digit c n) by (intros n c A B; split; assumption).
  split; [apply (names_id "2"); left; apply (num_one "2" 2); apply D; [lia|reflexivity]|].
  split; [|apply (names_id "1"); left; apply (num_one "1" 1); apply D; [lia|reflexivity]].
  apply (names_id "002"). left. apply (num_more "00" 0 "2" 2); [|apply D; [lia|reflexivity]]. apply (num_more "0" 0 "0" 0); [|apply D; [lia|reflexivity]].
  apply (num_one "0" 0). apply D; [lia|reflexivity].
Qed.

(** ** C46 *)
(** a selector names at most one subscriber *)
Theorem C46_unique : forall d sel r r', db_ok d -> In r (d_sub d) -> In r' (d_sub d) -> names sel r -> names sel r' -> r = r'.
Proof. intros d sel r r' OK. apply (names_unique d sel r r'). now apply db_ok_inv. Qed.
Print Assumptions C46_unique.

(** GET answers with what the database has about the subscriber named *)
Theorem C46_read : forall tz sel cmd t c d r,
  db_ok d -> ids_fit d -> no_fault c -> In r (d_sub d) -> names sel r -> readable r -> reports r cmd t ->
  run_out (ctrl_handle tz (CtrlGet ("subscriber." ++ sel ++ "." ++ cmd)%string)) c d = Fin (RpText t).
Proof. exact ctrl_read. Qed.
Print Assumptions C46_read.
Theorem C46_info : forall tz sel c d r,
  db_ok d -> ids_fit d -> no_fault c -> In r (d_sub d) -> names sel r -> readable r ->
  exists h, sub_of_row tz r = Some h /\
    run_out (ctrl_handle tz (CtrlGet ("subscriber." ++ sel ++ ".info")%string)) c d = Fin (RpInfo (Some h) None None).
Proof. exact ctrl_info. Qed.
Print Assumptions C46_info.
(** and the keys are those stored for it *)
Theorem C46_info_keys : forall tz sel c d r,
  db_ok d -> ids_fit d -> keys_wellformed d -> no_fault c -> In r (d_sub d) -> names sel r -> readable r ->
  exists h k2 k3, sub_of_row tz r = Some h /\ shows2 d (s_id r) k2 /\ shows3 d (s_id r) k3 /\
    run_out (ctrl_handle tz (CtrlGet ("subscriber." ++ sel ++ ".info-aud")%string)) c d = Fin (RpInfo None k2 k3) /\
    run_out (ctrl_handle tz (CtrlGet ("subscriber." ++ sel ++ ".info-all")%string)) c d = Fin (RpInfo (Some h) k2 k3).
Proof.
  intros tz sel c d r OK FT KW NF I N R. rewrite !(proj1 (run_no_fault _ c d NF)). apply db_ok_inv in OK. destruct (names_part d sel r OK I N) as [P1 B]. destruct (readable_sub tz r R) as [h H].
  destruct (keys_shown d r OK KW I) as (k2 & k3 & K & S2 & S3). exists h, k2, k3. split; [exact H|]. split; [exact S2|]. split; [exact S3|].
  pose proof (on_named tz sel d r h) as O.
  assert (W : forall k, part k -> ctrl_handle tz (CtrlGet ("subscriber." ++ sel ++ "." ++ k)%string) = get_cmd tz sel k) by (intros k Pk; exact (handle_by tz true sel k "" P1 Pk B)).
  split.
  - change (".info-aud")%string with ("." ++ "info-aud")%string. rewrite W by (apply part_sep; split; [discriminate|reflexivity]). unfold get_cmd. cbn [String.eqb Ascii.eqb Bool.eqb]. unfold get_info_aud, run_out.
    assert (G : run (get_subscriber_imsi tz sel) [] d = (Fin (inr (s_imsi r)), d, [])).
    { unfold get_subscriber_imsi. pose proof (CtrlThms6.sel_found tz sel [] d r h OK FT (part_spaceless _ P1) I N H) as F.
      assert (F' : run (get_subscriber tz sel) [] d = (Fin (inr h), d, [])).
      { pose proof (run_no_fault (get_subscriber tz sel) [EvOk] d ltac:(repeat constructor)) as [Q1 Q2]. unfold run_out, run_db in Q1, Q2. rewrite F in Q1, Q2. cbn in Q1, Q2. rewrite run_parts. unfold run_out, run_db. rewrite <- Q1, <- Q2. reflexivity. }
      destruct (after "by-imsi-" sel) as [v|] eqn:A.
      - destruct N as [v' r' <-|v' r' E|t r' E]; [rewrite after_app in A; injection A as <-; reflexivity|discriminate A|discriminate A].
      - rewrite run_bind, F'. cbn [run]. rewrite (row_imsi tz d r h OK I H). reflexivity. }
    rewrite run_bind, G. cbv beta iota. rewrite run_bind, K. reflexivity.
  - change (".info-all")%string with ("." ++ "info-all")%string. rewrite W by (apply part_sep; split; [discriminate|reflexivity]). unfold get_cmd. cbn [String.eqb Ascii.eqb Bool.eqb]. unfold get_info_all, run_out.
    rewrite (O _ OK FT (part_spaceless _ P1) I N H), (row_imsi tz d r h OK I H), (run_after _ _ _ _ _ K). reflexivity.
Qed.
Print Assumptions C46_info_keys.
Example C46_info_case :
  run_out (ctrl_handle 0 (CtrlGet "subscriber.by-id-1.info-aud")) [] ex_db2 = Fin (RpInfo None (Some (mk_aud2 1 [0; 17; 34; 51; 68; 85; 102; 119; 136; 153; 170; 187; 204; 221; 238; 255]%N)) None).
Proof. vm_compute. reflexivity. Qed.
Example C46_read_case :
  run_out (ctrl_handle 0 (CtrlGet "subscriber.by-id-002.imsi")) [] ex_db2 = Fin (RpText "901700000002") /\
  run_out (ctrl_handle 0 (CtrlGet "subscriber.by-msisdn-1002.imsi")) [] ex_db2 = Fin (RpText "901700000002") /\
  run_out (ctrl_handle 0 (CtrlGet "subscriber.by-id-+2.imsi")) [] ex_db2 = Fin (RpError "Invalid value part of 'by-xxx-value' selector.") /\
  run_out (ctrl_handle 0 (CtrlGet "subscriber.by-id-2x.imsi")) [] ex_db2 = Fin (RpError "Invalid value part of 'by-xxx-value' selector.") /\
  run_out (ctrl_handle 0 (CtrlGet "subscriber.by-id-3.imsi")) [] ex_db2 = Fin (RpError "No such subscriber.").
Proof. vm_compute. auto 10. Qed.

(** SET changes the row of the subscriber named as asked, and nothing else *)
Theorem C46_write : forall tz sel cmd v c d r r',
  db_ok d -> ids_fit d -> no_fault c -> In r (d_sub d) -> names sel r -> readable r -> writes r cmd v r' ->
  (forall m, s_msisdn r' = Some m -> forall x, In x (d_sub d) -> s_msisdn x = Some m -> s_imsi x = s_imsi r) ->
  let p := ctrl_handle tz (CtrlSet ("subscriber." ++ sel ++ "." ++ cmd)%string v) in
  run_out p c d = Fin (RpText "OK") /\ replaced r r' d (run_db p c d).
Proof. exact ctrl_write. Qed.
Print Assumptions C46_write.
Example C46_write_case :
  let p := ctrl_handle 0 (CtrlSet "subscriber.by-id-2.msisdn" "555") in
  run_out p [] ex_db2 = Fin (RpText "OK") /\ map (fun r => (s_imsi r, s_msisdn r)) (d_sub (run_db p [] ex_db2)) =
    [(s_imsi ex_r1, s_msisdn ex_r1); ("901700000002"%string, Some "555"%string)].
Proof. vm_compute. auto. Qed.

(** Every request, whatever its text and whatever faults occur: the database stays as it is, or the request is a SET of a variable
    "subscriber.SELECTOR.COMMAND" and only what belongs to subscribers named by the selector differs, or it is the creation or
    deletion of the IMSI in its value. *)
Theorem C46_requests : forall tz q c d, db_ok d -> ids_fit d ->
  let d' := run_db (ctrl_handle tz q) c d in
  d' = d \/
  (exists sel cmd v, words (variable q) = ["subscriber"; sel; cmd] /\ q = CtrlSet (variable q) v /\ confined (names sel) d d') \/
  (exists v, words (variable q) = ["subscriber"; "create"] /\ q = CtrlSet (variable q) v /\ added v d d') \/
  (exists v, words (variable q) = ["subscriber"; "delete"] /\ q = CtrlSet (variable q) v /\ removed v d d').
Proof. intros tz q c d OK. apply request_effect. now apply db_ok_inv. Qed.
Print Assumptions C46_requests.
Theorem C46_syntax : forall sel cmd, part sel -> part cmd -> words ("subscriber." ++ sel ++ "." ++ cmd)%string = ["subscriber"; sel; cmd].
Proof. exact words_var. Qed.
Print Assumptions C46_syntax.
Example C46_requests_case :
  words "subscriber.by-imsi-901700000002.cs-enabled" = ["subscriber"; "by-imsi-901700000002"; "cs-enabled"] /\
  map s_imsi (d_sub (run_db (ctrl_handle 0 (CtrlSet "subscriber.delete" "901700000001")) [] ex_db2)) = ["901700000002"] /\
  map s_imsi (d_sub (run_db (ctrl_handle 0 (CtrlSet "subscriber.create" "901700000009")) [] ex_db2)) = ["901700000001"; "901700000002"; "901700000009"] /\
  map s_nam_cs (d_sub (run_db (ctrl_handle 0 (CtrlSet "subscriber.by-id-1.cs-enabled" "0")) [] ex_db2)) = [false; true].
Proof. vm_compute. auto. Qed.

(** a selector that names nobody gets an error and changes nothing *)
Theorem C46_unknown : forall tz (get : bool) sel cmd v c d,
  db_ok d -> ids_fit d -> no_fault c -> part sel -> part cmd -> (forall r, In r (d_sub d) -> ~ names sel r) ->
  (get = true -> cmd <> "info-aud") ->
  let var := ("subscriber." ++ sel ++ "." ++ cmd)%string in
  let p := ctrl_handle tz (if get then CtrlGet var else CtrlSet var v) in
  (exists e, run_out p c d = Fin (RpError e)) /\ run_db p c d = d.
Proof.
  intros tz get sel cmd v c d OK FT NF PS PC N NG. cbv zeta. rewrite (proj1 (run_no_fault _ c d NF)), (proj2 (run_no_fault _ c d NF)).
  destruct (ctrl_unknown tz get sel cmd v c d OK FT NF PS PC N NG) as [e E]. unfold run_out, run_db. unfold req in E. destruct get; cbv zeta in E; rewrite E; (split; [exists e; reflexivity|reflexivity]).
Qed.
Print Assumptions C46_unknown.
(** The exception is real: "info-aud" of an IMSI that nobody has (or that is none) is answered as if there were a subscriber without
    keys, since get_subscriber_imsi() does not look the IMSI up and get_subscr_info_aud() takes ENOENT for success. *)
Theorem C46_info_aud_refuted : exists sel d,
  db_ok d /\ ids_fit d /\ (forall r, In r (d_sub d) -> ~ names sel r) /\
  run_out (ctrl_handle 0 (CtrlGet ("subscriber." ++ sel ++ ".info-aud")%string)) [] d = Fin (RpInfo None None None).
Proof.
  exists "by-imsi-nobody", ex_db2. split; [apply ex_db2_ok|]. split; [apply ctrl_case_db|].
  split; [|vm_compute; reflexivity]. intros r I N. remember "by-imsi-nobody" as sel eqn:Q. destruct N as [v x E|v x E|t x E]; try discriminate Q.
  rewrite <- E in Q. destruct I as [<-|[<-|[]]]; discriminate Q.
Qed.
Print Assumptions C46_info_aud_refuted.

(** an error means that nothing was changed (working storage) *)
Theorem C46_error_unchanged : forall tz q c d e, db_ok d -> no_fault c ->
  run_out (ctrl_handle tz q) c d = Fin (RpError e) -> run_db (ctrl_handle tz q) c d = d.
Proof. exact ctrl_error. Qed.
Print Assumptions C46_error_unchanged.
Example C46_error_case :
  run_out (ctrl_handle 0 (CtrlSet "subscriber.by-id-2.msisdn" "555")) [] (run_db (db_subscr_update_msisdn_by_imsi "901700000001" (Some "555")) [] ex_db2) =
    Fin (RpError "Update MSISDN failed") /\
  run_out (ctrl_handle 0 (CtrlSet "subscriber.by-id-2.aud2g" "tuak,00")) [] ex_db2 = Fin (RpError "Invalid KI.") /\
  run_out (ctrl_handle 0 (CtrlSet "subscriber.create" "901700000001")) [] ex_db2 = Fin (RpError "Subscriber already exists.").
Proof. vm_compute. auto. Qed.

(** ** Complaints *)
(** what is refused whatever the database has: unknown variables, writing what can only be read, wrong values *)
Theorem C46_refused : forall tz (get : bool) sel cmd v, part sel -> part cmd -> (exists x, sel = ("by-" ++ x)%string) ->
  let q := ctrl_handle tz (let var := ("subscriber." ++ sel ++ "." ++ cmd)%string in if get then CtrlGet var else CtrlSet var v) in
  (~ In cmd variables -> q = Ret (RpError "Command not found")) /\
  (get = false -> In cmd ["info"; "info-aud"; "info-all"; "imsi"] -> q = Ret (RpError "Read Only attribute")) /\
  (get = false -> wrong_value cmd v -> q = Ret (RpError "Value failed verification.")).
Proof. exact ctrl_refused. Qed.
Print Assumptions C46_refused.
(** other variables, by their first word: comments, what is not about subscribers, no word about subscribers, reading "create" and "delete" *)
Theorem C46_other : forall tz q, match words (variable q) with
  | [] => ctrl_handle tz q = Ret (RpError "cmd_make_strvec failed.")
  | String c _ as w :: l =>
      (c = "!"%char \/ c = "#"%char -> ctrl_handle tz q = Ret (RpError "cmd_make_strvec failed.")) /\
      (c <> "!"%char -> c <> "#"%char -> w <> "subscriber" -> ctrl_handle tz q = Ret (RpError "Command not found")) /\
      (w = "subscriber" -> l = [] -> ctrl_handle tz q = Ret (RpError "Command not present.")) /\
      (w = "subscriber" -> forall var, q = CtrlGet var -> l = ["create"] \/ l = ["delete"] -> ctrl_handle tz q = Ret (RpError "Write Only attribute"))
  | _ => True
  end.
Proof. exact ctrl_other. Qed.
Print Assumptions C46_other.
(** the complaint about a selector that names nobody tells what is wrong with it, or that the storage fails *)
Theorem C46_nobody : forall tz (get : bool) sel cmd v e c d,
  db_ok d -> ids_fit d -> part sel -> (exists x, sel = ("by-" ++ x)%string) -> complaint sel e -> (forall r, In r (d_sub d) -> ~ names sel r) ->
  (if get then In cmd variables /\ cmd <> "info-aud" else In cmd ["msisdn"; "aud2g"; "aud3g"] /\ ~ wrong_value cmd v) ->
  run_out (ctrl_handle tz (let var := ("subscriber." ++ sel ++ "." ++ cmd)%string in if get then CtrlGet var else CtrlSet var v)) c d =
    match c with
    | EvFail :: _ => Fin (RpError (if (e =? "No such subscriber.")%string then "An unknown error has occurred during get_subscriber()." else e))
    | EvCrash :: _ => if (e =? "No such subscriber.")%string then Crashed else Fin (RpError e)
    | _ => Fin (RpError e)
    end.
Proof. exact ctrl_nobody. Qed.
Print Assumptions C46_nobody.
(** if the keys of a subscriber cannot be read, that is told *)
Theorem C46_keys_fail : forall tz sel c d r, db_ok d -> ids_fit d -> In r (d_sub d) -> names sel r -> readable r ->
  run_out (ctrl_handle tz (CtrlGet ("subscriber." ++ sel ++ ".info-all")%string)) (EvOk :: EvFail :: c) d = Fin (RpError "Error retrieving authentication data.") /\
  run_out (ctrl_handle tz (CtrlGet ("subscriber." ++ sel ++ ".aud2g")%string)) (EvOk :: EvFail :: c) d = Fin (RpError "Error retrieving data from database.") /\
  run_out (ctrl_handle tz (CtrlGet ("subscriber." ++ sel ++ ".aud3g")%string)) (EvOk :: EvFail :: c) d = Fin (RpError "Error retrieving data from database.") /\
  run_out (ctrl_handle tz (CtrlGet ("subscriber." ++ sel ++ ".info-aud")%string)) (if (sel =? "by-imsi-" ++ s_imsi r)%string then EvFail :: c else EvOk :: EvFail :: c) d = Fin (RpError "Error retrieving authentication data.").
Proof. exact ctrl_keys_fail. Qed.
Print Assumptions C46_keys_fail.
(** the access of an IMSI that nobody has is not set, but the complaint does not tell why: no such subscriber *)
Theorem C46_access_refuted : forall tz i (ps b : bool) c d, db_ok d -> no_fault c -> part i -> (forall r, In r (d_sub d) -> s_imsi r <> i) ->
  run_out (ctrl_handle tz (CtrlSet ("subscriber." ++ ("by-imsi-" ++ i) ++ "." ++ (if ps then "ps-enabled" else "cs-enabled"))%string (if b then "1" else "0"))) c d = Fin (RpError "An error has occured.").
Proof. exact ctrl_access_nobody. Qed.
Print Assumptions C46_access_refuted.
Example C46_complaints_case :
  let get v c := run_out (ctrl_handle 0 (CtrlGet v)) c ex_db2 in let set v x := run_out (ctrl_handle 0 (CtrlSet v x)) [] ex_db2 in
  map (fun v => get v []) ["subscriber.by-imsi-901700000009.msisdn"; "subscriber.by-imsi-9017.info"; "subscriber.by-name-x.imsi"; "subscriber.by-id-1x.imsi"; "subscriber.by-id-1.imei"; "subscriber.delete"; "#x"; "subscriber"; "mslookup"] =
    map (fun e => Fin (RpError e)) ["No such subscriber."; "Invalid value part of 'by-xxx-value' selector."; "Not a known subscriber 'by-xxx-' selector."; "Invalid value part of 'by-xxx-value' selector.";
                                    "Command not found"; "Write Only attribute"; "cmd_make_strvec failed."; "Command not present."; "Command not found"] /\
  get "subscriber.by-imsi-901700000009.msisdn" [EvFail] = Fin (RpError "An unknown error has occurred during get_subscriber().") /\
  get "subscriber.by-id-1.aud3g" [EvOk; EvFail] = Fin (RpError "Error retrieving data from database.") /\
  set "subscriber.by-id-1.imsi" "901700000009" = Fin (RpError "Read Only attribute") /\ set "subscriber.by-id-1.cs-enabled" "yes" = Fin (RpError "Value failed verification.") /\
  set "subscriber.by-imsi-901700000009.cs-enabled" "1" = Fin (RpError "An error has occured.") /\ wrong_value "cs-enabled" "yes" /\ complaint "by-imsi-901700000009" "No such subscriber.".
Proof.
  split; [vm_compute; reflexivity|]. repeat (split; [vm_compute; reflexivity|]). split; [constructor; discriminate|]. apply (cp_imsi "901700000009"). now apply imsi_valid_spec.
Qed.

(** ** C52 *)
(** A 2G key in the documented form is accepted, stored as given, and shown again (in lower case). *)
Theorem C52_set_2g : forall tz sel n shown algo name ki c c' d r,
  db_ok d -> ids_fit d -> keys_wellformed d -> no_fault c -> no_fault c' ->
  In r (d_sub d) -> names sel r -> readable r -> gsm_algorithm n shown algo -> lowercase name n -> hex_string 32 32 ki ->
  let set := ctrl_handle tz (CtrlSet ("subscriber." ++ sel ++ ".aud2g")%string (name ++ "," ++ ki)%string) in
  let d' := run_db set c d in
  run_out set c d = Fin (RpText "OK") /\ (forall a, key2 d' (s_id r) a <-> a = mk_auc2 (s_id r) algo ki) /\
  exists t, lowercase ki t /\ run_out (ctrl_handle tz (CtrlGet ("subscriber." ++ sel ++ ".aud2g")%string)) c' d' = Fin (RpText (shown ++ "," ++ t)).
Proof. exact key_set2. Qed.
Print Assumptions C52_set_2g.
(** MILENAGE keys; the bit length of IND is 5 unless given *)
Theorem C52_set_3g : forall tz sel name k (is_op : bool) choice o tail n c c' d r,
  db_ok d -> ids_fit d -> keys_wellformed d -> no_fault c -> no_fault c' ->
  In r (d_sub d) -> names sel r -> readable r -> lowercase name "milenage" -> hex_string 32 32 k -> lowercase choice (if is_op then "op" else "opc") ->
  hex_string 32 32 o -> (tail = "" /\ n = 5 \/ exists t, tail = ("," ++ t)%string /\ numeral t n) -> 0 <= n <= 28 ->
  let set := ctrl_handle tz (CtrlSet ("subscriber." ++ sel ++ ".aud3g")%string (name ++ "," ++ k ++ "," ++ choice ++ "," ++ o ++ tail)%string) in
  let d' := run_db set c d in
  run_out set c d = Fin (RpText "OK") /\
  (forall a, key3 d' (s_id r) a <-> a = mk_auc3 (s_id r) 5 k (if is_op then Some o else None) (if is_op then None else Some o) 0 n) /\
  exists tk to tn, lowercase k tk /\ lowercase o to /\ numeral tn n /\ (forall s, tn = String "0" s -> s = "") /\
    run_out (ctrl_handle tz (CtrlGet ("subscriber." ++ sel ++ ".aud3g")%string)) c' d' =
    Fin (RpText ("MILENAGE," ++ tk ++ "," ++ (if is_op then "OP" else "OPC") ++ "," ++ to ++ "," ++ tn)).
Proof.
  intros tz sel name k is_op choice o tail n c c' d r OK FT KW NF NF' I N R L H1 C H2 T B.
  destruct (key_set3 tz sel name k is_op choice o tail n c c' d r OK FT KW NF NF' I N R L H1 C H2 T B) as (A1 & A2 & tk & to & tn & B1 & B2 & B3 & B4).
  split; [exact A1|]. split; [exact A2|]. exists tk, to, tn. split; [exact B1|]. split; [exact B2|].
  split; [rewrite B3; now apply dec_numeral|]. split; [|exact B4]. intros s. rewrite B3. now apply dec_lead.
Qed.
Print Assumptions C52_set_3g.
(** what GET shows can be SET again, with the same result *)
Theorem C52_replay_2g : forall tz sel n shown algo ki c c1 c2 d r,
  db_ok d -> ids_fit d -> keys_wellformed d -> no_fault c -> no_fault c1 -> no_fault c2 ->
  In r (d_sub d) -> names sel r -> readable r -> gsm_algorithm n shown algo -> key2 d (s_id r) (mk_auc2 (s_id r) algo ki) ->
  let var := ("subscriber." ++ sel ++ ".aud2g")%string in
  exists v, run_out (ctrl_handle tz (CtrlGet var)) c d = Fin (RpText v) /\ run_out (ctrl_handle tz (CtrlSet var v)) c1 d = Fin (RpText "OK") /\
    run_out (ctrl_handle tz (CtrlGet var)) c2 (run_db (ctrl_handle tz (CtrlSet var v)) c1 d) = Fin (RpText v).
Proof. exact key_replay2. Qed.
Print Assumptions C52_replay_2g.
Theorem C52_replay_3g_partial : forall tz sel k o (is_op : bool) sqn n c c1 c2 d r,
  db_ok d -> ids_fit d -> keys_wellformed d -> no_fault c -> no_fault c1 -> no_fault c2 ->
  In r (d_sub d) -> names sel r -> readable r -> hex_string 32 32 k -> hex_string 32 32 o ->
  key3 d (s_id r) (mk_auc3 (s_id r) 5 k (if is_op then Some o else None) (if is_op then None else Some o) sqn n) ->
  let var := ("subscriber." ++ sel ++ ".aud3g")%string in
  exists v, run_out (ctrl_handle tz (CtrlGet var)) c d = Fin (RpText v) /\ run_out (ctrl_handle tz (CtrlSet var v)) c1 d = Fin (RpText "OK") /\
    run_out (ctrl_handle tz (CtrlGet var)) c2 (run_db (ctrl_handle tz (CtrlSet var v)) c1 d) = Fin (RpText v).
Proof. exact key_replay3. Qed.
Print Assumptions C52_replay_3g_partial.
Example C52_case :
  let v := "MileNage,000102030405060708090A0B0C0D0E0F,opC,ffEEddccbbaa99887766554433221100,07"%string in
  let p := ctrl_handle 0 (CtrlSet "subscriber.by-id-1.aud3g" v) in
  run_out p [] ex_db2 = Fin (RpText "OK") /\
  run_out (ctrl_handle 0 (CtrlGet "subscriber.by-id-1.aud3g")) [] (run_db p [] ex_db2) =
    Fin (RpText "MILENAGE,000102030405060708090a0b0c0d0e0f,OPC,ffeeddccbbaa99887766554433221100,7") /\
  run_out (ctrl_handle 0 (CtrlGet "subscriber.by-id-1.aud2g")) [] ex_db2 = Fin (RpText "COMP128v1,00112233445566778899aabbccddeeff").
Proof. vm_compute. auto. Qed.

(** Whatever value is answered with success has the algorithm and key as fields, and these are stored; or says "none", and there are no
    keys left. *)
Theorem C52_accepted_2g : forall tz sel v c d r t,
  db_ok d -> ids_fit d -> no_fault c -> In r (d_sub d) -> names sel r -> readable r ->
  let set := ctrl_handle tz (CtrlSet ("subscriber." ++ sel ++ ".aud2g")%string v) in
  let d' := run_db set c d in
  run_out set c d = Fin (RpText t) ->
  (exists name l, fields v (name :: l) /\ lowercase name "none" /\ ~ has_auc2 d' (s_id r)) \/
  (exists name ki n shown algo, fields v [name; ki] /\ gsm_algorithm n shown algo /\ lowercase name n /\ hex_string 32 32 ki /\
     forall a, key2 d' (s_id r) a <-> a = mk_auc2 (s_id r) algo ki).
Proof. exact accepted2. Qed.
Print Assumptions C52_accepted_2g.
Theorem C52_accepted_3g_partial : forall tz sel v c d r t,
  db_ok d -> ids_fit d -> no_fault c -> In r (d_sub d) -> names sel r -> readable r ->
  let set := ctrl_handle tz (CtrlSet ("subscriber." ++ sel ++ ".aud3g")%string v) in
  let d' := run_db set c d in
  run_out set c d = Fin (RpText t) ->
  (exists name l, fields v (name :: l) /\ lowercase name "none" /\ ~ has_auc3 d' (s_id r)) \/
  (exists name k choice o (is_op : bool) n l, fields v (name :: k :: choice :: o :: l) /\ lowercase name "milenage" /\ lowercase choice (if is_op then "op" else "opc") /\
     hex_string 32 32 k /\ hex_string 32 32 o /\ 0 <= n <= 28 /\
     forall a, key3 d' (s_id r) a <-> a = mk_auc3 (s_id r) 5 k (if is_op then Some o else None) (if is_op then None else Some o) 0 n).
Proof. exact accepted3. Qed.
Print Assumptions C52_accepted_3g_partial.
Theorem C52_remove_partial : forall tz sel (three : bool) v c d r,
  db_ok d -> ids_fit d -> no_fault c -> In r (d_sub d) -> names sel r -> readable r -> lowercase v "none" ->
  let set := ctrl_handle tz (CtrlSet ("subscriber." ++ sel ++ "." ++ (if three then "aud3g" else "aud2g"))%string v) in
  let d' := run_db set c d in
  let had := if three then has_auc3 d (s_id r) else has_auc2 d (s_id r) in
  (had -> run_out set c d = Fin (RpText "OK")) /\ (~ had -> exists e, run_out set c d = Fin (RpError e)) /\
  (if three then ~ has_auc3 d' (s_id r) else ~ has_auc2 d' (s_id r)).
Proof. exact key_remove. Qed.
Print Assumptions C52_remove_partial.
Example C52_accepted_case :
  let p v := run_out (ctrl_handle 0 (CtrlSet "subscriber.by-id-1.aud2g" v)) [] ex_db2 in
  p "none"%string = Fin (RpText "OK") /\ p ",,COMP128V3,00112233445566778899aabbccddeeff"%string = Fin (RpText "OK") /\
  p "COMP128V3,,00112233445566778899aabbccddeeff"%string = Fin (RpError "Invalid KI.") /\ p "xor-3g,00112233445566778899aabbccddeeff"%string = Fin (RpError "Update aud2g failed.").
Proof. vm_compute. auto. Qed.

(** What does not hold. A bit length that is no number is taken for 0. *)
Theorem C52_bitlen_refuted : exists v d,
  db_ok d /\ v = "milenage,000102030405060708090a0b0c0d0e0f,op,101112131415161718191a1b1c1d1e1f,five"%string /\
  let p := ctrl_handle 0 (CtrlSet "subscriber.by-id-1.aud3g" v) in
  run_out p [] d = Fin (RpText "OK") /\ map a3_ind_bitlen (filter (fun a => a3_id a =? 1) (d_auc3 (run_db p [] d))) = [0].
Proof. eexists _, ex_db2. split; [apply ex_db2_ok|]. split; [reflexivity|]. vm_compute. auto. Qed.
Print Assumptions C52_bitlen_refuted.
(** "none" for a subscriber that has no such keys is answered with an error *)
Theorem C52_none_refuted : exists d, db_ok d /\ ~ has_auc3 d 1 /\
  run_out (ctrl_handle 0 (CtrlSet "subscriber.by-id-1.aud3g" "none")) [] d = Fin (RpError "Update aud3g failed.").
Proof. exists ex_db2. split; [apply ex_db2_ok|]. split; [|vm_compute; reflexivity]. intros (a & [<-|[]] & E). discriminate. Qed.
Print Assumptions C52_none_refuted.
(** XOR keys that the database has are shown, but no value sets them *)
Theorem C52_xor_refuted : exists d id, db_ok d /\ keys_wellformed d /\ (exists a, key3 d id a /\ a3_algo a = 4) /\
  run_out (ctrl_handle 0 (CtrlGet "subscriber.by-id-1.aud3g")) [] d =
    Fin (RpText "XOR-3G,000102030405060708090a0b0c0d0e0f,OPC,101112131415161718191a1b1c1d1e1f,5") /\
  run_out (ctrl_handle 0 (CtrlSet "subscriber.by-id-1.aud3g" "XOR-3G,000102030405060708090a0b0c0d0e0f,OPC,101112131415161718191a1b1c1d1e1f,5")) [] d =
    Fin (RpError "Invalid OP/OPC.") /\
  (forall v a, parse_aud3g v = inr a -> aud_algo a <> 4 \/ ~ acceptable a).
Proof.
  pose (h := [(AAud 1 (AudUmts 4 "000102030405060708090a0b0c0d0e0f" "101112131415161718191a1b1c1d1e1f" false 5), [])] : list (api * sched)).
  exists (db_hist h ex_db2), 1. split; [apply db_ok_inv, db_hist_inv, db_ok_inv, ex_db2_ok|]. split; [apply keys_hist, ex_db2_ok|].
  split; [eexists; split; [split; [vm_compute; right; left; reflexivity|reflexivity]|reflexivity]|]. split; [vm_compute; reflexivity|]. split; [vm_compute; reflexivity|].
  intros v a P. destruct (aud_shape 0 a) as [[A _]|[A _]]; [|now right]. left. destruct (parse3_inv v a P A) as [(-> & _)|(name & k & ch & o & b & n & l & -> & _)]; discriminate.
Qed.
Print Assumptions C52_xor_refuted.
