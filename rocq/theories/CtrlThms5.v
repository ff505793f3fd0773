(** Keys set over the control interface. *)
From Verif Require Import Base PeerId PeerThms Db DbSpec DbProofs DbThms DbThms2 DbThms3 Auth AuthSpec AuthThms Ctrl CtrlSpec CtrlThms CtrlThms2 CtrlThms3 CtrlThms4.
Local Open Scope string_scope.
Local Open Scope list_scope.
Local Open Scope Z_scope.

Definition aud_cmd (three : bool) : string := if three then "aud3g" else "aud2g".
Definition parse_aud (three : bool) (v : string) : string + aud_str := if three then parse_aud3g v else parse_aud2g v.
Definition aud_req (sel : string) (three : bool) (v : string) : request := CtrlSet ("subscriber." ++ sel ++ "." ++ aud_cmd three)%string v.
Definition aud_get (sel : string) (three : bool) : request := CtrlGet ("subscriber." ++ sel ++ "." ++ aud_cmd three)%string.

Lemma set_aud_run tz sel three v d r : db_inv d -> ids_fit d -> In r (d_sub d) -> names sel r -> readable r ->
  exists t, run (ctrl_handle tz (aud_req sel three v)) [] d =
  if verify_aud v then
    match parse_aud three v with
    | inl e => (Fin (RpError e), d, [])
    | inr a => (match run_out (db_subscr_update_aud_by_id (s_id r) a) [] d with
                | Fin rc => Fin (if rc =? 0 then RpText "OK" else RpError t) | Crashed => Crashed | Ub => Ub end, aud_kept d (s_id r) a [], [])
    end
  else (Fin bad_value, d, []).
Proof.
  intros V FT I N R. destruct (names_part d sel r V I N) as [PS B]. destruct (readable_sub tz r R) as [h H]. destruct (sub_of_row_fields tz r h H) as (HI & _).
  assert (PC : part (aud_cmd three)) by (destruct three; apply cmd_part_1).
  exists (if three then "Update aud3g failed." else "Update aud2g failed.").
  unfold aud_req. change (CtrlSet _ v) with (req false sel (aud_cmd three) v). rewrite (handle_by tz false sel _ v PS PC B).
  unfold set_cmd, aud_cmd, parse_aud. destruct three; cbn [String.eqb Ascii.eqb Bool.eqb orb]; (destruct (verify_aud v); [|reflexivity]); unfold set_aud2g, set_aud3g;
    rewrite (on_named tz sel d r h _ V FT (part_spaceless _ PS) I N H), HI.
  - destruct (parse_aud3g v) as [e|a]; [reflexivity|]. rewrite (run_after _ _ _ _ _ (run_parts (db_subscr_update_aud_by_id (s_id r) a) d)). reflexivity.
  - destruct (parse_aud2g v) as [e|a]; [reflexivity|]. rewrite (run_after _ _ _ _ _ (run_parts (db_subscr_update_aud_by_id (s_id r) a) d)). reflexivity.
Qed.
(** an accepted set of keys *)
Lemma set_aud_ok tz sel three v d r a : db_ok d -> ids_fit d -> In r (d_sub d) -> names sel r -> readable r ->
  verify_aud v = true -> parse_aud three v = inr a -> acceptable a -> aud_algo a <> 0 ->
  run (ctrl_handle tz (aud_req sel three v)) [] d = (Fin (RpText "OK"), aud_kept d (s_id r) a [], []) /\ keys_new (is_3g a) (s_id r) a (aud_kept d (s_id r) a []).
Proof.
  intros OK FT I N R VA PA A Z0. destruct (c07_no_fault (s_id r) a [] d (Forall_nil _) A Z0 OK) as [O K]. split; [|exact K].
  apply db_ok_inv in OK. destruct (set_aud_run tz sel three v d r OK FT I N R) as [t E]. rewrite E, VA, PA, O. reflexivity.
Qed.

(** ** 2G *)
Lemma hex_nonempty mn mx s : (0 < mn)%nat -> hex_string mn mx s -> s <> EmptyString.
Proof. intros P [[L _] _] ->. cbn in L. lia. Qed.
Lemma name_token n s : has_comma n = false -> n <> EmptyString -> lowercase s n -> has_comma s = false /\ s <> EmptyString.
Proof.
  intros C NE L. pose proof (same_nocase_comma s n (lowercase_nocase s n L)) as E. split; [congruence|]. intros ->. inversion L. congruence.
Qed.
Lemma parse2 n shown algo name ki : gsm_algorithm n shown algo -> lowercase name n -> hex_string 32 32 ki ->
  verify_aud (name ++ "," ++ ki)%string = true /\ parse_aud2g (name ++ "," ++ ki)%string = inr (AudGsm algo ki) /\ acceptable (AudGsm algo ki) /\ algo <> 0 /\ alg_name algo = shown.
Proof.
  intros G L H. assert (T : has_comma name = false /\ name <> EmptyString) by (apply (name_token n); [destruct G; reflexivity|destruct G; discriminate|exact L]).
  destruct T as [T1 T2]. split; [unfold verify_aud; rewrite has_comma_app, T1; now rewrite orb_true_r|].
  split; [|split; [right; split; [destruct G; auto|exact H]|split; [destruct G; discriminate|destruct G; reflexivity]]].
  unfold parse_aud2g. rewrite (strtok_comma name ki T1 T2), (algo_parse_nocase name n (lowercase_nocase _ _ L)).
  rewrite (strtok_rest ki) by (apply (hex_nonempty 32 32); [lia|exact H]).
  pose proof (proj2 (is_hexstr_spec ki 32 32) H) as HX. unfold hex_len. destruct G; cbn; rewrite HX; reflexivity.
Qed.
Lemma get2_is d id algo ki : db_inv d -> key2 d id (mk_auc2 id algo ki) -> hex_string 32 32 ki -> algo <> 0 -> exists t, lowercase ki t /\ get2_text d id = (alg_name algo ++ "," ++ t)%string.
Proof.
  intros V K H NZ. unfold get2_text. rewrite (stored2_is d id _ V K). destruct (read_2g_row (mk_auc2 id algo ki) H) as (l & S & _ & E). cbn [a2_ki a2_algo] in *. rewrite E. cbn [g_algo].
  destruct (Z.eqb_spec algo 0); [congruence|]. exists (hexdump l). split; [now apply hexdump_lower|reflexivity].
Qed.
Lemma key_set2 tz sel n shown algo name ki c c' d r : db_ok d -> ids_fit d -> keys_wellformed d -> no_fault c -> no_fault c' ->
  In r (d_sub d) -> names sel r -> readable r -> gsm_algorithm n shown algo -> lowercase name n -> hex_string 32 32 ki ->
  let set := ctrl_handle tz (CtrlSet ("subscriber." ++ sel ++ ".aud2g")%string (name ++ "," ++ ki)%string) in
  let d' := run_db set c d in
  run_out set c d = Fin (RpText "OK") /\ (forall a, key2 d' (s_id r) a <-> a = mk_auc2 (s_id r) algo ki) /\
  exists t, lowercase ki t /\ run_out (ctrl_handle tz (CtrlGet ("subscriber." ++ sel ++ ".aud2g")%string)) c' d' = Fin (RpText (shown ++ "," ++ t)).
Proof.
  intros OK FT KW NF NF' I N R G L H. cbv zeta. rewrite (proj1 (run_no_fault _ c d NF)), (proj2 (run_no_fault _ c d NF)).
  destruct (parse2 n shown algo name ki G L H) as (P1 & P2 & P3 & P4 & P5).
  destruct (set_aud_ok tz sel false _ d r _ OK FT I N R P1 P2 P3 P4) as [E K]. change (CtrlSet _ _) with (aud_req sel false (name ++ "," ++ ki)%string).
  unfold run_out at 1, run_db. rewrite E. cbn [fst snd]. split; [reflexivity|]. cbn [is_3g keys_new new2] in K.
  assert (K' : forall a, key2 (aud_kept d (s_id r) (AudGsm algo ki) []) (s_id r) a <-> a = mk_auc2 (s_id r) algo ki) by (intros a; rewrite (K a); tauto).
  split; [exact K'|]. rewrite (proj1 (run_no_fault _ c' _ NF')). apply db_ok_inv in OK. pose proof (aud_keeps_inv (s_id r) (AudGsm algo ki) [] d OK) as V'.
  destruct (get2_is _ (s_id r) algo ki V' (proj2 (K' _) eq_refl) H P4) as (t & LT & ET). exists t. split; [exact LT|].
  assert (S := aud_keeps_sub (s_id r) (AudGsm algo ki) [] d).
  assert (FT' : ids_fit (aud_kept d (s_id r) (AudGsm algo ki) [])) by (unfold ids_fit; rewrite S; exact FT).
  pose proof (get_aud_text tz sel _ r false V' FT' (aud_keeps_keys (s_id r) (AudGsm algo ki) [] d KW) ltac:(rewrite S; exact I) N R) as GT. cbv match in GT. rewrite ET, P5 in GT. exact GT.
Qed.
Lemma key_replay2 tz sel n shown algo ki c c1 c2 d r : db_ok d -> ids_fit d -> keys_wellformed d -> no_fault c -> no_fault c1 -> no_fault c2 ->
  In r (d_sub d) -> names sel r -> readable r -> gsm_algorithm n shown algo -> key2 d (s_id r) (mk_auc2 (s_id r) algo ki) ->
  let var := ("subscriber." ++ sel ++ ".aud2g")%string in
  exists v, run_out (ctrl_handle tz (CtrlGet var)) c d = Fin (RpText v) /\ run_out (ctrl_handle tz (CtrlSet var v)) c1 d = Fin (RpText "OK") /\
    run_out (ctrl_handle tz (CtrlGet var)) c2 (run_db (ctrl_handle tz (CtrlSet var v)) c1 d) = Fin (RpText v).
Proof.
  intros OK FT KW NF NF1 NF2 I N R G K. cbv zeta. pose proof (proj1 (db_ok_inv d) OK) as V. assert (H : hex_string 32 32 ki) by (apply (proj1 KW _ (proj1 K))).
  assert (NZ : algo <> 0) by (destruct G; discriminate). assert (SH : alg_name algo = shown) by (destruct G; reflexivity).
  destruct (get2_is d (s_id r) algo ki V K H NZ) as (t & LT & ET). rewrite SH in ET. exists (shown ++ "," ++ t)%string.
  pose proof (get_aud_text tz sel d r false V FT KW I N R) as GT. cbv match in GT. rewrite ET in GT. rewrite (proj1 (run_no_fault _ c d NF)). split; [exact GT|].
  assert (LN : lowercase shown n) by (apply nocase_lowercase; destruct G; reflexivity).
  pose proof (lowercase_hex _ _ _ _ LT H) as HT.
  destruct (key_set2 tz sel n shown algo shown t c1 c2 d r OK FT KW NF1 NF2 I N R G LN HT) as (S1 & _ & t' & LT' & S2).
  rewrite <- (lowercase_fun _ _ _ (lowercase_idem _ _ LT) LT') in S2. auto.
Qed.

(** ** 3G *)
Definition tail_bits (tail : string) (n : Z) : Prop := (tail = "" /\ n = 5) \/ exists t, tail = ("," ++ t)%string /\ numeral t n.
Lemma string_app_nil s : (s ++ "")%string = s.
Proof. induction s as [|c s IH]; [reflexivity|]. cbn. now rewrite IH. Qed.
Lemma parse3 name k (is_op : bool) choice o tail n : lowercase name "milenage" -> hex_string 32 32 k -> lowercase choice (if is_op then "op" else "opc") ->
  hex_string 32 32 o -> tail_bits tail n -> 0 <= n <= 28 ->
  let v := (name ++ "," ++ k ++ "," ++ choice ++ "," ++ o ++ tail)%string in
  verify_aud v = true /\ parse_aud3g v = inr (AudUmts 5 k o is_op n) /\ acceptable (AudUmts 5 k o is_op n).
Proof.
  intros L H1 C H2 T B. cbv zeta. destruct (name_token "milenage" name eq_refl ltac:(discriminate) L) as [T1 T2].
  assert (TC : has_comma choice = false /\ choice <> EmptyString) by (apply (name_token (if is_op then "op" else "opc")); [destruct is_op; reflexivity|destruct is_op; discriminate|exact C]).
  destruct TC as [C1 C2].
  assert (H64 : forall s, hex_string 32 32 s -> hex_string 32 64 s) by (intros s [[A1 A2] A3]; split; [lia|exact A3]).
  split; [unfold verify_aud; rewrite has_comma_app, T1; now rewrite orb_true_r|].
  split; [|right; split; [auto|split; [auto|split; [auto|exact B]]]].
  unfold parse_aud3g. rewrite (strtok_comma name _ T1 T2), (algo_parse_nocase name "milenage" (lowercase_nocase _ _ L)).
  change (auth_algo_parse "milenage") with (Some (5, (16%nat, 16%nat), (16%nat, 16%nat))). cbv beta iota. change (5 =? ALG_NONE) with false. cbv iota.
  rewrite (strtok_comma k) by (try apply (hex_comma 32 32); try apply (hex_nonempty 32 32); auto; lia).
  unfold hex_len. cbn [fst snd]. change (2 * 16)%nat with 32%nat. rewrite (proj2 (is_hexstr_spec k 32 32) H1). cbn [negb].
  rewrite (strtok_comma choice _ C1 C2).
  assert (E : same_nocase choice "op" = is_op /\ (same_nocase choice "op" || same_nocase choice "opc") = true).
  { rewrite !(nocase_either choice _ _ (lowercase_nocase _ _ C)). destruct is_op; split; reflexivity. }
  destruct E as [E1 E2]. rewrite E2. cbn [negb]. rewrite E1.
  assert (O1 : has_comma o = false) by exact (hex_comma 32 32 o H2). assert (O2 : o <> EmptyString) by (apply (hex_nonempty 32 32); [lia|exact H2]).
  destruct T as [[-> ->]|(t & -> & NT)].
  - rewrite string_app_nil, O1. cbv zeta. cbn [negb]. rewrite (strtok_rest o O2), (proj2 (is_hexstr_spec o 32 32) H2). reflexivity.
  - assert (HC : has_comma (o ++ "," ++ t)%string = true) by (rewrite has_comma_app; cbn; now rewrite orb_true_r). rewrite HC. cbv zeta. cbn [negb].
    rewrite (strtok_comma o t O1 O2), (proj2 (is_hexstr_spec o 32 32) H2). cbn [negb].
    destruct (numeral_digits t n NT) as (_ & NE & _). rewrite (strtok_rest t NE), (numeral_atoi t n NT) by lia. unfold to_uint. rewrite Z.mod_small by lia. now rewrite Z2N.id by lia.
Qed.
Lemma get3_is d id k o (is_op : bool) sqn n : db_inv d -> key3 d id (mk_auc3 id 5 k (if is_op then Some o else None) (if is_op then None else Some o) sqn n) ->
  hex_string 32 64 k -> hex_string 32 64 o -> 0 <= n <= 28 ->
  exists tk to tn, lowercase k tk /\ lowercase o to /\ tn = dec_text (to_uint n) /\
    get3_text d id = ("MILENAGE," ++ tk ++ "," ++ (if is_op then "OP" else "OPC") ++ "," ++ to ++ "," ++ tn)%string.
Proof.
  intros V K H1 H2 B. unfold get3_text. rewrite (stored3_is d id _ V K).
  destruct (read_3g_row (mk_auc3 id 5 k (if is_op then Some o else None) (if is_op then None else Some o) sqn n) k o is_op H1 H2 eq_refl eq_refl) as (lk & lo & S1 & S2 & E); [intros ->; reflexivity|].
  cbn [a3_algo a3_sqn a3_ind_bitlen] in E. rewrite E. cbn [u_algo]. change (5 =? 0) with false. cbv iota.
  exists (hexdump lk), (hexdump lo), (dec_text (to_uint n)). split; [now apply hexdump_lower|]. split; [now apply hexdump_lower|]. split; [reflexivity|]. reflexivity.
Qed.
Lemma key_set3 tz sel name k (is_op : bool) choice o tail n c c' d r : db_ok d -> ids_fit d -> keys_wellformed d -> no_fault c -> no_fault c' ->
  In r (d_sub d) -> names sel r -> readable r -> lowercase name "milenage" -> hex_string 32 32 k -> lowercase choice (if is_op then "op" else "opc") ->
  hex_string 32 32 o -> tail_bits tail n -> 0 <= n <= 28 ->
  let set := ctrl_handle tz (CtrlSet ("subscriber." ++ sel ++ ".aud3g")%string (name ++ "," ++ k ++ "," ++ choice ++ "," ++ o ++ tail)%string) in
  let d' := run_db set c d in
  run_out set c d = Fin (RpText "OK") /\
  (forall a, key3 d' (s_id r) a <-> a = mk_auc3 (s_id r) 5 k (if is_op then Some o else None) (if is_op then None else Some o) 0 n) /\
  exists tk to tn, lowercase k tk /\ lowercase o to /\ tn = dec_text (to_uint n) /\
    run_out (ctrl_handle tz (CtrlGet ("subscriber." ++ sel ++ ".aud3g")%string)) c' d' =
    Fin (RpText ("MILENAGE," ++ tk ++ "," ++ (if is_op then "OP" else "OPC") ++ "," ++ to ++ "," ++ tn)).
Proof.
  intros OK FT KW NF NF' I N R L H1 C H2 T B. cbv zeta. rewrite (proj1 (run_no_fault _ c d NF)), (proj2 (run_no_fault _ c d NF)).
  destruct (parse3 name k is_op choice o tail n L H1 C H2 T B) as (P1 & P2 & P3). cbv zeta in P1, P2.
  destruct (set_aud_ok tz sel true _ d r _ OK FT I N R P1 P2 P3 ltac:(discriminate)) as [E K].
  set (v := (name ++ "," ++ k ++ "," ++ choice ++ "," ++ o ++ tail)%string) in *. change (CtrlSet _ v) with (aud_req sel true v).
  unfold run_out at 1, run_db. rewrite E. cbn [fst snd]. split; [reflexivity|]. cbn [is_3g keys_new new3] in K.
  set (a0 := AudUmts 5 k o is_op n) in *.
  assert (K' : forall a, key3 (aud_kept d (s_id r) a0 []) (s_id r) a <-> a = mk_auc3 (s_id r) 5 k (if is_op then Some o else None) (if is_op then None else Some o) 0 n).
  { intros a. rewrite (K a). split; [tauto|]. intros ->. split; [discriminate|reflexivity]. }
  split; [exact K'|]. rewrite (proj1 (run_no_fault _ c' _ NF')). apply db_ok_inv in OK. pose proof (aud_keeps_inv (s_id r) a0 [] d OK) as V'.
  assert (H64 : forall s, hex_string 32 32 s -> hex_string 32 64 s) by (intros s [[A1 A2] A3]; split; [lia|exact A3]).
  destruct (get3_is _ (s_id r) k o is_op 0%N n V' (proj2 (K' _) eq_refl) (H64 _ H1) (H64 _ H2) B) as (tk & to & tn & X1 & X2 & X3 & ET). exists tk, to, tn. split; [exact X1|]. split; [exact X2|]. split; [exact X3|].
  assert (S := aud_keeps_sub (s_id r) a0 [] d).
  assert (FT' : ids_fit (aud_kept d (s_id r) a0 [])) by (unfold ids_fit; rewrite S; exact FT).
  pose proof (get_aud_text tz sel _ r true V' FT' (aud_keeps_keys (s_id r) a0 [] d KW) ltac:(rewrite S; exact I) N R) as GT. cbv match in GT. rewrite ET in GT. exact GT.
Qed.

Lemma dec_lead n s : 0 <= n <= 28 -> dec_text (to_uint n) = String "0" s -> s = EmptyString.
Proof.
  intros R. assert (I : In n (map Z.of_nat (seq 0 29))). { apply in_map_iff. exists (Z.to_nat n). split; [lia|]. apply in_seq. lia. }
  vm_compute in I. clear R. repeat (destruct I as [<-|I]; [vm_compute; intros [= <-]; reflexivity || vm_compute; discriminate|]). contradiction.
Qed.
Lemma key_replay3 tz sel k o (is_op : bool) sqn n c c1 c2 d r : db_ok d -> ids_fit d -> keys_wellformed d -> no_fault c -> no_fault c1 -> no_fault c2 ->
  In r (d_sub d) -> names sel r -> readable r -> hex_string 32 32 k -> hex_string 32 32 o ->
  key3 d (s_id r) (mk_auc3 (s_id r) 5 k (if is_op then Some o else None) (if is_op then None else Some o) sqn n) ->
  let var := ("subscriber." ++ sel ++ ".aud3g")%string in
  exists v, run_out (ctrl_handle tz (CtrlGet var)) c d = Fin (RpText v) /\ run_out (ctrl_handle tz (CtrlSet var v)) c1 d = Fin (RpText "OK") /\
    run_out (ctrl_handle tz (CtrlGet var)) c2 (run_db (ctrl_handle tz (CtrlSet var v)) c1 d) = Fin (RpText v).
Proof.
  intros OK FT KW NF NF1 NF2 I N R H1 H2 K. cbv zeta. pose proof (proj1 (db_ok_inv d) OK) as V.
  assert (H64 : forall s, hex_string 32 32 s -> hex_string 32 64 s) by (intros s [[A1 A2] A3]; split; [lia|exact A3]).
  destruct (proj2 KW _ (proj1 K)) as (_ & B & _). cbn [a3_ind_bitlen] in B.
  destruct (get3_is d (s_id r) k o is_op sqn n V K (H64 _ H1) (H64 _ H2) B) as (tk & to & tn & L1 & L2 & LN & ET). exists (get3_text d (s_id r)).
  pose proof (get_aud_text tz sel d r true V FT KW I N R) as GT. cbv match in GT. rewrite (proj1 (run_no_fault _ c d NF)). split; [exact GT|].
  assert (LC : lowercase (if is_op then "OP" else "OPC") (if is_op then "op" else "opc")) by (apply nocase_lowercase; destruct is_op; reflexivity).
  assert (TB : tail_bits ("," ++ tn)%string n) by (right; exists tn; split; [reflexivity|rewrite LN; now apply dec_numeral]).
  destruct (key_set3 tz sel "MILENAGE" tk is_op (if is_op then "OP" else "OPC") to ("," ++ tn)%string n c1 c2 d r OK FT KW NF1 NF2 I N R
     ltac:(apply nocase_lowercase; reflexivity) (lowercase_hex _ _ _ _ L1 H1) LC (lowercase_hex _ _ _ _ L2 H2) TB B) as (S1 & _ & tk' & to' & tn' & M1 & M2 & M3 & S2).
  rewrite <- (lowercase_fun _ _ _ (lowercase_idem _ _ L1) M1), <- (lowercase_fun _ _ _ (lowercase_idem _ _ L2) M2) in S2. rewrite ET. rewrite M3, <- LN in S2. split; [exact S1|exact S2].
Qed.

(** ** Which values are accepted *)
Lemma comma_free s : (forall n, String.get n s <> Some ","%char) <-> has_comma s = false.
Proof.
  induction s as [|c s IH]; cbn [has_comma].
  - split; [reflexivity|]. intros _ [|n]; discriminate.
  - rewrite orb_false_iff, <- IH. unfold comma. split.
    + intros H. split; [|intros n; exact (H (Datatypes.S n))]. apply Ascii.eqb_neq. intros ->. exact (H O eq_refl).
    + intros [A B] [|n]; [|exact (B n)]. cbn. intros [= ->]. discriminate.
Qed.
Lemma cut_spec u t rest : cut comma u = (t, rest) -> has_comma t = false /\ (u = (t ++ "," ++ rest)%string \/ (u = t /\ rest = EmptyString)).
Proof.
  revert t rest. induction u as [|c u IH]; intros t rest E; cbn in E.
  - injection E as <- <-. auto.
  - destruct (comma c) eqn:C; [injection E as <- <-; split; [reflexivity|]; left; unfold comma in C; apply Ascii.eqb_eq in C as ->; reflexivity|].
    destruct (cut comma u) as [t' r'] eqn:Q. injection E as <- <-. destruct (IH _ _ eq_refl) as [A B]. cbn [has_comma]. rewrite C, A. split; [reflexivity|].
    destruct B as [->|[-> ->]]; auto.
Qed.
Lemma fields_empty l : fields "" l -> l = [].
Proof.
  intros F. inversion F as [| |w [NE _] E|w s l' [NE _] _ E]; [reflexivity|congruence|]. exfalso. destruct w; discriminate.
Qed.
Lemma skip_fields s l : fields (skip_delim comma s) l -> fields s l.
Proof.
  induction s as [|c s IH]; [auto|]. cbn [skip_delim]. destruct (comma c) eqn:C; [|auto]. intros H. unfold comma in C. apply Ascii.eqb_eq in C as ->. exact (fl_comma s l (IH H)).
Qed.
Lemma skip_head s c u : skip_delim comma s = String c u -> comma c = false.
Proof. induction s as [|a s IH]; cbn; [discriminate|]. destruct (comma a) eqn:C; [auto|]. intros [= <- _]. exact C. Qed.
Lemma strtok_fields s t rest : strtok comma s = Some (t, rest) -> field t /\ forall l, fields rest l -> fields s (t :: l).
Proof.
  unfold strtok. destruct (skip_delim comma s) as [|c u] eqn:K; [discriminate|]. intros E0. assert (E : cut comma (String c u) = (t, rest)) by congruence. clear E0. destruct (cut_spec _ _ _ E) as [A B].
  pose proof (skip_head s c u K) as C.
  assert (NE : t <> EmptyString). { intros ->. cbn in E. rewrite C in E. destruct (cut comma u). discriminate. }
  assert (F : field t) by (split; [exact NE|now apply comma_free]). split; [exact F|]. intros l Fl. apply skip_fields. rewrite K. destruct B as [->|[-> ->]].
  - now apply fl_more.
  - rewrite (fields_empty l Fl). now apply fl_last.
Qed.
Lemma strtok_none s : strtok comma s = None -> fields s [].
Proof. unfold strtok. destruct (skip_delim comma s) eqn:K; [|discriminate]. intros _. apply skip_fields. rewrite K. constructor. Qed.
Lemma skip_len s : (String.length (skip_delim comma s) <= String.length s)%nat.
Proof. induction s as [|c s IH]; cbn; [lia|]. destruct (comma c); cbn; lia. Qed.
Lemma fields_exist s : exists l, fields s l.
Proof.
  assert (G : forall n s, (String.length s <= n)%nat -> exists l, fields s l); [|exact (G _ s (Nat.le_refl _))].
  induction n as [|n IH]; intros s0 L; [destruct s0; [exists []; constructor|cbn in L; lia]|].
  destruct (strtok comma s0) as [[t rest]|] eqn:E; [|exists []; now apply strtok_none]. destruct (strtok_fields s0 t rest E) as [[NE _] F].
  assert (LR : (String.length rest <= n)%nat).
  { unfold strtok in E. pose proof (skip_len s0) as LS. destruct (skip_delim comma s0) as [|c u] eqn:K; [discriminate|]. assert (E' : cut comma (String c u) = (t, rest)) by congruence. destruct (cut_spec _ _ _ E') as [_ [B|[B ->]]]; [|cbn; lia].
    rewrite B in LS. rewrite !str_len_app in LS. cbn in LS. destruct t; [congruence|]. cbn in LS. lia. }
  destruct (IH rest LR) as [l Fl]. exists (t :: l). now apply F.
Qed.
(** the names of algorithms *)
Lemma algo_cases t a len lo : auth_algo_parse t = Some (a, len, lo) ->
  (a = 0 /\ lowercase t "none") \/
  (exists n shown, gsm_algorithm n shown a /\ lowercase t n /\ len = (16, 16)%nat /\ lo = (0, 0)%nat) \/
  (a = 4 /\ lo = (0, 0)%nat) \/ (a = 5 /\ lowercase t "milenage" /\ len = (16, 16)%nat /\ lo = (16, 16)%nat) \/ a = 7.
Proof.
  unfold auth_algo_parse.
  destruct (same_nocase t "none") eqn:E0; [intros [= <- <- <-]; left; split; [reflexivity|now apply nocase_lowercase]|].
  destruct (same_nocase t "comp128v1") eqn:E1; [intros [= <- <- <-]; right; left; exists "comp128v1", "COMP128v1"; split; [constructor|]; split; [now apply nocase_lowercase|]; split; reflexivity|].
  destruct (same_nocase t "comp128v2") eqn:E2; [intros [= <- <- <-]; right; left; exists "comp128v2", "COMP128v2"; split; [constructor|]; split; [now apply nocase_lowercase|]; split; reflexivity|].
  destruct (same_nocase t "comp128v3") eqn:E3; [intros [= <- <- <-]; right; left; exists "comp128v3", "COMP128v3"; split; [constructor|]; split; [now apply nocase_lowercase|]; split; reflexivity|].
  destruct (same_nocase t "xor-3g") eqn:E4; [intros [= <- <- <-]; right; right; left; split; reflexivity|].
  destruct (same_nocase t "xor-2g") eqn:E5; [intros [= <- <- <-]; right; left; exists "xor-2g", "XOR-2G"; split; [constructor|]; split; [now apply nocase_lowercase|]; split; reflexivity|].
  destruct (same_nocase t "milenage") eqn:E6; [intros [= <- <- <-]; right; right; right; left; split; [reflexivity|]; split; [now apply nocase_lowercase|]; split; reflexivity|].
  destruct (same_nocase t "tuak") eqn:E7; [intros [= <- <- <-]; auto 10|discriminate].
Qed.
Lemma empty_token s : is_hexstr s (2 * 0) (2 * 0) = true -> s = EmptyString.
Proof. intros H. apply is_hexstr_spec in H. destruct H as [[_ L] _]. destruct s; [reflexivity|cbn in L; lia]. Qed.
Lemma no_delim_rest s t rest : strtok no_delim s = Some (t, rest) -> t = s /\ s <> EmptyString.
Proof.
  destruct s as [|c s]; [discriminate|]. rewrite strtok_rest by discriminate. intros [= <- _]. split; [reflexivity|discriminate].
Qed.
Lemma parse2_inv v a : parse_aud2g v = inr a -> acceptable a ->
  (a = AudGsm 0 "" /\ exists name l, fields v (name :: l) /\ lowercase name "none") \/
  (exists name ki n shown algo, a = AudGsm algo ki /\ fields v [name; ki] /\ gsm_algorithm n shown algo /\ lowercase name n /\ hex_string 32 32 ki).
Proof.
  unfold parse_aud2g. destruct (strtok comma v) as [[tok rest]|] eqn:E; [|discriminate]. destruct (strtok_fields v tok rest E) as [_ F].
  destruct (auth_algo_parse tok) as [[[algo len] lo]|] eqn:A; [|discriminate]. unfold ALG_NONE. destruct (Z.eqb_spec algo 0) as [->|NZ].
  - intros [= <-] _. left. split; [reflexivity|]. destruct (fields_exist rest) as [l Fl]. exists tok, l. split; [now apply F|].
    destruct (algo_cases _ _ _ _ A) as [[_ L]|[(n & sh & G & _)|[[Q _]|[[Q _]|Q]]]]; try discriminate; [exact L|inversion G].
  - destruct (strtok no_delim rest) as [[ki x]|] eqn:K; [|discriminate]. destruct (no_delim_rest _ _ _ K) as [-> NE]. destruct (hex_len rest len) eqn:HL; [|discriminate].
    intros [= <-] AC. right. destruct AC as [Q|[Q H]]; [congruence|].
    destruct (algo_cases _ _ _ _ A) as [[? _]|[(n & sh & G & L & _)|[[Q' _]|[[Q' _]|Q']]]]; try congruence; try (exfalso; lia).
    exists tok, rest, n, sh, algo. split; [reflexivity|]. split; [|auto]. apply F. apply fl_last. split; [exact NE|]. apply comma_free. exact (hex_comma 32 32 rest H).
Qed.
Lemma parse3_inv v a : parse_aud3g v = inr a -> acceptable a ->
  (a = AudUmts 0 "" "" false 5 /\ exists name l, fields v (name :: l) /\ lowercase name "none") \/
  (exists name k choice o (is_op : bool) n l, a = AudUmts 5 k o is_op n /\ fields v (name :: k :: choice :: o :: l) /\ lowercase name "milenage" /\
     lowercase choice (if is_op then "op" else "opc") /\ hex_string 32 32 k /\ hex_string 32 32 o /\ 0 <= n <= 28).
Proof.
  unfold parse_aud3g. destruct (strtok comma v) as [[tok rest]|] eqn:E; [|discriminate]. destruct (strtok_fields v tok rest E) as [_ F].
  destruct (auth_algo_parse tok) as [[[algo len] lo]|] eqn:A; [|discriminate]. unfold ALG_NONE. destruct (Z.eqb_spec algo 0) as [->|NZ].
  - intros [= <-] _. left. split; [reflexivity|]. destruct (fields_exist rest) as [l Fl]. exists tok, l. split; [now apply F|].
    destruct (algo_cases _ _ _ _ A) as [[_ L]|[(n & sh & G & _)|[[Q _]|[[Q _]|Q]]]]; try discriminate; [exact L|inversion G].
  - destruct (strtok comma rest) as [[k r1]|] eqn:E1; [|discriminate]. destruct (strtok_fields _ _ _ E1) as [_ F1].
    destruct (hex_len k len) eqn:HK; cbn [negb]; [|discriminate].
    destruct (strtok comma r1) as [[choice r2]|] eqn:E2; [|discriminate]. destruct (strtok_fields _ _ _ E2) as [_ F2].
    destruct (same_nocase choice "op" || same_nocase choice "opc") eqn:CH; cbn [negb]; [|discriminate].
    set (present := has_comma r2). cbv zeta. destruct (strtok (if present then comma else no_delim) r2) as [[o r3]|] eqn:E3; [|discriminate].
    destruct (hex_len o lo) eqn:HO; cbn [negb]; [|discriminate].
    assert (F3 : exists l, fields r2 (o :: l)).
    { destruct present eqn:P.
      - destruct (strtok_fields _ _ _ E3) as [_ G]. destruct (fields_exist r3) as [l Fl]. exists l. now apply G.
      - destruct (no_delim_rest _ _ _ E3) as [-> NE]. exists []. apply fl_last. split; [exact NE|]. now apply comma_free. }
    destruct F3 as [l F3].
    assert (NO : o <> EmptyString).
    { destruct present; [destruct (strtok_fields _ _ _ E3) as [[NE _] _]; exact NE|destruct (no_delim_rest _ _ _ E3) as [-> NE]; exact NE]. }
    assert (Z : forall n, acceptable (AudUmts algo k o (same_nocase choice "op") n) -> algo = 5 /\ lowercase tok "milenage" /\ hex_string 32 32 k /\ hex_string 32 32 o /\ 0 <= n <= 28).
    { intros n [Q|(Q & _ & _ & B)]; [congruence|].
      destruct (algo_cases _ _ _ _ A) as [[? _]|[(n' & sh & G & _)|[[Q' ->]|[(Q' & L & -> & ->)|Q']]]]; try congruence; try (exfalso; lia).
      - exfalso. inversion G; subst; lia.
      - exfalso. apply NO. exact (empty_token o HO).
      - unfold hex_len in HK, HO. cbn [fst snd] in HK, HO. apply is_hexstr_spec in HK, HO. auto 10. }
    assert (LC : lowercase choice (if same_nocase choice "op" then "op" else "opc")).
    { destruct (same_nocase choice "op") eqn:O; [now apply nocase_lowercase|]. apply nocase_lowercase; [reflexivity|]. exact CH. }
    assert (G : forall n, a = AudUmts algo k o (same_nocase choice "op") n -> acceptable a -> (exists name k choice o (is_op : bool) n l, a = AudUmts 5 k o is_op n /\ fields v (name :: k :: choice :: o :: l) /\ lowercase name "milenage" /\
     lowercase choice (if is_op then "op" else "opc") /\ hex_string 32 32 k /\ hex_string 32 32 o /\ 0 <= n <= 28)).
    { intros n -> AC. destruct (Z n AC) as (-> & Z1 & Z2 & Z3 & Z4). exists tok, k, choice, o, (same_nocase choice "op"), n, l. split; [reflexivity|]. split; [apply F, F1, F2, F3|]. auto 10. }
    destruct present; cbn [negb].
    + destruct (strtok no_delim r3) as [[b x]|]; [|discriminate]. intros [= Q] AC. right. exact (G _ (eq_sym Q) AC).
    + intros [= Q] AC. right. exact (G _ (eq_sym Q) AC).
Qed.
Lemma set_aud_text tz sel three v c d r t : db_ok d -> ids_fit d -> no_fault c -> In r (d_sub d) -> names sel r -> readable r ->
  run_out (ctrl_handle tz (aud_req sel three v)) c d = Fin (RpText t) ->
  t = "OK" /\ exists a, parse_aud three v = inr a /\ acceptable a /\ keys_new (is_3g a) (s_id r) a (run_db (ctrl_handle tz (aud_req sel three v)) c d).
Proof.
  intros OK FT NF I N R. rewrite (proj1 (run_no_fault _ c d NF)), (proj2 (run_no_fault _ c d NF)). unfold run_out, run_db. pose proof (proj1 (db_ok_inv d) OK) as V.
  destruct (set_aud_run tz sel three v d r V FT I N R) as [e E]. rewrite E. clear E. destruct (verify_aud v); [|discriminate]. destruct (parse_aud three v) as [x|a]; [discriminate|]. cbn [fst snd].
  destruct (run_out (db_subscr_update_aud_by_id (s_id r) a) [] d) as [rc| |] eqn:O; try discriminate. destruct (Z.eqb_spec rc 0) as [->|]; [|discriminate]. intros [= <-]. split; [reflexivity|].
  exists a. split; [reflexivity|]. split.
  - destruct (aud_shape (s_id r) a) as [[A _]|[_ S]]; [exact A|]. rewrite S in O. discriminate.
  - now apply c07_states.
Qed.
Lemma accepted2 tz sel v c d r t : db_ok d -> ids_fit d -> no_fault c -> In r (d_sub d) -> names sel r -> readable r ->
  let set := ctrl_handle tz (CtrlSet ("subscriber." ++ sel ++ ".aud2g")%string v) in
  let d' := run_db set c d in
  run_out set c d = Fin (RpText t) ->
  (exists name l, fields v (name :: l) /\ lowercase name "none" /\ ~ has_auc2 d' (s_id r)) \/
  (exists name ki n shown algo, fields v [name; ki] /\ gsm_algorithm n shown algo /\ lowercase name n /\ hex_string 32 32 ki /\
     forall a, key2 d' (s_id r) a <-> a = mk_auc2 (s_id r) algo ki).
Proof.
  intros OK FT NF I N R. cbv zeta. change (CtrlSet _ v) with (aud_req sel false v). intros H.
  destruct (set_aud_text tz sel false v c d r t OK FT NF I N R H) as (_ & a & P & AC & K). destruct (parse2_inv v a P AC) as [(-> & name & l & F & L)|(name & ki & n & sh & algo & -> & F & G & L & X)].
  - left. exists name, l. split; [exact F|]. split; [exact L|]. intros (x & Ix & Ex). cbn in K. destruct (proj1 (K x) (conj Ix Ex)) as [Q _]. now apply Q.
  - right. exists name, ki, n, sh, algo. split; [exact F|]. split; [exact G|]. split; [exact L|]. split; [exact X|]. intros x. cbn [is_3g keys_new new2] in K. rewrite (K x). split; [tauto|]. intros ->. split; [destruct G; discriminate|reflexivity].
Qed.
Lemma accepted3 tz sel v c d r t : db_ok d -> ids_fit d -> no_fault c -> In r (d_sub d) -> names sel r -> readable r ->
  let set := ctrl_handle tz (CtrlSet ("subscriber." ++ sel ++ ".aud3g")%string v) in
  let d' := run_db set c d in
  run_out set c d = Fin (RpText t) ->
  (exists name l, fields v (name :: l) /\ lowercase name "none" /\ ~ has_auc3 d' (s_id r)) \/
  (exists name k choice o (is_op : bool) n l, fields v (name :: k :: choice :: o :: l) /\ lowercase name "milenage" /\ lowercase choice (if is_op then "op" else "opc") /\
     hex_string 32 32 k /\ hex_string 32 32 o /\ 0 <= n <= 28 /\
     forall a, key3 d' (s_id r) a <-> a = mk_auc3 (s_id r) 5 k (if is_op then Some o else None) (if is_op then None else Some o) 0 n).
Proof.
  intros OK FT NF I N R. cbv zeta. change (CtrlSet _ v) with (aud_req sel true v). intros H.
  destruct (set_aud_text tz sel true v c d r t OK FT NF I N R H) as (_ & a & P & AC & K). destruct (parse3_inv v a P AC) as [(-> & name & l & F & L)|(name & k & choice & o & b & n & l & -> & F & L & C & X & Y & B)].
  - left. exists name, l. split; [exact F|]. split; [exact L|]. intros (x & Ix & Ex). cbn in K. destruct (proj1 (K x) (conj Ix Ex)) as [Q _]. now apply Q.
  - right. exists name, k, choice, o, b, n, l. do 6 (split; [assumption|]). intros x. cbn [is_3g keys_new new3] in K. rewrite (K x). split; [tauto|]. intros ->. split; [discriminate|reflexivity].
Qed.
Lemma key_remove tz sel (three : bool) v c d r : db_ok d -> ids_fit d -> no_fault c -> In r (d_sub d) -> names sel r -> readable r -> lowercase v "none" ->
  let set := ctrl_handle tz (CtrlSet ("subscriber." ++ sel ++ "." ++ (if three then "aud3g" else "aud2g"))%string v) in
  let d' := run_db set c d in
  let had := if three then has_auc3 d (s_id r) else has_auc2 d (s_id r) in
  (had -> run_out set c d = Fin (RpText "OK")) /\ (~ had -> exists e, run_out set c d = Fin (RpError e)) /\
  (if three then ~ has_auc3 d' (s_id r) else ~ has_auc2 d' (s_id r)).
Proof.
  intros OK FT NF I N R L. cbv zeta. rewrite (proj1 (run_no_fault _ c d NF)), (proj2 (run_no_fault _ c d NF)).
  change (CtrlSet _ v) with (aud_req sel three v). pose proof (proj1 (db_ok_inv d) OK) as V. destruct (set_aud_run tz sel three v d r V FT I N R) as [e E].
  pose proof (lowercase_nocase v "none" L) as LN. assert (VA : verify_aud v = true) by (unfold verify_aud; now rewrite LN).
  destruct (name_token "none" v eq_refl ltac:(discriminate) L) as [C NE].
  assert (PA : parse_aud three v = inr (if three then AudUmts 0 "" "" false 5 else AudGsm 0 "")).
  { unfold parse_aud. destruct three; [unfold parse_aud3g|unfold parse_aud2g]; rewrite (strtok_last v C NE), (algo_parse_nocase v "none" LN); reflexivity. }
  rewrite VA, PA in E. unfold run_out at 1 2. unfold run_db. rewrite E. cbn [fst snd]. clear E.
  pose proof (c06_remove d (s_id r) [] three OK (Forall_nil _)) as (A1 & A2 & A3). cbv zeta in *.
  assert (SAME : forall b, db_subscr_update_aud_by_id (s_id r) (AudUmts 0 "" "" false b) = db_subscr_update_aud_by_id (s_id r) (AudUmts 0 "" "" false 0)) by reflexivity.
  destruct three; [unfold aud_kept; rewrite (SAME 5)|]; (split; [intros H; rewrite (A1 H); reflexivity|]); (split; [intros H; exists e; rewrite (A2 H); reflexivity|exact A3]).
Qed.
