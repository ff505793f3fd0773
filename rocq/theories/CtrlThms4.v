(** Requests that are answered with an error, and keys set over the control interface. *)
From Verif Require Import Base PeerId PeerThms Db DbSpec DbProofs DbThms DbThms2 DbThms3 Auth AuthSpec AuthThms Ctrl CtrlSpec CtrlThms CtrlThms2 CtrlThms3.
Local Open Scope string_scope.
Local Open Scope list_scope.
Local Open Scope Z_scope.

(** ** Errors change nothing when the storage works *)
Definition err_same (d : db) (p : prog reply) : Prop := forall e, run_out p [] d = Fin (RpError e) -> run_db p [] d = d.
Lemma run_after {A B} (p : prog A) (g : A -> B) d o d' : run p [] d = (o, d', []) ->
  run (do x <- p;; Ret (g x)) [] d = (match o with Fin a => Fin (g a) | Crashed => Crashed | Ub => Ub end, d', []).
Proof. intros E. rewrite run_bind, E. destruct o; reflexivity. Qed.
Lemma run_parts {A} (p : prog A) d : run p [] d = (run_out p [] d, run_db p [] d, []).
Proof. destruct (run_nil p d) as (o & d' & E). unfold run_out, run_db. rewrite E. reflexivity. Qed.
Lemma out_after {A B} (p : prog A) (g : A -> B) d :
  run_out (do x <- p;; Ret (g x)) [] d = match run_out p [] d with Fin a => Fin (g a) | Crashed => Crashed | Ub => Ub end.
Proof. unfold run_out at 1. rewrite (run_after p g d _ _ (run_parts p d)). reflexivity. Qed.
Lemma err_reads d p : all_stmts reads p -> err_same d p.
Proof. intros R e _. now apply reads_run. Qed.
Lemma err_on tz sel f d : (forall h, err_same d (f h)) -> err_same d (on_subscriber tz sel f).
Proof.
  intros F e. unfold on_subscriber, run_out, run_db. rewrite run_bind, (run_parts (get_subscriber tz sel) d). rewrite (reads_run _ [] d (reads_gs tz sel)).
  destruct (run_out (get_subscriber tz sel) [] d) as [[x|h]| |]; try discriminate; try reflexivity. exact (F h e).
Qed.
Lemma aud_error id a d rc : db_ok d -> run_out (db_subscr_update_aud_by_id id a) [] d = Fin rc -> rc <> 0 -> run_db (db_subscr_update_aud_by_id id a) [] d = d.
Proof.
  intros OK E NZ. pose proof (proj1 (db_ok_inv d) OK) as V. destruct (aud_shape id a) as [[A S]|[A S]]; [|now apply c06_refused].
  destruct (Z.eq_dec (aud_algo a) 0) as [Z0|Z0]; [|pose proof (proj1 (c07_no_fault id a [] d (Forall_nil _) A Z0 OK)); congruence].
  rewrite S in *. unfold aud_ins_stmt in *. rewrite Z0 in *. cbn [Z.eqb] in *. unfold two_step, run_out, run_db in *. cbn [run] in *.
  destruct a as [al ki|al k o b bl|]; [| |contradiction]; cbn [aud_del_stmt exec] in *.
  - pose proof (cnt_le1 a2_id (d_auc2 d) id ltac:(apply V)) as L. destruct (cnt _ _) as [|[|]] eqn:C; [|cbn in E; congruence|lia].
    cbn. assert (D : del (fun a => a2_id a =? id) (d_auc2 d) = d_auc2 d); [|rewrite D; destruct d; reflexivity].
    unfold del, cnt in *. clear -C. induction (d_auc2 d) as [|x l IH]; [reflexivity|]. cbn in *. destruct (a2_id x =? id); [discriminate|]. cbn. now rewrite IH.
  - pose proof (cnt_le1 a3_id (d_auc3 d) id ltac:(apply V)) as L. destruct (cnt _ _) as [|[|]] eqn:C; [|cbn in E; congruence|lia].
    cbn. assert (D : del (fun a => a3_id a =? id) (d_auc3 d) = d_auc3 d); [|rewrite D; destruct d; reflexivity].
    unfold del, cnt in *. clear -C. induction (d_auc3 d) as [|x l IH]; [reflexivity|]. cbn in *. destruct (a3_id x =? id); [discriminate|]. cbn. now rewrite IH.
Qed.
Lemma err_set tz sel cmd v d : db_ok d -> err_same d (set_cmd tz sel cmd v).
Proof.
  intros OK. unfold set_cmd.
  assert (R : forall t, err_same d (Ret (RpError t))) by (intros t e _; reflexivity).
  assert (E : forall ps, err_same d (set_enabled tz sel ps v)).
  { intros ps e. unfold set_enabled, run_out, run_db. rewrite run_bind, (run_parts (get_subscriber_imsi tz sel) d). rewrite (reads_run _ [] d (reads_gsi tz sel)).
    destruct (run_out (get_subscriber_imsi tz sel) [] d) as [[x|i]| |]; try discriminate; try reflexivity.
    rewrite (run_after _ _ _ _ _ (run_parts (db_subscr_nam i (v =? "1")%string ps) d)). cbn [fst snd].
    destruct (run_out _ [] d) as [rc| |] eqn:O; try discriminate. destruct (Z.eqb_spec rc 0) as [->|NZ]; [discriminate|]. intros _.
    apply (c10_unchanged (ANam i (v =? "1")%string ps) d []); [exact OK|exact I|]. cbn [api_prog]. rewrite O. congruence. }
  assert (A : forall (h : subscriber) (p : string + aud_str) (t : string), err_same d (match p with inl e => Ret (RpError e)
      | inr a => do rc <- db_subscr_update_aud_by_id (h_id h) a;; Ret (if rc =? 0 then RpText "OK" else RpError t) end)).
  { intros h [x|a] t e; [reflexivity|]. unfold run_out, run_db. rewrite (run_after _ _ _ _ _ (run_parts (db_subscr_update_aud_by_id (h_id h) a) d)). cbn [fst snd].
    destruct (run_out _ [] d) as [rc| |] eqn:O; try discriminate. destruct (Z.eqb_spec rc 0) as [->|NZ]; [discriminate|]. intros _. exact (aud_error _ _ _ _ OK O NZ). }
  destruct (_ || _ || _ || _); [apply R|].
  destruct (cmd =? "ps-enabled")%string; [destruct (verify_enabled v); [apply E|apply R]|].
  destruct (cmd =? "cs-enabled")%string; [destruct (verify_enabled v); [apply E|apply R]|].
  destruct (cmd =? "msisdn")%string.
  { destruct (verify_msisdn v); [|apply R]. apply err_on. intros h e. unfold run_out, run_db.
    rewrite (run_after _ _ _ _ _ (run_parts (db_subscr_update_msisdn_by_imsi (h_imsi h) (if (v =? "none")%string then None else Some v)) d)). cbn [fst snd].
    destruct (run_out _ [] d) as [rc| |] eqn:O; try discriminate. destruct (Z.eqb_spec rc 0) as [->|NZ]; [discriminate|]. intros _.
    apply (c10_unchanged (AMsisdn (h_imsi h) (if (v =? "none")%string then None else Some v)) d []); [exact OK|exact I|]. cbn [api_prog]. rewrite O. congruence. }
  destruct (cmd =? "aud2g")%string; [destruct (verify_aud v); [|apply R]; apply err_on; intros h; apply A|].
  destruct (cmd =? "aud3g")%string; [destruct (verify_aud v); [|apply R]; apply err_on; intros h; apply A|apply R].
Qed.
Lemma err_create tz v d : db_ok d -> err_same d (set_create tz v).
Proof.
  intros OK e. unfold set_create. destruct (imsi_valid v) eqn:IV; cbn [negb]; [|reflexivity].
  unfold run_out, run_db. rewrite run_bind, (run_parts (db_subscr_create v 6) d).
  destruct (run_out (db_subscr_create v 6) [] d) as [rc| |] eqn:O; try discriminate. destruct (Z.eqb_spec rc 0) as [->|NZ]; cbn [negb].
  - destruct (c02_readback d v 6 [] tz O) as (s & E & _). rewrite run_bind, (run_parts (db_subscr_get_by_imsi tz v)), E. discriminate.
  - intros _. cbn [run snd fst]. apply (c10_unchanged (ACreate v 6) d []); [exact OK|exact I|]. cbn [api_prog]. rewrite O. congruence.
Qed.
Lemma err_delete tz v d : db_ok d -> err_same d (set_delete tz v).
Proof.
  intros OK e. unfold set_delete. destruct (imsi_valid v) eqn:IV; cbn [negb]; [|reflexivity].
  unfold run_out, run_db. rewrite run_bind. change (db_subscr_get_by_imsi tz v) with (db_sel tz (SEL_BY_IMSI v)).
  destruct (db_sel_run tz (SEL_BY_IMSI v) (by_imsi v) [] d (fun _ => eq_refl)) as [c' R].
  destruct (run_nil (db_sel tz (SEL_BY_IMSI v)) d) as (o & d' & E). rewrite E in R. injection R as -> -> <-. rewrite E.
  destruct (find (by_imsi v) (d_sub d)) as [r|] eqn:F; [|reflexivity]. destruct (sub_of_row tz r) as [h|] eqn:H; [|discriminate].
  apply find_some in F as [I _]. destruct (sub_of_row_fields tz r h H) as (HI & _).
  rewrite (run_after _ _ _ _ _ (run_parts (db_subscr_delete_by_id (h_id h)) d)). cbn [fst snd].
  destruct (c03_delete d (h_id h) [] OK (Forall_nil _)) as (O & _). rewrite O.
  rewrite (proj2 (existsb_exists (fun r => s_id r =? h_id h) (d_sub d))); [discriminate|]. exists r. split; [exact I|]. apply Z.eqb_eq. congruence.
Qed.
Lemma ctrl_error tz q c d e : db_ok d -> no_fault c -> run_out (ctrl_handle tz q) c d = Fin (RpError e) -> run_db (ctrl_handle tz q) c d = d.
Proof.
  intros OK NF. rewrite (proj1 (run_no_fault _ c d NF)), (proj2 (run_no_fault _ c d NF)). revert e. change (err_same d (ctrl_handle tz q)).
  assert (R : forall t, err_same d (Ret t)) by (intros t e _; reflexivity).
  unfold ctrl_handle. destruct (is_comment _); [apply R|]. destruct (words _) as [|w l]; [apply R|].
  destruct (descend NRoot (w :: l)) as [n rest]. destruct rest as [|c0 [|]]; [destruct n; apply R| |destruct n; apply R].
  destruct n as [| |sel]; [apply R| |].
  - destruct (c0 =? "create")%string; [destruct q; [apply R|now apply err_create]|]. destruct (c0 =? "delete")%string; [destruct q; [apply R|now apply err_delete]|apply R].
  - destruct q; [apply err_reads, reads_get|now apply err_set].
Qed.

(** ** Spelling *)
Lemma lowercase_nocase s t : lowercase s t -> same_nocase s t = true.
Proof.
  assert (L : forall c, lower (lower c) = lower c) by (intros [[] [] [] [] [] [] [] []]; reflexivity).
  induction 1 as [|c s t N _ IH|c s t N _ IH]; cbn [same_nocase]; [reflexivity| |].
  - rewrite IH, Ascii.eqb_refl. reflexivity.
  - assert (E : ascii_of_N (N_of_ascii c + 32) = lower c).
    { unfold lower, acode. destruct (N.leb_spec 65 (N_of_ascii c)); [|lia]. destruct (N.leb_spec (N_of_ascii c) 90); [reflexivity|lia]. }
    rewrite E, L, IH, Ascii.eqb_refl. reflexivity.
Qed.
Lemma nocase_lowercase s t : str_forall (fun c => negb ((65 <=? acode c)%N && (acode c <=? 90)%N)) t = true -> same_nocase s t = true -> lowercase s t.
Proof.
  revert t. induction s as [|c s IH]; intros [|e t] NU H; cbn in H; try discriminate; [constructor|]. cbn in NU. apply andb_true_iff in NU as [N1 N2]. apply negb_true_iff in N1.
  apply andb_true_iff in H as [H1 H2]. apply Ascii.eqb_eq in H1. unfold lower in H1 at 2. rewrite N1 in H1. subst e. specialize (IH t N2 H2).
  unfold lower, acode in *. destruct (N.leb_spec 65 (N_of_ascii c)); cbn [andb] in *; [|constructor; [lia|exact IH]].
  destruct (N.leb_spec (N_of_ascii c) 90); [now constructor|constructor; [lia|exact IH]].
Qed.
Lemma nocase_spec s t : str_forall (fun c => negb ((65 <=? acode c)%N && (acode c <=? 90)%N)) t = true -> (same_nocase s t = true <-> lowercase s t).
Proof. intros H. split; [now apply nocase_lowercase|apply lowercase_nocase]. Qed.
Lemma same_nocase_comma s t : same_nocase s t = true -> has_comma s = has_comma t.
Proof.
  revert t. induction s as [|c s IH]; intros [|e t] H; cbn in H; try discriminate; [reflexivity|]. apply andb_true_iff in H as [H1 H2]. cbn. rewrite (IH t H2). f_equal.
  apply Ascii.eqb_eq in H1. assert (G : forall c, comma c = comma (lower c)) by (intros [[] [] [] [] [] [] [] []]; reflexivity). rewrite (G c), (G e), H1. reflexivity.
Qed.
Lemma nocase_trans s t u : same_nocase s t = true -> same_nocase t u = true -> same_nocase s u = true.
Proof.
  revert t u. induction s as [|c s IH]; intros [|e t] [|g u] H K; cbn in *; try discriminate; [reflexivity|]. apply andb_true_iff in H as [H1 H2], K as [K1 K2].
  apply Ascii.eqb_eq in H1, K1. rewrite H1, K1, Ascii.eqb_refl. cbn. eauto.
Qed.
Lemma nocase_sym s t : same_nocase s t = same_nocase t s.
Proof. revert t. induction s as [|c s IH]; intros [|e t]; cbn; try reflexivity. rewrite IH. f_equal. apply Bool.eq_iff_eq_true. rewrite !Ascii.eqb_eq. split; auto. Qed.
Lemma nocase_either s t u : same_nocase s t = true -> same_nocase s u = same_nocase t u.
Proof. intros H. apply Bool.eq_iff_eq_true. split; intros K; [apply (nocase_trans t s u); [now rewrite nocase_sym|exact K]|exact (nocase_trans s t u H K)]. Qed.
Lemma algo_parse_nocase s t : same_nocase s t = true -> auth_algo_parse s = auth_algo_parse t.
Proof. intros H. unfold auth_algo_parse. now rewrite !(nocase_either s t _ H). Qed.

Lemma digit_value_in c v : digit_value c v -> In v [0;1;2;3;4;5;6;7;8;9;10;11;12;13;14;15]%N.
Proof.
  intros H. assert (B : (v < 16)%N).
  { destruct (N.lt_ge_cases v 16) as [?|G]; auto. exfalso. assert (G' : (16 <= N.to_nat v)%nat) by lia. unfold digit_value in H.
    remember (N.to_nat v) as k. do 16 (destruct k as [|k]; [lia|]). cbn in H. destruct H as [H|H]; now destruct k. }
  clear H. cbn. destruct v as [|p]; auto. do 4 (destruct p as [p|p|]; try lia); auto 20.
Qed.
Lemma hexdump_lower s l : spells s l -> lowercase s (hexdump l).
Proof.
  assert (D : forall c v s t, digit_value c v -> lowercase s t -> lowercase (String c s) (String (hex_digit_of v) t)).
  { intros c v s0 t D L. pose proof (digit_value_in c v D) as I. unfold digit_value in D. cbn in I.
    repeat (destruct I as [<-|I]; [destruct D as [D|D]; cbn in D; injection D as <-; first [apply lc_same; [cbn; lia|exact L]|refine (lc_upper _ s0 t _ L); cbn; lia]|]). contradiction. }
  induction 1 as [|c1 c2 r v1 v2 l D1 D2 _ IH]; cbn [hexdump]; [constructor|].
  pose proof (digit_value_in c1 v1 D1) as I1. pose proof (digit_value_in c2 v2 D2) as I2.
  assert (B1 : (v1 < 16)%N) by (cbn in I1; intuition lia). assert (B2 : (v2 < 16)%N) by (cbn in I2; intuition lia).
  replace ((16 * v1 + v2) / 16)%N with v1. 2:{ symmetry. rewrite N.mul_comm, N.div_add_l by lia. rewrite N.div_small by lia. lia. }
  replace ((16 * v1 + v2) mod 16)%N with v2. 2:{ symmetry. rewrite N.add_comm, N.mul_comm, N.mod_add by lia. now apply N.mod_small. }
  auto.
Qed.
Lemma lowercase_hex mn mx s t : lowercase s t -> hex_string mn mx s -> hex_string mn mx t.
Proof.
  intros L. rewrite <- !is_hexstr_spec. unfold is_hexstr. intros H. apply andb_true_iff in H as [H X].
  assert (G : String.length t = String.length s /\ str_forall is_xdigit t = true).
  { clear H. revert X. induction L as [|c s t N L IH|c s t N L IH]; cbn; [auto| |]; rewrite !andb_true_iff; intros [X1 X2]; destruct (IH X2) as [A B]; rewrite A, B; (split; [reflexivity|split; [|reflexivity]]).
    - exact X1.
    - clear -X1 N. destruct c as [[] [] [] [] [] [] [] []]; try discriminate X1; try reflexivity; exfalso; cbn in N; lia. }
  destruct G as [A B]. rewrite A, B, H. reflexivity.
Qed.
Lemma lowercase_idem s t : lowercase s t -> lowercase t t.
Proof.
  induction 1 as [|c s t N L IH|c s t N L IH]; [constructor|now constructor|]. constructor; [|exact IH]. rewrite N_ascii_embedding by lia. lia.
Qed.
Lemma lowercase_fun s t u : lowercase s t -> lowercase s u -> t = u.
Proof. intros H. revert u. induction H as [|c s t N L IH|c s t N L IH]; intros u K; inversion K; subst; try (exfalso; tauto); f_equal; auto. Qed.
Lemma hex_comma mn mx s : hex_string mn mx s -> has_comma s = false.
Proof.
  rewrite <- is_hexstr_spec. unfold is_hexstr. intros H. apply andb_true_iff in H as [_ H]. induction s as [|c s IH]; [reflexivity|]. cbn in *. apply andb_true_iff in H as [A B]. rewrite (IH B), orb_false_r.
  destruct c as [[] [] [] [] [] [] [] []]; try discriminate A; reflexivity.
Qed.

(** ** Tokens *)
Lemma cut_comma w s : has_comma w = false -> cut comma (w ++ "," ++ s)%string = (w, s).
Proof. induction w as [|c w IH]; [reflexivity|]. cbn [has_comma]. rewrite orb_false_iff. intros [A B]. change ((String c w ++ "," ++ s)%string) with (String c (w ++ "," ++ s)%string). cbn [cut]. now rewrite A, (IH B). Qed.
Lemma strtok_comma w s : has_comma w = false -> w <> EmptyString -> strtok comma (w ++ "," ++ s)%string = Some (w, s).
Proof.
  intros H NE. unfold strtok. destruct w as [|c w]; [congruence|]. pose proof (cut_comma _ s H) as C. cbn [has_comma] in H. apply orb_false_iff in H as [A B].
  change ((String c w ++ "," ++ s)%string) with (String c (w ++ "," ++ s)%string) in *. cbn [skip_delim]. rewrite A. now rewrite C.
Qed.
Lemma strtok_last w : has_comma w = false -> w <> EmptyString -> strtok comma w = Some (w, "").
Proof.
  intros H NE. unfold strtok. assert (C : cut comma w = (w, "")).
  { clear NE. induction w as [|c w IH]; [reflexivity|]. cbn [has_comma cut] in *. apply orb_false_iff in H as [A B]. now rewrite A, (IH B). }
  destruct w as [|c w]; [congruence|]. cbn [has_comma] in H. apply orb_false_iff in H as [A B]. cbn [skip_delim]. rewrite A. now rewrite C.
Qed.
Lemma strtok_rest w : w <> EmptyString -> strtok no_delim w = Some (w, "").
Proof.
  intros NE. unfold strtok. assert (C : cut no_delim w = (w, "")) by (clear NE; induction w as [|c w IH]; [reflexivity|]; cbn; now rewrite IH).
  destruct w as [|c w]; [congruence|]. cbn [skip_delim no_delim]. now rewrite C.
Qed.
Lemma has_comma_app a b : has_comma (a ++ b)%string = has_comma a || has_comma b.
Proof. induction a as [|c a IH]; [reflexivity|]. cbn. now rewrite IH, orb_assoc. Qed.

(** ** Reading keys *)
Lemma dec_numeral n : 0 <= n <= 28 -> numeral (dec_text (to_uint n)) n /\ (String.length (dec_text (to_uint n)) <= 2)%nat.
Proof.
  intros R. assert (I : In n (map Z.of_nat (seq 0 29))). { apply in_map_iff. exists (Z.to_nat n). split; [lia|]. apply in_seq. lia. }
  vm_compute in I. clear R. assert (G : forall t v, t <> EmptyString -> all_digits t 0 = Some v -> numeral t v) by apply digits_numeral.
  repeat (destruct I as [<-|I]; [split; [apply G; [discriminate|reflexivity]|vm_compute; lia]|]). contradiction.
Qed.
Lemma numeral_atoi t n : numeral t n -> n <= 2147483647 -> atoi t = n.
Proof.
  intros N U. destruct (numeral_digits t n N) as (A & NE & F & P). unfold atoi.
  assert (D : forall s acc v, all_digits s acc = Some v -> lead_digits s acc = v).
  { induction s as [|c s IH]; intros acc v H; cbn in *; [congruence|]. destruct (is_digit c); [auto|discriminate]. }
  destruct t as [|c t]; [congruence|]. specialize (F c t eq_refl).
  assert (S1 : skip_space (String c t) = String c t) by (cbn; destruct c as [[] [] [] [] [] [] [] []]; try discriminate F; reflexivity).
  assert (S2 : sign_of (String c t) = (false, String c t)) by (cbn; destruct c as [[] [] [] [] [] [] [] []]; try discriminate F; reflexivity).
  rewrite S1, S2, (D _ _ _ A). rewrite Z.min_r, Z.max_r by lia. rewrite Z.mod_small by lia. lia.
Qed.

Definition aud_kept (d : db) (id : Z) (a : aud_str) (c : sched) := run_db (db_subscr_update_aud_by_id id a) c d.
Lemma aud_keeps_sub id a c d : d_sub (aud_kept d id a c) = d_sub d.
Proof. apply (c07_states id a c d). Qed.
Lemma aud_keeps_inv id a c d : db_inv d -> db_inv (aud_kept d id a c).
Proof. intros V. exact (db_hist_inv [(AAud id a, c)] d V). Qed.
Lemma aud_keeps_keys id a c d : keys_wellformed d -> keys_wellformed (aud_kept d id a c).
Proof. intros V. exact (keys_hist [(AAud id a, c)] d V). Qed.

(** the text that GET gives for the keys *)
Definition get2_text (d : db) (id : Z) : string := match stored2 d id with Some a => match read_2g (Some a) with Some g => if g_algo g =? 0 then "none" else text2 g | None => "none" end | None => "none" end.
Definition get3_text (d : db) (id : Z) : string := match read_3g (stored3 d id) with Some (Some u) => if u_algo u =? 0 then "none" else text3 u | _ => "none" end.
Lemma get_aud_text tz sel d r (three : bool) : db_inv d -> ids_fit d -> keys_wellformed d -> In r (d_sub d) -> names sel r -> readable r ->
  run_out (ctrl_handle tz (CtrlGet ("subscriber." ++ sel ++ "." ++ (if three then "aud3g" else "aud2g"))%string)) [] d =
  Fin (RpText (if three then get3_text d (s_id r) else get2_text d (s_id r))).
Proof.
  intros V FT KW I N R. destruct (names_part d sel r V I N) as [PS B]. destruct (readable_sub tz r R) as [h H].
  assert (PC : part (if three then "aud3g" else "aud2g")) by (destruct three; apply cmd_part_1).
  change (CtrlGet _) with (req true sel (if three then "aud3g" else "aud2g") "") at 1. rewrite (handle_by tz true sel _ "" PS PC B).
  assert (IS : is_subscriber d (s_imsi r) (s_id r)) by (exists r; auto).
  pose proof (run_get d (s_imsi r) (s_id r) [] V IS (Forall_nil _)) as G. destruct (read_3g_total d (s_id r) KW) as [u U]. rewrite U in G.
  assert (K : run_out (get_keys (s_imsi r)) [] d = Fin (Some (shown2 (read_2g (stored2 d (s_id r))), shown3 u))).
  { unfold get_keys. rewrite out_after, G. destruct (read_2g (stored2 d (s_id r))) as [g|], u as [u|]; reflexivity. }
  assert (KR : run (get_keys (s_imsi r)) [] d = (Fin (Some (shown2 (read_2g (stored2 d (s_id r))), shown3 u)), d, [])).
  { rewrite run_parts, K, (reads_run _ [] d (reads_keys _)). reflexivity. }
  unfold run_out, get_cmd. destruct three; cbn [String.eqb Ascii.eqb Bool.eqb]; unfold get_aud2g, get_aud3g;
    rewrite (on_named tz sel d r h _ V FT (part_spaceless _ PS) I N H), (row_imsi tz d r h V I H), (run_after _ _ _ _ _ KR); cbn [fst]; f_equal.
  - unfold get3_text. rewrite U. destruct u as [u|]; cbn [shown3]; [|destruct (shown2 _); reflexivity]. unfold ALG_NONE. destruct (u_algo u =? 0); destruct (shown2 _); reflexivity.
  - unfold get2_text. destruct (stored2 d (s_id r)) as [a|]; [|reflexivity]. destruct (read_2g (Some a)) as [g|]; [|reflexivity]. cbn [shown2]. unfold ALG_NONE. destruct (g_algo g =? 0); reflexivity.
Qed.
Lemma stored2_is d id a : db_inv d -> key2 d id a -> stored2 d id = Some a.
Proof.
  intros V [I <-]. unfold stored2. apply find_unique; [exact I|apply Z.eqb_refl|]. intros y Iy E. apply Z.eqb_eq in E.
  apply (NoDup_key_inj a2_id (d_auc2 d)); auto. apply V.
Qed.
Lemma stored3_is d id a : db_inv d -> key3 d id a -> stored3 d id = Some a.
Proof.
  intros V [I <-]. unfold stored3. apply find_unique; [exact I|apply Z.eqb_refl|]. intros y Iy E. apply Z.eqb_eq in E.
  apply (NoDup_key_inj a3_id (d_auc3 d)); auto. apply V.
Qed.
