(** Proofs about the lookup tool, continued: the lines (C59). *)
From Verif Require Import Base PeerId DbThms DbProofs Db Auth Gsup Router Ctrl VtyListThms MsLookup Mdns MdnsThms Hlr MsClient MsClientSpec MsTool MsToolSpec.
Local Open Scope N_scope.

(** ** Text *)
Lemma all_app p a b : all_chars p (a ++ b) = all_chars p a && all_chars p b.
Proof. induction a as [|c a IH]; cbn; auto. rewrite IH. apply andb_assoc. Qed.
Lemma all_impl (p q : ascii -> bool) s : (forall c, p c = true -> q c = true) -> all_chars p s = true -> all_chars q s = true.
Proof. intros H. induction s as [|c s IH]; cbn; auto. rewrite !andb_true_iff. intros [A B]. auto. Qed.
Lemma digit_char n : n < 10 -> is_digit (ascii_of_N (48 + n)) = true.
Proof. intros L. unfold is_digit. rewrite N_ascii_embedding by lia. apply andb_true_iff. split; apply N.leb_le; lia. Qed.
Lemma dec_digits_digits f : forall n, all_chars is_digit (dec_digits f n) = true.
Proof.
  induction f as [|f IH]; intros n; cbn [dec_digits]; auto. cbv zeta. assert (D := digit_char (n mod 10) (N.mod_upper_bound n 10 ltac:(lia))). destruct (n <? 10); [cbn [all_chars]; rewrite D; auto|]. rewrite all_app, IH. cbn [all_chars andb]. rewrite D. auto.
Qed.
Lemma dec_chars n : all_chars is_digit (dec n) = true. Proof. apply dec_digits_digits. Qed.
Lemma dec_head n : exists c t, dec n = String c t /\ is_digit c = true.
Proof.
  pose proof (dec_chars n) as H. destruct (dec n) as [|c t] eqn:E; [|exists c, t; split; auto; cbn in H; apply andb_true_iff in H; tauto]. exfalso.
  assert (G : forall f m, dec_digits (S f) m <> EmptyString); [|exact (G _ _ E)]. intros f m X. cbn [dec_digits] in X. cbv zeta in X. destruct (m <? 10); [discriminate X|]. destruct (dec_digits f (m / 10)); discriminate X.
Qed.
Lemma read_digits_dec f : forall n r, n < 10 ^ N.of_nat f -> (1 <= f)%nat -> read_digits 0 (dec_digits f n ++ r) = read_digits n r.
Proof.
  induction f as [|f IH]; intros n r L F; [lia|]. cbn [dec_digits]. cbv zeta. assert (Lm : n mod 10 < 10) by (apply N.mod_upper_bound; lia).
  assert (One : forall acc, read_digits acc (String (ascii_of_N (48 + n mod 10)) r) = read_digits (acc * 10 + n mod 10) r).
  { intros acc. generalize dependent (n mod 10). intros m Lm. cbn [read_digits]. rewrite digit_char by auto. rewrite N_ascii_embedding by lia. do 2 f_equal. rewrite N.add_comm. apply N.add_sub. }
  destruct (N.ltb_spec n 10) as [S|S].
  - cbn [append]. rewrite One. rewrite N.mod_small by auto. reflexivity.
  - rewrite <- str_app_assoc. cbn [append]. destruct f as [|f]; [cbn in L; lia|]. rewrite IH; [|rewrite Nat2N.inj_succ, N.pow_succ_r' in L; apply N.div_lt_upper_bound; lia|lia]. rewrite One. f_equal. rewrite (N.div_mod n 10) at 3 by lia. lia.
Qed.
Lemma strip_app p r : strip p (p ++ r) = Some r.
Proof. induction p as [|c p IH]; cbn; [destruct r; auto|]. rewrite Ascii.eqb_refl. auto. Qed.
Lemma read_chars_lit s r : all_chars literal s = true -> read_chars (s ++ String "034" r) = Some (s, r).
Proof.
  induction s as [|c s IH]; intros H; cbn [append read_chars]; [reflexivity|]. cbn in H. apply andb_true_iff in H as [A B]. rewrite (IH B), A. unfold literal in A. destruct (Ascii.eqb_spec c "034"%char); [subst c; discriminate|auto].
Qed.
Lemma read_string_lit s r : all_chars literal s = true -> read_string (quoted s ++ r) = Some (s, r).
Proof.
  intros H. unfold read_string, quoted. rewrite <- !str_app_assoc. rewrite strip_app. change (QT ++ r)%string with (String "034" r). apply read_chars_lit. auto.
Qed.
Lemma digit_no_tab c : is_digit c = true -> no_tab c = true.
Proof. destruct c as [[] [] [] [] [] [] [] []]; cbn; auto. Qed.
Lemma digit_literal c : is_digit c = true -> literal c = true.
Proof. destruct c as [[] [] [] [] [] [] [] []]; cbn; auto. Qed.
Lemma address_no_tab c : address_char c = true -> no_tab c = true.
Proof. destruct c as [[] [] [] [] [] [] [] []]; cbn; auto. Qed.
Lemma address_literal c : address_char c = true -> literal c = true.
Proof. destruct c as [[] [] [] [] [] [] [] []]; cbn; auto. Qed.
Lemma fields_one s : all_chars no_tab s = true -> fields s = [s].
Proof.
  induction s as [|c s IH]; intros H; cbn [fields]; auto. cbn in H. apply andb_true_iff in H as [A B]. rewrite (IH B). unfold no_tab in A. apply negb_true_iff in A. rewrite A. auto.
Qed.
Lemma fields_cons s r : all_chars no_tab s = true -> fields (s ++ TAB ++ r) = s :: fields r.
Proof.
  induction s as [|c s IH]; intros H; [reflexivity|]. cbn in H. apply andb_true_iff in H as [A B]. cbn [append fields]. rewrite (IH B). unfold no_tab in A. apply negb_true_iff in A. rewrite A. auto.
Qed.
Lemma str_length_app a b : String.length (a ++ b) = (String.length a + String.length b)%nat.
Proof. induction a as [|c a IH]; cbn; auto. Qed.
Lemma dec_len n : (String.length (dec n) <= 10)%nat.
Proof.
  unfold dec. assert (G : forall f m, (String.length (dec_digits f m) <= f)%nat); [|apply G].
  induction f as [|f IH]; intros m; cbn [dec_digits]; auto. cbv zeta. destruct (m <? 10); [cbn; lia|]. rewrite str_length_app. specialize (IH (m / 10)). cbn [String.length]. lia.
Qed.
(** ** CSV *)
Lemma csv_host_len o h : plain_ntop o -> (String.length (csv_host o h) <= 57)%nat.
Proof. intros P. unfold csv_host. destruct (nonzero h) as [[a p]|]; [|cbn; lia]. rewrite !str_length_app. destruct (P a) as [_ L]. pose proof (dec_len p). cbn [String.length TAB]. lia. Qed.
Lemma csv_len o q r : plain_ntop o -> (String.length (csv_text o q r) <= String.length q + 160)%nat.
Proof.
  intros P. unfold csv_text. rewrite str_length_app. apply Nat.add_le_mono_l. destruct r as [r|]; [|cbn; lia]. rewrite !str_length_app. pose proof (dec_len (lr_age (r_res r))).
  assert (String.length (code_name (r_code r)) <= 9)%nat by (destruct (r_code r); cbn; lia). assert (String.length (if r_last r then "last" else "not-last") <= 8)%nat by (destruct (r_last r); cbn; lia).
  assert (String.length (match r_code r with RcResult => csv_host o (lr_v4 (r_res r)) ++ csv_host o (lr_v6 (r_res r)) | _ => tabs 5 end) <= 114)%nat.
  { destruct (r_code r); try (cbn; lia). rewrite str_length_app. pose proof (csv_host_len o (lr_v4 (r_res r)) P). pose proof (csv_host_len o (lr_v6 (r_res r)) P). lia. }
  cbn [String.length TAB]. lia.
Qed.
Lemma csv_host_fields o h a r : plain_ntop o -> all_chars no_tab a = true -> (r = EmptyString \/ exists r', r = TAB ++ r')%string ->
  fields (a ++ csv_host o h ++ r) = a :: (cells (told_host o h) ++ tl (fields r))%list.
Proof.
  intros P A R. unfold csv_host, told_host. assert (Rf : forall x, all_chars no_tab x = true -> fields (x ++ r) = x :: tl (fields r)).
  { intros x X. destruct R as [->|(r' & ->)]; [rewrite str_app_nil; rewrite fields_one; auto|]. rewrite fields_cons; auto. }
  destruct (nonzero h) as [[b p]|]; cbn [cells].
  - rewrite <- !str_app_assoc. rewrite fields_cons by auto. destruct (P b) as [Ch _]. rewrite fields_cons by (eapply all_impl; [|exact Ch]; exact address_no_tab). rewrite Rf; [reflexivity|]. eapply all_impl; [|apply dec_chars]. exact digit_no_tab.
  - change (tabs 2 ++ r)%string with (TAB ++ "" ++ TAB ++ "" ++ r)%string. rewrite !fields_cons by auto. rewrite Rf; auto.
Qed.
Lemma csv_host_tab o h r : exists r', (csv_host o h ++ r = TAB ++ r')%string.
Proof. unfold csv_host. destruct (nonzero h) as [[a p]|]; [rewrite <- !str_app_assoc; eauto|]. exists (TAB ++ r)%string. reflexivity. Qed.
Lemma c59_csv o q r : o_fmt o = Csv -> plain_ntop o -> all_chars no_tab q = true -> (String.length q <= 700)%nat ->
  match r with Some r => r_code r = RcResult | None => True end -> fields (format o q r) = result_cells o q r.
Proof.
  intros Fo P Q L R. unfold format. rewrite Fo. rewrite str_take_all by (pose proof (csv_len o q r P); unfold G_BUF; lia). unfold csv_text, result_cells. destruct r as [r|]; [|rewrite fields_cons by auto; reflexivity].
  rewrite R. rewrite !fields_cons; auto; [|destruct (r_last r); reflexivity]. cbn [app]. do 3 f_equal.
  destruct (csv_host_tab o (lr_v6 (r_res r)) "") as (r' & E). rewrite str_app_nil in E.
  assert (D : all_chars no_tab (dec (lr_age (r_res r))) = true) by (eapply all_impl; [|apply dec_chars]; exact digit_no_tab).
  rewrite csv_host_fields; auto; [|right; eauto]. do 2 f_equal.
  change (csv_host o (lr_v6 (r_res r))) with ("" ++ csv_host o (lr_v6 (r_res r)))%string. rewrite <- (str_app_nil (csv_host o (lr_v6 (r_res r)))). rewrite csv_host_fields; auto. cbn. apply app_nil_r.
Qed.
Lemma c59_nine o q r : o_fmt o = Csv -> plain_ntop o -> all_chars no_tab q = true -> (String.length q <= 700)%nat -> r_code r <> RcResult -> fields (format o q (Some r)) = (result_cells o q (Some r) ++ [""])%list.
Proof.
  intros Fo P Q L R. unfold format. rewrite Fo. rewrite str_take_all by (pose proof (csv_len o q (Some r) P); unfold G_BUF; lia). unfold csv_text, result_cells.
  assert (D : all_chars no_tab (dec (lr_age (r_res r))) = true) by (eapply all_impl; [|apply dec_chars]; exact digit_no_tab).
  rewrite !fields_cons; auto; [|destruct (r_last r); reflexivity|destruct (r_code r); reflexivity]. cbn [app]. do 3 f_equal.
  destruct (r_code r); try contradiction; change (tabs 5) with (TAB ++ tabs 4)%string; rewrite fields_cons by auto; reflexivity.
Qed.
(** ** JSON *)
Lemma json_host_len o n h : plain_ntop o -> (String.length (json_host o n h) <= String.length n + 71)%nat.
Proof. intros P. unfold json_host, quoted. destruct (nonzero h) as [[a p]|]; [|cbn; lia]. rewrite !str_length_app. destruct (P a) as [_ L]. pose proof (dec_len p). cbn [String.length QT]. lia. Qed.
Lemma json_len o q r : plain_ntop o -> (String.length (json_text o q r) <= String.length q + 250)%nat.
Proof.
  intros P. unfold json_text, quoted. rewrite !str_length_app. destruct r as [r|]; [|cbn [String.length append QT]; lia]. rewrite !str_length_app. pose proof (dec_len (lr_age (r_res r))).
  assert (String.length (code_name (r_code r)) <= 9)%nat by (destruct (r_code r); cbn; lia). assert (String.length (if r_last r then "true" else "false") <= 5)%nat by (destruct (r_last r); cbn; lia).
  assert (String.length (match r_code r with RcResult => json_host o "v4" (lr_v4 (r_res r)) ++ json_host o "v6" (lr_v6 (r_res r)) | _ => "" end) <= 146)%nat.
  { destruct (r_code r); try (cbn; lia). rewrite str_length_app. pose proof (json_host_len o "v4" (lr_v4 (r_res r)) P). pose proof (json_host_len o "v6" (lr_v6 (r_res r)) P). cbn [String.length] in *. lia. }
  cbn [String.length QT]. lia.
Qed.
(** the text of members after the first *)
Definition jtext (v : jval) : string :=
  match v with
  | JStr s => quoted s
  | JNum n => dec n
  | JBool b => if b then "true" else "false"
  | JArr l => "[" ++ String.concat ", " (map quoted l) ++ "]"
  end.
Definition jok (v : jval) : Prop :=
  match v with JStr s => all_chars literal s = true | JNum n => n < 4294967296 | JBool _ => True | JArr l => l <> [] /\ Forall (fun s => all_chars literal s = true) l end.
Fixpoint mtext (l : list (string * jval)) : string := match l with [] => "}" | (x, v) :: r => ", " ++ quoted x ++ ": " ++ jtext v ++ mtext r end.
Lemma read_strings_text l : l <> [] -> Forall (fun s => all_chars literal s = true) l -> forall f r, (length l <= f)%nat -> read_strings f (String.concat ", " (map quoted l) ++ "]" ++ r) = Some (l, r).
Proof.
  induction l as [|x l IH]; intros Ne F f r L; [contradiction|]. inversion F as [|? ? F1 F2]; subst. destruct f as [|f]; [cbn in L; lia|]. cbn in L. cbn [read_strings]. destruct l as [|y l].
  - cbn [map String.concat]. rewrite read_string_lit by auto. change ("]" ++ r)%string with (String "]" r). cbn [strip]. destruct r; reflexivity.
  - change (String.concat ", " (map quoted (x :: y :: l))) with (quoted x ++ ", " ++ String.concat ", " (map quoted (y :: l)))%string. rewrite <- !str_app_assoc. rewrite read_string_lit by auto. change (strip "]" (", " ++ String.concat ", " (map quoted (y :: l)) ++ "]" ++ r)) with (@None string). rewrite strip_app. rewrite IH; auto; [discriminate|lia].
Qed.
Lemma concat_len l : (length l <= String.length (String.concat ", " (map quoted l)))%nat.
Proof.
  induction l as [|x l IH]; auto. destruct l as [|y l]; [cbn; lia|]. change (String.concat ", " (map quoted (x :: y :: l))) with (quoted x ++ ", " ++ String.concat ", " (map quoted (y :: l)))%string. rewrite !str_length_app. assert (2 <= String.length (quoted x))%nat by (unfold quoted; rewrite !str_length_app; cbn [String.length QT]; lia). cbn [length String.length] in *. lia.
Qed.
Lemma read_value_text v r : jok v -> (forall c t, r = String c t -> is_digit c = false) -> read_value (jtext v ++ r) = Some (v, r).
Proof.
  intros J R. destruct v as [s|n|b|l]; cbn [jtext jok] in *.
  - pose proof (read_string_lit s r J) as E. unfold quoted in *. change (read_value ((QT ++ s ++ QT) ++ r)) with (match read_string ((QT ++ s ++ QT) ++ r) with Some (x, r) => Some (JStr x, r) | None => None end). rewrite E. reflexivity.
  - assert (X : read_digits 0 (dec n ++ r) = (n, r)).
    { unfold dec. rewrite read_digits_dec; [|change (10 ^ N.of_nat 10) with 10000000000; lia|lia]. destruct r as [|c t]; auto. cbn [read_digits]. rewrite (R c t eq_refl). auto. }
    destruct (dec_head n) as (c & t & E & D). rewrite E in *. cbn [append] in *. cbn [read_value]. destruct (Ascii.eqb_spec c "034"%char) as [->|_]; [discriminate|]. rewrite D. rewrite X. reflexivity.
  - destruct b; cbn [append]; unfold read_value; cbn; destruct r; reflexivity.
  - destruct J as [Ne F]. rewrite <- !str_app_assoc. cbn [append read_value]. change (("[" =? "034")%char) with false. change (is_digit "[") with false. change (("[" =? "[")%char) with true. cbv iota.
    change (String "]" r) with ("]" ++ r)%string. rewrite read_strings_text; auto. rewrite !str_length_app. pose proof (concat_len l). lia.
Qed.
Lemma mtext_head l : forall c t, mtext l = String c t -> is_digit c = false.
Proof. destruct l as [|[x v] l]; cbn; intros c t E; injection E as <- _; reflexivity. Qed.
Lemma read_members_text l : forall x v f, Forall (fun m => all_chars literal (fst m) = true /\ jok (snd m)) ((x, v) :: l) -> (length l < f)%nat -> read_members f (quoted x ++ ": " ++ jtext v ++ mtext l) = Some ((x, v) :: l).
Proof.
  induction l as [|[y w] l IH]; intros x v f F L; inversion F as [|? ? [F1 F2] F3]; subst; cbn [fst snd] in *; (destruct f as [|f]; [cbn in L; lia|]); cbn [read_members]; rewrite read_string_lit by auto; rewrite strip_app; rewrite read_value_text by (auto; apply mtext_head).
  - cbn [mtext]. reflexivity.
  - cbn [mtext]. change ((", " ++ quoted y ++ ": " ++ jtext w ++ mtext l =? "}")%string) with false. cbv iota. rewrite strip_app. rewrite IH; auto. cbn in L. lia.
Qed.
Lemma mtext_len l : (length l < String.length (mtext l))%nat.
Proof. induction l as [|[x v] l IH]; cbn [mtext length]; [cbn; lia|]. rewrite !str_length_app. cbn [String.length]. lia. Qed.
Lemma json_host_text o n h : json_host o n h = match told_host o h with [] => "" | l => (", " ++ quoted n ++ ": " ++ jtext (JArr l))%string end.
Proof. unfold json_host, told_host. destruct (nonzero h) as [[a p]|]; auto. cbn [jtext map String.concat]. rewrite <- !str_app_assoc. reflexivity. Qed.
Lemma json_mtext o q r : json_text o q r = ("{" ++ quoted "query" ++ ": " ++ jtext (JStr q) ++ mtext (tl (members o q r)))%string.
Proof.
  unfold json_text, members. destruct r as [r|]; cbn [tl app mtext jtext].
  - assert (H : (match r_code r with RcResult => json_host o "v4" (lr_v4 (r_res r)) ++ json_host o "v6" (lr_v6 (r_res r)) | _ => "" end ++ "}" =
                 mtext (match r_code r with RcResult => match told_host o (lr_v4 (r_res r)) with [] => [] | l => [("v4", JArr l)] end ++ match told_host o (lr_v6 (r_res r)) with [] => [] | l => [("v6", JArr l)] end | _ => [] end)%list)%string).
    { destruct (r_code r); auto. rewrite !json_host_text. destruct (told_host o (lr_v4 (r_res r))) as [|a l]; destruct (told_host o (lr_v6 (r_res r))) as [|a' l']; cbn [app mtext]; rewrite <- ?str_app_assoc; reflexivity. }
    rewrite <- H. rewrite <- ?str_app_assoc. reflexivity.
  - rewrite <- ?str_app_assoc. reflexivity.
Qed.
Lemma told_host_ok o h : plain_ntop o -> Forall (fun s => all_chars literal s = true) (told_host o h).
Proof.
  intros P. unfold told_host. destruct (nonzero h) as [[a p]|]; auto. constructor; [|constructor; auto]; (eapply all_impl; [|first [apply dec_chars|apply (proj1 (P a))]]); [exact address_literal|exact digit_literal].
Qed.
Lemma c59_json o q r : o_fmt o = Json -> plain_ntop o -> all_chars literal q = true -> (String.length q <= 700)%nat -> match r with Some r => lr_age (r_res r) < 4294967296 | None => True end ->
  read_json (format o q r) = Some (members o q r).
Proof.
  intros Fo P Q L A. unfold format. rewrite Fo. rewrite str_take_all by (pose proof (json_len o q r P); unfold G_BUF; lia). rewrite json_mtext. unfold read_json. rewrite strip_app.
  assert (E : members o q r = ("query", JStr q) :: tl (members o q r)) by (unfold members; reflexivity). rewrite E at 3.
  apply read_members_text; [|rewrite !str_length_app; pose proof (mtext_len (tl (members o q r))); lia].
  constructor; [cbn; auto|]. unfold members. cbn [tl]. destruct r as [r|]; [|repeat constructor].
  constructor; [split; auto; destruct (r_code r); reflexivity|]. constructor; [cbn; auto|]. constructor; [cbn; auto|]. destruct (r_code r); auto.
  pose proof (told_host_ok o (lr_v4 (r_res r)) P) as H4. pose proof (told_host_ok o (lr_v6 (r_res r)) P) as H6.
  apply Forall_app. split; [destruct (told_host o (lr_v4 (r_res r)))|destruct (told_host o (lr_v6 (r_res r)))]; auto; (constructor; auto; split; auto; split; [discriminate|auto]).
Qed.
