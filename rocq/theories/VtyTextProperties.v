(** C73 (the texts about a subscriber on the VTY and the control interface): theorems and cases. *)
From Verif Require Import Base PeerId Db DbSpec DbThms Auth Mdns Proxy Gsup Router Hlr Ctrl CtrlSpec CtrlThms VtySubscr VtySpec VtyThms VtyList VtyListSpec VtyListThms VtyText VtyTextSpec VtyTextThms2 VtyTextThms3 VtyTextThms4 VtyTextThms5 VtyTextThms6 VtyTextThms7 VtyTextThms8 NitbSpec.
Local Open Scope string_scope. Local Open Scope list_scope. Local Open Scope Z_scope.

(** ** The cases *)
(** a subscriber of tests/test_subscriber.vty, and the same with more about it; the time is 2026-11-16T20:00:00 in UTC *)
Definition ex_now : Z := 1794859200.
Definition ex_plain : sub_row := mk_sub 101 "123456789023000" (Some "423") None None None true true false false None None None None.
Definition ex_more : sub_row := mk_sub 101 "123456789023000" None (Some "35685103101010") (Some "vlr-1") (Some "sgsn") true false true false (Some 1709210096) (Some 1794859199) None None.
Definition ex_ki : list N := [222; 175; 15; 241; 206; 208; 208; 218; 187; 237; 209; 206; 209; 206; 240; 13]%N.
Definition ex_k : list N := [0; 1; 2; 3; 4; 5; 6; 7; 8; 9; 10; 11; 12; 13; 14; 15]%N.
Definition ex_opc : list N := [16; 17; 18; 19; 20; 21; 22; 23; 24; 25; 26; 27; 28; 29; 30; 31]%N.
Definition ex_a2 : aud2 := mk_aud2 6 ex_ki.
Definition ex_a3 : aud3 := mk_aud3 5 ex_k ex_opc false 4223 5 0 true.
Definition ex_lines (tz now : Z) (r : sub_row) (k : option (option aud2 * option aud3)) : mres (list string) :=
  match sub_of_row tz r with Some h => full_lines tz now h k | None => Bad end.

(** ** All about a subscriber *)
(** The lines are those of the facts stored about the subscriber: each once, and nothing else. The date is that of the time less the offset
    of the time zone, see C73_date_refuted. Missing: names with line feeds, see C73_newline_refuted. *)
Theorem C73_full_partial tz now r h keys : sub_of_row tz r = Some h -> row_ok tz now r -> keys_ok keys ->
  exists facts parts ls, full_lines tz now h keys = Val ls /\ NoDup facts /\ (forall f, In f facts <-> stored r keys f) /\ Forall2 (prints tz now) facts parts /\ ls = concat parts.
Proof.
  intros E R K. destruct (full_lines_ok tz now r keys h E R K) as (ls & L & (cs & F & C)). exists (concat (parts r keys)), cs, ls. split; [exact L|].
  split; [exact (proj1 (ranked_nodup _ _ (parts_ranked r keys)))|]. split; [intros f; apply in_parts|]. split; assumption.
Qed.
Print Assumptions C73_full_partial.
(** Two subscribers of whom different things are stored are not shown alike, on a console or over Telnet. *)
Theorem C73_apart_partial tz now r keys h ls r' keys' h' ls' nl : row_ok tz now r -> keys_ok keys -> row_ok tz now r' -> keys_ok keys' ->
  sub_of_row tz r = Some h -> sub_of_row tz r' = Some h' -> full_lines tz now h keys = Val ls -> full_lines tz now h' keys' = Val ls' ->
  In nl [String (ascii_of_N 10) ""; String (ascii_of_N 13) (String (ascii_of_N 10) "")] -> vty_text nl ls = vty_text nl ls' -> forall f, stored r keys f <-> stored r' keys' f.
Proof. exact (apart tz now r keys h ls r' keys' h' ls' nl). Qed.
Print Assumptions C73_apart_partial.
Lemma digits_ok s : str_forall is_digit s = true -> only_digits s.
Proof.
  induction s as [|c s IH]; intros H n x G; [destruct n; discriminate|]. cbn in H. apply andb_true_iff in H as [A B]. destruct n as [|n]; [|exact (IH B n x G)]. cbn in G. assert (x = c) as -> by congruence. clear G IH B.
  unfold is_digit, acode in A. apply andb_true_iff in A as [A B]. apply N.leb_le in A, B. exists (Z.of_N (N_of_ascii c) - 48). split; [lia|]. replace (Z.to_N (48 + (Z.of_N (N_of_ascii c) - 48))) with (N_of_ascii c) by lia. now rewrite ascii_N_embedding.
Qed.
Lemma name_case s : free lf s = true -> s <> "" -> (String.length s <= 31)%nat -> name_ok s.
Proof. intros F N L. split; [exact N|]. split; [exact L|]. exact (proj1 (free_get lf s) F). Qed.
Lemma number_case s : str_forall is_digit s = true -> s <> "" -> (String.length s <= 15)%nat -> number_ok s.
Proof. intros F N L. split; [exact N|]. split; [exact L|]. now apply digits_ok. Qed.
Example C73_rows_case : row_ok 0 ex_now ex_plain /\ row_ok 0 ex_now ex_more /\ row_ok 3600 ex_now ex_more /\ keys_ok (Some (Some ex_a2, Some ex_a3)).
Proof.
  assert (O : forall l, forallb (fun b => (b <? 256)%N) l = true -> octets l) by (intros l H; apply Forall_forall; intros b I; rewrite forallb_forall in H; apply N.ltb_lt, (H b I)).
  assert (M : number_ok "123456789023000") by (apply number_case; [reflexivity|discriminate|cbn; lia]).
  assert (Z : forall tz, tz = 0 \/ tz = 3600 -> row_ok tz ex_now ex_more).
  { intros tz T. split; [cbn; lia|]. split; [exact M|]. split; [intros x E; discriminate|]. split; [intros x E; injection E as <-; apply is_imei14_digits; split; reflexivity|].
    split; [intros x E; injection E as <-; apply name_case; [reflexivity|discriminate|cbn; lia]|]. split; [intros x E; injection E as <-; apply name_case; [reflexivity|discriminate|cbn; lia]|].
    unfold ex_now. split; intros x E; injection E as <-; split; lia. }
  split; [|split; [apply Z; auto|split; [apply Z; auto|]]].
  - split; [cbn; lia|]. split; [exact M|]. split; [intros x E; injection E as <-; apply number_case; [reflexivity|discriminate|cbn; lia]|]. repeat (split; [intros x E; discriminate|]). intros x E; discriminate.
  - intros x E. injection E as <-. split; intros y E; injection E as <-.
    + split; [eexists; constructor|now apply O].
    + split; [eexists; constructor|]. split; [now apply O|]. split; [now apply O|]. cbn. lia.
Qed.
Example C73_full_case :
  ex_lines 0 ex_now ex_plain (Some (Some ex_a2, None)) = Val ["    ID: 101"; "    IMSI: 123456789023000"; "    MSISDN: 423"; "    2G auth: XOR-2G"; "             KI=deaf0ff1ced0d0dabbedd1ced1cef00d"] /\
  ex_lines 0 ex_now ex_more (Some (None, Some ex_a3)) = Val ["    ID: 101"; "    IMSI: 123456789023000"; "    MSISDN: none"; "    IMEI: 356851031010107"; "    VLR number: vlr-1"; "    SGSN number: sgsn";
    "    CS purged"; "    PS disabled"; "    last LU seen on CS: 2024-02-29T12:34:56+00:00 (991d7h25m4s ago)"; "    last LU seen on PS: 2026-11-16T19:59:59+00:00 (1s ago)";
    "    3G auth: MILENAGE"; "             K=000102030405060708090a0b0c0d0e0f"; "             OPC=101112131415161718191a1b1c1d1e1f"; "             IND-bitlen=5 last-SQN=4223"] /\
  ex_lines 0 ex_now ex_plain None = Val ["    ID: 101"; "    IMSI: 123456789023000"; "    MSISDN: 423"; "% Error retrieving data from database (-5)"].
Proof. repeat split; vm_compute; reflexivity. Qed.

(** ** Dates *)
(** The date is the one of the calendar, with all its leap years, and fits the buffer of 32 octets; there is one for every time from 1970 to a year beyond 2147000000. *)
Theorem C73_date t : (forall x, date_text t = Val x -> date_of t x /\ (String.length x < 32)%nat) /\ (0 <= t < 67767976233532800 -> exists x, date_text t = Val x).
Proof. split; [intros x E; destruct (date_text_is t x E); split; [assumption|lia]|apply date_text_some]. Qed.
Print Assumptions C73_date.
(** Different times have different dates. *)
Theorem C73_date_inj t t' x : date_of t x -> date_of t' x -> t = t'.
Proof. apply date_of_inj. Qed.
Print Assumptions C73_date_inj.
Example C73_date_case : date_text 0 = Val "1970-01-01T00:00:00+00:00" /\ date_text 951782399 = Val "2000-02-28T23:59:59+00:00" /\ date_text 951782400 = Val "2000-02-29T00:00:00+00:00" /\
  date_text 4107542400 = Val "2100-03-01T00:00:00+00:00" /\ date_text 4107542399 = Val "2100-02-28T23:59:59+00:00" /\ date_text 253402300800 = Val "10000-01-01T00:00:00+00:00".
Proof. repeat split; vm_compute; reflexivity. Qed.
(** It is not the date of the event unless the time zone is UTC: one hour east of Greenwich it is an hour early, though it says "+00:00". *)
Theorem C73_date_refuted : exists tz now r h ls line x, row_ok tz now r /\ s_lu_cs r = Some now /\ sub_of_row tz r = Some h /\ full_lines tz now h (Some (None, None)) = Val ls /\
  In line ls /\ line = ("    last LU seen on CS: " ++ x ++ " ( ago)")%string /\ date_of (now - 3600) x /\ ~ date_of now x.
Proof.
  set (r := mk_sub 101 "123456789023000" (Some "423") None None None true true false false (Some ex_now) None None None).
  assert (D : date_of (ex_now - 3600) "2026-11-16T19:00:00+00:00") by (apply date_text_is; vm_compute; reflexivity).
  exists 3600, ex_now, r. do 2 eexists. exists "    last LU seen on CS: 2026-11-16T19:00:00+00:00 ( ago)", "2026-11-16T19:00:00+00:00".
  split; [|split; [reflexivity|split; [reflexivity|split; [vm_compute; reflexivity|split; [cbn; auto|split; [reflexivity|split; [exact D|]]]]]]].
  - destruct C73_rows_case as [(A & B & C & _) _]. split; [exact A|]. split; [exact B|]. split; [exact C|]. repeat (split; [intros x E; discriminate|]).
    split; [intros x E; injection E as <-; unfold ex_now; split; lia|intros x E; discriminate].
  - intros D'. pose proof (date_of_inj _ _ _ D D') as X. unfold ex_now in X. lia.
Qed.
Print Assumptions C73_date_refuted.
(** Of less than a second no number is shown, just " ( ago)". *)
Theorem C73_ago_refuted tz t : t <> tz -> last_seen tz t (t - tz) = Val " ( ago)".
Proof. intros N. unfold last_seen, timestamp_now, timestamp_age. destruct (Z.eqb_spec (t - tz) 0); [lia|]. rewrite Z.sub_diag. reflexivity. Qed.
Print Assumptions C73_ago_refuted.

(** ** Line feeds *)
(** A peer that gives itself a name with a line feed can have a subscriber shown as purged who is not. *)
Theorem C73_newline_refuted : exists tz now r r' h h' ls ls', s_purged_cs r = false /\ s_purged_cs r' = true /\ (forall s, s_vlr r = Some s -> (String.length s <= 31)%nat) /\
  sub_of_row tz r = Some h /\ sub_of_row tz r' = Some h' /\ full_lines tz now h (Some (None, None)) = Val ls /\ full_lines tz now h' (Some (None, None)) = Val ls' /\
  let nl := String (ascii_of_N 13) (String (ascii_of_N 10) "") in vty_text nl ls = vty_text nl ls'.
Proof.
  set (nl := String (ascii_of_N 13) (String (ascii_of_N 10) "")).
  set (r v p := mk_sub 101 "123456789023000" (Some "423") None (Some v) None true true p false None None None None).
  exists 0, ex_now, (r ("vlr" ++ nl ++ "    CS purged")%string false), (r "vlr" true). do 4 eexists. split; [reflexivity|]. split; [reflexivity|]. split; [intros s E; injection E as <-; cbn; lia|].
  split; [reflexivity|]. split; [reflexivity|]. split; [vm_compute; reflexivity|]. split; vm_compute; reflexivity.
Qed.
Print Assumptions C73_newline_refuted.

(** ** The control interface *)
(** An info text is made of lines, each a name, a tab and a value. No name is there twice, each line tells the truth, and all that is known is told. *)
Theorem C73_info_partial tz now r h a2 a3 : on_opt (row_ok tz now) r -> match r with Some x => exists y, h = Some y /\ sub_of_row tz x = Some y | None => h = None end ->
  on_opt aud2_ok a2 -> on_opt aud3_ok a3 -> (r <> None \/ a2 <> None \/ a3 <> None) ->
  exists text pairs, info_text h a2 a3 = Some text /\ text_lines text (map entry pairs) /\ NoDup (map fst pairs) /\
    (forall n v, In (n, v) pairs -> tells r a2 a3 n v) /\ (forall n v, tells r a2 a3 n v -> In n (map fst pairs)).
Proof.
  intros R H A B NE. destruct (info_ok tz now r h a2 a3 R H A B) as (text & E & T).
  { destruct r as [x|]; [discriminate|]. destruct a2; [discriminate|]. destruct a3; [discriminate|]. destruct NE as [X|[X|X]]; now destruct X. }
  exists text, (pairs r a2 a3). split; [exact E|]. split; [exact T|]. split; [apply pairs_nodup|]. split; [intros n v I; apply (pairs_tell tz now r a2 a3 n v R A B I)|intros n v; apply tells_named].
Qed.
Print Assumptions C73_info_partial.
(** If there is nothing to tell, there is no text; what is answered then is left to libosmocore. *)
Theorem C73_info_none h a2 a3 : info_text h a2 a3 = None <-> h = None /\ a2 = None /\ a3 = None.
Proof. destruct h, a2, a3; cbn; split; try discriminate; try (intros (? & ? & ?); discriminate); auto. Qed.
Print Assumptions C73_info_none.
Definition ex_info (r : option sub_row) (a2 : option aud2) (a3 : option aud3) : option string := info_text (match r with Some r => sub_of_row 0 r | None => None end) a2 a3.
Example C73_info_case :
  ex_info (Some (mk_sub 1 "901990000000001" (Some "1") None None None true true false false None None None None)) None None = Some "
id	1
imsi	901990000000001
msisdn	1
nam_cs	1
nam_ps	1
ms_purged_cs	0
ms_purged_ps	0
periodic_lu_timer	0
periodic_rau_tau_timer	0
lmsi	00000000" /\
  ex_info None (Some (mk_aud2 1 ex_k)) (Some ex_a3) = Some "
aud2g.algo	COMP128v1
aud2g.ki	000102030405060708090a0b0c0d0e0f
aud3g.algo	MILENAGE
aud3g.k	000102030405060708090a0b0c0d0e0f
aud3g.opc	101112131415161718191a1b1c1d1e1f
aud3g.ind_bitlen	5
aud3g.sqn	4223" /\
  ex_info None None None = None.
Proof. repeat split; vm_compute; reflexivity. Qed.

(** ** Lists *)
(** The words of a line are the number, the MSISDN, the IMSI, the IMEI, the access, and those of the age. *)
Theorem C73_words tz now ls r : row_ok tz now r -> exists t id im a age, list_line tz now (lsub_of_row tz ls r) = Val t /\ numeral id (s_id r) /\ imei_word (s_imei r) im /\
  age_part now ls r a /\ words a age /\ words t ([id; or_word (s_msisdn r); s_imsi r; im] ++ access (s_nam_cs r) (s_nam_ps r) ++ age).
Proof. exact (line_words tz now ls r). Qed.
Print Assumptions C73_words.
(** They stand below their titles: for numbers of up to five digits and MSISDN of up to twelve. Missing: others, see C73_columns_refuted. *)
Theorem C73_columns_partial tz now ls r : row_ok tz now r -> s_id r < 100000 -> (String.length (or_word (s_msisdn r)) <= 12)%nat ->
  exists t id im a p, list_line tz now (lsub_of_row tz ls r) = Val t /\ numeral id (s_id r) /\ imei_word (s_imei r) im /\ age_part now ls r a /\
    column t 0 id /\ column t 7 (or_word (s_msisdn r)) /\ column t 21 (s_imsi r) /\ column t (match s_imei r with Some _ => 39 | None => 40 end) im /\
    (forall w, access (s_nam_cs r) (s_nam_ps r) = [w] -> column t (if s_nam_cs r then 57 else 59) w) /\ t = (p ++ a)%string /\ String.length p = 63%nat.
Proof. exact (line_columns tz now ls r). Qed.
Print Assumptions C73_columns_partial.
(** the titles; they are above and below the lines *)
Theorem C73_titles ls : exists t rule, head_lines true ls = [t; rule] /\ head_lines false ls = [rule; t] /\
  column t 0 "ID" /\ column t 7 "MSISDN" /\ column t 21 "IMSI" /\ column t 39 "IMEI" /\ column t 57 "NAM" /\ (if ls : bool then column t 64 "LAST SEEN" else String.length t = 60%nat) /\
  (forall n c, String.get n rule = Some c -> c = "-"%char \/ c = " "%char).
Proof.
  assert (R : forall s, str_forall (fun c => (c =? "-")%char || (c =? " ")%char) s = true -> forall n c, String.get n s = Some c -> c = "-"%char \/ c = " "%char).
  { induction s as [|x s IH]; intros H n c G; [destruct n; discriminate|]. cbn in H. apply andb_true_iff in H as [A B]. destruct n as [|n]; [|exact (IH B n c G)]. cbn in G. assert (x = c) as -> by congruence.
    apply orb_true_iff in A as [A|A]; apply Ascii.eqb_eq in A; auto. }
  do 2 eexists. split; [reflexivity|]. split; [reflexivity|].
  destruct ls.
  - split; [exists "", "     MSISDN        IMSI              IMEI              NAM    LAST SEEN"; eauto|].
    split; [exists "ID     ", "        IMSI              IMEI              NAM    LAST SEEN"; eauto|].
    split; [exists "ID     MSISDN        ", "              IMEI              NAM    LAST SEEN"; eauto|].
    split; [exists "ID     MSISDN        IMSI              ", "              NAM    LAST SEEN"; eauto|].
    split; [exists "ID     MSISDN        IMSI              IMEI              ", "    LAST SEEN"; eauto|].
    split; [exists "ID     MSISDN        IMSI              IMEI              NAM    ", ""; auto|]. apply R. reflexivity.
  - split; [exists "", "     MSISDN        IMSI              IMEI              NAM"; eauto|].
    split; [exists "ID     ", "        IMSI              IMEI              NAM"; eauto|].
    split; [exists "ID     MSISDN        ", "              IMEI              NAM"; eauto|].
    split; [exists "ID     MSISDN        IMSI              ", "              NAM"; eauto|].
    split; [exists "ID     MSISDN        IMSI              IMEI              ", ""; auto|].
    split; [reflexivity|]. apply R. reflexivity.
Qed.
Print Assumptions C73_titles.
Example C73_columns_case :
  list_line 0 ex_now (lsub_of_row 0 true ex_more) = Val "101    none          123456789023000   356851031010107   CS     (991d7h25m4s ago)" /\
  list_line 0 ex_now (lsub_of_row 0 true ex_plain) = Val "101    423           123456789023000    -------------    CSPS  " /\
  head_lines true true = ["ID     MSISDN        IMSI              IMEI              NAM    LAST SEEN"; "-----  ------------  ----------------  ----------------  -----  ------------"].
Proof. repeat split; vm_compute; reflexivity. Qed.
(** An MSISDN of 13 digits, which is valid, moves all that follows. *)
Theorem C73_columns_refuted : exists tz now r t, row_ok tz now r /\ list_line tz now (lsub_of_row tz true r) = Val t /\ column t 22 (s_imsi r) /\ ~ column t 21 (s_imsi r).
Proof.
  exists 0, ex_now, (mk_sub 101 "123456789023000" (Some "4915123456789") None None None true true false false None None None None). eexists. split; [|split; [vm_compute; reflexivity|]].
  - destruct C73_rows_case as [(A & B & _) _]. split; [exact A|]. split; [exact B|]. split; [intros x E; injection E as <-; apply number_case; [reflexivity|discriminate|cbn; lia]|]. repeat (split; [intros x E; discriminate|]). intros x E; discriminate.
  - split; [exists "101    4915123456789  "; eexists; split; [reflexivity|split; [reflexivity|right; eexists; reflexivity]]|].
    intros (a & b & E & L & _). do 21 (destruct a as [|? a]; [discriminate L|]; cbn in L, E; injection L as L; injection E as _ E). destruct a; [|discriminate L]. cbn in E. discriminate E.
Qed.
Print Assumptions C73_columns_refuted.

(** The IMEI column may hold any text in a database that another program has written. The line and the
    cell show the text with the check digit of its first 14 digits, if it has that many, or say that it
    is invalid. *)
Theorem C73_imei s :
  (forall a, imei_part s a -> exists x, checked a x /\ imei_line s = ("    IMEI: " ++ s ++ String x "")%string) /\
  ((forall a, ~ imei_part s a) -> imei_line s = ("    IMEI: " ++ s ++ " (INVALID LENGTH!)")%string).
Proof. exact (c73_imei s). Qed.
Print Assumptions C73_imei.
Theorem C73_imei_cell s : s <> ""%string ->
  (forall a, imei_part s a -> exists x, checked a x /\ imei_cell s = ("  " ++ s ++ String x "")%string) /\
  ((forall a, ~ imei_part s a) -> exists p, (forall i c, String.get i p = Some c -> c = " "%char) /\ String.length p = (14 - String.length s)%nat /\
     imei_cell s = ("  " ++ s ++ p ++ " (INVALID LENGTH!)")%string).
Proof. exact (c73_imei_cell s). Qed.
Print Assumptions C73_imei_cell.
Example C73_imei_case : imei_line "35685103101010" = "    IMEI: 356851031010107" /\ imei_line "356851031010107" = "    IMEI: 3568510310101077" /\
  imei_line "3568510" = "    IMEI: 3568510 (INVALID LENGTH!)" /\ imei_cell "3568510" = "  3568510        (INVALID LENGTH!)" /\
  imei_cell "356851031010107" = "  3568510310101077".
Proof. vm_compute. auto. Qed.
