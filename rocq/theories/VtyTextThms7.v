(** Proofs about the lines of the lists. *)
From Verif Require Import Base PeerId Db DbSpec DbThms Auth Mdns Proxy Gsup Router Hlr Ctrl CtrlSpec CtrlThms VtySubscr VtySpec VtyThms VtyList VtyListSpec VtyListThms VtyText VtyTextSpec NitbThms2 VtyTextThms VtyTextThms2 VtyTextThms3 VtyTextThms4 VtyTextThms5.

(** ** Words *)
Definition spaces (n : nat) : string := string_of_list_ascii (repeat " "%char n).
Lemma pad_spaces n t : pad n t = (t ++ spaces (n - String.length t))%string.
Proof. reflexivity. Qed.
Lemma words_spaces n s l : words s l -> words (spaces n ++ s) l.
Proof. intros H. induction n as [|n IH]; [exact H|]. cbn. now constructor. Qed.
Lemma words_word w s l : w <> ""%string -> free " " w = true -> words (String " " s) l -> words (w ++ String " " s) (w :: l).
Proof.
  intros N F H. constructor; [exact N|now apply (proj1 (free_get _ _))|]. inversion H; subst; auto.
  - exfalso. match goal with P : forall n c, String.get n (String " " s) = Some c -> _ |- _ => exact (P 0%nat _ eq_refl eq_refl) end.
  - exfalso. destruct w0 as [|c w0]; [now destruct H1|]. match goal with E : (String c w0 ++ _)%string = _ |- _ => cbn in E; injection E as -> E end.
    match goal with P : forall n c, String.get n (String " " w0) = Some c -> _ |- _ => exact (P 0%nat _ eq_refl eq_refl) end.
Qed.
Lemma words_pad n w s l : w <> ""%string -> free " " w = true -> words (String " " s) l -> words (pad n w ++ String " " s) (w :: l).
Proof.
  intros N F H. rewrite pad_spaces, <- str_app_assoc. destruct (n - String.length w)%nat as [|k]; [now apply words_word|]. cbn. apply words_word; auto. constructor. now apply words_spaces.
Qed.
Lemma numeral_ne t n : numeral t n -> t <> ""%string.
Proof. intros H. now apply numeral_digits in H. Qed.
Lemma words_age now t a : age_shown now t a -> exists l, words a l.
Proof.
  intros [A B].
  assert (I : words " (invalid timestamp)" ["(invalid"; "timestamp)"]%string).
  { constructor. apply (wd_word "(invalid" "timestamp)"); [discriminate|apply (proj1 (free_get _ _)); reflexivity|]. apply wd_last; [discriminate|apply (proj1 (free_get _ _)); reflexivity]. }
  destruct (Z_le_dec 0 (now - t)) as [L|L]; [|rewrite B by lia; eauto].
  destruct (Z_le_dec (now - t) 4294967295) as [M|M]; [|rewrite B by lia; eauto]. destruct A as (x & -> & D); [lia|].
  exists [("(" ++ x)%string; "ago)"%string]. cbn [append]. constructor. change (String "(" (x ++ " ago)"))%string with (("(" ++ x) ++ String " " "ago)")%string. apply wd_word; [discriminate| |].
  - apply (proj1 (free_get _ _)). exact (duration_free " " _ _ D eq_refl eq_refl).
  - apply wd_last; [discriminate|apply (proj1 (free_get _ _)); reflexivity].
Qed.
Lemma words_access (cs ps : bool) a l : words a l -> (a = ""%string \/ exists b, a = String " " b) -> words ("   " ++ pad 2 (if cs then "CS" else "")%string ++ pad 2 (if ps then "PS" else "")%string ++ "  " ++ a)%string (access cs ps ++ l).
Proof.
  intros W _. destruct cs, ps; unfold access; cbn [app]; do 3 apply wd_space.
  - apply (wd_word "CSPS" (String " " a)); [discriminate|apply (proj1 (free_get _ _)); reflexivity|]. now constructor.
  - apply (wd_word "CS" (String " " (String " " (String " " a)))); [discriminate|apply (proj1 (free_get _ _)); reflexivity|]. now repeat apply wd_space.
  - do 2 apply wd_space. apply (wd_word "PS" (String " " a)); [discriminate|apply (proj1 (free_get _ _)); reflexivity|]. now constructor.
  - now do 6 apply wd_space.
Qed.
Lemma imei_cell_is o : on_opt is_imei14 o -> exists w a b, imei_word o w /\ imei_cell (text_to_buf 16 o) = (a ++ w ++ b)%string /\ w <> ""%string /\ free " " w = true /\
  (a = "  " /\ b = "" /\ String.length w = 15%nat \/ a = "   " /\ b = " " /\ w = "-------------")%string.
Proof.
  intros H. destruct o as [s|]; [|exists "-------------"%string, "   "%string, " "%string; repeat split; auto; discriminate].
  specialize (H s eq_refl). pose proof (proj1 (is_imei14_digits s) H) as [L D]. rewrite buf_some by lia. unfold imei_cell. rewrite filled_some by (intros ->; discriminate).
  unfold luhn14. rewrite str_take_all by lia. unfold is_n_digits. rewrite L, D. cbn [andb Nat.leb].
  exists (s ++ String (luhn s) "")%string, "  "%string, ""%string. assert (C : checked s (luhn s)) by (apply check_luhn; [exact H|apply luhn_digit|apply Ascii.eqb_refl]).
  split; [exists (luhn s); auto|]. split; [unfold pad; rewrite L, !str_app_nil; reflexivity|]. split; [destruct s; discriminate|].
  split; [|left; rewrite str_len_app, L; auto]. rewrite free_app, (only_digits_free " " s (imei_digits s H) eq_refl). destruct C as [_ (l & n & _ & X & _)]. unfold free. cbn [str_forall]. now rewrite (digit_free " " _ _ X eq_refl).
Qed.
(** ** Lines *)
Lemma or_none_word n o : on_opt (fun s => s <> ""%string /\ (String.length s <= n - 1)%nat) o -> or_none (text_to_buf n o) = or_word o.
Proof. intros H. destruct o as [s|]; [|reflexivity]. destruct (H s eq_refl) as [A B]. rewrite buf_some by exact B. now apply or_none_some. Qed.
Lemma number_word o : on_opt number_ok o -> or_word o <> ""%string /\ free " " (or_word o) = true.
Proof. intros H. destruct o as [s|]; [|split; [discriminate|reflexivity]]. destruct (H s eq_refl) as (A & _ & D). split; [exact A|now apply only_digits_free]. Qed.
Lemma line_form tz now ls r : row_ok tz now r -> exists a im b c, list_line tz now (lsub_of_row tz ls r) =
    Val (pad 5 (dec64 (s_id r)) ++ "  " ++ pad 12 (or_word (s_msisdn r)) ++ "  " ++ pad 16 (s_imsi r) ++ (b ++ im ++ c)
         ++ "   " ++ pad 2 (if s_nam_cs r then "CS" else "") ++ pad 2 (if s_nam_ps r then "PS" else "") ++ "  " ++ a)%string /\
  age_part now ls r a /\ imei_word (s_imei r) im /\ im <> ""%string /\ free " " im = true /\
  (b = "  " /\ c = "" /\ String.length im = 15%nat \/ b = "   " /\ c = " " /\ im = "-------------")%string.
Proof.
  intros (I & (M0 & M1 & M2) & MS & IM & VL & SG & LC & LP).
  assert (A : exists a, last_seen tz now (ls_lu (lsub_of_row tz ls r)) = Val a /\ age_part now ls r a).
  { unfold age_part. cbn [lsub_of_row ls_lu]. destruct ls; [|exists ""%string; split; reflexivity]. destruct (s_lu_cs r) as [t|] eqn:E; [|exists ""%string; split; reflexivity].
    destruct (LC t eq_refl) as [B S]. apply last_seen_ok; [lia|exact S]. }
  destruct A as (a & EA & PA). destruct (imei_cell_is (s_imei r) IM) as (w & b & c & W & E & NE & F & SH). exists a, w, b, c. split; [|repeat (split; [assumption|]); assumption].
  unfold list_line. rewrite EA. cbn [mbind lsub_of_row ls_id ls_msisdn ls_imsi ls_imei ls_cs ls_ps]. rewrite E.
  rewrite (or_none_word 16 (s_msisdn r)) by (intros s X; destruct (MS s X) as (P & Q & _); split; [exact P|lia]).
  rewrite (or_none_word 16 (Some (s_imsi r))) by (intros s [= <-]; split; [exact M0|lia]). reflexivity.
Qed.
Lemma cat_space (s : string) : (" " ++ s = String " " s)%string.
Proof. reflexivity. Qed.
Lemma line_words tz now ls r : row_ok tz now r -> exists t id im a age, list_line tz now (lsub_of_row tz ls r) = Val t /\ numeral id (s_id r) /\ imei_word (s_imei r) im /\
  age_part now ls r a /\ words a age /\ words t ([id; or_word (s_msisdn r); s_imsi r; im] ++ access (s_nam_cs r) (s_nam_ps r) ++ age).
Proof.
  intros R. destruct (line_form tz now ls r R) as (a & im & b & c & E & A & W & NE & F & SH). destruct R as (I & (M0 & M1 & M2) & MS & _).
  assert (WA : exists age, words a age).
  { unfold age_part in A. destruct ls; [|subst a; exists []; constructor]. destruct (s_lu_cs r); [eapply words_age; eauto|subst a; exists []; constructor]. }
  destruct WA as [age WA]. assert (N : numeral (dec64 (s_id r)) (s_id r)) by (apply dec64_numeral; lia).
  eexists. exists (dec64 (s_id r)), im, a, age. split; [exact E|]. split; [exact N|]. split; [exact W|]. split; [exact A|]. split; [exact WA|].
  destruct (number_word _ MS) as [MN MF].
  pose proof (words_access (s_nam_cs r) (s_nam_ps r) a age WA) as X. assert (Y : a = ""%string \/ exists b, a = String " " b).
  { unfold age_part in A. destruct ls; [|auto]. destruct (s_lu_cs r); [right; eapply age_form; eauto|auto]. }
  specialize (X Y). clear Y. cbn [app].
  apply (words_pad 5 _ (" " ++ pad 12 _ ++ _)%string); [now apply numeral_ne in N|now apply (numeral_free " " _ _ N)|]. do 2 apply wd_space.
  apply (words_pad 12 _ (" " ++ pad 16 _ ++ _)%string); [exact MN|exact MF|]. do 2 apply wd_space.
  assert (Z : words ((b ++ im ++ c) ++ "   " ++ pad 2 (if s_nam_cs r then "CS" else "") ++ pad 2 (if s_nam_ps r then "PS" else "") ++ "  " ++ a)%string (im :: access (s_nam_cs r) (s_nam_ps r) ++ age)).
  { destruct SH as [(-> & -> & _)|(-> & -> & _)]; cbn [append]; repeat apply wd_space; rewrite ?str_app_nil, <- ?str_app_assoc; apply words_word; auto. cbn [append]. now constructor. }
  assert (S : exists s, (b ++ im ++ c)%string = String " " s) by (destruct SH as [(-> & _)|(-> & _)]; eexists; reflexivity). destruct S as [s S]. rewrite S in *. cbn [append].
  apply words_pad; [exact M0|now apply only_digits_free|exact Z].
Qed.
(** ** Columns *)
Lemma dec_upto_short f : forall n acc k, (n < 10 ^ N.of_nat k)%N -> (1 <= k)%nat -> (String.length (dec_upto f n acc) <= k + String.length acc)%nat.
Proof.
  induction f as [|f IH]; intros n acc k B K; [cbn; lia|]. cbn [dec_upto]. destruct (N.ltb_spec n 10) as [L|L]; [cbn; lia|]. destruct k as [|[|k]]; [lia|cbn in B; lia|].
  etransitivity; [apply (IH _ _ (Datatypes.S k))|cbn [String.length]; lia]; [|lia].
  apply N.div_lt_upper_bound; [lia|]. replace (10 * 10 ^ N.of_nat (Datatypes.S k))%N with (10 ^ N.of_nat (Datatypes.S (Datatypes.S k)))%N; [exact B|]. rewrite (Nat2N.inj_succ (Datatypes.S k)), N.pow_succ_r'. reflexivity.
Qed.
Lemma spaces_length n : String.length (spaces n) = n.
Proof. induction n as [|n IH]; cbn; auto. Qed.
Lemma pad_length n t : (String.length t <= n)%nat -> String.length (pad n t) = n.
Proof. intros L. rewrite pad_spaces, str_len_app, spaces_length. lia. Qed.
Lemma column_at (p t q : string) n : String.length p = n -> (q = ""%string \/ exists q', q = String " " q') -> column (p ++ t ++ q) n t.
Proof. intros L Q. exists p, q. auto. Qed.
Lemma pad_column p n t s k : String.length p = k -> (exists s', s = String " " s') -> column (p ++ pad n t ++ s) k t.
Proof.
  intros L (s' & ->). rewrite pad_spaces, <- str_app_assoc. apply column_at; [exact L|]. right. destruct (n - String.length t)%nat as [|m]; cbn; eauto.
Qed.
Lemma line_columns tz now ls r : row_ok tz now r -> s_id r < 100000 -> (String.length (or_word (s_msisdn r)) <= 12)%nat ->
  exists t id im a p, list_line tz now (lsub_of_row tz ls r) = Val t /\ numeral id (s_id r) /\ imei_word (s_imei r) im /\ age_part now ls r a /\
    column t 0 id /\ column t 7 (or_word (s_msisdn r)) /\ column t 21 (s_imsi r) /\ column t (match s_imei r with Some _ => 39 | None => 40 end) im /\
    (forall w, access (s_nam_cs r) (s_nam_ps r) = [w] -> column t (if s_nam_cs r then 57 else 59) w) /\ t = (p ++ a)%string /\ String.length p = 63%nat.
Proof.
  intros R ID ML. destruct (line_form tz now ls r R) as (a & im & b & c & E & A & W & NE & F & SH). destruct R as (I & (M0 & M1 & M2) & MS & _).
  assert (N : numeral (dec64 (s_id r)) (s_id r)) by (apply dec64_numeral; lia).
  assert (L5 : (String.length (dec64 (s_id r)) <= 5)%nat).
  { unfold dec64. etransitivity; [apply (dec_upto_short 20 _ "" 5)|cbn; lia]; [|lia]. rewrite Z.mod_small by lia. change (10 ^ N.of_nat 5)%N with 100000%N. lia. }
  assert (LP : forall b : bool, String.length (pad 2 (if b then "CS" else "")) = 2%nat /\ String.length (pad 2 (if b then "PS" else "")) = 2%nat) by (intros []; split; reflexivity).
  assert (LC : String.length (b ++ im ++ c) = 17%nat) by (rewrite !str_len_app; destruct SH as [(-> & -> & X)|(-> & -> & ->)]; [rewrite X|]; reflexivity).
  pose proof (pad_length _ _ L5) as P1. pose proof (pad_length _ _ ML) as P2. pose proof (pad_length 16 (s_imsi r) ltac:(lia)) as P3.
  set (x1 := pad 5 (dec64 (s_id r))) in *. set (x2 := pad 12 (or_word (s_msisdn r))) in *. set (x3 := pad 16 (s_imsi r)) in *.
  set (x5 := pad 2 (if s_nam_cs r then "CS" else "")%string) in *. set (x6 := pad 2 (if s_nam_ps r then "PS" else "")%string) in *.
  assert (P5 : String.length x5 = 2%nat) by apply LP. assert (P6 : String.length x6 = 2%nat) by apply LP.
  eexists. exists (dec64 (s_id r)), im, a, (x1 ++ "  " ++ x2 ++ "  " ++ x3 ++ (b ++ im ++ c) ++ "   " ++ x5 ++ x6 ++ "  ")%string. split; [exact E|]. split; [exact N|]. split; [exact W|]. split; [exact A|].
  split; [apply (pad_column "" 5); [reflexivity|eexists; reflexivity]|].
  split.
  { replace (x1 ++ "  " ++ x2 ++ "  " ++ x3 ++ (b ++ im ++ c) ++ "   " ++ x5 ++ x6 ++ "  " ++ a)%string with ((x1 ++ "  ") ++ x2 ++ ("  " ++ x3 ++ (b ++ im ++ c) ++ "   " ++ x5 ++ x6 ++ "  " ++ a))%string by (now rewrite !str_app_assoc).
    apply pad_column; [rewrite str_len_app, P1; reflexivity|eexists; reflexivity]. }
  split.
  { replace (x1 ++ "  " ++ x2 ++ "  " ++ x3 ++ (b ++ im ++ c) ++ "   " ++ x5 ++ x6 ++ "  " ++ a)%string with ((x1 ++ "  " ++ x2 ++ "  ") ++ x3 ++ ((b ++ im ++ c) ++ "   " ++ x5 ++ x6 ++ "  " ++ a))%string by (now rewrite !str_app_assoc).
    apply pad_column; [rewrite !str_len_app, P1, P2; reflexivity|destruct SH as [(-> & _)|(-> & _)]; eexists; reflexivity]. }
  split.
  { replace (x1 ++ "  " ++ x2 ++ "  " ++ x3 ++ (b ++ im ++ c) ++ "   " ++ x5 ++ x6 ++ "  " ++ a)%string with ((x1 ++ "  " ++ x2 ++ "  " ++ x3 ++ b) ++ im ++ (c ++ "   " ++ x5 ++ x6 ++ "  " ++ a))%string by (now rewrite !str_app_assoc).
    apply column_at.
    - rewrite !str_len_app, P1, P2, P3. destruct (s_imei r) as [s|]; destruct SH as [(-> & _ & X)|(-> & _ & ->)]; try reflexivity.
      + destruct W as (y & Y & Y'). exfalso. apply (f_equal String.length) in Y'. rewrite str_len_app in Y'. destruct (proj1 (is_imei14_digits _) (proj1 Y)) as [Q _]. rewrite Q in Y'. discriminate.
      + cbn in W. subst im. discriminate.
    - right. destruct SH as [(_ & -> & _)|(_ & -> & _)]; eexists; reflexivity. }
  split.
  { intros w AW. assert (G : exists y q, (x5 ++ x6 ++ "  " ++ a = y ++ w ++ q)%string /\ String.length y = (if s_nam_cs r then 0 else 2)%nat /\ exists q', q = String " " q').
    { unfold access in AW. subst x5 x6. destruct (s_nam_cs r), (s_nam_ps r); inversion AW; subst w.
      - exists ""%string, ("  " ++ a)%string. repeat split. eexists. reflexivity.
      - exists ""%string, ("    " ++ a)%string. repeat split. eexists. reflexivity.
      - exists "  "%string, ("  " ++ a)%string. repeat split. eexists. reflexivity. }
    destruct G as (y & q & G & LY & Q).
    replace (x1 ++ "  " ++ x2 ++ "  " ++ x3 ++ (b ++ im ++ c) ++ "   " ++ x5 ++ x6 ++ "  " ++ a)%string with ((x1 ++ "  " ++ x2 ++ "  " ++ x3 ++ (b ++ im ++ c) ++ "   " ++ y) ++ w ++ q)%string by (rewrite G, !str_app_assoc; reflexivity).
    apply column_at; [|right; exact Q]. rewrite (str_len_app x1), (str_len_app "  "), (str_len_app x2), (str_len_app "  "), (str_len_app x3), (str_len_app (b ++ im ++ c)), (str_len_app "   "), P1, P2, P3, LC, LY. destruct (s_nam_cs r); reflexivity. }
  split; [now rewrite !str_app_assoc|].
  rewrite (str_len_app x1), (str_len_app "  "), (str_len_app x2), (str_len_app "  "), (str_len_app x3), (str_len_app (b ++ im ++ c)), (str_len_app "   "), (str_len_app x5), (str_len_app x6), P1, P2, P3, LC, P5, P6. reflexivity.
Qed.
