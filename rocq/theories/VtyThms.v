(** The VTY commands: identifiers and check digits. *)
From Verif Require Import Base PeerId PeerThms Db DbSpec DbProofs DbThms DbThms2 Auth Gsup Router Hlr HlrSpec HlrSpec2 Ctrl CtrlSpec CtrlThms CtrlThms2 CtrlThms3 VtySubscr VtySpec.
Local Open Scope string_scope.
Local Open Scope list_scope.
Local Open Scope Z_scope.

(** ** Check digit *)
Lemma digits_bytes s l : digits s l -> map digit_val (bytes_of s) = l /\ str_forall is_digit s = true /\ Forall (fun n => 0 <= n <= 9) l.
Proof.
  induction 1 as [|c n s l D _ IH]; [repeat split; constructor|]. destruct IH as (A & B & C). destruct (digit_is c n D) as [E1 E2]. cbn. rewrite E1, E2, A, B.
  split; [reflexivity|]. split; [reflexivity|]. constructor; [now destruct D|exact C].
Qed.
Lemma digits_of s : str_forall is_digit s = true -> digits s (map digit_val (bytes_of s)).
Proof. induction s as [|c s IH]; cbn; [constructor|]. rewrite andb_true_iff. intros [A B]. constructor; [now apply is_digit_digit|auto]. Qed.
Lemma luhn_app dbl a b : luhn_sum dbl (a ++ b) = luhn_sum dbl a + luhn_sum (xorb (Nat.odd (length a)) dbl) b.
Proof.
  revert dbl. induction a as [|c a IH]; intros dbl; [cbn; destruct dbl; reflexivity|]. cbn [app luhn_sum length]. rewrite IH.
  replace (xorb (Nat.odd (length a)) (negb dbl)) with (xorb (Nat.odd (Datatypes.S (length a))) dbl).
  - ring.
  - rewrite Nat.odd_succ, <- Nat.negb_odd. destruct (Nat.odd (length a)), dbl; reflexivity.
Qed.
Lemma luhn_weigh l : Nat.even (length l) = true -> Forall (fun c => 0 <= digit_val c <= 9) l -> luhn_sum true (rev l) = weigh (map digit_val l).
Proof.
  assert (G : forall n l, (length l <= n)%nat -> Nat.even (length l) = true -> Forall (fun c => 0 <= digit_val c <= 9) l -> luhn_sum true (rev l) = weigh (map digit_val l)); [|intros; eapply G; eauto].
  clear l. induction n as [|n IH]; intros l L E F; [destruct l; [reflexivity|cbn in L; lia]|].
  destruct l as [|a [|b r]]; [reflexivity|discriminate|]. cbn [rev map weigh]. rewrite <- app_assoc. cbn [app]. rewrite luhn_app.
  inversion F as [|? ? Fa F1]; subst. inversion F1 as [|? ? Fb Fr]; subst. cbn [length] in *. cbn [Nat.even] in E.
  rewrite IH by (auto; lia). rewrite rev_length, <- Nat.negb_even, E. cbn [negb xorb luhn_sum].
  assert (C : (if 9 <? 2 * digit_val b then 2 * digit_val b - 9 else 2 * digit_val b) = cross (2 * digit_val b)).
  { unfold cross. destruct (Z.ltb_spec 9 (2 * digit_val b)).
    - replace (2 * digit_val b) with (2 * digit_val b - 10 + 1 * 10) by ring. rewrite Z.div_add, Z.mod_add, Z.div_small, Z.mod_small by lia. lia.
    - rewrite Z.div_small, Z.mod_small by lia. lia. }
  rewrite C. lia.
Qed.
Lemma digit_inj c e : is_digit c = true -> is_digit e = true -> digit_val c = digit_val e -> c = e.
Proof.
  intros A B E. apply is_digit_digit in A, B. destruct A as [_ A], B as [_ B]. congruence.
Qed.
Lemma luhn_digit s : is_digit (luhn s) = true /\ digit_val (luhn s) = luhn_sum true (rev (bytes_of s)) * 9 mod 10.
Proof.
  set (v := luhn_sum true (rev (bytes_of s)) * 9 mod 10). assert (R : 0 <= v <= 9) by (unfold v; pose proof (Z.mod_pos_bound (luhn_sum true (rev (bytes_of s)) * 9) 10); lia).
  apply (digit_is (luhn s) v). split; [exact R|]. unfold luhn. fold v. f_equal. lia.
Qed.
Lemma bytes_length s : length (bytes_of s) = String.length s.
Proof. induction s; cbn; auto. Qed.
Lemma is_imei14_digits m : is_imei14 m <-> String.length m = 14%nat /\ str_forall is_digit m = true.
Proof.
  rewrite <- imei_valid_spec. unfold imei_valid14, is_n_digits. rewrite !andb_true_iff, !Nat.leb_le. intuition lia.
Qed.
Lemma check_luhn m c : is_imei14 m -> is_digit c = true -> ((luhn m =? c)%char = true <-> checked m c).
Proof.
  intros I D. pose proof I as I'. apply is_imei14_digits in I' as [L F]. destruct (luhn_digit m) as [LD LV].
  assert (W : luhn_sum true (rev (bytes_of m)) = weigh (map digit_val (bytes_of m))).
  { apply luhn_weigh; [rewrite bytes_length, L; reflexivity|]. pose proof (digits_bytes _ _ (digits_of m F)) as (_ & _ & X). now rewrite Forall_map in X. }
  rewrite W in LV. set (w := weigh (map digit_val (bytes_of m))) in *.
  pose proof (is_digit_digit c D) as Dc. assert (R : 0 <= digit_val c <= 9) by now destruct Dc.
  assert (K : digit_val c = w * 9 mod 10 <-> (w + digit_val c) mod 10 = 0).
  { assert (E : w * 9 mod 10 = (- w) mod 10). { rewrite <- (Z.mod_add (- w) w 10) by lia. f_equal. ring. }
    rewrite E. split; intros H.
    - rewrite H, Z.add_mod_idemp_r by lia. replace (w + - w) with 0 by ring. reflexivity.
    - apply Z.mod_divide in H; [|lia]. destruct H as [q H]. assert (X : - w = digit_val c + (- q) * 10) by lia. rewrite X, Z.mod_add, Z.mod_small by lia. reflexivity. }
  rewrite Ascii.eqb_eq. split.
  - intros <-. split; [exact I|]. exists (map digit_val (bytes_of m)), (digit_val (luhn m)). split; [now apply digits_of|]. split; [exact Dc|]. now apply K.
  - intros [_ (l & n & Dl & Dn & E)]. destruct (digits_bytes _ _ Dl) as (B & _). destruct (digit_is c n Dn) as [_ V]. subst n l.
    apply digit_inj; auto. rewrite LV. symmetry. apply K. exact E.
Qed.
Lemma str_take_app m s : str_take (String.length m) (m ++ s) = m.
Proof. induction m as [|c m IH]; [destruct s; reflexivity|]. cbn [String.length append]. change (str_take (Datatypes.S (String.length m)) (String c (m ++ s))) with (String c (str_take (String.length m) (m ++ s))). now rewrite IH. Qed.
Lemma get_app m c s : String.get (String.length m) (m ++ String c s) = Some c.
Proof. induction m; cbn; auto. Qed.
Lemma imei15_is m c : String.length m = 14%nat -> imei_valid15 (m ++ String c "") = true <-> checked m c.
Proof.
  intros L. unfold imei_valid15, is_n_digits. pose proof (str_take_app m (String c "")) as T. pose proof (get_app m c "") as G. rewrite L in T, G. rewrite T, G, str_len_app, forall_app, L.
  cbn [String.length Nat.leb Nat.add str_forall andb]. rewrite andb_true_r, andb_true_iff, andb_true_iff. split.
  - intros [[F D] E]. apply check_luhn; auto. now apply is_imei14_digits.
  - intros C. pose proof C as [I (l & n & _ & Dn & _)]. destruct (digit_is c n Dn) as [D _]. pose proof I as I'. apply is_imei14_digits in I' as [_ F]. split; [auto|]. now apply check_luhn.
Qed.
Lemma cut_checked m c : checked m c -> cut_check (m ++ String c "") = m.
Proof.
  intros C. pose proof C as [I _]. apply is_imei14_digits in I as [L _]. unfold cut_check. rewrite (proj2 (imei15_is m c L) C). rewrite <- L. apply str_take_app.
Qed.
Lemma imei15_split s : imei_valid15 s = true -> exists m c, s = (m ++ String c "")%string /\ checked m c.
Proof.
  intros V. assert (L : String.length s = 15%nat). { unfold imei_valid15, is_n_digits in V. rewrite !andb_true_iff, !Nat.leb_le in V. lia. }
  destruct (string_snoc s) as (m & c & ->); [intros ->; discriminate L|]. exists m, c. split; [reflexivity|]. rewrite str_len_app in L. cbn in L. apply imei15_is; [lia|exact V].
Qed.
Lemma cut_same s : imei_valid15 s = false -> cut_check s = s.
Proof. unfold cut_check. now intros ->. Qed.
Lemma imei14_not15 s : is_imei14 s -> imei_valid15 s = false.
Proof. intros I. apply is_imei14_digits in I as [L _]. unfold imei_valid15, is_n_digits. rewrite L. reflexivity. Qed.

(** ** Numbers *)
Lemma lead_all s acc v : all_digits s acc = Some v -> lead_digits s acc = v.
Proof.
  revert acc. induction s as [|c s IH]; intros acc; cbn; [congruence|]. destruct (is_digit c); [auto|discriminate].
Qed.
Lemma digit_not_space c : is_digit c = true -> is_space c = false /\ (c =? "-")%char = false /\ (c =? "+")%char = false.
Proof. destruct c as [[] [] [] [] [] [] [] []]; try discriminate; auto. Qed.
Lemma atoll_integer t n : integer t n -> - 9223372036854775808 <= n <= 9223372036854775807 -> atoll t = n.
Proof.
  intros H B. unfold atoll. destruct H as [H|(u & -> & H)]; destruct (numeral_digits _ _ H) as (E & NE & F & P).
  - destruct t as [|c t]; [congruence|]. destruct (digit_not_space c (F c t eq_refl)) as (S1 & S2 & S3). cbn [skip_space]. rewrite S1. cbn [sign_of]. rewrite S2, S3, (lead_all _ _ _ E). lia.
  - change (skip_space ("-" ++ u)%string) with (String "-" u). cbn [sign_of Ascii.eqb Bool.eqb]. rewrite (lead_all _ _ _ E). lia.
Qed.

(** ** Who is meant *)
Definition stmt_of (x : selector) : stmt :=
  match x with ByImsi i => SEL_BY_IMSI i | ByMsisdn m => SEL_BY_MSISDN m | ById i => SEL_BY_ID i | ByImei m => SEL_BY_IMEI m end.
Definition cond_of (x : selector) : sub_row -> bool :=
  match x with ByImsi i => by_imsi i | ByMsisdn m => by_msisdn m | ById i => by_id i | ByImei m => by_imei m end.
Lemma get_by_sel k x : get_by k x = db_sel (k_tz k) (stmt_of x) /\ forall d, exec (stmt_of x) d = sel (cond_of x) d.
Proof. destruct x; split; reflexivity. Qed.
Lemma cond_means x r : cond_of x r = true <-> means x r.
Proof.
  destruct x as [i|m|i|m]; cbn; unfold by_imsi, by_msisdn, by_id, by_imei, str_opt_is.
  - apply String.eqb_eq.
  - destruct (s_msisdn r); cbn; [|split; discriminate]. rewrite String.eqb_eq. split; congruence.
  - apply Z.eqb_eq.
  - destruct (s_imei r); cbn; [|split; discriminate]. rewrite String.eqb_eq. split; congruence.
Qed.
Lemma argv_names d t i r : imeis_ok d -> number_if_id t i -> In r (d_sub d) -> (- 9223372036854775808 <= s_id r <= 9223372036854775807) ->
  ((exists x, argv_selector t i = Some x /\ means x r) <-> vty_names t i r).
Proof.
  intros IM NI I IB. split.
  - intros (x & E & M). unfold argv_selector in E. destruct (String.eqb_spec t "imsi") as [->|_]; [injection E as <-; cbn in M; subst i; constructor|].
    destruct (String.eqb_spec t "msisdn") as [->|_]; [injection E as <-; constructor; exact M|].
    destruct (String.eqb_spec t "id") as [->|_].
    { injection E as <-. cbn in M. destruct (NI eq_refl) as (n & In & Bn). rewrite (atoll_integer _ _ In Bn) in M. subst n. now constructor. }
    destruct (String.eqb_spec t "imei") as [->|_]; [|discriminate]. injection E as <-. cbn in M. unfold cut_check in M.
    destruct (imei_valid15 i) eqn:V; [|now constructor]. destruct (imei15_split i V) as (m & c & -> & C). pose proof (cut_checked m c C) as Q. unfold cut_check in Q. rewrite V in Q. rewrite Q in M. now constructor.
  - intros N. destruct N as [r|m r E|t r E|m r E|m c r E C].
    + exists (ByImsi (s_imsi r)). split; reflexivity.
    + exists (ByMsisdn m). split; [reflexivity|exact E].
    + exists (ById (atoll t)). split; [reflexivity|]. cbn. symmetry. now apply atoll_integer.
    + exists (ByImei (cut_check m)). split; [reflexivity|]. cbn. rewrite cut_same; [exact E|]. apply imei14_not15. eapply IM; eauto.
    + exists (ByImei (cut_check (m ++ String c ""))). split; [reflexivity|]. cbn. now rewrite cut_checked.
Qed.
(** by IMSI, MSISDN or id there is at most one *)
Lemma vty_unique d t i r r' : db_inv d -> In r (d_sub d) -> In r' (d_sub d) -> t <> "imei" -> vty_names t i r -> vty_names t i r' -> r = r'.
Proof.
  intros V I I' NI N N'. apply (row_eq d); auto. destruct N as [r|m r E|t r E|m r E|m c r E C]; try congruence.
  - remember "imsi" as ty eqn:Q. remember (s_imsi r) as id eqn:Q2. destruct N'; try discriminate Q. auto.
  - remember "msisdn" as ty eqn:Q. destruct N' as [r'|m' r' E'|t' r' E'|m' r' E'|m' c' r' E' C']; try discriminate Q. right; right. exists m'. auto.
  - remember "id" as ty eqn:Q. destruct N' as [r'|m' r' E'|t' r' E'|m' r' E'|m' c' r' E' C']; try discriminate Q. left. eapply integer_fun; eauto.
Qed.
