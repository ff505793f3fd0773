(** Lemmas about selectors and requests of the control interface. *)
From Verif Require Import Base PeerId Db DbSpec DbProofs DbThms DbThms2 Auth Ctrl CtrlSpec.
Local Open Scope string_scope.
Local Open Scope list_scope.
Local Open Scope Z_scope.

Lemma after_spec p s v : after p s = Some v <-> s = (p ++ v)%string.
Proof.
  revert s. induction p as [|a p IH]; intros s; cbn.
  - split; intros H; [injection H as ->; reflexivity|subst; reflexivity].
  - destruct s as [|b s]; [split; discriminate|]. destruct (Ascii.eqb_spec a b) as [->|N].
    + rewrite IH. split; [intros ->; reflexivity|intros [= ->]; reflexivity].
    + split; [discriminate|intros [= -> _]; destruct (N eq_refl)].
Qed.
Lemma after_app p v : after p (p ++ v)%string = Some v.
Proof. now apply after_spec. Qed.

(** ** Numbers *)
Lemma digit_is c n : digit c n -> is_digit c = true /\ digit_val c = n.
Proof.
  intros [R ->]. unfold is_digit, digit_val, acode.
  assert (E : N_of_ascii (ascii_of_N (Z.to_N (48 + n))) = Z.to_N (48 + n)) by (apply N_ascii_embedding; lia).
  rewrite E. split; [|lia]. apply andb_true_iff. split; apply N.leb_le; lia.
Qed.
Lemma is_digit_digit c : is_digit c = true -> digit c (digit_val c).
Proof.
  unfold is_digit, digit_val, acode. rewrite andb_true_iff, !N.leb_le. intros [L U]. split; [lia|].
  replace (Z.to_N (48 + (Z.of_N (N_of_ascii c) - 48))) with (N_of_ascii c) by lia. symmetry. apply ascii_N_embedding.
Qed.

Lemma all_digits_app s c acc : all_digits (s ++ String c "")%string acc =
  match all_digits s acc with Some v => if is_digit c then Some (10 * v + digit_val c) else None | None => None end.
Proof.
  revert acc. induction s as [|b s IH]; intros acc; cbn [all_digits append].
  - destruct (is_digit c); reflexivity.
  - destruct (is_digit b); [apply IH|reflexivity].
Qed.
Lemma numeral_digits s v : numeral s v -> all_digits s 0 = Some v /\ s <> EmptyString /\ (forall c r, s = String c r -> is_digit c = true) /\ 0 <= v.
Proof.
  induction 1 as [c n D|s v c n N IH D].
  - destruct (digit_is c n D) as [I V]. cbn. rewrite I, V. split; [f_equal; lia|]. split; [discriminate|]. split; [|destruct D; lia].
    intros c' r [= <- _]. exact I.
  - destruct IH as (E & NE & F & P). destruct (digit_is c n D) as [I V]. rewrite all_digits_app, E, I, V. split; [reflexivity|].
    split; [destruct s; discriminate|]. split; [|destruct D; lia].
    intros c' r E'. destruct s as [|b s]; [destruct (NE eq_refl)|]. cbn in E'. injection E' as <- _. now apply (F b s).
Qed.
Lemma string_snoc s : s <> EmptyString -> exists t c, s = (t ++ String c "")%string.
Proof.
  induction s as [|a s IH]; [congruence|]. intros _. destruct s as [|b s].
  - exists EmptyString, a. reflexivity.
  - destruct (IH ltac:(discriminate)) as (t & c & E). exists (String a t), c. rewrite E. reflexivity.
Qed.
Lemma str_len_app a b : String.length (a ++ b)%string = (String.length a + String.length b)%nat.
Proof. induction a; cbn; auto. Qed.
Lemma digits_numeral s v : s <> EmptyString -> all_digits s 0 = Some v -> numeral s v.
Proof.
  assert (G : forall n s v, String.length s = n -> s <> EmptyString -> all_digits s 0 = Some v -> numeral s v).
  { induction n as [n IH] using lt_wf_ind. intros s0 v0 L NE H. destruct (string_snoc s0 NE) as (t & c & ->).
    rewrite all_digits_app in H. destruct (all_digits t 0) as [w|] eqn:E; [|discriminate].
    destruct (is_digit c) eqn:D; [|discriminate]. injection H as <-.
    destruct t as [|b t].
    - cbn in E. injection E as <-. cbn [append]. replace (10 * 0 + digit_val c) with (digit_val c) by lia. constructor. now apply is_digit_digit.
    - constructor; [|now apply is_digit_digit]. apply (IH (String.length (String b t))); [|reflexivity|discriminate|exact E].
      rewrite <- L, str_len_app. cbn. lia. }
  intros NE H. exact (G _ s v eq_refl NE H).
Qed.

(** strings without white space *)
Definition spaceless (s : string) : Prop := str_forall (fun c => negb (is_space c)) s = true.
Lemma skip_spaceless s : spaceless s -> skip_space s = s.
Proof. destruct s as [|c s]; [reflexivity|]. unfold spaceless. cbn. destruct (is_space c); [discriminate|reflexivity]. Qed.
Lemma spaceless_app a b : spaceless (a ++ b)%string -> spaceless b.
Proof.
  unfold spaceless. induction a as [|c a IH]; cbn; [auto|]. rewrite andb_true_iff. intros [_ H]. auto.
Qed.

(** the numbers that select by id *)
Lemma strtoll_integer t i : spaceless t -> t <> EmptyString -> (forall r, t <> String "+" r) ->
  (strtoll_all t = Some i <-> integer t i /\ - 9223372036854775808 <= i <= 9223372036854775807).
Proof.
  intros S NE NP. unfold strtoll_all. destruct t as [|c t]; [congruence|]. rewrite (skip_spaceless _ S). clear S NE.
  cbn [sign_of]. destruct (Ascii.eqb_spec c "-") as [->|NM].
  - destruct t as [|b t].
    { split; [discriminate|]. intros [[H|(u & E & H)] _].
      - destruct (numeral_digits _ _ H) as (E & _). discriminate.
      - cbn in E. injection E as <-. destruct (numeral_digits _ _ H) as (_ & NE & _). congruence. }
    destruct (all_digits (String b t) 0) as [v|] eqn:E.
    + destruct ((-9223372036854775808 <=? - v) && (- v <=? 9223372036854775807)) eqn:R.
      * apply andb_true_iff in R as [R1 R2]. apply Z.leb_le in R1, R2. split.
        -- intros [= <-]. split; [|lia]. right. exists (String b t). split; [reflexivity|]. rewrite Z.opp_involutive. apply digits_numeral; [discriminate|exact E].
        -- intros [[H|(u & E' & H)] _].
           ++ destruct (numeral_digits _ _ H) as (E' & _). discriminate.
           ++ cbn in E'. injection E' as <-. destruct (numeral_digits _ _ H) as (E' & _). f_equal. enough (v = - i) by lia. congruence.
      * split; [discriminate|]. intros [[H|(u & E' & H)] B].
        -- destruct (numeral_digits _ _ H) as (E' & _). discriminate.
        -- cbn in E'. injection E' as <-. destruct (numeral_digits _ _ H) as (E' & _).
           assert (v = - i) by congruence. apply andb_false_iff in R as [R|R]; apply Z.leb_gt in R; lia.
    + split; [discriminate|]. intros [[H|(u & E' & H)] _].
      * destruct (numeral_digits _ _ H) as (E' & _). discriminate.
      * cbn in E'. injection E' as <-. destruct (numeral_digits _ _ H) as (E' & _). congruence.
  - destruct (Ascii.eqb_spec c "+") as [->|NQ]; [destruct (NP t eq_refl)|].
    destruct (all_digits (String c t) 0) as [v|] eqn:E.
    + destruct ((-9223372036854775808 <=? v) && (v <=? 9223372036854775807)) eqn:R.
      * apply andb_true_iff in R as [R1 R2]. apply Z.leb_le in R1, R2. split.
        -- intros [= <-]. split; [|lia]. left. apply digits_numeral; [discriminate|exact E].
        -- intros [[H|(u & E' & H)] _].
           ++ destruct (numeral_digits _ _ H) as (E' & _). congruence.
           ++ cbn in E'. injection E' as -> _. congruence.
      * split; [discriminate|]. intros [[H|(u & E' & H)] B].
        -- destruct (numeral_digits _ _ H) as (E' & _). assert (v = i) by congruence. apply andb_false_iff in R as [R|R]; apply Z.leb_gt in R; lia.
        -- cbn in E'. injection E' as -> _. congruence.
    + split; [discriminate|]. intros [[H|(u & E' & H)] _].
      * destruct (numeral_digits _ _ H) as (E' & _). congruence.
      * cbn in E'. injection E' as -> _. congruence.
Qed.
Lemma integer_plus r i : ~ integer (String "+" r) i.
Proof.
  intros [H|(u & E & _)]; [|discriminate]. destruct (numeral_digits _ _ H) as (_ & _ & F & _). specialize (F _ _ eq_refl). discriminate.
Qed.
Lemma integer_nonempty i : ~ integer "" i.
Proof. intros [H|(u & E & _)]; [|discriminate]. destruct (numeral_digits _ _ H) as (_ & F & _). congruence. Qed.
Lemma integer_fun t i j : integer t i -> integer t j -> i = j.
Proof.
  intros [H|(u & E & H)] [H'|(u' & E' & H')].
  - destruct (numeral_digits _ _ H) as (A & _), (numeral_digits _ _ H') as (B & _). congruence.
  - subst. destruct (numeral_digits _ _ H) as (_ & _ & F & _). specialize (F _ _ eq_refl). discriminate.
  - subst. destruct (numeral_digits _ _ H') as (_ & _ & F & _). specialize (F _ _ eq_refl). discriminate.
  - subst. cbn in E'. injection E' as <-. destruct (numeral_digits _ _ H) as (A & _), (numeral_digits _ _ H') as (B & _).
    assert (- i = - j) by congruence. lia.
Qed.

(** ** A selector names at most one subscriber *)
Lemma row_eq d r r' : db_inv d -> In r (d_sub d) -> In r' (d_sub d) ->
  (s_id r = s_id r' \/ s_imsi r = s_imsi r' \/ exists m, s_msisdn r = Some m /\ s_msisdn r' = Some m) -> r = r'.
Proof.
  intros V I I' E. apply In_nth_error in I as [i I]. apply In_nth_error in I' as [j J].
  pose proof (inv_unique d V i j r r' I J E). congruence.
Qed.
Lemma names_unique d sel r r' : db_inv d -> In r (d_sub d) -> In r' (d_sub d) -> names sel r -> names sel r' -> r = r'.
Proof.
  intros V I I' N N'. apply (row_eq d); auto. inversion N as [v x E S X|v x E S X|t x E S X]; subst x; inversion N' as [v' x E' S' X|v' x E' S' X|t' x E' S' X]; subst x;
    rewrite <- S' in S; cbn in S; try discriminate; injection S as S.
  - right; left. congruence.
  - right; right. exists v. split; [exact E|]. congruence.
  - left. subst t'. exact (integer_fun _ _ _ E E').
Qed.

(** what the lookup computes, in terms of the database *)
Inductive sel_kind := KImsi (v : string) | KMsisdn (v : string) | KId (i : Z) | KBad (rc : Z).
Definition kind (sel : string) : sel_kind :=
  match after "by-imsi-" sel with
  | Some v => if imsi_valid v then KImsi v else KBad (- EINVAL)
  | None =>
      match after "by-msisdn-" sel with
      | Some v => if msisdn_valid v then KMsisdn v else KBad (- EINVAL)
      | None =>
          match after "by-id-" sel with
          | Some v => if match v with String c _ => (c =? "+")%char | EmptyString => false end then KBad (- EINVAL)
                      else match strtoll_all v with Some i => KId i | None => KBad (- EINVAL) end
          | None => KBad (- ENOTSUP)
          end
      end
  end.
Lemma sel_get_kind tz sel : sel_get tz sel =
  match kind sel with
  | KImsi v => db_sel tz (SEL_BY_IMSI v) | KMsisdn v => db_sel tz (SEL_BY_MSISDN v) | KId i => db_sel tz (SEL_BY_ID i) | KBad rc => Ret (rc, None)
  end.
Proof.
  unfold sel_get, kind. destruct (after "by-imsi-" sel); [destruct (imsi_valid _); reflexivity|].
  destruct (after "by-msisdn-" sel); [destruct (msisdn_valid _); reflexivity|].
  destruct (after "by-id-" sel); [|reflexivity]. destruct (match s with String c _ => _ | EmptyString => _ end); [reflexivity|].
  destruct (strtoll_all s); reflexivity.
Qed.
Definition matches (k : sel_kind) (r : sub_row) : bool :=
  match k with KImsi v => by_imsi v r | KMsisdn v => by_msisdn v r | KId i => by_id i r | KBad _ => false end.
Lemma kind_names d sel r : db_inv d -> ids_fit d -> spaceless sel -> In r (d_sub d) -> (matches (kind sel) r = true <-> names sel r).
Proof.
  intros V FT S I. pose proof (proj1 (Forall_forall _ _) (iv_wf d V) r I) as [WI WM]. pose proof (proj1 (Forall_forall _ _) (iv_pos d V) r I) as WP. cbn in WP.
  specialize (FT r I). unfold kind. split.
  - destruct (after "by-imsi-" sel) as [v|] eqn:A1.
    { apply after_spec in A1 as ->. destruct (imsi_valid v); [|discriminate]. cbn. unfold by_imsi. rewrite String.eqb_eq. intros E. now constructor. }
    destruct (after "by-msisdn-" sel) as [v|] eqn:A2.
    { apply after_spec in A2 as ->. destruct (msisdn_valid v); [|discriminate]. cbn [matches]. unfold by_msisdn. rewrite str_opt_is_spec. intros E. now constructor. }
    destruct (after "by-id-" sel) as [v|] eqn:A3; [|discriminate]. apply after_spec in A3 as ->.
    destruct v as [|c v].
    + cbn. unfold by_id. rewrite Z.eqb_eq. lia.
    + destruct (Ascii.eqb_spec c "+") as [->|NP]; [discriminate|].
      destruct (strtoll_all (String c v)) as [i|] eqn:E; [|discriminate]. cbn [matches]. unfold by_id. rewrite Z.eqb_eq. intros <-.
      constructor. apply strtoll_integer in E as [E _]; [exact E|exact (spaceless_app _ _ S)|discriminate|]. intros r' [= -> _]. congruence.
  - intros N. inversion N as [v x E Q X|v x E Q X|t x E Q X]; subst x sel.
    + rewrite after_app. subst v. rewrite WI. cbn. apply String.eqb_refl.
    + change (after "by-imsi-" ("by-msisdn-" ++ v)%string) with (@None string). cbv iota. rewrite after_app. rewrite (WM v E). cbn [matches]. unfold by_msisdn. now apply str_opt_is_spec.
    + change (after "by-imsi-" ("by-id-" ++ t)%string) with (@None string). change (after "by-msisdn-" ("by-id-" ++ t)%string) with (@None string). cbv iota. rewrite after_app.
      destruct t as [|c t]; [destruct (integer_nonempty _ E)|]. destruct (Ascii.eqb_spec c "+") as [->|NP]; [destruct (integer_plus _ _ E)|].
      assert (X : strtoll_all (String c t) = Some (s_id r)).
      { apply strtoll_integer; [exact (spaceless_app _ _ S)|discriminate|intros r' [= -> _]; congruence|]. split; [exact E|lia]. }
      rewrite X. cbn. apply Z.eqb_refl.
Qed.

Lemma db_sel_run tz s k c d : (forall d0, exec s d0 = sel k d0) ->
  exists c', run (db_sel tz s) c d =
    (match c with
     | EvFail :: _ => Fin (- EIO, None)
     | EvCrash :: _ => Crashed
     | _ => match find k (d_sub d) with
            | Some r => match sub_of_row tz r with Some h => Fin (0, Some h) | None => Ub end
            | None => Fin (- ENOENT, None)
            end
     end, d, c').
Proof.
  intros X. unfold db_sel. cbn [run].
  assert (G : forall c0, exists c', (let '(r, d') := exec s d in run (match r with RDone _ => Ret (- ENOENT, None) | RSub row => match sub_of_row tz row with Some x => Ret (0, Some x) | None => Undef end | _ => Ret (- EIO, None) end) c0 d') =
    (match find k (d_sub d) with Some r => match sub_of_row tz r with Some h => Fin (0, Some h) | None => Ub end | None => Fin (- ENOENT, None) end, d, c')).
  { intros c0. rewrite X. unfold sel. destruct (find k (d_sub d)) as [r|]; [|exists c0; reflexivity].
    destruct (sub_of_row tz r); exists c0; reflexivity. }
  destruct c as [|[] c]; [exact (G [])|exact (G c)|exists c; reflexivity|exists c; reflexivity].
Qed.
(** The lookup: it leaves the database alone; a subscriber it finds is the one named. *)
Lemma sel_run tz sel c d : exists c', run (sel_get tz sel) c d =
    (match kind sel with
     | KBad rc => Fin (rc, None)
     | k => match c with
            | EvFail :: _ => Fin (- EIO, None)
            | EvCrash :: _ => Crashed
            | _ => match find (matches k) (d_sub d) with
                   | Some r => match sub_of_row tz r with Some h => Fin (0, Some h) | None => Ub end
                   | None => Fin (- ENOENT, None)
                   end
            end
     end, d, c') /\ (no_fault c -> no_fault c').
Proof.
  rewrite sel_get_kind.
  assert (N : forall (A : Type) (p : prog A) c0 o d0 c1, run p c0 d = (o, d0, c1) -> no_fault c0 -> no_fault c1).
  { intros A p. generalize d. induction p as [a|s k IH|]; intros d1 c0 o d0 c1 R F; cbn [run] in R; try (injection R as _ _ <-; exact F).
    destruct c0 as [|e c0]; [|inversion F; subst]; destruct (exec s d1) as [r d2]; exact (IH r _ _ _ _ _ R ltac:(assumption)). }
  destruct (kind sel) as [v|v|i|rc].
  - destruct (db_sel_run tz (SEL_BY_IMSI v) (by_imsi v) c d (fun _ => eq_refl)) as [c' E]. exists c'. split; [exact E|exact (N _ _ _ _ _ _ E)].
  - destruct (db_sel_run tz (SEL_BY_MSISDN v) (by_msisdn v) c d (fun _ => eq_refl)) as [c' E]. exists c'. split; [exact E|exact (N _ _ _ _ _ _ E)].
  - destruct (db_sel_run tz (SEL_BY_ID i) (by_id i) c d (fun _ => eq_refl)) as [c' E]. exists c'. split; [exact E|exact (N _ _ _ _ _ _ E)].
  - exists c. split; [reflexivity|auto].
Qed.
