(** Proofs about dates. *)
From Verif Require Import Base PeerId Db DbSpec DbThms Auth Mdns Proxy Gsup Router Hlr Ctrl CtrlSpec CtrlThms VtySubscr VtySpec VtyThms VtyList VtyListSpec VtyListThms VtyText VtyTextSpec NitbThms2.

(** ** The calendar *)
(** [civil] within the 400 years from 0000-03-01 *)
Definition civ (doe : Z) : Z * Z * Z :=
  let yoe := (doe - doe / 1460 + doe / 36524 - doe / 146096) / 365 in
  let doy := doe - (365 * yoe + yoe / 4 - yoe / 100) in
  let mp := (5 * doy + 2) / 153 in
  let m := if mp <? 10 then mp + 3 else mp - 9 in
  (yoe + (if m <=? 2 then 1 else 0), m, doy - (153 * mp + 2) / 5 + 1).
Definition later (e : Z) (x : Z * Z * Z) : Z * Z * Z := let '(y, m, d) := x in (y + 400 * e, m, d).
Lemma civil_civ n : civil n = later ((n + 719468) / 146097) (civ ((n + 719468) mod 146097)).
Proof. unfold civil, civ, later. cbv zeta. f_equal. f_equal. lia. Qed.
Definition leapb (y : Z) : bool := ((y mod 4 =? 0) && negb (y mod 100 =? 0)) || (y mod 400 =? 0).
Lemma leapb_leap y : leapb y = true <-> leap y.
Proof.
  unfold leapb, leap. rewrite orb_true_iff, andb_true_iff, negb_true_iff, !Z.eqb_eq, Z.eqb_neq. reflexivity.
Qed.
Definition mlen (y m : Z) : Z :=
  if m =? 2 then if leapb y then 29 else 28 else if (m =? 4) || (m =? 6) || (m =? 9) || (m =? 11) then 30 else 31.
Lemma mlen_ok y m : 1 <= m <= 12 -> month_len y m (mlen y m).
Proof.
  intros B. assert (C : m = 1 \/ m = 2 \/ m = 3 \/ m = 4 \/ m = 5 \/ m = 6 \/ m = 7 \/ m = 8 \/ m = 9 \/ m = 10 \/ m = 11 \/ m = 12) by lia.
  repeat (destruct C as [->|C]); [..|subst m]; unfold mlen; cbn [Z.eqb Pos.eqb orb]; try (constructor; cbn; tauto).
  destruct (leapb y) eqn:E; constructor; [now apply leapb_leap|]. intros H. apply leapb_leap in H. congruence.
Qed.
Definition next (x : Z * Z * Z) : Z * Z * Z :=
  let '(y, m, d) := x in if d <? mlen y m then (y, m, d + 1) else if m =? 12 then (y + 1, 1, 1) else (y, m + 1, 1).
Definition good (x : Z * Z * Z) : bool := let '(y, m, d) := x in (1 <=? m) && (m <=? 12) && (1 <=? d) && (d <=? mlen y m).
Lemma next_ok x : good x = true -> next_day x (next x).
Proof.
  destruct x as [[y m] d]. unfold good, next. rewrite !andb_true_iff, !Z.leb_le. intros (((A & B) & C) & D). pose proof (mlen_ok y m ltac:(lia)) as M.
  destruct (Z.ltb_spec d (mlen y m)) as [L|L]; [now apply nd_day with (mlen y m)|]. assert (d = mlen y m) as -> by lia.
  destruct (Z.eqb_spec m 12) as [->|N12]; [now apply nd_year|]. apply nd_month; [exact M|lia].
Qed.
Lemma leapb_later y e : leapb (y + 400 * e) = leapb y.
Proof.
  unfold leapb. replace ((y + 400 * e) mod 4) with (y mod 4) by (replace (y + 400 * e) with (y + (100 * e) * 4) by lia; now rewrite Z.mod_add).
  replace ((y + 400 * e) mod 100) with (y mod 100) by (replace (y + 400 * e) with (y + (4 * e) * 100) by lia; now rewrite Z.mod_add).
  replace ((y + 400 * e) mod 400) with (y mod 400) by (replace (y + 400 * e) with (y + e * 400) by lia; now rewrite Z.mod_add). reflexivity.
Qed.
Lemma mlen_later y e m : mlen (y + 400 * e) m = mlen y m.
Proof. unfold mlen. now rewrite leapb_later. Qed.
Lemma next_later e x : next (later e x) = later e (next x).
Proof.
  destruct x as [[y m] d]. unfold next, later. rewrite mlen_later. destruct (d <? mlen y m); [reflexivity|]. destruct (m =? 12); [|reflexivity]. do 2 f_equal. lia.
Qed.
Lemma good_later e x : good (later e x) = good x.
Proof. destruct x as [[y m] d]. unfold good, later. now rewrite mlen_later. Qed.
Lemma later_more e x : later (e + 1) x = later e (later 1 x).
Proof. destruct x as [[y m] d]. unfold later. do 2 f_equal. lia. Qed.
(** years that begin in March: the first day and the last day of one, counted from 0000-03-01 *)
Definition yoe_of (n : Z) : Z := (n - n / 1460 + n / 36524 - n / 146096) / 365.
Definition start (y : Z) : Z := 365 * y + y / 4 - y / 100.
Definition len (y : Z) : Z := if leapb (y + 1) then 366 else 365.
Lemma len_bounds y : 365 <= len y <= 366.
Proof. unfold len. destruct (leapb (y + 1)); lia. Qed.
Lemma yoe_mono_step x : 0 <= x < 146096 -> yoe_of x <= yoe_of (x + 1).
Proof. intros B. unfold yoe_of. apply Z.div_le_mono; [lia|]. Z.to_euclidean_division_equations. lia. Qed.
Lemma yoe_mono k : forall x, 0 <= x -> x + Z.of_nat k <= 146096 -> yoe_of x <= yoe_of (x + Z.of_nat k).
Proof.
  induction k as [|k IH]; intros x A B; [replace (x + Z.of_nat 0) with x by lia; lia|].
  specialize (IH x A ltac:(lia)). pose proof (yoe_mono_step (x + Z.of_nat k) ltac:(lia)) as S1. replace (x + Z.of_nat (Datatypes.S k)) with (x + Z.of_nat k + 1) by lia. lia.
Qed.
Definition year_checks (y : Z) : bool :=
  (yoe_of (start y) =? y) && (yoe_of (start y + len y - 1) =? y) && (start y + len y =? (if y =? 399 then 146097 else start (y + 1))).
Lemma all_years : forallb (fun y => year_checks (Z.of_nat y)) (seq 0 400) = true.
Proof. vm_compute. reflexivity. Qed.
Lemma year_ok y : 0 <= y < 400 -> yoe_of (start y) = y /\ yoe_of (start y + len y - 1) = y /\ start y + len y = (if y =? 399 then 146097 else start (y + 1)).
Proof.
  intros B. pose proof (proj1 (forallb_forall _ _) all_years (Z.to_nat y)) as A. cbv beta in A. rewrite Z2Nat.id in A by lia.
  assert (I : In (Z.to_nat y) (seq 0 400)) by (apply in_seq; lia). specialize (A I). unfold year_checks in A. rewrite !andb_true_iff, !Z.eqb_eq in A. tauto.
Qed.
Lemma start_bounds y : 0 <= y < 400 -> 0 <= start y /\ start y + len y <= 146097.
Proof.
  intros B. unfold start, len. split; [Z.to_euclidean_division_equations; lia|].
  assert (L : (if leapb (y + 1) then 366 else 365) <= 366) by (destruct (leapb (y + 1)); lia).
  destruct (Z.eq_dec y 399) as [->|]; [vm_compute; discriminate|]. Z.to_euclidean_division_equations. lia.
Qed.
Lemma yoe_is y k : 0 <= y < 400 -> 0 <= k < len y -> yoe_of (start y + k) = y.
Proof.
  intros B K. destruct (year_ok y B) as (A1 & A2 & _). destruct (start_bounds y B) as [S0 S1].
  pose proof (yoe_mono (Z.to_nat k) (start y) S0 ltac:(lia)) as M1. rewrite Z2Nat.id, A1 in M1 by lia.
  pose proof (yoe_mono (Z.to_nat (len y - 1 - k)) (start y + k) ltac:(lia) ltac:(lia)) as M2. rewrite Z2Nat.id in M2 by lia.
  replace (start y + k + (len y - 1 - k)) with (start y + len y - 1) in M2 by lia. lia.
Qed.
Lemma find_year n : 0 <= n < 146097 -> exists y k, 0 <= y < 400 /\ 0 <= k < len y /\ n = start y + k.
Proof.
  intros B.
  assert (K : forall j, (j < 400)%nat -> n < start (Z.of_nat j) + len (Z.of_nat j) -> exists y k, 0 <= y < 400 /\ 0 <= k < len y /\ n = start y + k).
  { induction j as [|j IH]; intros J H.
    - exists 0, n. change (start (Z.of_nat 0)) with 0 in H. change (start 0) with 0. change (Z.of_nat 0) with 0 in H. lia.
    - destruct (Z.lt_ge_cases n (start (Z.of_nat (Datatypes.S j)))) as [L|L].
      + apply IH; [lia|]. destruct (year_ok (Z.of_nat j) ltac:(lia)) as (_ & _ & E). rewrite E. destruct (Z.eqb_spec (Z.of_nat j) 399); [lia|]. replace (Z.of_nat j + 1) with (Z.of_nat (Datatypes.S j)) by lia. exact L.
      + exists (Z.of_nat (Datatypes.S j)), (n - start (Z.of_nat (Datatypes.S j))). lia. }
  apply (K 399%nat); [lia|]. destruct (year_ok 399 ltac:(lia)) as (_ & _ & E). change (Z.of_nat 399) with 399. rewrite E. cbn [Z.eqb Pos.eqb]. lia.
Qed.
(** days of a year: month and day *)
Definition mp_of (k : Z) : Z := (5 * k + 2) / 153.
Definition md (k : Z) : Z * Z := ((if mp_of k <? 10 then mp_of k + 3 else mp_of k - 9), k - (153 * mp_of k + 2) / 5 + 1).
Definition in_year (y : Z) (x : Z * Z) : Z * Z * Z := let '(m, d) := x in (y + (if m <=? 2 then 1 else 0), m, d).
Lemma civ_at y k : 0 <= y < 400 -> 0 <= k < len y -> civ (start y + k) = in_year y (md k).
Proof.
  intros B K. pose proof (yoe_is y k B K) as E. unfold civ, in_year, md, mp_of. unfold yoe_of in E. rewrite E. unfold start. replace (365 * y + y / 4 - y / 100 + k - (365 * y + y / 4 - y / 100)) with k by lia. reflexivity.
Qed.
Definition mlen_of (l : bool) (m : Z) : Z := if m =? 2 then if l then 29 else 28 else if (m =? 4) || (m =? 6) || (m =? 9) || (m =? 11) then 30 else 31.
Lemma mlen_is y m : mlen y m = mlen_of (leapb y) m.
Proof. reflexivity. Qed.
(** the month of a day and those of the day after it; [y] stands for the years *)
Definition eq2 (a b : Z * Z) : bool := (fst a =? fst b) && (snd a =? snd b).
Definition dec_len (l : bool) : Z := if l then 366 else 365.
Definition day_checks (l : bool) (k : Z) : bool :=
  let '(m, d) := md k in
  (1 <=? m) && (m <=? 12) && (1 <=? d) && (d <=? mlen_of l m)
  && (if k =? dec_len l - 1 then (m =? 2) && (d =? mlen_of l m)
      else if d <? mlen_of l m then eq2 (md (k + 1)) (m, d + 1)
      else negb (m =? 2) && eq2 (md (k + 1)) ((if m =? 12 then 1 else m + 1), 1))
  && ((153 * (if m <=? 2 then m + 9 else m - 3) + 2) / 5 + d - 1 =? k).
Definition days_checked (l : bool) : bool := forallb (fun k => day_checks l (Z.of_nat k)) (seq 0 (if l then 366 else 365)).
Lemma all_days l : days_checked l = true.
Proof. destruct l; vm_compute; reflexivity. Qed.
Lemma day_ok l k : 0 <= k < dec_len l -> day_checks l k = true.
Proof.
  intros B. pose proof (proj1 (forallb_forall _ _) (all_days l) (Z.to_nat k)) as A. cbv beta in A. rewrite Z2Nat.id in A by lia. apply A, in_seq. unfold dec_len in B. destruct l; lia.
Qed.
Lemma len_is y : len y = dec_len (leapb (y + 1)).
Proof. reflexivity. Qed.
(** the number of a day, 0 for 0000-03-01 *)
Definition day_number (x : Z * Z * Z) : Z :=
  let '(y, m, d) := x in
  let y' := if m <=? 2 then y - 1 else y in
  start y' + y' / 400 + (153 * (if m <=? 2 then m + 9 else m - 3) + 2) / 5 + d - 1.
Lemma eq2_eq a b : eq2 a b = true -> a = b.
Proof. destruct a, b. unfold eq2. cbn. rewrite andb_true_iff, !Z.eqb_eq. intuition congruence. Qed.
Local Opaque md start.
Lemma civ_good n : 0 <= n < 146097 -> good (civ n) = true.
Proof.
  intros B. destruct (find_year n B) as (y & k & Y & K & ->). rewrite civ_at by assumption. rewrite len_is in K. pose proof (day_ok _ _ K) as C. unfold day_checks in C.
  unfold in_year, good. destruct (md k) as [m d]. rewrite !andb_true_iff in C. rewrite !andb_true_iff. destruct C as [[(((C1 & C2) & C3) & C4) _] _]. repeat split; auto.
  rewrite mlen_is. destruct (Z.leb_spec m 2) as [M|M]; [exact C4|]. unfold mlen_of in *. destruct (Z.eqb_spec m 2); [lia|exact C4].
Qed.
Lemma md_first : md 0 = (3, 1).
Proof. vm_compute. reflexivity. Qed.
Lemma start_0 : start 0 = 0.
Proof. vm_compute. reflexivity. Qed.
Lemma civ_next n : 0 <= n < 146097 -> next (civ n) = if n =? 146096 then later 1 (civ 0) else civ (n + 1).
Proof.
  intros B. destruct (find_year n B) as (y & k & Y & K & E). subst n. rewrite civ_at by assumption. pose proof K as K'. rewrite len_is in K'. pose proof (day_ok _ _ K') as C. unfold day_checks in C.
  destruct (year_ok y Y) as (_ & _ & EY). unfold in_year at 1, next. destruct (md k) as [m d] eqn:MD. rewrite !andb_true_iff in C. destruct C as [[(((C1 & C2) & C3) & C4) C5] _].
  assert (ML : mlen (y + (if m <=? 2 then 1 else 0)) m = mlen_of (leapb (y + 1)) m).
  { rewrite mlen_is. destruct (Z.leb_spec m 2) as [M|M]; [reflexivity|]. unfold mlen_of. destruct (Z.eqb_spec m 2); [lia|reflexivity]. }
  rewrite ML. rewrite <- len_is in C5. destruct (Z.eqb_spec k (len y - 1)) as [EK|NK].
  - apply andb_true_iff in C5 as [M2 D]. apply Z.eqb_eq in M2, D. subst m d. rewrite Z.ltb_irrefl. cbn [Z.eqb Pos.eqb Z.leb Z.compare Pos.compare Pos.compare_cont].
    revert EY. destruct (Z.eqb_spec y 399) as [->|N3]; intros EY.
    + destruct (Z.eqb_spec (start 399 + k) 146096); [|lia]. replace 0 with (start 0 + 0) by (rewrite start_0; reflexivity).
      rewrite civ_at by (split; [lia|vm_compute; reflexivity]). rewrite md_first. reflexivity.
    + destruct (Z.eqb_spec (start y + k) 146096) as [E6|_]; [destruct (start_bounds (y + 1) ltac:(lia)) as [_ Q]; pose proof (len_bounds (y + 1)); lia|].
      replace (start y + k + 1) with (start (y + 1) + 0) by lia. rewrite civ_at; [|lia|pose proof (len_bounds (y + 1)); lia]. rewrite md_first. cbn. f_equal. f_equal. lia.
  - assert (E6 : (start y + k =? 146096) = false) by (apply Z.eqb_neq; destruct (start_bounds y Y); lia). rewrite E6.
    replace (start y + k + 1) with (start y + (k + 1)) by lia. rewrite civ_at by lia.
    destruct (Z.ltb_spec d (mlen_of (leapb (y + 1)) m)) as [L|L].
    + apply eq2_eq in C5. rewrite C5. reflexivity.
    + apply andb_true_iff in C5 as [M2 C5]. apply negb_true_iff, Z.eqb_neq in M2. apply eq2_eq in C5. rewrite C5. apply Z.leb_le in C1, C2. unfold in_year.
      destruct (Z.eqb_spec m 12) as [->|N12]; cbn [Z.leb Z.compare Pos.compare Pos.compare_cont]; [f_equal; f_equal; lia|].
      destruct (Z.leb_spec m 2), (Z.leb_spec (m + 1) 2); try lia; reflexivity.
Qed.
Lemma civ_number n : 0 <= n < 146097 -> day_number (civ n) = n.
Proof.
  intros B. destruct (find_year n B) as (y & k & Y & K & ->). rewrite civ_at by assumption. rewrite len_is in K. pose proof (day_ok _ _ K) as C. unfold day_checks in C.
  unfold in_year, day_number. destruct (md k) as [m d]. rewrite !andb_true_iff in C. destruct C as [_ C]. apply Z.eqb_eq in C.
  assert (Y0 : y / 400 = 0) by (apply Z.div_small; lia).
  destruct (Z.leb_spec m 2) as [M|M]; [replace (y + 1 - 1) with y by lia|replace (y + 0) with y by lia]; rewrite Y0; lia.
Qed.
Local Transparent md start.
Lemma number_later e x : day_number (later e x) = day_number x + 146097 * e.
Proof.
  destruct x as [[y m] d]. unfold later, day_number, start. generalize ((153 * (if m <=? 2 then m + 9 else m - 3) + 2) / 5). intros q. cbv zeta.
  destruct (m <=? 2); Z.to_euclidean_division_equations; lia.
Qed.
Lemma civil_good n : good (civil n) = true.
Proof.
  rewrite civil_civ, good_later. apply civ_good, Z.mod_pos_bound. reflexivity.
Qed.
Lemma civil_next n : next (civil n) = civil (n + 1).
Proof.
  rewrite !civil_civ, next_later. set (z := n + 719468). replace (n + 1 + 719468) with (z + 1) by lia.
  pose proof (Z.mod_pos_bound z 146097 eq_refl) as B. pose proof (Z.div_mod z 146097 ltac:(lia)) as D.
  rewrite (civ_next _ B).
  set (q := z / 146097) in *. set (r := z mod 146097) in *.
  destruct (Z.eqb_spec r 146096) as [E|E].
  - replace ((z + 1) / 146097) with (q + 1) by (apply (Z.div_unique _ _ _ 0); lia). replace ((z + 1) mod 146097) with 0 by (apply (Z.mod_unique _ _ (q + 1)); lia).
    now rewrite later_more.
  - replace ((z + 1) / 146097) with q by (apply (Z.div_unique _ _ _ (r + 1)); lia). replace ((z + 1) mod 146097) with (r + 1) by (apply (Z.mod_unique _ _ q); lia). reflexivity.
Qed.
Lemma civil_day_at n : 0 <= n -> day_at n (civil n).
Proof.
  intros B. pattern n. apply natlike_ind; [constructor| |exact B]. intros x X IH. unfold Z.succ. apply da_next with (civil x); [exact IH|].
  rewrite <- civil_next. apply next_ok, civil_good.
Qed.
Lemma civil_number n : day_number (civil n) = n + 719468.
Proof.
  rewrite civil_civ, number_later, civ_number by (apply Z.mod_pos_bound; reflexivity). pose proof (Z.div_mod (n + 719468) 146097 ltac:(lia)). lia.
Qed.
