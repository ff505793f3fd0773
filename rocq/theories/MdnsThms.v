(** Proofs about mDNS packets (C33, C34). *)
From Verif Require Import Base PeerId Db DbSpec MsLookup MsSpec MsThms Hlr Mdns MdnsSpec.
Local Open Scope N_scope.
Local Open Scope list_scope.

(** ** Names *)
Lemma join_cons x r : r <> [] -> join (x :: r) = x ++ 46 :: join r.
Proof. destruct r; [congruence|auto]. Qed.
Lemma labels_ne l : labels l <> [].
Proof. destruct l as [|c l]; cbn; [discriminate|]. destruct (c =? 46); [discriminate|]. destruct (labels l); discriminate. Qed.
Lemma labels_app x l : ~ In 46 x -> labels (x ++ 46 :: l) = x :: labels l.
Proof.
  induction x as [|c x IH]; intros N; cbn; [reflexivity|]. destruct (N.eqb_spec c 46) as [->|E]; [exfalso; apply N; left; auto|].
  rewrite IH; [reflexivity|]. intros I. apply N. right. auto.
Qed.
Lemma labels_one x : ~ In 46 x -> labels x = [x].
Proof.
  induction x as [|c x IH]; intros N; cbn; [reflexivity|]. destruct (N.eqb_spec c 46) as [->|E]; [exfalso; apply N; left; auto|].
  rewrite IH; [reflexivity|]. intros I. apply N. right. auto.
Qed.
Lemma labels_join ls : ls <> [] -> Forall label ls -> labels (join ls) = ls.
Proof.
  induction ls as [|x r IH]; intros N F; [congruence|]. apply Forall_cons_iff in F as [(_ & D & _) F]. destruct r as [|y r].
  - apply labels_one; auto.
  - rewrite join_cons by discriminate. rewrite labels_app by auto. rewrite IH; [reflexivity|discriminate|auto].
Qed.

Definition pre (x : list N) : list N := N.of_nat (length x) :: x.
Lemma flat_pre x r : flat_map pre (x :: r) = pre x ++ flat_map pre r.
Proof. reflexivity. Qed.
Lemma apn_join ls : ls <> [] -> Forall label ls -> apn_from_str (join ls) = flat_map pre ls.
Proof.
  intros N F. unfold apn_from_str. rewrite labels_join by auto. clear N. induction F as [|x r (L & _) F IH]; [auto|]. cbn [flat_map]. rewrite IH.
  unfold pre at 2. rewrite N.mod_small by lia. reflexivity.
Qed.
Lemma pre_len ls : ls <> [] -> length (flat_map pre ls) = S (length (join ls)).
Proof.
  induction ls as [|x r IH]; intros N; [congruence|]. destruct r as [|y r].
  - cbn. rewrite app_nil_r. auto.
  - rewrite join_cons by discriminate. rewrite flat_pre, app_length. rewrite IH by discriminate. rewrite app_length. cbn [length pre]. lia.
Qed.
Lemma pre_no0 ls : Forall label ls -> ~ In 0 (flat_map pre ls).
Proof.
  induction 1 as [|x r (L & _ & Z) F IH]; [auto|]. cbn [flat_map]. rewrite in_app_iff. intros [[E|I]|I]; try tauto. lia.
Qed.

Lemma apn_to_join ls : forall fuel cap out tail, ls <> [] -> Forall label ls -> (length ls <= fuel)%nat -> (length out + length (join ls) < cap)%nat ->
  apn_to_str fuel cap (flat_map pre ls ++ tail) (length (flat_map pre ls)) out = Val (Some (out ++ join ls)).
Proof.
  induction ls as [|x r IH]; intros fuel cap out tail N F Lf Lc; [congruence|]. apply Forall_cons_iff in F as [(L & _) F].
  destruct fuel as [|fuel]; [cbn in Lf; lia|]. rewrite flat_pre. cbn [pre app length apn_to_str]. rewrite app_length.
  destruct (N.eqb_spec (N.of_nat (length x)) 0) as [|_]; [lia|]. rewrite Nat2N.id.
  destruct (Nat.ltb_spec (S (length x + length (flat_map pre r))) (length x + 1)) as [|_]; [lia|].
  rewrite <- app_assoc. destruct (Nat.ltb_spec (length (x ++ flat_map pre r ++ tail)) (length x)) as [H|_]; [rewrite app_length in H; lia|].
  rewrite first_at by auto. rewrite skip_at by auto. rewrite app_length.
  assert (E : (S (length x + length (flat_map pre r)) - (length x + 1) = length (flat_map pre r))%nat) by lia. rewrite E. clear E.
  destruct r as [|y r].
  - cbn [flat_map length join] in *. destruct (Nat.ltb_spec cap (length out + length x)) as [|_]; [lia|]. cbn [Nat.eqb].
    destruct fuel; cbn [apn_to_str]; unfold put_nul; rewrite app_length; (destruct (Nat.ltb_spec (length out + length x) cap) as [_|]; [reflexivity|lia]).
  - rewrite join_cons in Lc |- * by discriminate. rewrite app_length in Lc. cbn [length] in Lc.
    destruct (Nat.ltb_spec cap (length out + length x)) as [|_]; [lia|].
    destruct (Nat.eqb_spec (length (flat_map pre (y :: r))) 0) as [H|_]; [rewrite pre_len in H by discriminate; lia|].
    destruct (Nat.leb_spec cap (length out + length x)) as [|_]; [lia|].
    rewrite IH; [rewrite <- !app_assoc; reflexivity|discriminate|auto|cbn in Lf |- *; lia|rewrite !app_length; cbn [length]; lia].
Qed.
Lemma cut0_id l : ~ In 0 l -> cut0 l = l.
Proof. induction l as [|x l IH]; intros N; cbn; [auto|]. destruct (N.eqb_spec x 0) as [->|]; [exfalso; apply N; left; auto|]. rewrite IH; auto. intros I; apply N; right; auto. Qed.
Lemma join_no0 ls : Forall label ls -> ~ In 0 (join ls).
Proof.
  induction 1 as [|x r (_ & _ & Z) F IH]; [auto|]. destruct r as [|y r]; [auto|]. rewrite join_cons by discriminate.
  rewrite in_app_iff. cbn [In]. intros [I|[E|I]]; auto. discriminate.
Qed.
Lemma len_labels ls : ls <> [] -> Forall label ls -> (length ls <= length (join ls))%nat.
Proof.
  induction ls as [|x r IH]; intros N F; [congruence|]. apply Forall_cons_iff in F as [(L & _) F]. destruct r as [|y r]; [cbn; lia|].
  rewrite join_cons by discriminate. rewrite app_length. cbn [length] in *. specialize (IH ltac:(discriminate) F). lia.
Qed.

(** ** Numbers *)
Lemma rd8_app l r i : (length l = i)%nat -> rd8 (l ++ r) i = rd8 r 0.
Proof. intros <-. unfold rd8. rewrite nth_error_app2 by lia. rewrite Nat.sub_diag. auto. Qed.
Lemma rd8_shift l r i j : (length l = i)%nat -> rd8 (l ++ r) (i + j) = rd8 r j.
Proof. intros <-. unfold rd8. rewrite nth_error_app2 by lia. f_equal. replace (length l + j - length l)%nat with j by lia. auto. Qed.
Lemma rd16_shift l r i j : (length l = i)%nat -> rd16 (l ++ r) (i + j) = rd16 r j.
Proof. intros E. unfold rd16. rewrite rd8_shift by auto. rewrite <- Nat.add_succ_r. rewrite rd8_shift by auto. auto. Qed.
Lemma be16_val n : n < 65536 -> 256 * ((n / 256) mod 256) + n mod 256 = n.
Proof.
  intros L. rewrite (N.mod_small (n / 256)) by (apply N.div_lt_upper_bound; lia). symmetry. apply N.div_mod. lia.
Qed.
Lemma rd16_be n r : n < 65536 -> rd16 (be16 n ++ r) 0 = Val n.
Proof. intros L. unfold rd16, rd8, be16. cbn [app nth_error mbind]. rewrite be16_val by auto. auto. Qed.

(** ** Header *)
Lemma header_rt id qr qd an r : id < 65536 -> an < 65536 -> header_decode (header_encode id qr qd an ++ r) = Val (id, qr, an).
Proof.
  intros L A. unfold header_decode, header_encode, rd16, rd8, be16. cbn [app nth_error mbind]. rewrite !be16_val by auto. destruct qr; reflexivity.
Qed.
Lemma header_len id qr qd an : length (header_encode id qr qd an) = 12%nat.
Proof. reflexivity. Qed.

(** ** Requests *)
Lemma request_rt id dom t : id < 65536 -> is_name dom -> t < 65536 -> request_decode (request_encode id dom t) = Val (Some (id, dom, t)).
Proof.
  intros Li (ls & N & F & ->) Lt. unfold request_decode, request_encode. rewrite app_length, header_len.
  destruct (Nat.ltb_spec (12 + length (question_encode (join ls) t 1)) 12) as [|_]; [lia|]. rewrite header_rt by lia. cbn [mbind].
  rewrite skip_at by (apply header_len). unfold question_encode. rewrite apn_join by auto.
  set (E := flat_map pre ls). assert (LE : length E = S (length (join ls))) by (apply pre_len; auto).
  unfold question_decode. set (l := E ++ [0] ++ be16 t ++ be16 1). assert (Ll : length l = (length E + 5)%nat) by (unfold l; rewrite !app_length; reflexivity).
  pose proof (len_labels ls N F) as LL. assert (1 <= length ls)%nat by (destruct ls; [congruence|cbn; lia]).
  destruct (Nat.ltb_spec (length l) 6) as [|_]; [lia|]. replace (length l - 4 - 1)%nat with (length E) by lia. replace (length l - 4)%nat with (S (length E)) by lia.
  unfold l at 1, E at 3 4. rewrite apn_to_join; [|auto|auto|lia|cbn; lia]. cbn [mbind app]. unfold l.
  change (E ++ 0 :: be16 t ++ be16 1) with (E ++ [0] ++ be16 t ++ be16 1). rewrite app_assoc.
  assert (L1 : (length (E ++ [0%N]) = S (length E))%nat) by (rewrite app_length; cbn; lia).
  rewrite <- (Nat.add_0_r (S (length E))) at 1. rewrite rd16_shift by auto. rewrite rd16_be by auto. cbn [mbind].
  rewrite rd16_shift by auto. cbn. rewrite cut0_id by (apply join_no0; auto). reflexivity.
Qed.

(** ** Records *)
Lemma strnlen_at name r max : ~ In 0 name -> match max with None => True | Some m => (length name < m)%nat end -> strnlen (name ++ 0 :: r) max = Val (length name).
Proof.
  revert max. induction name as [|x name IH]; intros max Z L; cbn [app strnlen length].
  - destruct max as [[|m]|]; cbn in *; [lia|auto|auto].
  - assert (x <> 0) by (intros ->; apply Z; left; auto). assert (~ In 0 name) by (intros I; apply Z; right; auto).
    destruct max as [[|m]|]; cbn in L; [lia| |]; (destruct (N.eqb_spec x 0); [contradiction|]); rewrite IH; auto. lia.
Qed.
Lemma record_rt dom r tail : is_name dom -> r_type r < 256 -> N.of_nat (length (r_rdata r)) < 65536 ->
  record_decode (record_encode dom r ++ tail) = Val (Some (dom, r, length (record_encode dom r))).
Proof.
  intros (ls & N & F & ->) Lt Ld. unfold record_encode. rewrite apn_join by auto. set (E := flat_map pre ls). destruct r as [t body]. cbn [r_type r_rdata] in *.
  set (fix10 := be16 t ++ be16 1 ++ [0; 0; 0; 0] ++ be16 (N.of_nat (length body))).
  assert (Q : E ++ [0] ++ be16 t ++ be16 1 ++ [0; 0; 0; 0] ++ be16 (N.of_nat (length body)) ++ body = (E ++ [0]) ++ fix10 ++ body).
  { unfold fix10. rewrite <- !app_assoc. reflexivity. }
  rewrite Q. clear Q. assert (L10 : length fix10 = 10%nat) by reflexivity. assert (LE : length E = S (length (join ls))) by (apply pre_len; auto).
  assert (L1 : (length (E ++ [0%N]) = S (length E))%nat) by (rewrite app_length; cbn; lia).
  unfold record_decode. rewrite <- !app_assoc. set (l := E ++ [0] ++ fix10 ++ body ++ tail).
  assert (Ll : length l = (length E + 11 + length body + length tail)%nat) by (unfold l; rewrite !app_length, L10; cbn [length]; lia).
  destruct (Nat.ltb_spec (length l) 10) as [|_]; [lia|].
  assert (SN : strnlen l (Some (length l - 10)%nat) = Val (length E)) by (unfold l at 1; cbn [app]; apply strnlen_at; [apply pre_no0; auto|rewrite Ll; lia]).
  rewrite SN. cbn [mbind].
  assert (Sp : l = (E ++ [0]) ++ fix10 ++ body ++ tail) by (unfold l; rewrite <- app_assoc; reflexivity).
  assert (R8 : rd8 l (S (length E)) = Val 0).
  { rewrite Sp, <- (Nat.add_0_r (S (length E))), rd8_shift by auto. unfold rd8, fix10, be16. cbn [app nth_error]. rewrite (N.div_small t 256) by lia. reflexivity. }
  rewrite R8. cbn [mbind N.eqb negb].
  pose proof (len_labels ls N F) as LL.
  assert (AP : apn_to_str (length E) (length E) l (length E) [] = Val (Some (join ls))).
  { unfold l. replace (apn_to_str (length E) (length E)) with (apn_to_str (S (length (join ls))) (S (length (join ls)))) by (rewrite LE; auto). unfold E. rewrite apn_to_join; auto. }
  rewrite AP. cbn [mbind].
  assert (R16 : forall j, rd16 l (S (length E) + j) = rd16 (fix10 ++ body ++ tail) j) by (intros j; rewrite Sp; apply rd16_shift; auto).
  rewrite <- (Nat.add_0_r (S (length E))) at 1. rewrite !R16.
  assert (T : rd16 (fix10 ++ body ++ tail) 0 = Val t) by (unfold fix10; rewrite <- !app_assoc; apply rd16_be; lia). rewrite T. cbn [mbind].
  change (rd16 (fix10 ++ body ++ tail) 2) with (Val 1). change (rd16 (fix10 ++ body ++ tail) 4) with (Val 0). change (rd16 (fix10 ++ body ++ tail) 6) with (Val 0). cbn [mbind].
  assert (B : rd16 (fix10 ++ body ++ tail) 8 = Val (N.of_nat (length body))).
  { unfold fix10, rd16, rd8, be16. cbn [app nth_error mbind]. rewrite be16_val by lia. auto. }
  rewrite B. cbn [mbind]. rewrite Nat2N.id. destruct (Nat.ltb_spec (length l) (S (length E) + 10 + length body)) as [|_]; [lia|].
  rewrite cut0_id by (apply join_no0; auto). rewrite !app_length, L10. cbn [length]. do 3 f_equal; [|lia]. f_equal.
  rewrite Sp, app_assoc. rewrite skip_at by (rewrite app_length, L10; lia). rewrite first_at by auto. reflexivity.
Qed.
Lemma octets_eqb_refl a : octets_eqb a a = true.
Proof. induction a as [|x a IH]; cbn; [auto|]. rewrite N.eqb_refl. auto. Qed.
Lemma octets_eqb_eq a b : octets_eqb a b = true -> a = b.
Proof. revert b. induction a as [|x a IH]; intros [|y b]; cbn; try discriminate; auto. rewrite andb_true_iff, N.eqb_eq. intros [-> E]. rewrite (IH _ E). auto. Qed.
Definition rec_ok (r : mrec) : Prop := r_type r < 256 /\ N.of_nat (length (r_rdata r)) < 65536.
Lemma record_len dom r : (1 <= length (record_encode dom r))%nat.
Proof. unfold record_encode. rewrite !app_length. cbn [length]. lia. Qed.
Lemma records_rt dom rs : is_name dom -> Forall rec_ok rs -> forall fuel found acc, (length rs <= fuel)%nat -> found = None \/ found = Some dom ->
  records_decode fuel (flat_map (record_encode dom) rs) found acc = Val (Some (match rs with [] => found | _ => Some dom end, acc ++ rs)).
Proof.
  intros Nm. induction rs as [|r rs IH]; intros F fuel found acc Lf Hf.
  - cbn [flat_map]. rewrite app_nil_r. destruct fuel; reflexivity.
  - apply Forall_cons_iff in F as [[Ft Fl] F]. destruct fuel as [|fuel]; [cbn in Lf; lia|]. cbn [flat_map].
    destruct (record_encode dom r ++ flat_map (record_encode dom) rs) as [|x0 l0] eqn:E0.
    { apply app_eq_nil in E0 as [E0 _]. pose proof (record_len dom r) as L. rewrite E0 in L. cbn in L. lia. }
    rewrite <- E0. clear x0 l0 E0. assert (X : forall l, l <> [] -> records_decode (S fuel) l found acc = mdo x <- record_decode l;;
      match x with None => Val None | Some (d, rc, n) => if match found with Some d0 => negb (octets_eqb d0 d) | None => false end then Val None else records_decode fuel (skipn n l) (Some (match found with Some d0 => d0 | None => d end)) (acc ++ [rc]) end) by (intros [|? ?] Hl; [congruence|reflexivity]).
    rewrite X by (intros E0; apply app_eq_nil in E0 as [E0 _]; pose proof (record_len dom r) as L; rewrite E0 in L; cbn in L; lia). clear X.
    rewrite record_rt by auto. cbn [mbind]. rewrite skip_at by auto.
    assert (C : match found with Some d0 => negb (octets_eqb d0 dom) | None => false end = false) by (destruct Hf as [-> | ->]; [auto|rewrite octets_eqb_refl; auto]). rewrite C.
    assert (D : match found with Some d0 => d0 | None => dom end = dom) by (destruct Hf as [-> | ->]; auto). rewrite D.
    rewrite IH; [|auto|cbn in Lf; lia|auto]. rewrite <- app_assoc. cbn [app]. destruct rs; reflexivity.
Qed.
Lemma flat_len dom rs : (length rs <= length (flat_map (record_encode dom) rs))%nat.
Proof. induction rs as [|r rs IH]; cbn [flat_map length]; [lia|]. rewrite app_length. pose proof (record_len dom r). lia. Qed.
Lemma answer_rt id dom rs : id < 65536 -> is_name dom -> Forall rec_ok rs -> rs <> [] -> N.of_nat (length rs) < 65536 ->
  answer_decode (answer_encode id dom rs) = Val (Some (id, Some dom, rs)).
Proof.
  intros Li Nm F Ne Lr. unfold answer_decode, answer_encode. rewrite app_length, header_len.
  destruct (Nat.ltb_spec (12 + length (flat_map (record_encode dom) rs)) 12) as [|_]; [lia|]. rewrite header_rt by lia. cbn [mbind negb].
  rewrite skip_at by apply header_len. pose proof (flat_len dom rs). rewrite records_rt; [|auto|auto|lia|auto]. cbn [mbind app]. rewrite N.eqb_refl. cbn [negb].
  destruct rs; [congruence|]. reflexivity.
Qed.

(** ** Text *)
Lemma octets_app a b : octets_of (a ++ b)%string = octets_of a ++ octets_of b.
Proof. unfold octets_of. rewrite bytes_app, map_app. auto. Qed.
Lemma octets_len s : length (octets_of s) = String.length s.
Proof. unfold octets_of. rewrite map_length, bytes_length. auto. Qed.
Lemma text_octets s : text_of (octets_of s) = s.
Proof. unfold text_of, octets_of. rewrite map_map. erewrite map_ext; [|intros a; apply ascii_N_embedding]. rewrite map_id. apply str_bytes. Qed.

Definition digit (c : N) : Prop := 48 <= c <= 57.
Lemma dec_value_app a b acc : Forall digit a -> dec_value (a ++ b) acc = match dec_value a acc with Some v => dec_value b v | None => None end.
Proof.
  revert acc. induction a as [|c a IH]; intros acc F; cbn; [auto|]. apply Forall_cons_iff in F as [D F]. unfold digit in D.
  destruct (N.leb_spec 48 c); [|lia]. destruct (N.leb_spec c 57); [|lia]. cbn. apply IH; auto.
Qed.
Lemma digit_octet n : n < 10 -> octets_of (String (ascii_of_N (48 + n)) "") = [48 + n].
Proof. intros L. unfold octets_of. cbn [bytes_of map]. rewrite N_ascii_embedding by lia. auto. Qed.
Lemma dec_digits_spec fuel : forall n, n < 10 ^ N.of_nat fuel -> (1 <= fuel)%nat ->
  Forall digit (octets_of (dec_digits fuel n)) /\ dec_value (octets_of (dec_digits fuel n)) 0 = Some n /\ (1 <= String.length (dec_digits fuel n) <= fuel)%nat.
Proof.
  induction fuel as [|f IH]; intros n L Lf; [lia|]. cbn [dec_digits]. pose proof (N.mod_lt n 10 ltac:(lia)) as M.
  assert (D1 : digit (48 + n mod 10)) by (clear - M; unfold digit; generalize dependent (n mod 10); lia).
  assert (V : forall acc, dec_value [48 + n mod 10] acc = Some (10 * acc + n mod 10)).
  { intros acc. clear - M. generalize dependent (n mod 10). intros m M. cbn [dec_value]. destruct (N.leb_spec 48 (48 + m)); [|lia]. destruct (N.leb_spec (48 + m) 57); [|lia]. cbn [andb]. f_equal. lia. }
  destruct (N.ltb_spec n 10) as [S1|S1].
  - rewrite digit_octet by auto. split; [repeat constructor; apply D1|]. rewrite V. rewrite N.mod_small by lia. split; [f_equal; lia|cbn; lia].
  - destruct f as [|f]; [cbn in L; lia|]. destruct (IH (n / 10)) as (A & B & C); [|lia|].
    { apply N.div_lt_upper_bound; [lia|]. rewrite <- N.pow_succ_r by lia. rewrite <- Nat2N.inj_succ. auto. }
    rewrite octets_app, digit_octet by auto. rewrite dec_value_app by auto. rewrite B, V.
    split; [apply Forall_app; split; [auto|repeat constructor; apply D1]|]. split; [f_equal; rewrite (N.div_mod n 10) at 3 by lia; lia|].
    rewrite <- !octets_len, octets_app, digit_octet, app_length by auto. rewrite octets_len. cbn [length]. lia.
Qed.
Lemma dec_spec n : n < 4294967296 -> Forall digit (octets_of (dec n)) /\ decode_uint32 (octets_of (dec n)) = Some n /\ (1 <= String.length (dec n) <= 10)%nat.
Proof.
  intros L. unfold dec. destruct (dec_digits_spec 10 n) as (A & B & C); [cbn; lia|lia|]. split; auto. split; auto.
  set (l := octets_of (dec_digits 10 n)) in *. assert (N : l <> []). { intros E. assert (length l = 0)%nat by (rewrite E; auto). unfold l in *. rewrite octets_len in *. lia. }
  clearbody l. unfold decode_uint32. destruct l as [|c l]; [congruence|]. inversion A as [|? ? D F]; subst. unfold digit in D.
  cbn [skip_blanks]. unfold is_blank. destruct (N.eqb_spec c 32); [lia|]. destruct (N.leb_spec c 13); [lia|]. rewrite andb_false_r. cbn [orb].
  destruct (N.eqb_spec c 45); [lia|]. destruct (N.eqb_spec c 43); [lia|]. rewrite B. destruct (N.ltb_spec 4294967295 n); [lia|]. auto.
Qed.
Lemma split_at_eq k v : ~ In 61 k -> ~ In 0 k -> split_chr 61 (k ++ 61 :: v) = Some (k, v).
Proof.
  induction k as [|c k IH]; intros A B; cbn; [auto|]. destruct (N.eqb_spec c 61); [exfalso; apply A; left; auto|]. destruct (N.eqb_spec c 0); [exfalso; apply B; left; auto|].
  rewrite IH; auto; intros I; [apply A|apply B]; right; auto.
Qed.
Lemma txt_rt key v : (1 <= String.length key <= 20)%nat -> ~ In 61 (octets_of key) -> ~ In 0 (octets_of key) -> (String.length v <= 63)%nat -> ~ In 0 (octets_of v) ->
  exists r, txt_encode key v = Some r /\ r_type r = RT_TXT /\ length (r_rdata r) = (String.length key + String.length v + 2)%nat /\ txt_decode r = Val (Some (octets_of key, octets_of v)).
Proof.
  intros Lk Ke K0 Lv V0. unfold txt_encode. rewrite !octets_app. change (octets_of "=") with [61]. rewrite !app_length, !octets_len. cbn [length].
  destruct (Nat.ltb_spec 255 (String.length key + (1 + String.length v))) as [|_]; [lia|]. eexists. split; [reflexivity|]. split; [reflexivity|]. split.
  { cbn [r_rdata length]. rewrite !app_length, !octets_len. cbn [length]. lia. }
  unfold txt_decode. cbn [r_rdata]. unfold rd8. cbn [nth_error mbind tl length]. rewrite !app_length, !octets_len. cbn [length].
  set (n := (String.length key + (1 + String.length v))%nat) in *. destruct (N.leb_spec 128 (N.of_nat n)); [lia|].
  replace (Z.of_N (N.of_nat n) =? Z.of_nat (S n) - 1)%Z with true by (symmetry; apply Z.eqb_eq; lia). cbn [negb].
  cbn [app]. pose proof (split_at_eq (octets_of key) (octets_of v) Ke K0) as SE. assert (Q : octets_of key ++ 61 :: octets_of v <> []) by (destruct (octets_of key); discriminate).
  destruct (octets_of key ++ 61 :: octets_of v); [congruence|]. rewrite SE. rewrite !firstn_all2 by (rewrite octets_len; lia). rewrite !cut0_id by auto. reflexivity.
Qed.
Lemma digits_no0 l : Forall digit l -> ~ In 0 l.
Proof. intros F I. rewrite Forall_forall in F. apply F in I. unfold digit in I. lia. Qed.

(** ** Results *)
Lemma txt_num key n : (1 <= String.length key <= 20)%nat -> ~ In 61 (octets_of key) -> ~ In 0 (octets_of key) -> n < 4294967296 ->
  exists r, txt_encode key (dec n) = Some r /\ r_type r = RT_TXT /\ (length (r_rdata r) = String.length key + String.length (dec n) + 2)%nat /\ txt_decode r = Val (Some (octets_of key, octets_of (dec n))).
Proof. intros A B C D. destruct (dec_spec n D) as (F & _ & L). apply txt_rt; auto; [lia|]. apply digits_no0; auto. Qed.
Lemma dec_short n : n <= 65535 -> (String.length (dec n) <= 5)%nat.
Proof.
  intros L. unfold dec. assert (G : forall f k m, m < 10 ^ N.of_nat k -> (1 <= k)%nat -> (String.length (dec_digits f m) <= k)%nat).
  { induction f as [|f IH]; intros k m Lm Lk; cbn [dec_digits]; [cbn; lia|]. destruct (N.ltb_spec m 10); [cbn; lia|]. rewrite <- octets_len, octets_app, app_length, !octets_len. cbn [String.length].
    destruct k as [|[|k]]; [lia|cbn in Lm; lia|]. specialize (IH (S k) (m / 10)). assert (m / 10 < 10 ^ N.of_nat (S k)). { apply N.div_lt_upper_bound; [lia|]. rewrite <- N.pow_succ_r by lia. rewrite <- Nat2N.inj_succ. auto. }
    specialize (IH ltac:(auto) ltac:(lia)). lia. }
  apply G; [cbn; lia|lia].
Qed.
Definition age_key := ltac:(let x := eval cbv in (octets_of "age") in exact x).
Definition port_key := ltac:(let x := eval cbv in (octets_of "port") in exact x).
Lemma port_step p r : 1 <= p <= 65535 -> txt_encode "port" (dec p) = Some r -> forall s b, s_want s = Some b ->
  rs_step s r = Val (Some (if b then mk_rs (s_age s) (s_v4 s) (match s_v6 s with Some (a, _) => Some (a, p) | None => None end) None
                           else mk_rs (s_age s) (match s_v4 s with Some (a, _) => Some (a, p) | None => None end) (s_v6 s) None)).
Proof.
  intros Lp E s b W. destruct (txt_num "port" p) as (r' & E' & T & _ & D); [cbn; lia|cbn; lia|cbn; lia|lia|]. rewrite E in E'. injection E' as <-.
  unfold rs_step. rewrite T. change (RT_TXT =? RT_A) with false. change (RT_TXT =? RT_AAAA) with false. change (RT_TXT =? RT_TXT) with true. cbn iota. rewrite D. cbn [mbind].
  change (octets_eqb (octets_of "port") (octets_of "age")) with false. rewrite octets_eqb_refl. cbn iota. rewrite W.
  destruct (dec_spec p ltac:(lia)) as (_ & V & _). unfold decode_port. rewrite V. destruct (N.ltb_spec 65535 p); [lia|]. destruct b; reflexivity.
Qed.
Lemma age_step n r : n < 4294967296 -> txt_encode "age" (dec n) = Some r -> forall s, s_age s = None -> rs_step s r = Val (Some (mk_rs (Some n) (s_v4 s) (s_v6 s) (s_want s))).
Proof.
  intros Lp E s W. destruct (txt_num "age" n) as (r' & E' & T & _ & D); [cbn; lia|cbn; lia|cbn; lia|lia|]. rewrite E in E'. injection E' as <-.
  unfold rs_step. rewrite T. change (RT_TXT =? RT_A) with false. change (RT_TXT =? RT_AAAA) with false. change (RT_TXT =? RT_TXT) with true. cbn iota. rewrite D. cbn [mbind].
  rewrite octets_eqb_refl. cbn iota. rewrite W. destruct (dec_spec n ltac:(lia)) as (_ & V & _). rewrite V. reflexivity.
Qed.
Lemma port_enc p : 1 <= p <= 65535 -> exists r, txt_encode "port" (dec p) = Some r /\ rec_ok r /\ (length (r_rdata r) <= 11)%nat.
Proof.
  intros L. destruct (txt_num "port" p) as (r & E & T & Lr & _); [cbn; lia|cbn; lia|cbn; lia|lia|]. exists r. pose proof (dec_short p ltac:(lia)). cbn [String.length] in Lr.
  split; auto. split; [split; [rewrite T; reflexivity|lia]|lia].
Qed.
Lemma age_enc n : n < 4294967296 -> exists r, txt_encode "age" (dec n) = Some r /\ rec_ok r /\ (length (r_rdata r) <= 15)%nat.
Proof.
  intros L. destruct (txt_num "age" n) as (r & E & T & Lr & _); [cbn; lia|cbn; lia|cbn; lia|lia|]. exists r. destruct (dec_spec n L) as (_ & _ & Ls). cbn [String.length] in Lr.
  split; auto. split; [split; [rewrite T; reflexivity|lia]|lia].
Qed.
Lemma host_ok n t h : (n <= 16)%nat -> t < 256 -> good_host n h -> Forall rec_ok (host_records t h) /\ (length (host_records t h) <= 2)%nat /\
  forall dom, (length (flat_map (record_encode dom) (host_records t h)) <= 2 * length (apn_from_str dom) + 22 + n + 11)%nat.
Proof.
  intros Ln Lt G. destruct h as [[a p]|]; cbn [host_records]; [|cbn; repeat split; auto; intros; lia]. destruct G as (La & _ & Lp).
  destruct (N.eqb_spec p 0); [lia|]. destruct (port_enc p Lp) as (r & -> & Ok & Lr). split; [|split].
  - constructor; [split; cbn; [auto|lia]|]. constructor; auto.
  - cbn. lia.
  - intros dom. cbn [flat_map]. unfold record_encode. rewrite !app_length. cbn [length be16 r_rdata r_type app]. lia.
Qed.
Lemma result_rt r a : good_result r -> txt_encode "age" (dec (lr_age r)) = Some a ->
  result_from_answer (a :: host_records RT_A (lr_v4 r) ++ host_records RT_AAAA (lr_v6 r)) = Val (Some r).
Proof.
  destruct r as [h4 h6 n]. intros (G4 & G6 & Ne & Ln) Ea. cbn [lr_v4 lr_v6 lr_age] in *. unfold result_from_answer. cbn [rs_run].
  rewrite (age_step n a Ln Ea) by reflexivity. cbn [mbind s_v4 s_v6 s_want].
  assert (B : forall s, s_want s = None -> s_v6 s = None -> rs_run s (host_records RT_AAAA h6) = Val (Some (mk_rs (s_age s) (s_v4 s) h6 None))).
  { intros [sa s4 s6 sw]. cbn. intros -> ->. destruct h6 as [[b p]|]; cbn [host_records]; [|reflexivity]. destruct G6 as (Lb & _ & Lp). destruct (N.eqb_spec p 0); [lia|].
    destruct (port_enc p Lp) as (rp & Ep & _). rewrite Ep. cbn [rs_run]. unfold rs_step at 1. cbn [r_type r_rdata]. change (RT_AAAA =? RT_A) with false. change (RT_AAAA =? RT_AAAA) with true. cbn iota.
    cbn [s_want s_v6]. rewrite Lb. cbn [Nat.eqb negb mbind]. rewrite (port_step p rp Lp Ep _ true) by reflexivity. reflexivity. }
  assert (X : rs_run (mk_rs (Some n) None None None) (host_records RT_A h4 ++ host_records RT_AAAA h6) = Val (Some (mk_rs (Some n) h4 h6 None))).
  { destruct h4 as [[b p]|]; cbn [host_records app]; [|apply B; reflexivity]. destruct G4 as (Lb & _ & Lp). destruct (N.eqb_spec p 0); [lia|].
    destruct (port_enc p Lp) as (rp & Ep & _). rewrite Ep. cbn [rs_run app]. unfold rs_step at 1. cbn [r_type r_rdata]. change (RT_A =? RT_A) with true. cbn iota.
    cbn [s_want s_v4]. rewrite Lb. cbn [Nat.eqb negb mbind]. rewrite (port_step p rp Lp Ep _ false) by reflexivity. cbn [mbind s_age s_v4 s_v6]. apply B; reflexivity. }
  rewrite X. cbn [mbind s_age s_want s_v4 s_v6]. destruct h4 as [[]|]; [reflexivity|]. destruct h6 as [[]|]; [reflexivity|]. exfalso; auto.
Qed.

(** ** C33 *)
Lemma join_app a b : a <> [] -> b <> [] -> join (a ++ b) = join a ++ 46 :: join b.
Proof.
  induction a as [|x a IH]; intros A B; [congruence|]. destruct a as [|y a].
  - cbn [app]. rewrite join_cons by auto. reflexivity.
  - cbn [app]. rewrite (join_cons x (y :: a ++ b)), (join_cons x (y :: a)) by discriminate. change (y :: a ++ b) with ((y :: a) ++ b). rewrite IH by (auto; discriminate). rewrite <- app_assoc. reflexivity.
Qed.
Lemma name_join a b : is_name a -> is_name b -> is_name (a ++ 46 :: b).
Proof.
  intros (la & Na & Fa & ->) (lb & Nb & Fb & ->). exists (la ++ lb). split; [destruct la; [congruence|discriminate]|]. split; [apply Forall_app; auto|]. symmetry. apply join_app; auto.
Qed.
Lemma label_name x : label x -> is_name x.
Proof. intros L. exists [x]. split; [discriminate|]. split; auto. Qed.
Lemma id_label t i : good_id t i -> label (octets_of i).
Proof.
  intros G. assert (D : exists mn mx, digit_string mn mx i /\ (1 <= mn)%nat /\ (mx <= 255)%nat).
  { destruct t; [destruct G| |]; (eexists; eexists; split; [exact G|lia]). }
  destruct D as (mn & mx & [L D] & A & B). split; [rewrite octets_len; lia|].
  assert (X : forall c, In c (octets_of i) -> digit c).
  { intros c I. unfold octets_of in I. apply in_map_iff in I as (x & <- & I). apply In_nth_error in I as [n E]. rewrite <- get_bytes in E. apply D in E. unfold digit. unfold acode in E. lia. }
  split; intros I; apply X in I; unfold digit in I; lia.
Qed.
Lemma domain_name q suffix d : good_query q -> dns_name (lq_service q) -> dns_name suffix -> domain_from_query q suffix = Some d -> is_name (octets_of d).
Proof.
  intros [_ Gi] Ns Nf Ed. assert (N : lq_type q <> IdNone) by (intros T; rewrite T in Gi; destruct Gi).
  assert (d = (lq_service q ++ "." ++ lq_id q ++ "." ++ id_type_name (lq_type q) ++ "." ++ suffix)%string) as -> by (unfold domain_from_query in Ed; destruct (lq_type q); congruence).
  clear Ed. rewrite !octets_app. change (octets_of ".") with [46]. cbn [app]. apply name_join; [exact Ns|]. apply name_join; [apply label_name; eapply id_label; exact Gi|].
  apply name_join; [|exact Nf]. apply label_name. destruct (lq_type q); (split; [cbn; lia|split; cbn; lia]).
Qed.
Lemma domain_len q suffix d : good_query q -> domain_from_query q suffix = Some d -> (String.length d <= 88 + String.length suffix)%nat.
Proof.
  intros [Ls Gi] Ed. destruct (id_no_dot _ _ Gi) as [_ Li]. rewrite bytes_length in Li. assert (N : lq_type q <> IdNone) by (intros T; rewrite T in Gi; destruct Gi).
  assert (d = (lq_service q ++ "." ++ lq_id q ++ "." ++ id_type_name (lq_type q) ++ "." ++ suffix)%string) as -> by (unfold domain_from_query in Ed; destruct (lq_type q); congruence).
  rewrite <- octets_len. repeat rewrite ?octets_app, ?app_length. rewrite !octets_len. destruct (lq_type q); cbn [String.length id_type_name]; lia.
Qed.
Lemma apn_len l : length (apn_from_str l) = S (length l).
Proof.
  unfold apn_from_str. induction l as [|c l IH]; [reflexivity|]. cbn [labels]. destruct (c =? 46).
  - cbn [flat_map]. cbn [app length]. rewrite IH. reflexivity.
  - destruct (labels l) as [|x t] eqn:E; [exfalso; exact (labels_ne _ E)|]. cbn [flat_map app length] in *. rewrite IH. reflexivity.
Qed.
Lemma c33_query id q suffix : good_query q -> dns_name (lq_service q) -> dns_name suffix -> (String.length suffix <= 918)%nat -> id < 65536 ->
  exists p, mdns_query_encode id q suffix = Val (Some p) /\ mdns_query_decode p suffix = Val (Some (id, q)).
Proof.
  intros G Ns Nf L Li. destruct (c32_round q suffix G) as (d & Ed & Eq). pose proof (domain_len q suffix d G Ed) as Ld. pose proof (domain_name q suffix d G Ns Nf Ed) as Nd.
  exists (request_encode id (octets_of d) RT_ALL). unfold mdns_query_encode. rewrite Ed. unfold fits. split.
  - assert (length (request_encode id (octets_of d) RT_ALL) <= 1024)%nat as H.
    { unfold request_encode, question_encode. rewrite !app_length, apn_len, header_len, octets_len. cbn [length be16]. lia. }
    apply Nat.leb_le in H. rewrite H. auto.
  - unfold mdns_query_decode. rewrite request_rt; [|auto|auto|reflexivity]. cbn [mbind]. rewrite text_octets, Eq. auto.
Qed.
Lemma c33_result id q r suffix : good_query q -> good_result r -> dns_name (lq_service q) -> dns_name suffix -> (String.length suffix <= 91)%nat -> id < 65536 ->
  exists p, mdns_result_encode id q r suffix = Val (Some p) /\ mdns_result_decode p suffix = Val (Some (id, q, r)).
Proof.
  intros G Gr Ns Nf L Li. destruct (c32_round q suffix G) as (d & Ed & Eq). pose proof (domain_len q suffix d G Ed) as Ld. pose proof (domain_name q suffix d G Ns Nf Ed) as Nd.
  unfold mdns_result_encode. rewrite Ed. pose proof Gr as (G4 & G6 & _ & La). destruct (age_enc _ La) as (a & Ea & Ra & Ll). rewrite Ea.
  pose proof (result_rt r a Gr Ea) as RR. destruct (host_ok 4 RT_A (lr_v4 r)) as (F4 & L4 & S4); [lia|reflexivity|auto|]. destruct (host_ok 16 RT_AAAA (lr_v6 r)) as (F6 & L6 & S6); [lia|reflexivity|auto|].
  set (h4 := host_records RT_A (lr_v4 r)) in *. set (h6 := host_records RT_AAAA (lr_v6 r)) in *. exists (answer_encode id (octets_of d) (a :: h4 ++ h6)). split.
  - unfold fits. assert (length (answer_encode id (octets_of d) (a :: h4 ++ h6)) <= 1024)%nat as H.
    { unfold answer_encode. cbn [flat_map]. rewrite flat_map_app, !app_length, header_len. specialize (S4 (octets_of d)). specialize (S6 (octets_of d)). rewrite apn_len in *.
      unfold record_encode at 1. rewrite !app_length, apn_len. cbn [length be16]. rewrite octets_len in *. lia. }
    apply Nat.leb_le in H. rewrite H. auto.
  - unfold mdns_result_decode. rewrite answer_rt; auto.
    + cbn [mbind]. rewrite text_octets, Eq, RR. auto.
    + constructor; auto. apply Forall_app; auto.
    + discriminate.
    + cbn [length]. rewrite app_length. lia.
Qed.

(** ** C34 *)
Lemma apn_safe : forall fuel cap enc rest out, (rest <= fuel)%nat -> (rest <= length enc)%nat -> (length out + rest <= cap)%nat -> (rest <> 0 \/ length out < cap)%nat ->
  apn_to_str fuel cap enc rest out <> Bad.
Proof.
  induction fuel as [|fuel IH]; intros cap enc rest out L1 L2 L3 L4.
  - assert (rest = 0%nat) as -> by lia. cbn. unfold put_nul. destruct (Nat.ltb_spec (length out) cap); [discriminate|lia].
  - destruct rest as [|rest]; cbn [apn_to_str].
    { unfold put_nul. destruct (Nat.ltb_spec (length out) cap); [discriminate|lia]. }
    destruct enc as [|x enc]; [cbn in L2; lia|]. cbn [length] in L2. destruct (x =? 0).
    { unfold put_nul. destruct (Nat.ltb_spec (length out) cap); [discriminate|lia]. }
    set (n := N.to_nat x). destruct (Nat.ltb_spec (S rest) (n + 1)); [discriminate|]. destruct (Nat.ltb_spec (length enc) n); [lia|].
    assert (Lo : length (out ++ firstn n enc) = (length out + n)%nat) by (rewrite app_length, firstn_length; lia). rewrite Lo.
    destruct (Nat.ltb_spec cap (length out + n)); [lia|]. destruct (Nat.eqb_spec (S rest - (n + 1)) 0) as [E|E].
    + rewrite E. apply IH; rewrite ?Lo; lia.
    + destruct (Nat.leb_spec cap (length out + n)); [lia|]. apply IH; rewrite ?app_length, ?skipn_length, ?firstn_length; cbn [length]; lia.
Qed.
Lemma rd8_ok l i : (i < length l)%nat -> exists x, rd8 l i = Val x.
Proof. intros L. unfold rd8. destruct (nth_error l i) eqn:E; [eauto|]. apply nth_error_None in E. lia. Qed.
Lemma rd16_ok l i : (S i < length l)%nat -> exists x, rd16 l i = Val x.
Proof. intros L. unfold rd16. destruct (rd8_ok l i) as [a ->]; [lia|]. destruct (rd8_ok l (S i)) as [b ->]; [lia|]. cbn. eauto. Qed.
Lemma header_ok l : (12 <= length l)%nat -> exists h, header_decode l = Val h.
Proof.
  intros L. unfold header_decode. destruct (rd16_ok l 0) as [a ->]; [lia|]. destruct (rd8_ok l 2) as [b ->]; [lia|]. destruct (rd16_ok l 6) as [c ->]; [lia|]. destruct (rd16_ok l 10) as [d ->]; [lia|]. cbn. eauto.
Qed.
Lemma request_safe l : request_decode l <> Bad.
Proof.
  unfold request_decode. destruct (Nat.ltb_spec (length l) 12) as [|L]; [discriminate|]. destruct (header_ok l L) as [[[id qr] an] ->]. cbn [mbind]. destruct qr; [discriminate|].
  set (m := skipn 12 l). unfold question_decode. destruct (Nat.ltb_spec (length m) 6) as [|L6]; [discriminate|].
  pose proof (apn_safe (length m - 4 - 1) (length m - 4 - 1) m (length m - 4 - 1) [] ltac:(lia) ltac:(lia) ltac:(cbn; lia) ltac:(lia)) as A.
  destruct (apn_to_str (length m - 4 - 1) (length m - 4 - 1) m (length m - 4 - 1) []) as [[d|]|]; [|discriminate|congruence]. cbn [mbind].
  destruct (rd16_ok m (length m - 4)) as [a ->]; [lia|]. destruct (rd16_ok m (length m - 4 + 2)) as [b ->]; [lia|]. discriminate.
Qed.
Lemma c34_request l suffix : mdns_query_decode l suffix <> Bad.
Proof.
  unfold mdns_query_decode. pose proof (request_safe l). destruct (request_decode l) as [[[[id d] t]|]|]; [|discriminate|congruence]. cbn [mbind].
  destruct (query_from_domain (text_of d) suffix); discriminate.
Qed.

(** one record with a terminated name and its ten fixed octets *)
Lemma record_safe name t1 t2 c1 c2 l1 l2 l3 l4 n1 n2 rest : name <> [] -> ~ In 0 name ->
  let l := name ++ 0 :: t1 :: t2 :: c1 :: c2 :: l1 :: l2 :: l3 :: l4 :: n1 :: n2 :: rest in let n := N.to_nat (256 * n1 + n2) in
  record_decode l = Val None \/
  exists d, (n <= length rest)%nat /\ record_decode l = Val (Some (d, mk_mrec (256 * t1 + t2) (firstn n rest), (length name + 11 + n)%nat)).
Proof.
  intros Ne N0 l n. assert (Ll : length l = (length name + 11 + length rest)%nat) by (unfold l; rewrite app_length; cbn [length]; lia).
  unfold record_decode. destruct (Nat.ltb_spec (length l) 10) as [|_]; [lia|].
  assert (SN : strnlen l (Some (length l - 10)%nat) = Val (length name)) by (unfold l at 1; apply strnlen_at; auto; lia). rewrite SN. cbn [mbind].
  set (fx := t1 :: t2 :: c1 :: c2 :: l1 :: l2 :: l3 :: l4 :: n1 :: n2 :: rest) in *.
  assert (Sp : l = (name ++ [0]) ++ fx) by (unfold l; rewrite <- app_assoc; reflexivity).
  assert (L1 : (length (name ++ [0%N]) = S (length name))%nat) by (rewrite app_length; cbn; lia).
  assert (R8 : rd8 l (S (length name)) = Val t1) by (rewrite Sp, <- (Nat.add_0_r (S (length name))), rd8_shift by auto; reflexivity). rewrite R8. cbn [mbind].
  destruct (t1 =? 0); cbn [negb]; [|auto].
  assert (L0 : (length name <> 0)%nat) by (destruct name; [congruence|cbn; lia]).
  pose proof (apn_safe (length name) (length name) l (length name) [] ltac:(lia) ltac:(lia) ltac:(cbn; lia) ltac:(lia)) as A.
  destruct (apn_to_str (length name) (length name) l (length name) []) as [[d|]|]; [|auto|congruence]. cbn [mbind].
  assert (R16 : forall j, rd16 l (S (length name) + j) = rd16 fx j) by (intros j; rewrite Sp; apply rd16_shift; auto).
  assert (R0 : rd16 l (S (length name)) = rd16 fx 0) by (rewrite <- R16, Nat.add_0_r; auto). rewrite R0, !R16. clear R0. unfold fx, rd16, rd8. cbn [nth_error mbind]. fold n.
  destruct (Nat.ltb_spec (length l) (S (length name) + 10 + n)) as [|Lr]; [auto|]. right. exists (cut0 d). split; [lia|].
  assert (A1 : (S (length name) + 10 + n = length name + 11 + n)%nat) by lia. rewrite A1. do 5 f_equal. rewrite Sp. change fx with ((t1 :: t2 :: c1 :: c2 :: l1 :: l2 :: l3 :: l4 :: n1 :: [n2]) ++ rest). rewrite app_assoc. f_equal. apply skip_at. rewrite app_length, L1. cbn [length]. lia.
Qed.
Definition txt_ne (r : mrec) : Prop := r_type r = 16 -> r_rdata r <> [].
Lemma records_safe l : framed l -> forall fuel dom acc, (length l <= fuel)%nat -> Forall txt_ne acc ->
  records_decode fuel l dom acc = Val None \/ exists d rs, records_decode fuel l dom acc = Val (Some (d, rs)) /\ Forall txt_ne rs /\ (l <> [] \/ dom <> None -> d <> None).
Proof.
  assert (X : forall fuel l dom acc, l <> [] -> records_decode (S fuel) l dom acc = mdo x <- record_decode l;;
      match x with None => Val None | Some (d, rc, n) => if match dom with Some d0 => negb (octets_eqb d0 d) | None => false end then Val None else records_decode fuel (skipn n l) (Some (match dom with Some d0 => d0 | None => d end)) (acc ++ [rc]) end) by (intros fuel [|? ?] dom acc Hl; [congruence|reflexivity]).
  induction 1 as [|name t1 t2 c1 c2 l1 l2 l3 l4 n1 n2 body rest Ne N0 Lb Tx F IH|name t1 t2 c1 c2 l1 l2 l3 l4 n1 n2 rest Ne N0 Lb]; intros fuel dom acc Lf Fa.
  - right. exists dom, acc. split; [destruct fuel; reflexivity|]. split; auto. tauto.
  - destruct fuel as [|fuel]; [exfalso; rewrite app_length in Lf; cbn [length] in Lf; lia|].
    rewrite X by (destruct name; discriminate). destruct (record_safe name t1 t2 c1 c2 l1 l2 l3 l4 n1 n2 (body ++ rest) Ne N0) as [-> |(d & _ & ->)]; [auto|]. cbn [mbind].
    assert (En : N.to_nat (256 * n1 + n2) = length body) by lia. rewrite En. rewrite first_at by auto.
    destruct (match dom with Some d0 => negb (octets_eqb d0 d) | None => false end); [auto|].
    assert (Sk : skipn (length name + 11 + length body) (name ++ 0 :: t1 :: t2 :: c1 :: c2 :: l1 :: l2 :: l3 :: l4 :: n1 :: n2 :: body ++ rest) = rest).
    { change (name ++ 0 :: t1 :: t2 :: c1 :: c2 :: l1 :: l2 :: l3 :: l4 :: n1 :: n2 :: body ++ rest) with (name ++ (0 :: t1 :: t2 :: c1 :: c2 :: l1 :: l2 :: l3 :: l4 :: n1 :: [n2]) ++ body ++ rest).
      rewrite !app_assoc. apply skip_at. rewrite !app_length. cbn [length]. lia. }
    rewrite Sk. destruct (IH fuel (Some match dom with Some d0 => d0 | None => d end) (acc ++ [mk_mrec (256 * t1 + t2) body])) as [-> |(d' & rs & -> & Fr & Nd)].
    + rewrite app_length in Lf. cbn [length] in Lf. rewrite app_length in Lf. lia.
    + apply Forall_app. split; [exact Fa|]. constructor; [exact Tx|constructor].
    + auto.
    + right. exists d', rs. split; auto. split; auto. intros _. apply Nd. right. discriminate.
  - left. destruct fuel as [|fuel]; [exfalso; rewrite app_length in Lf; cbn [length] in Lf; lia|].
    rewrite X by (destruct name; discriminate). destruct (record_safe name t1 t2 c1 c2 l1 l2 l3 l4 n1 n2 rest Ne N0) as [-> |(d & L & _)]; [auto|lia].
Qed.
Lemma rs_safe s r : txt_ne r -> rs_step s r <> Bad.
Proof.
  intros T. unfold rs_step. destruct (r_type r =? RT_A). { destruct (s_want s), (s_v4 s); try discriminate. destruct (negb _); discriminate. }
  destruct (r_type r =? RT_AAAA). { destruct (s_want s), (s_v6 s); try discriminate. destruct (negb _); discriminate. }
  destruct (N.eqb_spec (r_type r) RT_TXT) as [E|]; [|discriminate]. specialize (T E). unfold txt_decode. destruct (r_rdata r) as [|b t]; [congruence|]. unfold rd8. cbn [nth_error mbind tl].
  destruct (negb _); [discriminate|]. destruct t as [|c t]; [discriminate|]. destruct (split_chr 61 (c :: t)) as [[k v]|]; [|discriminate]. cbn [mbind].
  set (k' := cut0 (firstn 63 k)). set (v' := cut0 (firstn 63 v)). clearbody k' v'.
  destruct (octets_eqb k' (octets_of "age")). { destruct (s_age s), (decode_uint32 v'); discriminate. }
  destruct (octets_eqb k' (octets_of "port")); [|discriminate]. destruct (s_want s) as [[]|], (decode_port v'); discriminate.
Qed.
Lemma rs_run_safe l : Forall txt_ne l -> forall s, rs_run s l <> Bad.
Proof.
  induction 1 as [|r l T F IH]; intros s; cbn; [discriminate|]. pose proof (rs_safe s r T). destruct (rs_step s r) as [[s'|]|]; cbn; [auto|discriminate|congruence].
Qed.
Lemma c34_answer l suffix : skipn 12 l <> [] -> framed (skipn 12 l) -> mdns_result_decode l suffix <> Bad.
Proof.
  intros Ne F. unfold mdns_result_decode, answer_decode. destruct (Nat.ltb_spec (length l) 12) as [|L]; [discriminate|]. destruct (header_ok l L) as [[[id qr] an] ->]. cbn [mbind].
  destruct qr; cbn [negb]; [|discriminate].
  destruct (records_safe _ F (length l) None []) as [-> |(d & rs & -> & Fr & Nd)]; [rewrite skipn_length; lia|constructor|discriminate|]. cbn [mbind].
  destruct (negb _); [discriminate|]. cbn [mbind]. destruct d as [d|]; [|exfalso; apply Nd; auto].
  destruct (query_from_domain (text_of d) suffix); [|discriminate]. unfold result_from_answer. pose proof (rs_run_safe rs Fr (mk_rs None None None None)) as R.
  destruct (rs_run (mk_rs None None None None) rs) as [[s|]|]; cbn [mbind]; [|discriminate|congruence].
  destruct (s_age s), (s_want s), (s_v4 s), (s_v6 s); discriminate.
Qed.
Lemma c34_no_answer l suffix : (length l < 12)%nat \/ (exists f, nth_error l 2 = Some f /\ f < 128) -> mdns_result_decode l suffix <> Bad.
Proof.
  unfold mdns_result_decode, answer_decode. intros [L|(f & E & Lf)].
  - destruct (Nat.ltb_spec (length l) 12); [discriminate|lia].
  - destruct (Nat.ltb_spec (length l) 12) as [|L]; [discriminate|]. destruct (header_ok l L) as [[[id qr] an] H]. rewrite H. cbn [mbind].
    assert (qr = false) as ->. { unfold header_decode in H. destruct (rd16 l 0); [|discriminate]. unfold rd8 in H. rewrite E in H. cbn [mbind] in H. destruct (rd16 l 6); [|discriminate]. destruct (rd16 l 10); [|discriminate]. cbn [mbind] in H. injection H as _ <- _. apply N.leb_gt. auto. }
    discriminate.
Qed.
