(** Lookup queries as domain names (C32). *)
From Verif Require Import Base PeerId Db DbSpec DbProofs MsLookup MsSpec.

Lemma bytes_app a b : bytes_of (a ++ b)%string = bytes_of a ++ bytes_of b.
Proof. induction a as [|c a IH]; cbn; [auto|]. rewrite IH. auto. Qed.
Lemma str_bytes s : str_of (bytes_of s) = s.
Proof. induction s as [|c s IH]; cbn; [auto|]. rewrite IH. auto. Qed.
Lemma bytes_str l : bytes_of (str_of l) = l.
Proof. induction l as [|c l IH]; cbn; [auto|]. rewrite IH. auto. Qed.
Lemma bytes_length s : length (bytes_of s) = String.length s.
Proof. induction s as [|c s IH]; cbn; auto. Qed.
Lemma str_length l : String.length (str_of l) = length l.
Proof. induction l as [|c l IH]; cbn; auto. Qed.
Lemma bytes_inj a b : bytes_of a = bytes_of b -> a = b.
Proof. intros E. rewrite <- (str_bytes a), <- (str_bytes b), E. auto. Qed.
Lemma get_bytes s : forall i, String.get i s = nth_error (bytes_of s) i.
Proof. induction s as [|c s IH]; intros [|i]; cbn; auto. Qed.

(** ** Words for id types *)
Lemma lower_letter c n : (97 <= acode n <= 122)%N -> lower c = n <-> same_letter c n.
Proof.
  unfold same_letter, lower, acode. intros L. destruct ((65 <=? N_of_ascii c)%N && (N_of_ascii c <=? 90)%N) eqn:U.
  - apply andb_true_iff in U. rewrite !N.leb_le in U. split.
    + intros <-. right. split; [lia|]. rewrite N_ascii_embedding; lia.
    + intros [<-|[_ E]]; [lia|]. rewrite <- E. apply ascii_N_embedding.
  - split; [auto|]. intros [->|[[H1 H2] _]]; auto. apply N.leb_le in H1, H2. rewrite H1, H2 in U. discriminate.
Qed.
Lemma lower_word w n : Forall (fun c => (97 <= acode c <= 122)%N) (bytes_of n) -> lower_str w = n <-> Forall2 same_letter (bytes_of w) (bytes_of n).
Proof.
  revert n. induction w as [|c w IH]; intros n F; destruct n as [|a n]; cbn.
  - split; auto.
  - split; [discriminate|]. intros H; inversion H.
  - split; [discriminate|]. intros H; inversion H.
  - inversion F as [|? ? La Fn]. subst. split.
    + intros [= E1 E2]. constructor; [apply lower_letter; auto|apply IH; auto].
    + intros H. inversion H as [|? ? ? ? H1 H2]. subst. f_equal; [apply lower_letter; auto|apply IH; auto].
Qed.
Lemma word_lower t w : word_for t w <-> lower_str w = id_type_name t.
Proof. unfold word_for. destruct t; symmetry; apply lower_word; repeat constructor; cbn; lia. Qed.
Lemma type_word t w : id_type_of w = Some t <-> word_for t w.
Proof.
  rewrite word_lower. unfold id_type_of.
  destruct (String.eqb_spec (lower_str w) "none") as [->|E1]; [|destruct (String.eqb_spec (lower_str w) "imsi") as [->|E2]; [|destruct (String.eqb_spec (lower_str w) "msisdn") as [->|E3]]]; destruct t; cbn; split; congruence.
Qed.
Lemma word_no_dot t w : word_for t w -> ~ In dot (bytes_of w) /\ bytes_of w <> [].
Proof.
  unfold word_for. intros F. split.
  - intros I. assert (X : exists n, In n (bytes_of match t with IdNone => "none" | IdImsi => "imsi" | IdMsisdn => "msisdn" end) /\ same_letter dot n).
    { clear - F I. revert I. induction F as [|a b l m H F IH]; cbn; [tauto|]. intros [->|I]; [eauto|]. destruct (IH I) as (n & In1 & Sn). eauto. }
    destruct X as (n & In1 & [<-|[[L _] _]]); [|cbn in L; lia]. destruct t; cbn in In1; repeat (destruct In1 as [E|In1]; [discriminate E|]); destruct In1.
  - intros E. rewrite E in F. destruct t; inversion F.
Qed.
Lemma digits_no_dot mn mx i : digit_string mn mx i -> ~ In dot (bytes_of i).
Proof.
  intros [_ D] I. apply In_nth_error in I as [n E]. rewrite <- get_bytes in E. apply D in E. cbn in E. lia.
Qed.
Lemma id_no_dot t i : good_id t i -> ~ In dot (bytes_of i) /\ (1 <= length (bytes_of i) <= 15)%nat.
Proof. rewrite bytes_length. destruct t; cbn; [tauto| |]; intros H; (split; [eapply digits_no_dot; exact H|destruct H; lia]). Qed.
Lemma id_valid_spec t i : id_valid t i = true <-> good_id t i.
Proof. destruct t; cbn; [split; [discriminate|tauto]|apply imsi_valid_spec|apply msisdn_valid_spec]. Qed.

(** ** Dots *)
Lemma rindex_none d : rindex d = None <-> ~ In dot d.
Proof.
  induction d as [|c d IH]; cbn; [tauto|]. destruct (rindex d).
  - split; [discriminate|]. intros N. exfalso. destruct IH as [_ IH]. assert (~ In dot d) by tauto. apply IH in H. discriminate.
  - destruct (Ascii.eqb_spec c dot) as [->|N].
    + split; [discriminate|]. intros X. exfalso. auto.
    + split; auto. intros _ [E|I]; [auto|]. apply (proj1 IH eq_refl I).
Qed.
Lemma rindex_some d i : rindex d = Some i <-> exists a b, d = a ++ dot :: b /\ length a = i /\ ~ In dot b.
Proof.
  revert i. induction d as [|c d IH]; intros i; cbn.
  - split; [discriminate|]. intros ([|] & b & E & _); discriminate.
  - destruct (rindex d) as [j|] eqn:R.
    + split.
      * intros [= <-]. destruct (proj1 (IH j) eq_refl) as (a & b & -> & L & N). exists (c :: a), b. cbn. auto.
      * intros (a & b & E & L & N). destruct a as [|x a]; cbn in E; injection E as E1 E2; subst d.
        -- apply rindex_none in N. congruence.
        -- cbn in L. subst i. f_equal. f_equal. assert (X : Some j = Some (length a)); [|congruence]. apply IH. eauto.
    + apply rindex_none in R. destruct (Ascii.eqb_spec c dot) as [->|Nc].
      * split.
        -- intros [= <-]. exists [], d. auto.
        -- intros (a & b & E & L & N). destruct a as [|x a]; cbn in E; [cbn in L; congruence|]. injection E as E1 E2. exfalso. apply R. rewrite E2. apply in_app_iff. right. left. auto.
      * split; [discriminate|]. intros (a & b & E & L & N). exfalso. destruct a as [|x a]; cbn in E; [congruence|]. injection E as E1 E2. apply R. rewrite E2. apply in_app_iff. right. left. auto.
Qed.
Lemma back_spec d p : (p < length d)%nat -> (back d p <= p)%nat /\ (back d p = 0%nat \/ nth (back d p) d "000"%char = dot) /\ forall k, (back d p < k <= p)%nat -> nth k d "000"%char <> dot.
Proof.
  induction p as [|p IH]; intros L; cbn [back].
  - split; auto. split; auto. intros k H. lia.
  - destruct (Ascii.eqb_spec (nth (S p) d "000"%char) dot) as [E|N].
    + split; auto. split; auto. intros k H. lia.
    + destruct IH as (I1 & I2 & I3); [lia|]. split; [lia|]. split; auto. intros k H. destruct (Nat.eq_dec k (S p)) as [->|]; auto. apply I3. lia.
Qed.
(** the last part of [a] that has no dot *)
Lemma back_app a i b : ~ In dot i -> (1 <= length i)%nat -> back (a ++ dot :: i ++ b) (length a + length i) = length a.
Proof.
  intros N L. set (d := a ++ dot :: i ++ b). assert (X : (length a + length i < length d)%nat) by (unfold d; rewrite app_length; cbn; rewrite app_length; lia).
  destruct (back_spec d _ X) as (B1 & B2 & B3).
  assert (At : nth (length a) d "000"%char = dot) by (unfold d; rewrite app_nth2, Nat.sub_diag; auto).
  destruct (lt_eq_lt_dec (back d (length a + length i)) (length a)) as [[H|H]|H]; auto.
  - exfalso. apply (B3 (length a)); auto. lia.
  - exfalso. destruct B2 as [B2|B2]; [lia|]. apply N. set (k := back d (length a + length i)) in *. unfold d in B2. rewrite app_nth2 in B2 by lia.
    replace (k - length a)%nat with (S (k - length a - 1))%nat in B2 by lia. cbn [nth] in B2. rewrite app_nth1 in B2 by lia. rewrite <- B2. apply nth_In. lia.
Qed.
Lemma skip_at {A} (a : list A) b n : length a = n -> skipn n (a ++ b) = b.
Proof. intros <-. rewrite skipn_app, skipn_all, Nat.sub_diag. reflexivity. Qed.
Lemma first_at {A} (a : list A) b n : length a = n -> firstn n (a ++ b) = a.
Proof. intros <-. rewrite firstn_app, firstn_all, Nat.sub_diag, firstn_O, app_nil_r. reflexivity. Qed.
Lemma split_at {A} (d : list A) n x : nth_error d n = Some x -> exists a b, d = a ++ x :: b /\ length a = n.
Proof. apply nth_error_split. Qed.

(** ** C32 *)
Lemma init_complete q w : good_query q -> word_for (lq_type q) w -> query_init (lq_service q ++ "." ++ lq_id q ++ "." ++ w)%string = inl q.
Proof.
  destruct q as [s t i]. intros [Ls Gi] W. cbn [lq_service lq_type lq_id] in *. unfold query_init. rewrite !bytes_app. cbn [bytes_of app].
  destruct (word_no_dot _ _ W) as [Nw Ew]. destruct (id_no_dot _ _ Gi) as [Ni Li]. rewrite <- bytes_length in Ls.
  set (S1 := bytes_of s) in *. set (I1 := bytes_of i) in *. set (W1 := bytes_of w) in *.
  assert (R : rindex (S1 ++ dot :: I1 ++ dot :: W1) = Some (length S1 + 1 + length I1)%nat).
  { apply rindex_some. exists (S1 ++ dot :: I1), W1. rewrite <- app_assoc. cbn. split; auto. split; auto. rewrite app_length. cbn. lia. }
  fold dot. rewrite R. destruct (Nat.eqb_spec (length S1 + 1 + length I1) 0); [lia|].
  replace (length S1 + 1 + length I1 - 1)%nat with (length S1 + length I1)%nat by lia.
  rewrite back_app by (auto; lia). destruct (Nat.eqb_spec (length S1) 0); [lia|]. rewrite app_nth2, Nat.sub_diag by lia. cbn [nth]. rewrite Ascii.eqb_refl. cbn [orb negb].
  assert (Lw : (1 <= length W1)%nat) by (destruct W1; [tauto|cbn; lia]).
  destruct (Nat.leb_spec (length (S1 ++ dot :: I1 ++ dot :: W1)) (S (length S1 + 1 + length I1))) as [H|_]; [rewrite app_length in H; cbn in H; rewrite app_length in H; cbn in H; lia|].
  replace (skipn (S (length S1 + 1 + length I1)) (S1 ++ dot :: I1 ++ dot :: W1)) with W1.
  2: { symmetry. replace (S1 ++ dot :: I1 ++ dot :: W1) with ((S1 ++ dot :: I1 ++ [dot]) ++ W1) by (rewrite <- app_assoc; cbn; rewrite <- app_assoc; reflexivity). apply skip_at. rewrite app_length. cbn. rewrite app_length. cbn. lia. }
  unfold W1 at 1. rewrite str_bytes. apply type_word in W. rewrite W.
  assert (Tk : token 16 (S1 ++ dot :: I1 ++ dot :: W1) (S (length S1)) (length S1 + 1 + length I1) = inl i).
  { unfold token. destruct (Nat.leb_spec (length S1 + 1 + length I1) (S (length S1))); [lia|]. destruct (Nat.leb_spec 16 (length S1 + 1 + length I1 - S (length S1))); [lia|].
    f_equal. replace (S1 ++ dot :: I1 ++ dot :: W1) with ((S1 ++ [dot]) ++ I1 ++ dot :: W1) by (rewrite <- app_assoc; reflexivity).
    rewrite skip_at by (rewrite app_length; cbn; lia). rewrite first_at by lia. apply str_bytes. }
  assert (Ts : token 65 (S1 ++ dot :: I1 ++ dot :: W1) 0 (length S1) = inl s).
  { unfold token. destruct (Nat.leb_spec (length S1) 0); [lia|]. rewrite Nat.sub_0_r. destruct (Nat.leb_spec 65 (length S1)); [lia|]. f_equal. cbn [skipn]. rewrite first_at by lia. apply str_bytes. }
  rewrite Tk, Ts. apply id_valid_spec in Gi. destruct t; cbn in Gi; [discriminate| |]; rewrite Gi; reflexivity.
Qed.
Lemma token_ok size d a b s : token size d a b = inl s -> (a < b)%nat /\ (b - a < size)%nat /\ s = str_of (firstn (b - a) (skipn a d)).
Proof. unfold token. destruct (Nat.leb_spec b a); [discriminate|]. destruct (Nat.leb_spec size (b - a)); [discriminate|]. intros [= <-]. auto. Qed.
Lemma init_sound d q : query_init d = inl q -> names_query d q.
Proof.
  unfold query_init. set (l := bytes_of d). destruct (rindex l) as [last|] eqn:R; [|discriminate]. apply rindex_some in R as (a & w & E & La & Nw).
  destruct (Nat.eqb_spec last 0) as [|L0]; [discriminate|].
  assert (Lp : (last - 1 < length l)%nat) by (rewrite E, app_length; cbn; lia).
  destruct (back_spec l _ Lp) as (B1 & B2 & B3). set (p := back l (last - 1)) in *.
  destruct (Nat.eqb_spec p 0) as [|P0]; [discriminate|]. cbn [orb]. destruct (Ascii.eqb_spec (nth p l "000"%char) dot) as [Dp|]; [|discriminate]. cbn [negb].
  assert (X : exists s i, a = s ++ dot :: i /\ length s = p).
  { destruct (nth_error_split a p) with (a := dot) as (s & i & Ea & Ls); [|eauto]. rewrite E, app_nth1 in Dp by lia. rewrite <- Dp. apply nth_error_nth'. lia. }
  destruct X as (s & i & Ea & Ls). subst a. rewrite <- app_assoc in E. cbn [app] in E. rewrite app_length in La. cbn in La.
  destruct (Nat.leb_spec (length l) (S last)) as [|Lw]; [discriminate|].
  replace (skipn (S last) l) with w.
  2: { rewrite E. replace (s ++ dot :: i ++ dot :: w) with ((s ++ dot :: i ++ [dot]) ++ w) by (rewrite <- app_assoc; cbn; rewrite <- app_assoc; reflexivity). symmetry. apply skip_at. rewrite app_length. cbn. rewrite app_length. cbn. lia. }
  assert (Ti : firstn (last - S p) (skipn (S p) l) = i).
  { rewrite E. replace (s ++ dot :: i ++ dot :: w) with ((s ++ [dot]) ++ i ++ dot :: w) by (rewrite <- app_assoc; reflexivity).
    rewrite skip_at by (rewrite app_length; cbn; lia). apply first_at. lia. }
  assert (Tp : firstn (p - 0) (skipn 0 l) = s) by (rewrite E, Nat.sub_0_r; cbn [skipn]; apply first_at; auto).
  assert (Fin1 : forall t, id_type_of (str_of w) = Some t -> id_valid t (str_of i) = true ->
     match token 65 l 0 p with inl s0 => inl (mk_query s0 t (str_of i)) | inr e => inr e end = inl q -> names_query d q).
  { intros t T V. destruct (token 65 l 0 p) as [s0|] eqn:K; [|discriminate]. intros [= <-]. apply token_ok in K as (K1 & K2 & ->). rewrite Tp. split.
    - split; cbn [lq_service lq_type lq_id]; [rewrite str_length; lia|]. apply id_valid_spec. auto.
    - exists (str_of w). split; [apply type_word; auto|]. apply bytes_inj. fold l. cbn [lq_service lq_id]. rewrite !bytes_app, !bytes_str. exact E. }
  destruct (id_type_of (str_of w)) as [[]|] eqn:T; try discriminate.
  - destruct (token 16 l (S p) last) as [i0|] eqn:K; [|discriminate]. apply token_ok in K as (K1 & K2 & ->). rewrite Ti. destruct (imsi_valid (str_of i)) eqn:V; [|discriminate]. cbn [negb]. eauto.
  - destruct (token 16 l (S p) last) as [i0|] eqn:K; [|discriminate]. apply token_ok in K as (K1 & K2 & ->). rewrite Ti. destruct (msisdn_valid (str_of i)) eqn:V; [|discriminate]. cbn [negb]. eauto.
Qed.
Lemma init_iff d q : query_init d = inl q <-> names_query d q.
Proof. split; [apply init_sound|]. intros (G & w & W & ->). apply init_complete; auto. Qed.

Lemma skip_nth {A} (l : list A) (z : A) : forall n, (n < length l)%nat -> skipn n l = nth n l z :: skipn (S n) l.
Proof. induction l as [|c l IH]; intros n L; cbn in L; [lia|]. destruct n; [reflexivity|]. cbn [nth]. change (skipn (S n) (c :: l)) with (skipn n l). change (skipn (S (S n)) (c :: l)) with (skipn (S n) l). apply IH. lia. Qed.
Lemma F2_len {A B} (P : A -> B -> Prop) l m : Forall2 P l m -> length l = length m.
Proof. induction 1; cbn; auto. Qed.
Lemma from_domain_iff d suffix q : query_from_domain d suffix = inl q <-> exists e, names_query e q /\ d = (e ++ "." ++ suffix)%string.
Proof.
  assert (BL : forall e, names_query e q -> (1 <= String.length e < 255)%nat).
  { intros e ([Ls Gi] & w & W & ->). destruct (id_no_dot _ _ Gi) as [_ Li]. rewrite <- !bytes_length, !bytes_app, !app_length in *. cbn [bytes_of length] in *.
    unfold word_for in W. apply F2_len in W. rewrite W. destruct (lq_type q); cbn [bytes_of length]; lia. }
  unfold query_from_domain. split.
  - destruct ((_ <=? 0) || (255 <=? _)) eqn:B; [discriminate|]. apply orb_false_iff in B as [B1 B2]. rewrite Z.leb_gt in B1, B2. set (n := Z.to_nat _).
    destruct (Ascii.eqb_spec (nth n (bytes_of d) "000"%char) dot) as [Dn|]; [|discriminate]. destruct (String.eqb_spec (str_of (skipn (S n) (bytes_of d))) suffix) as [Sf|]; [|discriminate].
    cbn [negb orb]. intros Q. apply init_iff in Q. eexists. split; [exact Q|]. apply bytes_inj. rewrite !bytes_app, bytes_str, <- Sf, bytes_str. cbn [bytes_of app].
    assert (Ln : (n < length (bytes_of d))%nat) by (rewrite bytes_length; lia).
    rewrite <- (firstn_skipn n (bytes_of d)) at 1. f_equal. fold dot. rewrite <- Dn. apply skip_nth. auto.
  - intros (e & Ne & ->). pose proof (BL e Ne) as Le.
    assert (EL : Z.of_nat (String.length (e ++ "." ++ suffix)) - Z.of_nat (String.length suffix) - 1 = Z.of_nat (String.length e)).
    { rewrite <- !bytes_length, !bytes_app, !app_length. cbn [bytes_of length]. lia. }
    rewrite EL. destruct (Z.leb_spec (Z.of_nat (String.length e)) 0); [lia|]. destruct (Z.leb_spec 255 (Z.of_nat (String.length e))); [lia|]. cbn [orb].
    rewrite Nat2Z.id, !bytes_app. cbn [bytes_of app]. rewrite <- bytes_length. rewrite app_nth2, Nat.sub_diag by lia. cbn [nth]. rewrite Ascii.eqb_refl. cbn [negb orb].
    replace (bytes_of e ++ "."%char :: bytes_of suffix) with ((bytes_of e ++ ["."%char]) ++ bytes_of suffix) by (rewrite <- app_assoc; reflexivity).
    rewrite skip_at by (rewrite app_length; cbn; lia). rewrite str_bytes, String.eqb_refl. cbn [negb]. rewrite <- app_assoc. rewrite first_at by auto. rewrite str_bytes. apply init_iff. auto.
Qed.
Lemma type_name_word t : word_for t (id_type_name t).
Proof. destruct t; repeat constructor; left; auto. Qed.
Lemma c32_round q suffix : good_query q -> exists d, domain_from_query q suffix = Some d /\ query_from_domain d suffix = inl q.
Proof.
  intros G. unfold domain_from_query. assert (N : lq_type q <> IdNone). { destruct G as [_ G]. destruct (lq_type q); [destruct G|discriminate|discriminate]. }
  assert (X : query_from_domain (lq_service q ++ "." ++ lq_id q ++ "." ++ id_type_name (lq_type q) ++ "." ++ suffix) suffix = inl q).
  { apply from_domain_iff. exists (lq_service q ++ "." ++ lq_id q ++ "." ++ id_type_name (lq_type q))%string. split.
    - split; auto. exists (id_type_name (lq_type q)). split; auto. apply type_name_word.
    - apply bytes_inj. rewrite !bytes_app. cbn [bytes_of app]. rewrite <- !app_assoc. cbn [app]. rewrite <- !app_assoc. reflexivity. }
  destruct (lq_type q); [tauto| |]; eexists; (split; [reflexivity|exact X]).
Qed.
Lemma names_unique d q q' : names_query d q -> names_query d q' -> q = q'.
Proof. intros A B. apply init_iff in A, B. congruence. Qed.
