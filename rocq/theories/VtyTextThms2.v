(** Proofs about the texts of dates and numbers. *)
From Verif Require Import Base PeerId Db DbSpec DbThms Auth Mdns Proxy Gsup Router Hlr Ctrl CtrlSpec CtrlThms VtySubscr VtySpec VtyThms VtyList VtyListSpec VtyListThms VtyText VtyTextSpec NitbThms2 VtyTextThms.

Lemma month_len_is y m l : month_len y m l -> 1 <= m <= 12 /\ l = mlen y m.
Proof.
  intros H. destruct H as [m I|m I|L|L].
  - split; [cbn in I; lia|]. cbn in I. repeat (destruct I as [<-|I]); [reflexivity..|destruct I].
  - split; [cbn in I; lia|]. cbn in I. repeat (destruct I as [<-|I]); [reflexivity..|destruct I].
  - split; [lia|]. unfold mlen. cbn [Z.eqb Pos.eqb]. apply leapb_leap in L. now rewrite L.
  - split; [lia|]. unfold mlen. cbn [Z.eqb Pos.eqb]. destruct (leapb y) eqn:E; [|reflexivity]. now apply leapb_leap in E.
Qed.
Lemma next_day_is a b : next_day a b -> b = next a.
Proof.
  intros H. destruct H as [y m d l M L|y m l M L|y l M]; apply month_len_is in M as [B ->]; unfold next.
  - destruct (Z.ltb_spec d (mlen y m)); [reflexivity|lia].
  - rewrite Z.ltb_irrefl. destruct (Z.eqb_spec m 12); [lia|reflexivity].
  - rewrite Z.ltb_irrefl. reflexivity.
Qed.
Lemma day_at_civil n x : day_at n x -> 0 <= n /\ x = civil n.
Proof.
  intros H. induction H as [|n a b H [B ->] N]; [split; [lia|reflexivity]|]. split; [lia|]. rewrite <- civil_next. now apply next_day_is.
Qed.
Lemma day_at_inj n n' x : day_at n x -> day_at n' x -> n = n'.
Proof.
  intros A B. apply day_at_civil in A as [_ A]. apply day_at_civil in B as [_ B]. pose proof (civil_number n) as P. pose proof (civil_number n') as Q. rewrite <- A in P. rewrite <- B in Q. lia.
Qed.

(** ** Numbers *)
Lemma dec64_numeral n : 0 <= n < 18446744073709551616 -> numeral (dec64 n) n.
Proof.
  intros B. unfold dec64. rewrite Z.mod_small by exact B. destruct (dec_upto_numeral 20 (Z.to_N n) "") as (t & E & H); [|lia|].
  - assert (Z.to_N n < 18446744073709551616)%N by lia. etransitivity; [eassumption|]. reflexivity.
  - rewrite E, str_app_nil. now rewrite Z2N.id in H by lia.
Qed.
Lemma digit_of n : 0 <= n <= 9 -> digit (ascii_of_N (Z.to_N n + 48)) n.
Proof. intros B. split; [exact B|]. f_equal. lia. Qed.
Lemma two_text_ok n : 0 <= n < 100 -> two_digits (two_text n) n.
Proof.
  intros B. split; [|reflexivity]. unfold two_text.
  assert (A : 0 <= n / 10 <= 9) by (Z.to_euclidean_division_equations; lia). assert (C : 0 <= n mod 10 <= 9) by (Z.to_euclidean_division_equations; lia).
  replace n with (10 * (n / 10) + n mod 10) at 3 by (Z.to_euclidean_division_equations; lia).
  change (String (ascii_of_N (Z.to_N (n / 10) + 48)) (String (ascii_of_N (Z.to_N (n mod 10) + 48)) "")) with (String (ascii_of_N (Z.to_N (n / 10) + 48)) "" ++ String (ascii_of_N (Z.to_N (n mod 10) + 48)) "")%string.
  apply num_more; [apply num_one|]; now apply digit_of.
Qed.
Lemma dec_upto_length f : forall n acc, (String.length (dec_upto f n acc) <= f + String.length acc)%nat.
Proof.
  induction f as [|f IH]; intros n acc; [cbn; lia|]. cbn [dec_upto]. destruct (n <? 10)%N; [cbn; lia|]. etransitivity; [apply IH|]. cbn. lia.
Qed.
Lemma mp_range k : 0 <= k < 366 -> 0 <= mp_of k < 12.
Proof. unfold mp_of. intros. Z.to_euclidean_division_equations. lia. Qed.
Lemma civil_year n y m d : civil n = (y, m, d) -> 0 <= n -> 0 <= y <= (n + 719468) / 146097 * 400 + 400.
Proof.
  intros E B. rewrite civil_civ in E. destruct (find_year ((n + 719468) mod 146097) (Z.mod_pos_bound (n + 719468) 146097 eq_refl)) as (a & k & A & K & F). rewrite F, civ_at in E by assumption.
  unfold in_year, later in E. destruct (md k) as [m' d']. assert (Q : 0 <= (n + 719468) / 146097) by (apply Z.div_pos; lia). revert E Q. generalize ((n + 719468) / 146097). intros e E Q.
  assert (y = a + (if m' <=? 2 then 1 else 0) + 400 * e) as -> by congruence. destruct (m' <=? 2); lia.
Qed.
Lemma civil_small n y m d : civil n = (y, m, d) -> 1 <= m <= 12 /\ 1 <= d <= 31.
Proof.
  intros E. pose proof (civil_good n) as G. rewrite E in G. unfold good in G. rewrite !andb_true_iff, !Z.leb_le in G.
  assert (mlen y m <= 31) by (unfold mlen; destruct (m =? 2); [destruct (leapb y); lia|]; destruct (_ || _); lia). lia.
Qed.
Lemma date_text_is t x : date_text t = Val x -> date_of t x /\ (String.length x <= 31)%nat.
Proof.
  unfold date_text. destruct (civil (t / 86400)) as [[y m] d] eqn:E. destruct ((t <? 0) || (2147483647 <? y - 1900)) eqn:C; [discriminate|].
  apply orb_false_iff in C as [C1 C2]. apply Z.ltb_ge in C1, C2. intros [= <-].
  assert (B : 0 <= t / 86400) by (apply Z.div_pos; lia). destruct (civil_year _ _ _ _ E B) as [Y _]. destruct (civil_small _ _ _ _ E) as [M D].
  split.
  - assert (AR : forall s, 0 <= s < 86400 -> 0 <= s / 3600 < 24 /\ 0 <= s / 60 mod 60 < 60 /\ 0 <= s mod 60 < 60 /\ s = 3600 * (s / 3600) + 60 * (s / 60 mod 60) + s mod 60).
    { intros s S. split; [Z.to_euclidean_division_equations; lia|]. split; [apply Z.mod_pos_bound; reflexivity|]. split; [apply Z.mod_pos_bound; reflexivity|]. Z.to_euclidean_division_equations. lia. }
    destruct (AR (t mod 86400) (Z.mod_pos_bound t 86400 eq_refl)) as (H1 & H2 & H3 & H4). pose proof (Z.div_mod t 86400 ltac:(lia)) as DM.
    exists y, m, d, (t mod 86400 / 3600), (t mod 86400 / 60 mod 60), (t mod 86400 mod 60). do 6 eexists.
    split; [rewrite <- E; now apply civil_day_at|]. split; [exact H1|]. split; [exact H2|]. split; [exact H3|]. split; [lia|].
    split; [pose proof (dec_text_numeral (Z.to_N y) ltac:(lia)) as N; rewrite Z2N.id in N by lia; exact N|].
    split; [apply two_text_ok; lia|]. split; [apply two_text_ok; lia|]. split; [apply two_text_ok; lia|]. split; [apply two_text_ok; lia|]. split; [apply two_text_ok; lia|]. reflexivity.
  - rewrite !str_len_app. pose proof (dec_upto_length 10 (Z.to_N y) "") as L. unfold dec_text, two_text. cbn [String.length] in *. lia.
Qed.
Lemma date_text_some t : 0 <= t < 67767976233532800 -> exists x, date_text t = Val x.
Proof.
  intros B. unfold date_text. destruct (civil (t / 86400)) as [[y m] d] eqn:E.
  assert (Q : 0 <= t / 86400) by (apply Z.div_pos; lia). destruct (civil_year _ _ _ _ E Q) as [_ Y].
  assert (y <= 2147485000). { etransitivity; [exact Y|]. clear Y E Q. Z.to_euclidean_division_equations. lia. }
  destruct (Z.ltb_spec t 0); [lia|]. destruct (Z.ltb_spec 2147483647 (y - 1900)); [lia|]. cbn [orb]. eauto.
Qed.

(** ** Reading dates *)
Lemma app_inj_l (a b c e : string) : String.length a = String.length b -> (a ++ c = b ++ e)%string -> a = b /\ c = e.
Proof.
  revert b. induction a as [|x a IH]; intros [|y b] L H; cbn in *; try discriminate; [auto|]. injection H as -> H. destruct (IH b) as [-> ->]; [lia|exact H|auto].
Qed.
Lemma app_inj_r (a b c e : string) : String.length c = String.length e -> (a ++ c = b ++ e)%string -> a = b /\ c = e.
Proof.
  intros L H. apply app_inj_l; [|exact H]. apply (f_equal String.length) in H. rewrite !str_len_app in H. lia.
Qed.
Lemma date_of_inj t t' x : date_of t x -> date_of t' x -> t = t'.
Proof.
  intros (y & m & d & hh & mm & ss & ty & tm & td & th & tn & ts & DA & _ & _ & _ & E & Ny & (Nm & Lm) & (Nd & Ld) & (Nh & Lh) & (Nn & Ln) & (Ns & Ls) & X)
         (y' & m' & d' & hh' & mm' & ss' & ty' & tm' & td' & th' & tn' & ts' & DA' & _ & _ & _ & E' & Ny' & (Nm' & Lm') & (Nd' & Ld') & (Nh' & Lh') & (Nn' & Ln') & (Ns' & Ls') & X').
  rewrite X in X'. apply app_inj_r in X' as [-> X']; [|rewrite !str_len_app, Lm, Ld, Lh, Ln, Ls, Lm', Ld', Lh', Ln', Ls'; reflexivity].
  apply app_inj_l in X' as [_ X']; [|reflexivity]. apply app_inj_l in X' as [-> X']; [|congruence].
  apply app_inj_l in X' as [_ X']; [|reflexivity]. apply app_inj_l in X' as [-> X']; [|congruence].
  apply app_inj_l in X' as [_ X']; [|reflexivity]. apply app_inj_l in X' as [-> X']; [|congruence].
  apply app_inj_l in X' as [_ X']; [|reflexivity]. apply app_inj_l in X' as [-> X']; [|congruence].
  apply app_inj_l in X' as [_ X']; [|reflexivity]. apply app_inj_l in X' as [-> _]; [|congruence].
  rewrite (numeral_det _ _ _ Ny' Ny), (numeral_det _ _ _ Nm' Nm), (numeral_det _ _ _ Nd' Nd) in DA'. pose proof (day_at_inj _ _ _ DA DA').
  pose proof (numeral_det _ _ _ Nh' Nh). pose proof (numeral_det _ _ _ Nn' Nn). pose proof (numeral_det _ _ _ Ns' Ns). lia.
Qed.
