(** Location update, purge, device check and creation on demand, one message (C18 - C23). *)
From Verif Require Import Base PeerId Db DbSpec DbProofs DbThms DbThms2 DbThms3 Auth AuthSpec AuthThms AuthThms2 AuthThms3 Gsup Router Hlr PeerSpec PeerThms HlrSpec HlrThms RouterThms HlrThms2 HlrThms3 HlrStep HlrThms4 HlrThms5 HlrThms6.

(** * C19 *)
Lemma others_ends nr o : others nr o -> forall y, In y o -> ~ ends nr y.
Proof. intros H y I E. apply (H y I). destruct y; cbn in *; try tauto. destruct final; [auto|tauto]. Qed.

Lemma inv_of_hist k d es s d1 o : hist k (hst0, d) es = Some (s, d1, o) -> inv s /\ Forall lu_ok (t_lus s).
Proof.
  intros E. split; [eapply hist_ltr; [apply inv0|exact E]|]. eapply hist_lu_ok; [apply inv0|constructor|exact E].
Qed.

Lemma c19_one k d es s d1 o w c g x f s2 d2 o2 es' s3 d3 o3 : db_ok d -> keys_wellformed d ->
  hist k (hst0, d) es = Some (s, d1, o) -> for_us k (t_srv s) c g -> g_type g = MSGT_UPDATE_LOCATION_REQUEST -> in_domain g x -> no_crash f ->
  step k (s, d1) (w, ERx c g, f) = Some (s2, d2, o2) -> crash_free es' -> hist k (s2, d2) es' = Some (s3, d3, o3) ->
  (waiting s3 (t_nr s) (g_imsi g) /\ (forall y, In y (o2 ++ o3) -> ~ ends (t_nr s) y) /\ forall w' f', ~ In (w', ELuTimer (t_nr s), f') es') \/
  (~ pending s3 (t_nr s) /\ exists r, ended_once (t_nr s) (o2 ++ o3) r /\
     (g_type r = 5 \/
      (g_type r = 6 /\
       (exists row, In row (d_sub d2) /\ s_imsi row = g_imsi g /\ access x row = true /\ registered (t_srv s) c g x row) /\
       exists es1 w' c' g' f' es2 sm dm om, es' = es1 ++ (w', ERx c' g', f') :: es2 /\ hist k (s2, d2) es1 = Some (sm, dm, om) /\
         waiting sm (t_nr s) (g_imsi g) /\ (forall y, In y (o2 ++ om) -> ~ ends (t_nr s) y) /\
         g_type g' = MSGT_INSERT_DATA_RESULT /\ g_imsi g' = g_imsi g))).
Proof.
  intros Hd Hk Hs U T Dm NC E CF Hs'. apply db_ok_inv in Hd. destruct (inv_of_hist _ _ _ _ _ _ Hs) as [H LO].
  assert (F : fine d1) by (eapply hist_fine; [split; [exact Hd|exact Hk]|exact Hs]).
  destruct (lu_step _ _ _ _ _ _ _ _ _ _ _ H F U T Dm NC E) as (dc & r & fin & co & Cr & -> & A & _ & St).
  destruct (step_ltr _ _ _ _ _ _ _ _ _ H E) as [H2 Lt]. pose proof (step_lu_ok _ _ _ _ _ _ _ _ _ H LO E) as LO2.
  destruct fin.
  - right. assert (Ty : g_type r = 5) by (inversion A; auto).
    assert (L : (t_nr s < t_nr s2)%nat).
    { destruct (ltr_rx_fresh _ _ _ _ _ Lt) as (_ & B & _). specialize (B (ORx (t_nr s) c g) (or_introl eq_refl)). cbn in B. lia. }
    assert (NP : ~ pending s2 (t_nr s)).
    { intros (p & Ip & Ep). assert (FI : fresh_ok (t_nr s) (opens s)) by (split; apply H).
      apply (ltr_end _ _ _ _ _ Lt FI (OResp (t_nr s) r true co) (t_nr s)); [right; left; reflexivity|reflexivity|].
      rewrite <- Ep. apply in_map. auto. }
    destruct (hist_gone _ _ _ _ _ _ _ _ H2 L NP Hs') as [NP3 O3]. split; auto. exists r. split; [|auto].
    exists co, [ORx (t_nr s) c g], o3. split; auto. intros y [<-|I]; [cbn; tauto|]. apply (others_ends _ _ O3 y I).
  - destruct St as (q & h & El & Qn & Qg & Qc). set (l := mk_lu q (is_ps x) h) in *.
    assert (Il : In l (t_lus s2)) by (rewrite El; left; auto).
    assert (Lo : lu_ok l) by (rewrite Forall_forall in LO2; auto). destruct Lo as [Lt' Li]. cbn [l l_req l_sub] in Lt', Li. rewrite Qg in Li.
    assert (W : forall s', In l (t_lus s') -> waiting s' (t_nr s) (g_imsi g)) by (intros s' I; exists l; auto).
    assert (O2 : forall y, In y [ORx (t_nr s) c g; OResp (t_nr s) r false co] -> ~ ends (t_nr s) y) by (intros y [<-|[<-|[]]]; cbn; tauto).
    destruct (lu_hist k es' l s2 d2 s3 d3 o3 H2 LO2 Il CF Hs') as [(A1 & A2 & A3)|(A1 & oa & r1 & co1 & ob & es1 & w1 & e1 & f1 & es2 & sm & dm & om & B1 & B2 & B3 & B4 & B5 & B6 & B7)];
      cbn [l l_req] in *; rewrite Qn in *.
    + left. split; auto. split; auto. intros y I. apply in_app_or in I as [I|I]; auto. apply (others_ends _ _ A2 y I).
    + right. split; auto. exists r1. split.
      * exists co1, (ORx (t_nr s) c g :: OResp (t_nr s) r false co :: oa), ob. split; [rewrite B1; auto|].
        intros y I. apply in_app_or in I as [[<-|[<-|I]]|I]; try (cbn; tauto); apply (others_ends _ _ B2 y); apply in_or_app; auto.
      * destruct B7 as [(-> & Ty)|(c' & g' & -> & Ei & [(Tg & Ty)|(Tg & Ty)])]; auto. right. split; auto. split.
        -- inversion A; subst. exists row'. auto.
        -- exists es1, w1, c', g', f1, es2, sm, dm, om. split; auto. split; auto. split; auto. split.
           ++ intros y I. apply in_app_or in I as [I|I]; auto. apply (others_ends _ _ B6 y I).
           ++ split; auto. cbn [l l_sub] in Ei. congruence.
Qed.

(** a waiting update is ended by its timer *)
Lemma c19_timer k d es s d1 o w nr imsi f s2 d2 o2 :
  hist k (hst0, d) es = Some (s, d1, o) -> waiting s nr imsi -> no_crash f -> step k (s, d1) (w, ELuTimer nr, f) = Some (s2, d2, o2) ->
  d2 = d1 /\ exists r co, o2 = [OResp nr r true co] /\ g_type r = 5 /\ ~ pending s2 nr.
Proof.
  intros Hs (l & Il & En & Ei) NC E. destruct (inv_of_hist _ _ _ _ _ _ Hs) as [H LO].
  assert (CF : crash_free [(w, ELuTimer nr, f)]) by (intros a b c [I|[]]; injection I as <- <- <-; auto).
  assert (Hs' : hist k (s, d1) [(w, ELuTimer nr, f)] = Some (s2, d2, o2)) by (cbn [hist]; rewrite E, app_nil_r; auto).
  destruct (lu_hist k _ l s d1 s2 d2 o2 H LO Il CF Hs') as [(_ & _ & A)|(A1 & _)]; [rewrite En in A; destruct (A w f); left; auto|]. rewrite En in A1.
  unfold step in E. cbn [handle run fst snd] in E. unfold lu_timeout in E. destruct (find _ _) as [l'|] eqn:Fd.
  2:{ exfalso. apply (find_none _ _ Fd) in Il. rewrite En, Nat.eqb_refl in Il. discriminate. }
  apply find_some in Fd as [Il' El']. apply Nat.eqb_eq in El'. assert (Lo : lu_ok l') by (rewrite Forall_forall in LO; auto). destruct Lo as [Lt Li].
  destruct (respond_err_out (tx k s) (l_req l') CAUSE_NET_FAIL) as (r & Er & Ty & _); [rewrite Lt; reflexivity|]. rewrite Lt in Ty.
  rewrite Er in E. injection E as _ <- <-. split; auto. exists r, (tx k s (l_req l') r). rewrite El'. auto.
Qed.

(** * C20 *)
(** an update that is the only one for its subscriber is completed by the result sent for the subscriber; all others stay *)
Lemma c20_sole k d es s d1 o w c g nr f s2 d2 o2 :
  hist k (hst0, d) es = Some (s, d1, o) -> for_us k (t_srv s) c g -> g_type g = MSGT_INSERT_DATA_RESULT -> no_crash f ->
  waiting s nr (g_imsi g) -> (forall n, waiting s n (g_imsi g) -> n = nr) ->
  step k (s, d1) (w, ERx c g, f) = Some (s2, d2, o2) ->
  d2 = d1 /\ (exists r co, o2 = [ORx (t_nr s) c g; OFree (t_nr s); OResp nr r true co] /\ g_type r = MSGT_UPDATE_LOCATION_RESULT) /\
  forall n i, waiting s2 n i <-> waiting s n i /\ n <> nr.
Proof.
  intros Hs U T NC (l & Il & En & Ei) Un E. destruct (inv_of_hist _ _ _ _ _ _ Hs) as [H LO].
  destruct (rx_step _ _ _ _ _ _ _ _ _ _ H U E) as (s1 & q & R & [(o' & f' & -> & Rn)|(_ & _ & C & _)]); [|destruct (NC C)].
  pose proof (rr_gsup _ _ _ _ _ _ R) as Eg.
  assert (Rn' : run (Ret (lu_rx k s1 q)) f d1 = (Fin (s2, o'), d2, f')) by (rewrite <- Rn; unfold dispatch; rewrite Eg, T; reflexivity).
  apply fin_ret in Rn' as (Ex & -> & _). split; auto. unfold lu_rx in Ex. rewrite (rr_lus _ _ _ _ _ _ R), Eg in Ex.
  destruct (find _ _) as [l'|] eqn:Fd.
  2:{ exfalso. apply (find_none _ _ Fd) in Il. rewrite Ei, String.eqb_refl in Il. discriminate. }
  apply find_some in Fd as [Il' El']. apply String.eqb_eq in El'.
  assert (Nl : q_nr (l_req l') = nr) by (apply Un; exists l'; auto).
  rewrite T in Ex. cbn [Z.eqb Pos.eqb] in Ex. change (MSGT_INSERT_DATA_RESULT =? MSGT_INSERT_DATA_RESULT) with true in Ex. cbn iota in Ex.
  unfold respond_msgt in Ex. destruct (respond_plain_out (tx k s1) (l_req l') (msg0 MSGT_UPDATE_LOCATION_RESULT) (is_error MSGT_UPDATE_LOCATION_RESULT) true 6) as (r & Er & Ty & _); [repeat split|reflexivity|discriminate|].
  rewrite Er, Nl, (rr_nr _ _ _ _ _ _ R) in Ex. injection Ex as -> ->. split; [exists r, (tx k s1 (l_req l') r); auto|].
  intros n i. unfold waiting. cbn [lu_del with_lus t_lus]. rewrite (rr_lus _ _ _ _ _ _ R). split.
  - intros (y & Iy & Ny & Hy). apply filter_In in Iy as [Iy Fy]. apply Bool.negb_true_iff, Nat.eqb_neq in Fy. split; [exists y; auto|congruence].
  - intros [(y & Iy & Ny & Hy) Nn]. exists y. split; auto. apply filter_In. split; auto. apply Bool.negb_true_iff, Nat.eqb_neq. congruence.
Qed.

(** * C21 *)
Lemma purge_step k s d w c g x f s' d' o : inv s -> for_us k (t_srv s) c g -> g_type g = MSGT_PURGE_MS_REQUEST -> in_domain g x ->
  db_inv d -> no_crash f -> step k (s, d) (w, ERx c g, f) = Some (s', d', o) ->
  exists r co, o = [ORx (t_nr s) c g; OResp (t_nr s) r true co] /\ purge_answer x d d' (In EvFail f) g r /\ t_lus s' = t_lus s /\ t_ss s' = t_ss s.
Proof.
  intros H U T Dm Hd NC E. destruct (rx_step _ _ _ _ _ _ _ _ _ _ H U E) as (s1 & q & R & [(o' & f' & -> & Rn)|(_ & _ & C & _)]); [|destruct (NC C)].
  pose proof (rr_gsup _ _ _ _ _ _ R) as Eg.
  assert (Rn' : run (same s1 (rx_purge_ms_req k s1 q)) f d = (Fin (s', o'), d', f')) by (rewrite <- Rn; unfold dispatch; rewrite Eg, T; reflexivity).
  unfold same in Rn'. apply fin_bind in Rn' as (o1 & d1 & f1 & R1 & R2). apply fin_ret in R2 as ([= -> ->] & -> & ->).
  assert (St : t_lus s1 = t_lus s /\ t_ss s1 = t_ss s) by (split; [apply (rr_lus _ _ _ _ _ _ R)|apply (rr_ss _ _ _ _ _ _ R)]).
  unfold rx_purge_ms_req in R1. rewrite Eg in R1.
  assert (PS' : negb (g_cn g =? CN_CS) = is_ps x).
  { destruct x; cbn in *; [rewrite Dm; reflexivity|]. apply Z.eqb_neq in Dm. rewrite Dm. reflexivity. }
  rewrite PS' in R1. apply fin_bind in R1 as (rc & d2 & f2 & R1 & R2). apply fin_ret in R2 as (-> & -> & _).
  assert (RQ : is_request (g_type (q_gsup q)) = true) by (rewrite Eg, T; reflexivity).
  assert (TE : to_error (g_type (q_gsup q)) = 13) by (rewrite Eg, T; reflexivity).
  assert (ERR : forall ca, (forall r, g_type r = 13 -> g_cause r = ca -> purge_answer x d d2 (In EvFail f) g r) ->
     exists r co, ORx (t_nr s) c g :: respond_err (tx k s1) q ca = [ORx (t_nr s) c g; OResp (t_nr s) r true co] /\ purge_answer x d d2 (In EvFail f) g r /\ t_lus s1 = t_lus s /\ t_ss s1 = t_ss s).
  { intros ca A. destruct (respond_err_out (tx k s1) q ca RQ) as (r & -> & Ty & Ca & _). rewrite TE in Ty. rewrite (rr_nr _ _ _ _ _ _ R). exists r, (tx k s1 q r). auto. }
  unfold db_subscr_purge in R1. apply fin_exec in R1 as [(c1 & _ & R1)|(c1 & _ & F & R1)].
  2:{ apply fin_ret in R1 as (-> & -> & _). cbn [upd_rc Z.eqb]. change (- EIO =? - ENOENT) with false. cbn iota. apply ERR. intros r Ty Ca. apply pu_failed; auto. }
  assert (EX : exec (if is_ps x then UPD_PURGE_PS_BY_IMSI true (g_imsi g) else UPD_PURGE_CS_BY_IMSI true (g_imsi g)) d =
     (RDone (cnt (by_imsi (g_imsi g)) (d_sub d)), rows_of (g_imsi g) (with_purged x) d)) by (destruct x; reflexivity).
  rewrite EX in R1. cbn [fst snd] in R1. apply fin_ret in R1 as (-> & -> & _).
  destruct (find (by_imsi (g_imsi g)) (d_sub d)) as [row|] eqn:Fd.
  - apply find_some in Fd as [Ir Er]. apply String.eqb_eq in Er. assert (HI : has_imsi d (g_imsi g)) by (exists row; auto).
    replace (cnt (by_imsi (g_imsi g)) (d_sub d)) with 1%nat.
    2:{ pose proof (cnt_imsi_le1 d (g_imsi g) Hd). pose proof (proj2 (cnt_imsi_has d (g_imsi g)) HI). lia. }
    cbn [upd_rc Z.eqb]. unfold respond_msgt. destruct (respond_plain_out (tx k s1) q (msg0 MSGT_PURGE_MS_RESULT) (is_error MSGT_PURGE_MS_RESULT) true 14) as (r & -> & Ty & _); [repeat split|reflexivity|discriminate|].
    exists r, (tx k s1 q r). rewrite (rr_nr _ _ _ _ _ _ R). split; auto. split; auto. apply pu_done; auto.
  - assert (HI : ~ has_imsi d (g_imsi g)).
    { intros (r & I & Er). apply (find_none _ _ Fd) in I. unfold by_imsi in I. rewrite Er, String.eqb_refl in I. discriminate. }
    assert (C0 : cnt (by_imsi (g_imsi g)) (d_sub d) = 0%nat).
    { destruct (Nat.eq_0_gt_0_cases (cnt (by_imsi (g_imsi g)) (d_sub d))) as [|P]; auto. apply cnt_imsi_has in P. contradiction. }
    rewrite C0. cbn [upd_rc]. change (- ENOENT =? 0) with false. cbn iota. rewrite Z.eqb_refl. apply ERR. intros r Ty Ca. apply pu_unknown; auto.
    unfold rows_of. pose proof (find_none _ _ Fd) as Z. destruct d as [su a2 a3 i]. unfold with_sub. cbn in *. f_equal.
    rewrite <- (map_id su) at 2. apply map_ext_in. intros y I. specialize (Z y I). unfold by_imsi in Z. rewrite Z. auto.
Qed.


(** * C23 *)
Lemma digit_code n : (n <= 9)%N -> is_digit_code n (bcd_char n).
Proof. intros L. split; auto. assert (H : In n [0;1;2;3;4;5;6;7;8;9]%N) by (cbn; lia). cbn in H. decompose [or] H; subst; try reflexivity. contradiction. Qed.
Lemma digit_char n c : is_digit_code n c -> bcd_char n = c.
Proof.
  intros [L E]. destruct (digit_code n L) as [_ E']. rewrite <- (ascii_N_embedding c), <- (ascii_N_embedding (bcd_char n)). congruence.
Qed.
Lemma digit_nibble n : is_digit (bcd_char n) = true -> (n <= 9)%N.
Proof.
  intros H. destruct (N.le_gt_cases n 15) as [L|L].
  - assert (I : In n [0;1;2;3;4;5;6;7;8;9;10;11;12;13;14;15]%N) by (cbn; lia). cbn in I. decompose [or] I; subst; try discriminate; try contradiction; lia.
  - unfold bcd_char in H. rewrite nth_overflow in H; [discriminate|]. change (length (bytes_of "0123456789*#abc")) with 15%nat. lia.
Qed.
Lemma bcd_len ns : (String.length (bcd_text ns) <= length ns)%nat.
Proof. induction ns as [|n ns IH]; cbn; auto. destruct (n =? 15)%N; cbn; lia. Qed.
Lemma bcd_spec ns m : String.length m = length ns ->
  (bcd_text ns = m /\ str_forall is_digit m = true <-> forall i n, nth_error ns i = Some n -> exists c, String.get i m = Some c /\ is_digit_code n c).
Proof.
  revert m. induction ns as [|n ns IH]; intros [|c m] L; cbn in L; try discriminate.
  - cbn. split; auto. intros _ [|i] n E; discriminate.
  - injection L as L. specialize (IH m L). cbn [bcd_text str_forall]. split.
    + intros [Ht Hd]. apply andb_true_iff in Hd as [D1 D2]. destruct (n =? 15)%N; [discriminate|]. injection Ht as E1 E2.
      destruct IH as [IH _]. specialize (IH (conj E2 D2)). intros [|i] n' E; cbn in *; auto. injection E as <-. exists c. split; auto.
      subst c. apply digit_code, digit_nibble, D1.
    + intros Hx. destruct (Hx 0%nat n eq_refl) as (c' & E1 & E2). cbn in E1. injection E1 as <-.
      destruct IH as [_ IH]. destruct IH as [E3 E4]. { intros i n' E. apply (Hx (S i) n'). exact E. }
      rewrite (digit_char _ _ E2), E3, E4. destruct E2 as [L1 L2]. replace (n =? 15)%N with false by (symmetry; apply N.eqb_neq; lia).
      split; auto. apply andb_true_iff. split; auto. unfold is_digit, acode. rewrite L2. apply andb_true_iff. split; apply N.leb_le; lia.
Qed.
Lemma nibbles_len l : length (nibbles_of l) = (2 * length l)%nat.
Proof. unfold nibbles_of. induction l as [|o l IH]; auto. cbn [flat_map app length]. rewrite IH. lia. Qed.
Lemma nibbles_all (P : nat -> N -> Prop) l : (forall i n, nth_error (nibbles_of l) i = Some n -> P i n) <->
  (forall j o, nth_error l j = Some o -> P (2 * j)%nat (o mod 16)%N /\ P (2 * j + 1)%nat (o / 16)%N).
Proof.
  revert P. induction l as [|o l IH]; intros P.
  - split; intros _ [|i] n E; discriminate.
  - specialize (IH (fun i n => P (S (S i)) n)). cbn [nibbles_of flat_map app] in *. split.
    + intros Hx [|j] o' E; cbn in E.
      * injection E as <-. split; [apply (Hx 0%nat)|apply (Hx 1%nat)]; reflexivity.
      * destruct IH as [IH _]. destruct (fun h => IH h j o' E) as [A B]. { intros i n E'. apply Hx. exact E'. }
        replace (2 * S j)%nat with (S (S (2 * j))) by lia. replace (S (S (2 * j)) + 1)%nat with (S (S (2 * j + 1))) by lia. auto.
    + intros Hx [|[|i]] n E; cbn in E.
      * injection E as <-. apply (Hx 0%nat o eq_refl).
      * injection E as <-. apply (Hx 0%nat o eq_refl).
      * destruct IH as [_ IH]. refine (IH _ i n E). intros j o' E'. specialize (Hx (S j) o' E').
        replace (2 * S j)%nat with (S (S (2 * j))) in Hx by lia. replace (S (S (2 * j)) + 1)%nat with (S (S (2 * j + 1))) in Hx by lia. auto.
Qed.
Lemma imei_encodes e imei : (bcd_decode 14 e = Some imei /\ imei_valid14 imei = true) <-> encodes_imei e imei.
Proof.
  unfold imei_valid14, is_n_digits, encodes_imei. rewrite !andb_true_iff, !Nat.leb_le. split.
  - intros [D [[L1 L2] Dg]]. assert (L : String.length imei = 14%nat) by lia. clear L1 L2. unfold bcd_decode in D.
    destruct e as [|n l]; [discriminate|]. destruct (length l <? N.to_nat n)%nat eqn:Ll; [discriminate|]. apply Nat.ltb_ge in Ll.
    destruct (14 <? length (nibbles_of (firstn (N.to_nat n) l)))%nat eqn:L4; [discriminate|]. apply Nat.ltb_ge in L4. injection D as D.
    pose proof (bcd_len (nibbles_of (firstn (N.to_nat n) l))) as L5. rewrite nibbles_len in L4, L5. rewrite D, L in L5.
    assert (F : length (firstn (N.to_nat n) l) = 7%nat) by lia.
    assert (N7 : n = 7%N). { rewrite firstn_length_le in F by auto. lia. } subst n.
    exists (firstn 7 l), (skipn 7 l). change (N.to_nat 7) with 7%nat in *. rewrite firstn_skipn. split; [auto|]. split; [auto|]. split; [auto|].
    apply (nibbles_all (fun i n => exists c, String.get i imei = Some c /\ is_digit_code n c)). apply bcd_spec; auto. rewrite nibbles_len. lia.
  - intros (l & rest & -> & Ll & Li & Hx). assert (E : firstn 7 (l ++ rest) = l). { rewrite <- Ll, firstn_app, firstn_all, Nat.sub_diag. cbn. apply app_nil_r. }
    pose proof (proj2 (nibbles_all (fun i n => exists c, String.get i imei = Some c /\ is_digit_code n c) l) Hx) as Hy. clear Hx. rename Hy into Hx. apply bcd_spec in Hx as [H1 H2]; [|rewrite nibbles_len; lia].
    split; [|repeat split; auto; lia]. unfold bcd_decode. change (N.to_nat 7) with 7%nat. rewrite E, nibbles_len, Ll, app_length.
    replace (length l + length rest <? 7)%nat with false by (symmetry; apply Nat.ltb_ge; lia). cbn. f_equal. exact H1.
Qed.

Lemma rows_of_none imsi f d : ~ has_imsi d imsi -> rows_of imsi f d = d.
Proof.
  intros N. unfold rows_of. destruct d as [su a2 a3 i]. unfold with_sub. cbn in *. f_equal. rewrite <- (map_id su) at 2. apply map_ext_in. intros y I.
  destruct (_ =? _)%string eqn:E; auto. apply String.eqb_eq in E. exfalso. apply N. exists y. auto.
Qed.

Lemma imei_step k s d w c g f s' d' o : inv s -> for_us k (t_srv s) c g -> g_type g = MSGT_CHECK_IMEI_REQUEST ->
  fine d -> no_crash f -> step k (s, d) (w, ERx c g, f) = Some (s', d', o) ->
  exists r co, o = [ORx (t_nr s) c g; OResp (t_nr s) r true co] /\ imei_answer k w d d' (In EvFail f) g r /\ t_lus s' = t_lus s /\ t_ss s' = t_ss s.
Proof.
  intros H U T Hd NC E. destruct (rx_step _ _ _ _ _ _ _ _ _ _ H U E) as (s1 & q & R & [(o' & f' & -> & Rn)|(_ & _ & C & _)]); [|destruct (NC C)].
  pose proof (rr_gsup _ _ _ _ _ _ R) as Eg.
  assert (Rn' : run (same s1 (rx_check_imei_req k w s1 q)) f d = (Fin (s', o'), d', f')) by (rewrite <- Rn; unfold dispatch; rewrite Eg, T; reflexivity).
  unfold same in Rn'. apply fin_bind in Rn' as (o1 & d1 & f1 & R1 & R2). apply fin_ret in R2 as ([= -> ->] & -> & ->).
  assert (St : t_lus s1 = t_lus s /\ t_ss s1 = t_ss s) by (split; [apply (rr_lus _ _ _ _ _ _ R)|apply (rr_ss _ _ _ _ _ _ R)]).
  unfold rx_check_imei_req in R1. rewrite Eg in R1.
  assert (RQ : is_request (g_type (q_gsup q)) = true) by (rewrite Eg, T; reflexivity).
  assert (TE : to_error (g_type (q_gsup q)) = 49) by (rewrite Eg, T; reflexivity).
  assert (ERR : forall dd, (forall r, g_type r = 49 -> imei_answer k w d dd (In EvFail f) g r) ->
     exists r co, ORx (t_nr s) c g :: respond_err (tx k s1) q CAUSE_INV_MAND_INFO = [ORx (t_nr s) c g; OResp (t_nr s) r true co] /\ imei_answer k w d dd (In EvFail f) g r /\ t_lus s1 = t_lus s /\ t_ss s1 = t_ss s).
  { intros dd A. destruct (respond_err_out (tx k s1) q CAUSE_INV_MAND_INFO RQ) as (r & -> & Ty & Ca & _). rewrite TE in Ty. rewrite (rr_nr _ _ _ _ _ _ R). exists r, (tx k s1 q r). auto. }
  assert (BAD : (forall imei, ~ reports g imei) -> o1 = respond_err (tx k s1) q CAUSE_INV_MAND_INFO -> d1 = d ->
    exists r co, ORx (t_nr s) c g :: o1 = [ORx (t_nr s) c g; OResp (t_nr s) r true co] /\ imei_answer k w d d1 (In EvFail f) g r /\ t_lus s1 = t_lus s /\ t_ss s1 = t_ss s).
  { intros A -> ->. apply ERR. intros r Ty. apply im_malformed; auto. }
  destruct (x_imei (g_x g)) as [e|] eqn:Xe.
  2:{ apply fin_ret in R1 as (-> & -> & _). apply BAD; auto. intros m (e & Ee & _). congruence. }
  destruct (bcd_decode 14 e) as [imei|] eqn:Bd.
  2:{ apply fin_ret in R1 as (-> & -> & _). apply BAD; auto. intros m (e' & Ee & En). assert (e' = e) by congruence. subst. apply imei_encodes in En as [En _]. congruence. }
  destruct (imei_valid14 imei) eqn:Va; cbn [negb] in R1.
  2:{ apply fin_ret in R1 as (-> & -> & _). apply BAD; auto. intros m (e' & Ee & En). assert (e' = e) by congruence. subst. apply imei_encodes in En as [En ?]. congruence. }
  clear BAD. assert (Rp : reports g imei) by (exists e; split; auto; apply imei_encodes; auto).
  apply fin_bind in R1 as (rc0 & d2 & f2 & R1 & R2). pose proof (created_run _ _ _ _ _ _ _ _ R1) as Cr.
  assert (Hd2 : fine d2) by (rewrite <- (run_dbE _ _ _ _ _ _ R1); apply cod_fine; auto).
  assert (I2 : forall y, In y f2 -> In y f) by (apply (run_rest _ _ _ _ _ _ R1)).
  apply fin_bind in R2 as (rc & d3 & f3 & R2 & R3). apply fin_ret in R3 as (-> & -> & _).
  assert (OK : has_imsi d2 (g_imsi g) -> d3 = (if k_store_imei k then rows_of (g_imsi g) (with_imei imei) d2 else d2) -> rc = 0 ->
    exists r co, ORx (t_nr s) c g :: (if rc <? 0 then respond_err (tx k s1) q CAUSE_INV_MAND_INFO else snd (respond (tx k s1) q
                        (with_ext (msg0 MSGT_CHECK_IMEI_RESULT)
                           (mk_ext None None 0 0 [] None true None [] PlNone None None None [])) false true)) =
      [ORx (t_nr s) c g; OResp (t_nr s) r true co] /\ imei_answer k w d d3 (In EvFail f) g r /\ t_lus s1 = t_lus s /\ t_ss s1 = t_ss s).
  { intros A B ->. cbn [Z.ltb Z.compare]. destruct (respond_plain_out (tx k s1) q (with_ext (msg0 MSGT_CHECK_IMEI_RESULT)
                           (mk_ext None None 0 0 [] None true None [] PlNone None None None [])) false true 50) as (r & -> & Ty & _ & Ex); [repeat split|reflexivity|discriminate|].
    rewrite (rr_nr _ _ _ _ _ _ R). exists r, (tx k s1 q r). split; auto. split; auto. apply (im_ack _ _ _ _ _ _ _ d2 imei); auto. rewrite Ex. reflexivity. }
  assert (NO : ~ has_imsi d2 (g_imsi g) \/ In EvFail f -> d3 = d2 -> rc < 0 -> 
    exists r co, ORx (t_nr s) c g :: (if rc <? 0 then respond_err (tx k s1) q CAUSE_INV_MAND_INFO else snd (respond (tx k s1) q
                        (with_ext (msg0 MSGT_CHECK_IMEI_RESULT)
                           (mk_ext None None 0 0 [] None true None [] PlNone None None None [])) false true)) =
      [ORx (t_nr s) c g; OResp (t_nr s) r true co] /\ imei_answer k w d d3 (In EvFail f) g r /\ t_lus s1 = t_lus s /\ t_ss s1 = t_ss s).
  { intros A -> L. apply Z.ltb_lt in L. rewrite L. apply ERR. intros r Ty. apply (im_unknown _ _ _ _ _ _ _ imei); auto. }
  destruct (k_store_imei k) eqn:SI.
  - unfold db_subscr_update_imei_by_imsi in R2. rewrite Va in R2. cbn [negb] in R2. apply fin_exec in R2 as [(c1 & _ & R2)|(c1 & _ & F & R2)].
    2:{ apply fin_ret in R2 as (-> & -> & _). apply NO; auto. reflexivity. }
    assert (EX : exec (UPD_IMEI_BY_IMSI (Some imei) (g_imsi g)) d2 = (RDone (cnt (by_imsi (g_imsi g)) (d_sub d2)), rows_of (g_imsi g) (with_imei imei) d2)) by reflexivity.
    rewrite EX in R2. cbn [fst snd] in R2. apply fin_ret in R2 as (-> & -> & _).
    destruct (Nat.eq_0_gt_0_cases (cnt (by_imsi (g_imsi g)) (d_sub d2))) as [Z0|P].
    + assert (NI : ~ has_imsi d2 (g_imsi g)) by (intros I; apply cnt_imsi_has in I; lia). rewrite Z0 in *. apply NO; auto; [|reflexivity]. apply rows_of_none; auto.
    + pose proof (cnt_imsi_le1 d2 (g_imsi g) (proj1 Hd2)). apply OK; auto; [apply cnt_imsi_has; auto|]. replace (cnt _ _) with 1%nat by lia. reflexivity.
  - apply fin_bind in R2 as ([rc' sub] & d4 & f4 & R2 & R3). apply fin_ret in R3 as (-> & -> & _).
    apply get_imsi_run in R2 as (-> & [(-> & row & h & _ & I & Er & _)|[(-> & NI)|(-> & F)]]).
    + apply OK; auto. exists row. auto.
    + apply NO; auto. reflexivity.
    + apply NO; auto. reflexivity.
Qed.
