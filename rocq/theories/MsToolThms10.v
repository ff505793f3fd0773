(** Proofs about the lookup tool, continued: timeouts (C60). *)
From Verif Require Import Base PeerId DbThms DbProofs Db Auth Gsup Router Ctrl CtrlSpec CtrlThms MsLookup Mdns MsClient MsClientSpec MsClientThms MsClientThms2 MsTool MsToolSpec MsToolThms MsToolThms2 MsToolThms4 MsToolThms5 MsToolThms9.
Local Open Scope N_scope.

Lemma numeral_chars s v : numeral s v -> all_chars MsToolSpec.is_digit s = true.
Proof.
  assert (D : forall c n, CtrlSpec.digit c n -> MsToolSpec.is_digit c = true).
  { intros c n [L ->]. replace (Z.to_N (48 + n)) with (48 + Z.to_N n) by lia. apply digit_char. lia. }
  induction 1 as [c n H|s v c n H IH H']; [cbn; rewrite (D _ _ H); auto|]. rewrite all_app, IH. cbn. rewrite (D _ _ H'). auto.
Qed.
Lemma numeral_u32 s n : numeral s (Z.of_N n) -> n <= 4294967295 -> parse_u32 s = Some n.
Proof.
  intros H L. pose proof (numeral_chars _ _ H) as C. destruct (numeral_digits _ _ H) as (_ & Ne & _).
  assert (E : strtoll_all s = Some (Z.of_N n)).
  { apply strtoll_integer; auto; [|intros r ->; discriminate C|split; [left; auto|lia]]. clear - C. unfold spaceless. induction s as [|c s IH]; auto. cbn in C. apply andb_true_iff in C as [A B]. cbn. rewrite (IH B), andb_true_r. clear - A. destruct c as [[] [] [] [] [] [] [] []]; cbn in *; auto. }
  unfold parse_u32. rewrite E. rewrite N2Z.id. destruct (Z.leb_spec 0 (Z.of_N n)); [|lia]. destruct (Z.leb_spec (Z.of_N n) 4294967295); [|lia]. reflexivity.
Qed.
Lemma split_at_first c a r : all_chars (fun x => negb (x =? c)%char) a = true -> split_at c (a ++ String c r) = Some (a, r).
Proof.
  induction a as [|x a IH]; intros H; cbn [append split_at]; [rewrite Ascii.eqb_refl; auto|]. cbn in H. apply andb_true_iff in H as [A B]. apply negb_true_iff in A. rewrite A, (IH B). auto.
Qed.
Lemma split_at_none c a : all_chars (fun x => negb (x =? c)%char) a = true -> split_at c a = None.
Proof. induction a as [|x a IH]; intros H; cbn [split_at]; auto. cbn in H. apply andb_true_iff in H as [A B]. apply negb_true_iff in A. rewrite A, (IH B). auto. Qed.
Lemma digits_no c a : MsToolSpec.is_digit c = false -> all_chars MsToolSpec.is_digit a = true -> all_chars (fun x => negb (x =? c)%char) a = true.
Proof. intros D. apply all_impl. intros x H. apply negb_true_iff. destruct (Ascii.eqb_spec x c); auto. congruence. Qed.
Lemma handling_times t mn tm : times t mn tm -> (String.length t <= 15)%nat -> mn <= 4294967295 -> tm <= 4294967295 -> handling t = Some (mn, tm).
Proof.
  intros H L Lm Lt. unfold handling. destruct (Nat.leb_spec TIMEOUTS_BUF (String.length t)) as [X|_]; [unfold TIMEOUTS_BUF in X; lia|].
  destruct H as [a b mn tm Ha Hb|b tm Hb|a mn Ha|].
  - change ("-" ++ b)%string with (String "-" b). rewrite split_at_first by (apply digits_no; [reflexivity|eapply numeral_chars; eauto]). rewrite (numeral_u32 _ _ Ha Lm), (numeral_u32 _ _ Hb Lt). destruct (numeral_digits _ _ Hb) as (_ & Ne & _). destruct b; [contradiction|reflexivity].
  - rewrite split_at_none by (apply digits_no; [reflexivity|eapply numeral_chars; eauto]). rewrite (numeral_u32 _ _ Hb Lt). destruct (numeral_digits _ _ Hb) as (_ & Ne & _). destruct b; [contradiction|reflexivity].
  - change "-"%string with (String "-" ""). rewrite split_at_first by (apply digits_no; [reflexivity|eapply numeral_chars; eauto]). rewrite (numeral_u32 _ _ Ha Lm). reflexivity.
  - reflexivity.
Qed.
Lemma times_no_at t mn tm : times t mn tm -> all_chars (fun x => negb (x =? "@")%char) t = true.
Proof.
  assert (Nm : forall s v, numeral s v -> all_chars (fun x => negb (x =? "@")%char) s = true) by (intros s v H; apply digits_no; [reflexivity|eapply numeral_chars; eauto]).
  destruct 1 as [a b mn tm Ha Hb|b tm Hb|a mn Ha|]; rewrite ?all_app; cbn; rewrite ?(Nm _ _ Ha), ?(Nm _ _ Hb); eauto.
Qed.
Lemma has_times_split o x d mn tm : has_times o x d mn tm -> (String.length x <= String.length d + 16)%nat -> mn <= 4294967295 -> tm <= 4294967295 ->
  domain_of x = d /\ match split_at "@" x with Some (t, _) => handling t | None => Some (o_min o, o_tmo o) end = Some (mn, tm).
Proof.
  intros [(t & -> & H)|(-> & Na & -> & ->)] L Lm Lt; unfold domain_of.
  - change ("@" ++ d)%string with (String "@" d). rewrite split_at_first by (eapply times_no_at; eauto). split; auto. apply handling_times; auto. rewrite !str_length_app in L. cbn in L. lia.
  - rewrite (split_at_none _ _ Na). auto.
Qed.
Lemma start_query_times o s x d mn tm q : binv s -> c_uid (t_cl s) < 4294967295 -> has_times o x d mn tm -> (String.length x <= String.length d + 16)%nat -> mn <= 4294967295 -> tm <= 4294967295 -> (String.length d < 128)%nat -> query_init d = inl q ->
  exists s', start_query o s x = Val s' /\ c_trace (t_cl s') = TStart (c_uid (t_cl s)) q mn (effective mn tm) (c_now (t_cl s)) :: c_trace (t_cl s).
Proof.
  intros B L H Lx Lm Lt Ld Qi. destruct (has_times_split _ _ _ _ _ H Lx Lm Lt) as [Ed Eh]. unfold start_query. rewrite Ed, Eh. destruct (Nat.leb_spec QUERY_STR (String.length d)) as [X|_]; [unfold QUERY_STR in X; lia|]. rewrite Qi.
  destruct (query_init_valid _ _ Qi) as [V1 V2]. rewrite V1, V2. cbn [negb orb]. cbv zeta. set (h := if c_next (t_cl s) =? 0 then 1 else c_next (t_cl s)).
  pose proof (v_reach _ B) as R. pose proof (creach_inv _ R) as I. pose proof (short_free _ (v_short _ B) L) as Fr.
  destruct (request_moved (t_cl s) q mn tm I Fr (v_stack _ B) V1 V2) as (M1 & _).
  rewrite settle_quiet by exact M1. cbn [mbind]. assert (H0 : h <> 0) by (unfold h; destruct (N.eqb_spec (c_next (t_cl s)) 0); lia). destruct (N.eqb_spec h 0); [contradiction|].
  eexists. split; [reflexivity|]. cbn [t_cl t_with_qs t_with_cl]. unfold request. rewrite V1, V2. cbn [negb orb]. cbv zeta. fold h. cbn [c_reqs]. destruct Fr as [Fr _]. destruct (find _ _) as [r|] eqn:Fd.
  { exfalso. apply find_some in Fd as [Io Eo]. apply N.eqb_eq in Eo. exact (Fr _ Io Eo). }
  cbn. unfold effective. destruct (tm =? 0) eqn:Et; auto. rewrite Et. auto.
Qed.
Lemma c60_times o args l s i b x d mn tm q : reached o args l s -> N.of_nat (length args + packets l) < 4294967295 -> connected s i "" -> line_of b = Some x ->
  has_times o x d mn tm -> (String.length x <= String.length d + 16)%nat -> mn <= 4294967295 -> tm <= 4294967295 -> (String.length d < 128)%nat -> query_init d = inl q ->
  exists s', tstep o s (EPacket i b) = Val s' /\ connected s' i d /\ c_trace (t_cl s') = TStart (c_uid (t_cl s)) q mn (effective mn tm) (c_now (t_cl s)) :: c_trace (t_cl s).
Proof.
  intros R L C Lb H Lx Lm Lt Ld Qi. destruct (reached_tinv _ _ _ _ R) as [T Lu]. pose proof T as [B W]. cbn [tstep]. unfold socket_read.
  destruct (find (fun k => k_id k =? i) (t_cls s)) as [k|] eqn:F.
  2:{ apply (find_none _ _ F) in C. cbn in C. rewrite N.eqb_refl in C. discriminate. }
  apply find_client in F as [Ik Ei]. assert (Ck : k = mk_tclient i "").
  { destruct k as [ki ks]. cbn in Ei. subst ki. f_equal. symmetry. eapply connected_one; eauto. }
  subst k. rewrite Lb. cbv zeta. cbn [k_str negb String.eqb]. destruct (has_times_split _ _ _ _ _ H Lx Lm Lt) as [Ed _]. rewrite Ed.
  assert (B1 : binv (set_str s i d)) by (eapply set_binv; eauto).
  destruct (start_query_times o (set_str s i d) x d mn tm q B1) as (s' & E & Et); auto; [cbn; lia|]. rewrite E. cbn [mbind]. eexists. split; [reflexivity|]. split; [|exact Et].
  assert (W1 : waits (set_str s i d) (domain_of x)) by (rewrite Ed; eapply set_waits; eauto). destruct (start_query_spec o (set_str s i d) x B1 W1 ltac:(cbn; lia)) as (s2 & E2 & St & _). rewrite E in E2. injection E2 as <-. rewrite Ed in St.
  pose proof (set_cls s i d (mk_tclient i "") (v_ids _ B) C eq_refl) as Sc. cbn [k_id] in Sc.
  destruct St as [->|qq h mn' tm' F1 F2 F3 F4 F5 F6 F7 F8 F9 F10]; [|unfold connected; cbn; rewrite F3; apply Sc; auto].
  exfalso. pose proof (respond_spec o (set_str s i d) d None (v_ids _ B1)) as [R1 _ _ _ _ _ _ _ _ _]. rewrite R1 in Et. apply (f_equal (@length note)) in Et. cbn [length] in Et. lia.
Qed.
