(** Lookups over the network: results are true, subscribers are found, other networks are not disturbed. *)
From Verif Require Import Base PeerId Router Db DbSpec DbProofs PeerSpec PeerThms Ctrl CtrlSpec CtrlThms MsLookup MsSpec MsThms Mdns MdnsSpec MdnsThms Proxy MsServer MsServerSpec MsServerThms MsServerThms2 MsClient MsClientSpec MsClientThms MsClientThms2 MsNet MsNetSpec MsNetThms MsNetThms2.
Local Open Scope string_scope.
Local Open Scope list_scope.
Local Open Scope N_scope.

Lemma c61_true suffix id l s u x last t : net_run suffix id l s -> In (TCall u RcResult x last t) (c_trace (n_cl s)) ->
  exists q mn tm t0, In (TStart u q mn tm t0) (c_trace (n_cl s)) /\ told l q x.
Proof.
  intros R I. pose proof (net_ninv _ _ _ _ R) as V. pose proof (v_reach _ _ _ V) as Cr. apply in_split in I as (a & b & E).
  pose proof (i_ok _ (creach_inv _ Cr)) as Ok. rewrite E in Ok. apply tr_ok_app in Ok. destruct Ok as [[_ (_ & _ & q & mn & tm & t0 & St & Gt & _)] Ok]. destruct Gt as [(q' & t' & Gt) _].
  assert (Ig : In (TRes u q' RcResult x t') (c_trace (n_cl s))) by (rewrite E; apply in_app_iff; right; right; exact Gt).
  destruct (v_res _ _ _ V _ _ _ _ _ Ig) as [_ T]. apply in_split in Gt as (a2 & b2 & ->). apply tr_ok_app in Ok. destruct Ok as [[_ (_ & _ & mn' & tm' & t0' & St')] _].
  exists q', mn', tm', t0'. split; [|exact T]. rewrite E. apply in_app_iff. right. right. apply in_app_iff. right. right. exact St'.
Qed.
(** no packet that these programs send does harm to another *)
Lemma c61_safe suffix id l s e : net_run suffix id l s -> event_fits e -> nreqs (l ++ [e]) <= 4294967295 -> nstep suffix s e = Bad ->
  (exists ce, e = NClient ce /\ cstep (n_cl s) ce = Bad) \/
  (exists k y now c f d q, e = NServe k y now c f d /\ good_query q /\ run_out (mslookup_server_rx y now c q) f d = Ub).
Proof.
  intros R Ev Ln B. pose proof (net_ninv _ _ _ _ R) as V. destruct R as (Sf & _). destruct e as [ce|k|k y now c f d|pton argv].
  - left. exists ce. split; [reflexivity|]. destruct (cstep (n_cl s) ce) as [c|] eqn:Ec; [|reflexivity]. exfalso.
    assert (H : of_user ce -> match asked (n_cl s) ce with
        | None => Val (mk_nst c (n_id s) (n_air s))
        | Some q => mdo p <- mdns_query_encode (n_id s) q suffix;; Val (put_air (mk_nst c ((n_id s + 1) mod 65536) (n_air s)) p) end <> Bad).
    { intros U. pose proof (client_inv suffix l s ce c Sf V U Ev Ln Ec) as H. destruct (asked (n_cl s) ce) as [q|]; [|discriminate]. destruct H as (p & _ & -> & _). discriminate. }
    destruct ce; cbn [nstep] in B; try discriminate; rewrite Ec in B; cbn [mbind] in B; exact (H Logic.I B).
  - exfalso. cbn [nstep] in B. destruct (nth_error (n_air s) k) as [p|] eqn:K; [|discriminate]. destruct (c_stack (n_cl s)) eqn:St; [|discriminate].
    destruct (read_client suffix l s p Sf V (nth_error_In _ _ K)) as [H|(i & q & x & H & _)]; rewrite H in B; [discriminate|]. cbn [mbind cstep] in B. rewrite St in B. discriminate.
  - right. exists k, y, now, c, f, d. cbn [nstep] in B. destruct (nth_error (n_air s) k) as [p|] eqn:K; [|discriminate].
    destruct (read_server suffix l s p Sf V (nth_error_In _ _ K)) as [H|(i & q & Li & H & G & Dn)]; [unfold mdns_server_rx in B; rewrite H in B; discriminate|]. exists q.
    pose proof (server_out y now c f d suffix i q _ Ev G Dn Sf Li H) as O. destruct (run_out (mslookup_server_rx y now c q) f d) as [[y' [|v4 v6 age]]| |]; [rewrite O in B; discriminate| |rewrite O in B; discriminate|auto].
    destruct O as (p' & Rp & _). rewrite Rp in B. discriminate.
  - exfalso. cbn [nstep] in B. destruct Ev as [Rd Dn]. destruct (send_cases pton suffix argv) as [(q & x & Gv & _ & S)|[S _]]; rewrite S in B; [|discriminate].
    destruct (given_good _ _ _ _ Rd Gv) as (G & G4 & G6 & La). destruct (result_packet 0 q x suffix G (Dn _ _ Gv) Sf ltac:(lia) G4 G6 La) as (p & Ep & _). rewrite Ep in B. discriminate.
Qed.
(** an HLR that has an answer to a question is heard *)
Lemma c61_found suffix id l s u q mn tm t0 y now c f d x : net_run suffix id l s -> c_stack (n_cl s) = [] -> open u (n_cl s) -> In (TStart u q mn tm t0) (c_trace (n_cl s)) ->
  server_fits y -> answers y now c f d q x ->
  exists k s1 s2 v, nstep suffix s (NServe k y now c f d) = Val s1 /\ nstep suffix s1 (NRecv (length (n_air s))) = Val s2 /\
    open v (n_cl s) /\ In (TRes v q RcResult x (c_now (n_cl s))) (c_trace (n_cl s2)) /\ (lr_age x = 0 -> In (TCall v RcResult x true (c_now (n_cl s))) (c_trace (n_cl s2))).
Proof.
  intros R St Op Ts W An. pose proof (net_ninv _ _ _ _ R) as V. pose proof R as (Sf & _). destruct (v_start _ _ _ V _ _ _ _ _ Ts) as (p & Ip & G & Dn & i & Li & Ep).
  destruct (In_nth_error _ _ Ip) as (k & K). pose proof Sf as [Sn Sl]. destruct (c33_query i q suffix G Dn Sn ltac:(lia) Li) as (p0 & Ep0 & Dp). assert (p0 = p) by congruence. subst p0.
  pose proof (server_out y now c f d suffix i q p W G Dn Sf Li Dp) as O. destruct An as (y' & v4 & v6 & age & Ra & ->). rewrite Ra in O. destruct O as (p' & Rp & Ep' & An).
  pose proof (answers_good _ _ _ _ _ _ _ W An) as Gr. destruct (c33_result i q _ suffix G Gr Dn Sn Sl Li) as (p0 & Ep1 & Dp'). assert (p0 = p') by congruence. subst p0.
  exists k, (put_air s (Some p')). cbn [nstep]. rewrite K, whole by (eapply query_len; exact Ep). rewrite Rp. cbn [put_air n_air n_cl]. rewrite nth_error_app2, Nat.sub_diag by lia. cbn [nth_error]. rewrite St, whole by (eapply result_len; exact Ep'). rewrite Dp'. cbn [mbind].
  assert (Tq : lq_type q <> IdNone) by (destruct G as [_ G]; intros H; rewrite H in G; destruct G).
  set (x := mk_result (host_of v4) (host_of v6) (Z.to_N age)) in *.
  destruct (c35_taken (n_cl s) q x u mn tm t0 (v_reach _ _ _ V) St Tq Op Ts) as (c' & v & E & Ov & Ir). rewrite E. cbn [mbind]. eexists. exists v. split; [reflexivity|]. split; [reflexivity|]. split; [exact Ov|]. cbn [n_cl]. split; [exact Ir|].
  intros Z. assert (Cr : creach c') by (eapply cr_step; [exact (v_reach _ _ _ V)| |exact E]; discriminate). apply in_split in Ir as (a & b & Et). destruct (c35_age0 _ _ _ _ _ _ _ Cr Et Z) as (a' & ->). rewrite Et. apply in_app_iff. left. apply in_app_iff. right. left. reflexivity.
Qed.
(** what the answers are, for a subscriber of the HLR and for one who is there *)
Lemma home_answers y now c q d v4 v6 r : lq_service q = "gsup.hlr" -> cfg_ok (y_cfg y) -> no_old_bind y -> In r (d_sub d) -> asks_row q r -> local_addr (y_cfg y) (y_bind y) v4 v6 -> (usable v4 \/ usable v6) ->
  answers y now c [] d q (mk_result (host_of v4) (host_of v6) 0).
Proof.
  intros Sv Ok Nb Ir Ar La U. destruct (c37_home y now c q d Sv Ok Nb) as (y' & a & R & _ & _ & _ & A). exists y', v4, v6, 0%Z. split; [|reflexivity]. unfold run_out. rewrite R. cbn [fst].
  rewrite (proj2 (A v4 v6 0%Z)); [reflexivity|]. split; [eauto|auto].
Qed.
Lemma there_answers y now c q d v4 v6 age name : cfg_ok (y_cfg y) -> identities_unique d -> plain_rows d -> sane_times d c -> names_ok c -> one_cached c q ->
  (y_max y <= 2 ^ 32 - 1)%Z -> sane_time now -> sane_time (y_tz y) -> (y_max y < now - y_tz y)%Z -> lq_service q <> "gsup.hlr" ->
  name <> [] -> lu_latest (y_tz y) d c q now (y_max y) age name -> serves (y_cfg y) name (lq_service q) v4 v6 ->
  answers y now c [] d q (mk_result (host_of v4) (host_of v6) (Z.to_N age)).
Proof.
  intros A B C D E F G H I J K L M N. destruct (c37_other y now c q d A B C D E F G H I J K) as (a & R & X). exists y, v4, v6, age. split; [|reflexivity]. unfold run_out. rewrite R. cbn [fst].
  rewrite (proj2 (X v4 v6 age)); [reflexivity|]. eauto.
Qed.

(** ** Other networks *)
Lemma dots_split {A} (z : A) X S Y S' : X ++ z :: S = Y ++ z :: S' -> (X = Y /\ S = S') \/ (exists m, Y = X ++ z :: m /\ S = m ++ z :: S') \/ (exists m, X = Y ++ z :: m /\ S' = m ++ z :: S).
Proof.
  intros E. apply app_eq_app in E as ([|h m] & [[E1 E2]|[E1 E2]]).
  - left. rewrite app_nil_r in E1. cbn in E2. injection E2 as <-. auto.
  - left. rewrite app_nil_r in E1. cbn in E2. injection E2 as <-. auto.
  - right. right. cbn in E2. injection E2 as <- E2. exists m. auto.
  - right. left. cbn in E2. injection E2 as <- E2. exists m. auto.
Qed.
Lemma last_label {A} (z : A) X m Y w : X ++ z :: m = Y ++ z :: w -> ~ In z w -> m = w \/ exists a, m = a ++ z :: w.
Proof.
  intros E N. destruct (dots_split _ _ _ _ _ E) as [[_ ->]|[(a & _ & ->)|(a & _ & ->)]]; [auto|right; eauto|]. exfalso. apply N. apply in_app_iff. right. left. reflexivity.
Qed.
Lemma label_here s w b : bytes_of s = bytes_of w ++ dot :: b -> has_label s w.
Proof.
  intros E. exists "", ("." ++ str_of b)%string. split; [auto|]. split; [right; eauto|]. apply bytes_inj. rewrite E, !bytes_app, bytes_str. reflexivity.
Qed.
Lemma label_after s a w b : bytes_of s = (a ++ dot :: bytes_of w) ++ dot :: b -> has_label s w.
Proof.
  intros E. exists (str_of a ++ ".")%string, ("." ++ str_of b)%string. split; [right; eauto|]. split; [right; eauto|]. apply bytes_inj. rewrite E, !bytes_app, !bytes_str. cbn [bytes_of app]. rewrite <- !app_assoc. reflexivity.
Qed.
(** nothing is read from a domain with another suffix *)
Lemma other_suffix q suffix suffix' d : good_query q -> plain_suffix suffix -> plain_suffix suffix' -> suffix <> suffix' -> domain_from_query q suffix = Some d ->
  exists e, query_from_domain d suffix' = inr e.
Proof.
  intros G P P' N Ed. destruct (query_from_domain d suffix') as [q'|e] eqn:Q; [|eauto]. exfalso. apply from_domain_iff in Q as (e & (G' & w & Ww & ->) & E).
  assert (T : lq_type q <> IdNone) by (destruct G as [_ G]; intros H; rewrite H in G; destruct G). assert (T' : lq_type q' <> IdNone) by (destruct G' as [_ G']; intros H; rewrite H in G'; destruct G').
  assert (d = (lq_service q ++ "." ++ lq_id q ++ "." ++ id_type_name (lq_type q) ++ "." ++ suffix)%string) as D by (unfold domain_from_query in Ed; destruct (lq_type q); congruence).
  rewrite D in E. apply (f_equal bytes_of) in E. rewrite !bytes_app in E. change (bytes_of ".") with [dot] in E.
  set (A := bytes_of (lq_service q) ++ dot :: bytes_of (lq_id q)). set (B := bytes_of (lq_service q') ++ dot :: bytes_of (lq_id q')).
  set (a := bytes_of (id_type_name (lq_type q))) in *. set (b := bytes_of w) in *.
  assert (E1 : (A ++ dot :: a) ++ dot :: bytes_of suffix = (B ++ dot :: b) ++ dot :: bytes_of suffix').
  { unfold A, B. repeat rewrite <- app_assoc. cbn [app]. repeat rewrite <- app_assoc in E. cbn [app] in E. exact E. }
  pose proof (type_name_word (lq_type q)) as Wa. destruct (word_no_dot _ _ Wa) as [Na _]. destruct (word_no_dot _ _ Ww) as [Nb _]. fold a in Na. fold b in Nb.
  destruct (dots_split _ _ _ _ _ E1) as [[_ Es]|[(m & Eb & Es)|(m & Eb & Es)]].
  - apply N, bytes_inj, Es.
  - symmetry in Eb. destruct (last_label _ _ _ _ _ Eb Nb) as [->|(a' & ->)].
    + apply (P (lq_type q') w T' Ww). eapply label_here. exact Es.
    + apply (P (lq_type q') w T' Ww). eapply label_after. exact Es.
  - symmetry in Eb. destruct (last_label _ _ _ _ _ Eb Na) as [->|(a' & ->)].
    + apply (P' (lq_type q) _ T Wa). eapply label_here. exact Es.
    + apply (P' (lq_type q) _ T Wa). eapply label_after. exact Es.
Qed.
Lemma c61_other suffix suffix' q x id p : good_query q -> dns_name (lq_service q) -> suffix_fits suffix -> plain_suffix suffix -> plain_suffix suffix' -> suffix <> suffix' -> id < 65536 -> good_result x ->
  (mdns_query_encode id q suffix = Val (Some p) -> mdns_query_decode p suffix' = Val None) /\ (mdns_result_encode id q x suffix = Val (Some p) -> mdns_result_decode p suffix' = Val None).
Proof.
  intros G Ns [Nf L] P P' N Li Gr. destruct (c32_round q suffix G) as (d & Ed & Eq). pose proof (domain_name q suffix d G Ns Nf Ed) as Nd. destruct (other_suffix _ _ _ _ G P P' N Ed) as (e & Q). split.
  - unfold mdns_query_encode. rewrite Ed. intros H. apply fits_eq in H as [-> _]. unfold mdns_query_decode. rewrite request_rt by (auto; reflexivity). cbn [mbind]. rewrite text_octets, Q. reflexivity.
  - unfold mdns_result_encode. rewrite Ed. pose proof Gr as (G4 & G6 & _ & La). destruct (age_enc _ La) as (a & Ea & Ra & Ll). rewrite Ea. intros H. apply fits_eq in H as [-> _].
    destruct (host_ok 4 RT_A (lr_v4 x)) as (F4 & L4 & _); [lia|reflexivity|auto|]. destruct (host_ok 16 RT_AAAA (lr_v6 x)) as (F6 & L6 & _); [lia|reflexivity|auto|].
    unfold mdns_result_decode. rewrite answer_rt; auto.
    + cbn [mbind]. rewrite text_octets, Q. reflexivity.
    + constructor; auto. apply Forall_app; auto.
    + discriminate.
    + cbn [length]. rewrite app_length. lia.
Qed.

(** ** --send *)
Lemma c62_sent pton suffix argv q x : reads_addrs pton -> suffix_fits suffix -> given pton argv q x -> dns_name (lq_service q) -> addrs_valid pton argv -> ~ (lr_v4 x = None /\ lr_v6 x = None) ->
  exists p, do_send pton suffix argv = Val (0%Z, Some p) /\ mdns_result_decode p suffix = Val (Some (0, q, x)).
Proof.
  intros Rd Sf Gv Dn Va Ne. destruct (send_cases pton suffix argv) as [(q' & x' & Gv' & _ & S)|[_ S]]; [|exfalso; apply S; eauto].
  destruct (given_unique _ _ _ _ _ _ Gv Gv') as [-> ->]. destruct (given_good _ _ _ _ Rd Gv) as (G & G4 & G6 & La). destruct (result_packet 0 q x suffix G Dn Sf ltac:(lia) G4 G6 La) as (p & Ep & D).
  rewrite Ep in S. exists p. split; [exact S|]. rewrite D. destruct (lr_v4 x), (lr_v6 x); auto. exfalso; auto.
Qed.
Lemma c62_only pton suffix argv rc o : do_send pton suffix argv = Val (rc, o) ->
  (rc = 0%Z /\ exists p q x, o = Some p /\ given pton argv q x /\ addrs_valid pton argv /\ mdns_result_encode 0 q x suffix = Val (Some p)) \/ (rc = 1%Z /\ o = None).
Proof.
  intros E. destruct (send_cases pton suffix argv) as [(q & x & Gv & Va & S)|[S _]]; rewrite S in E; [|injection E as <- <-; auto].
  destruct (mdns_result_encode 0 q x suffix) as [[p|]|] eqn:Ep; [|injection E as <- <-; auto|discriminate]. injection E as <- <-. left. split; [reflexivity|]. exists p, q, x. auto.
Qed.
Lemma c62_bare pton suffix argv q x : reads_addrs pton -> suffix_fits suffix -> given pton argv q x -> dns_name (lq_service q) -> (length argv <= 2)%nat ->
  exists p, do_send pton suffix argv = Val (0%Z, Some p) /\ mdns_result_decode p suffix = Val None.
Proof.
  intros Rd Sf Gv Dn Ls. assert (Na : forall i, (i = 2 \/ i = 4)%nat -> nth_error argv i = None) by (intros i Hi; apply nth_error_None; lia).
  destruct (send_cases pton suffix argv) as [(q' & x' & Gv' & _ & S)|[_ S]]; [|exfalso; apply S; split; [intros i Hi Hn; destruct (Hn (Na i Hi))|eauto]].
  destruct (given_unique _ _ _ _ _ _ Gv Gv') as [-> ->]. destruct (given_good _ _ _ _ Rd Gv) as (G & G4 & G6 & La). destruct (result_packet 0 q x suffix G Dn Sf ltac:(lia) G4 G6 La) as (p & Ep & D).
  rewrite Ep in S. exists p. split; [exact S|]. rewrite D. destruct Gv as (qs & age & _ & _ & _ & _ & _ & A4 & A6).
  assert (H : forall v a r, ~ addr_given pton argv v (Some (a, r))) by (intros v a r [A|[A _]]; apply arg_present in A; apply A, Na; auto).
  destruct (lr_v4 x) as [[a r]|]; [destruct (H _ _ _ A4)|]. destruct (lr_v6 x) as [[a r]|]; [destruct (H _ _ _ A6)|]. reflexivity.
Qed.
