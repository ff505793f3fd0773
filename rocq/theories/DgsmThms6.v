From Verif Require Import Base PeerId PeerSpec PeerThms Db DbSpec DbProofs DbThms2 DbThms3 Auth AuthThms3 Gsup Router RouterThms Hlr HlrSpec HlrThms2
  HlrStep Mdns Proxy MsServerSpec MsServerThms Dgsm DgsmSpec DgsmThms DgsmThms2 DgsmThms3 DgsmThms4 DgsmThms5.

(** * C40 *)
Definition name_dec : forall a b : list ascii, {a = b} + {a <> b} := list_eq_dec ascii_dec.
(** node asking and node registered, from the log *)
Definition track1 (o : dout) (i : string) (d : dom) (t : list ascii * list ascii) : list ascii * list ascii :=
  match o with
  | DTake q => if (g_type (q_gsup q) =? MSGT_UPDATE_LOCATION_REQUEST) && (g_imsi (q_gsup q) =? i)%string && (g_cn (q_gsup q) =? cn_of d)
               then (ipa_bytes (p_ipa (q_src q)), snd t) else t
  | DTx _ _ g => if (g_type g =? MSGT_UPDATE_LOCATION_RESULT) && (g_imsi g =? i)%string && (if name_dec (g_dst g) (fst t) then true else false)
                 then ([], g_dst g) else t
  | DGone j => if (j =? i)%string then ([], []) else t
  | _ => t
  end.
Fixpoint track (h : list dout) (i : string) (d : dom) : list ascii * list ascii :=
  match h with [] => ([], []) | o :: h' => track1 o i d (track h' i d) end.

Lemma updates_iff o i d n : updates o i d n <-> exists q, o = DTake q /\
  ((g_type (q_gsup q) =? MSGT_UPDATE_LOCATION_REQUEST) && (g_imsi (q_gsup q) =? i)%string && (g_cn (q_gsup q) =? cn_of d) = true) /\ n = ipa_bytes (p_ipa (q_src q)).
Proof.
  unfold updates. split; intros (q & E & H); exists q; split; auto; rewrite ?Bool.andb_true_iff, !Z.eqb_eq, String.eqb_eq in *; intuition.
Qed.
Lemma confirms_iff o i n : confirms o i n <-> exists a c g, o = DTx a c g /\ ((g_type g =? MSGT_UPDATE_LOCATION_RESULT) && (g_imsi g =? i)%string = true) /\ g_dst g = n.
Proof.
  unfold confirms. split; intros (a & c & g & E & H); exists a, c, g; split; auto; rewrite ?Bool.andb_true_iff, !Z.eqb_eq, String.eqb_eq in *; intuition.
Qed.
Lemma no_upd o i d : (forall q, o <> DTake q) -> forall n, ~ updates o i d n.
Proof. intros H n (q & E & _). exact (H q E). Qed.
Lemma no_cfm o i n : (forall a c g, o <> DTx a c g) -> ~ confirms o i n.
Proof. intros H (a & c & g & E & _). exact (H a c g E). Qed.

Lemma track_asked h i d n : n <> [] -> (asked h i d n <-> fst (track h i d) = n).
Proof.
  revert n. induction h as [|o h IH]; intros n N; cbn [track].
  { cbn. split; [intros H; inversion H|congruence]. }
  assert (OLD : (forall m, ~ updates o i d m) -> ~ confirms o i n -> o <> DGone i -> (asked (o :: h) i d n <-> fst (track h i d) = n)).
  { intros A B C. rewrite <- (IH n N). split.
    - intros H. inversion H; subst; auto. exfalso. eapply A; eauto.
    - intros H. apply ask_old; auto. }
  assert (NC : (forall a c g, o <> DTx a c g) -> ~ confirms o i n) by apply no_cfm.
  assert (NU : (forall q, o <> DTake q) -> forall m, ~ updates o i d m) by apply no_upd.
  destruct o as [lo|q|nr a g|ao|a c g|a g|j]; cbn [track1]; try (apply OLD; [apply NU|apply NC|]; congruence).
  - destruct (_ && _) eqn:E; cbn.
    + split.
      * intros H. inversion H as [? ? ? ? ? U|? ? ? ? ? _ U]; subst.
        -- apply updates_iff in U. destruct U as (q' & [= <-] & _ & ->). reflexivity.
        -- exfalso. apply (U (ipa_bytes (p_ipa (q_src q)))). apply updates_iff. eauto.
      * intros <-. apply ask_new. apply updates_iff. eauto.
    + apply OLD; [|apply NC; congruence|congruence]. intros m U. apply updates_iff in U. destruct U as (q' & [= <-] & U & _). congruence.
  - destruct ((g_type g =? MSGT_UPDATE_LOCATION_RESULT) && (g_imsi g =? i)%string) eqn:E; cbn [andb].
    + destruct (name_dec (g_dst g) (fst (track h i d))) as [D|D]; cbn.
      * split; [|congruence]. intros H. inversion H as [? ? ? ? ? U|? ? ? ? ? A _ C]; subst.
        -- exfalso. destruct U as (? & U & _). discriminate.
        -- exfalso. apply C. apply confirms_iff. exists a, c, g. split; auto. split; auto. apply (IH _ N) in A. congruence.
      * split.
        -- intros H. inversion H as [? ? ? ? ? U|? ? ? ? ? A _ C]; subst; [destruct U as (? & U & _); discriminate|]. apply (IH _ N). exact A.
        -- intros H. apply ask_old; [apply (IH _ N); auto|apply NU; congruence| |congruence]. intros C. apply confirms_iff in C. destruct C as (a' & c' & g' & [= <- <- <-] & _ & C). congruence.
    + apply OLD; [apply NU; congruence| |congruence]. intros C. apply confirms_iff in C. destruct C as (a' & c' & g' & [= <- <- <-] & C & _). congruence.
  - destruct (String.eqb_spec j i) as [->|J].
    + cbn. split; [|congruence]. intros H. inversion H as [? ? ? ? ? U|]; subst; [destruct U as (? & U & _); discriminate|congruence].
    + apply OLD; [apply NU; congruence|apply NC; congruence|congruence].
Qed.

(** no confirmation is passed on to a node without name *)
Definition named (h : list dout) : Prop := forall a c g, In (DTx a c g) h -> g_dst g <> [].
Lemma track_serving h i d n : n <> [] -> named h -> (serving h i d n <-> snd (track h i d) = n).
Proof.
  intros N. induction h as [|o h IH]; intros M; cbn [track].
  { cbn. split; [intros H; inversion H|congruence]. }
  assert (M' : named h) by (intros a c g I; apply (M a c g); right; auto). specialize (IH M').
  assert (OLD : (forall m, confirms o i m -> ~ asked h i d m) -> o <> DGone i -> (serving (o :: h) i d n <-> snd (track h i d) = n)).
  { intros A C. rewrite <- IH. split.
    - intros H. inversion H as [? ? ? ? ? U V|]; subst; auto. exfalso. eapply A; eauto.
    - intros H. apply srv_old; auto. }
  assert (NC : (forall a c g, o <> DTx a c g) -> forall m, confirms o i m -> ~ asked h i d m) by (intros H m C; destruct (no_cfm o i m H C)).
  destruct o as [lo|q|nr a g|ao|a c g|a g|j]; cbn [track1]; try (apply OLD; [apply NC|]; congruence).
  - assert (X : snd (if (g_type (q_gsup q) =? MSGT_UPDATE_LOCATION_REQUEST) && (g_imsi (q_gsup q) =? i)%string && (g_cn (q_gsup q) =? cn_of d)
       then (ipa_bytes (p_ipa (q_src q)), snd (track h i d)) else track h i d) = snd (track h i d)) by (destruct (_ && _); reflexivity).
    rewrite X. apply OLD; [apply NC|]; congruence.
  - pose proof (M a c g (or_introl eq_refl)) as Mg.
    destruct ((g_type g =? MSGT_UPDATE_LOCATION_RESULT) && (g_imsi g =? i)%string) eqn:E; cbn [andb].
    + destruct (name_dec (g_dst g) (fst (track h i d))) as [D|D]; cbn [snd].
      * assert (As : asked h i d (g_dst g)) by (apply track_asked; auto). split.
        -- intros H. inversion H as [? ? ? ? ? U V|? ? ? ? ? A B C]; subst.
           ++ apply confirms_iff in U. destruct U as (? & ? & ? & [= <- <- <-] & _ & U). auto.
           ++ exfalso. apply (B (g_dst g)); auto. apply confirms_iff. eauto 6.
        -- intros <-. apply srv_new; auto. apply confirms_iff. eauto 6.
      * apply OLD; [|congruence]. intros m C A. apply confirms_iff in C. destruct C as (? & ? & ? & [= <- <- <-] & _ & C). subst m. apply (track_asked _ _ _ _ Mg) in A. congruence.
    + apply OLD; [|congruence]. intros m C. apply confirms_iff in C. destruct C as (? & ? & ? & [= <- <- <-] & C & _). congruence.
  - destruct (String.eqb_spec j i) as [->|J].
    + cbn. split; [|congruence]. intros H. inversion H as [? ? ? ? ? U|]; subst; [destruct U as (? & ? & ? & U & _); discriminate|congruence].
    + apply OLD; [apply NC|]; congruence.
Qed.

(** ** the cache *)
Definition pnames (p : psub) (d : dom) : list ascii * list ascii := (ipa_bytes (pd_prelim (pdom_of d p)), ipa_bytes (pd_name (pdom_of d p))).
Definition names (z : dgst) (i : string) (d : dom) : list ascii * list ascii :=
  match cache_by_imsi (z_cache z) i with None => ([], []) | Some p => pnames p d end.
Lemma pending_names z i d n : zbase z -> n <> [] -> (pending z i d n <-> fst (names z i d) = n).
Proof.
  intros B N. unfold pending, names. split.
  - intros (p & C & E). apply (cached_entry _ _ _ B) in C. rewrite C. exact E.
  - destruct (cache_by_imsi _ _) as [p|] eqn:V; [|cbn; congruence]. intros E. exists p. split; auto. apply cached_entry; auto.
Qed.
Lemma registered_names z i d n : zbase z -> n <> [] -> (registered z i d n <-> snd (names z i d) = n).
Proof.
  intros B N. unfold registered, names. split.
  - intros (p & C & E). apply (cached_entry _ _ _ B) in C. rewrite C. exact E.
  - destruct (cache_by_imsi _ _) as [p|] eqn:V; [|cbn; congruence]. intros E. exists p. split; auto. apply cached_entry; auto.
Qed.
Lemma names_cache z z' i d : z_cache z' = z_cache z -> names z' i d = names z i d.
Proof. unfold names. intros ->. reflexivity. Qed.

(** log entries that do not matter *)
Definition irr (y : dout) : Prop := match y with DTake _ | DTx _ _ _ | DGone _ => False | _ => True end.
Lemma track_irr o h i d : (forall y, In y o -> irr y) -> track (rev o ++ h) i d = track h i d.
Proof.
  intros H. assert (G : forall y, In y (rev o) -> irr y) by (intros y I; apply H; apply in_rev; exact I).
  induction (rev o) as [|y r IH]; auto. cbn [app track]. rewrite IH by (intros; apply G; right; auto).
  pose proof (G y (or_introl eq_refl)). destruct y; cbn in *; tauto.
Qed.

Section Fix.
Context (k : cfg) (x : dworld) (s : hst).
Lemma names_store z p i d : names (store k x z p) i d = if (ps_imsi p =? i)%string then pnames p d else names z i d.
Proof. unfold names, store. cbn [z_cache z_with_cache]. rewrite update_view. destruct (_ =? i)%string; reflexivity. Qed.

Lemma fate_irr c q r y : fate k c q r y -> irr y.
Proof. unfold fate. destruct r as [[a [] n]|]; [intros [_ [->|(m & -> & _)]]|intros (m & -> & _)|intros (m & -> & _)]; exact I. Qed.
Lemma result_irr z q r y : In y (connect_result k s z q r) -> irr y.
Proof. destruct (result_fate k s z q r) as (o & -> & F). intros [<-|[]]. eapply fate_irr; eauto. Qed.
Lemma cb_irr c z a r z' o y : connect_cb k s z c a r = (z', o) -> In y o -> irr y.
Proof. intros C I. destruct (cb_out _ _ _ _ _ _ _ _ C) as [A _]. destruct (A y I) as (q & e & _ & _ & _ & _ & F). eapply fate_irr; eauto. Qed.
Lemma connect_irr z a z' o : connect k x s z a = (z', o) -> z_cache z' = z_cache z /\ forall y, In y o -> irr y.
Proof.
  unfold connect. intros C. destruct (find_rem _ _) as [r|]; [destruct (rm_up r)|destruct (dw_ok _ _)];
    try (injection C as <- <-; split; [reflexivity|intros y []]).
  - split; [apply cb_wait in C; destruct C as [-> _]; reflexivity|]. intros y. eapply cb_irr; eauto.
  - split; [apply cb_wait in C; destruct C as [-> _]; reflexivity|]. intros y. eapply cb_irr; eauto.
Qed.
Lemma resolved_irr z p a z' o : cache_by_imsi (z_cache z) (ps_imsi p) = Some p -> resolved k x s z p a = (z', o) ->
  (forall i d, names z' i d = names z i d) /\ forall y, In y o -> irr y.
Proof.
  unfold resolved. intros V C. destruct (_ && _); [injection C as <- <-; split; [auto|intros y []]|].
  set (p' := mk_psub _ _ _ _ _) in *.
  assert (NS : forall i d, names (store k x z p') i d = names z i d).
  { intros i d. rewrite names_store. cbn. destruct (String.eqb_spec (ps_imsi p) i) as [<-|]; auto. unfold names. rewrite V. destruct d; reflexivity. }
  destruct (waiting _ _); [|injection C as <- <-; split; [auto|intros y []]]. apply connect_irr in C. destruct C as [C1 C2]. split; auto. intros i d. rewrite (names_cache _ _ _ _ C1). auto.
Qed.
Lemma ack_to_names z p q z1 : zbase z -> p_type (q_src q) = PT_IPA -> ipa_wf (p_ipa (q_src q)) -> cache_by_imsi (z_cache z) (ps_imsi p) = Some p -> ps_imsi p = g_imsi (q_gsup q) ->
  ack_to_remote k x z p q = Some z1 -> forall i d, names z1 i d = track1 (DTake q) i d (names z i d).
Proof.
  intros B T W V Ei E i d.
  destruct (by_imsi_in _ _ _ V) as (t & Ip & _). assert (Wp : pwf p) by (intros dd; apply (zb_wf _ B (mk_pent p t) dd Ip)).
  assert (Same : forall p', ps_imsi p' = ps_imsi p -> (if negb (ipa_cmp (pd_prelim (ps_cs p')) (pd_prelim (ps_cs p)) =? 0) || negb (ipa_cmp (pd_prelim (ps_ps p')) (pd_prelim (ps_ps p)) =? 0)
      then Some (store k x z p') else Some z) = Some z1 -> pwf p' -> (forall dd, pd_name (pdom_of dd p') = pd_name (pdom_of dd p)) ->
      names z1 i d = if (ps_imsi p =? i)%string then pnames p' d else names z i d).
  { intros p' E1 X W' Nm. destruct (_ || _) eqn:C; injection X as <-; [rewrite names_store, E1; reflexivity|].
    apply Bool.orb_false_iff in C. destruct C as [C1 C2]. apply Bool.negb_false_iff, Z.eqb_eq in C1, C2.
    apply (c27_spec _ _ (proj2 (W' CsDom)) (proj2 (Wp CsDom))) in C1. apply (c27_spec _ _ (proj2 (W' PsDom)) (proj2 (Wp PsDom))) in C2.
    destruct (String.eqb_spec (ps_imsi p) i) as [<-|]; auto. unfold names. rewrite V. unfold pnames. rewrite (Nm d). destruct d; cbn [pdom_of] in *; congruence. }
  unfold ack_to_remote, is_ipa in E. rewrite T in E. cbn [negb] in E. cbn [track1]. rewrite <- Ei.
  destruct (g_type (q_gsup q) =? MSGT_UPDATE_LOCATION_REQUEST); cbn [andb]; [|injection E as <-; reflexivity].
  assert (NP : names z (ps_imsi p) d = pnames p d) by (unfold names; rewrite V; reflexivity).
  revert E. destruct (Z.eqb_spec (g_cn (q_gsup q)) CN_CS) as [C|C]; [|destruct (Z.eqb_spec (g_cn (q_gsup q)) CN_PS) as [D|D]]; intros E; cbv zeta in E.
  - match type of E with context [store k x z ?p'] => assert (W' : pwf p') by (intros []; [split; [apply (Wp CsDom)|exact W]|apply (Wp PsDom)]); rewrite (Same p' eq_refl E W') by (intros []; reflexivity) end.
    rewrite C. destruct (String.eqb_spec (ps_imsi p) i) as [<-|]; cbn [andb]; auto. rewrite NP. destruct d; reflexivity.
  - match type of E with context [store k x z ?p'] => assert (W' : pwf p') by (intros []; [apply (Wp CsDom)|split; [apply (Wp PsDom)|exact W]]); rewrite (Same p' eq_refl E W') by (intros []; reflexivity) end.
    rewrite D. destruct (String.eqb_spec (ps_imsi p) i) as [<-|]; cbn [andb]; auto. rewrite NP. destruct d; reflexivity.
  - rewrite (Same _ eq_refl E) by auto. assert (X : (g_cn (q_gsup q) =? cn_of d) = false) by (destruct d; apply Z.eqb_neq; auto). rewrite X, Bool.andb_false_r.
    destruct (String.eqb_spec (ps_imsi p) i) as [<-|]; auto.
Qed.
Lemma forward_names z p q z' o b : zbase z -> p_type (q_src q) = PT_IPA -> ipa_wf (p_ipa (q_src q)) -> cache_by_imsi (z_cache z) (ps_imsi p) = Some p -> ps_imsi p = g_imsi (q_gsup q) ->
  forward_to_remote k x s z p q = (z', o, b) -> (forall i d, names z' i d = track1 (DTake q) i d (names z i d)) /\ exists o', o = DTake q :: o' /\ forall y, In y o' -> irr y.
Proof.
  intros B T W V Ei F. unfold forward_to_remote in F. destruct (ack_to_remote k x z p q) as [z1|] eqn:A.
  - pose proof (ack_to_names z p q z1 B T W V Ei A) as NS. destruct (negb _).
    + injection F as <- <- _. split; [exact NS|]. exists []. split; auto. intros y [].
    + destruct (is_up _).
      * assert (Eo : DTake q :: connect_result k s z1 q (find_rem z1 (ps_addr p)) = o) by congruence. assert (z' = z1) as -> by congruence. split; auto. eexists. split; [symmetry; exact Eo|].
        intros y. apply result_irr.
      * destruct (connect _ _ _ _ _) as [z2 o2] eqn:C. injection F as <- <- _. apply connect_irr in C. destruct C as [C1 C2]. split; [|eauto]. intros i d. rewrite (names_cache _ _ _ _ C1). apply NS.
  - exfalso. unfold ack_to_remote, is_ipa in A. rewrite T in A. cbn [negb] in A. destruct (_ =? _); [destruct (_ || _)|]; discriminate.
Qed.
Lemma cf_names z q z' o h : zinv z -> p_type (q_src q) = PT_IPA -> ipa_wf (p_ipa (q_src q)) -> cf k x s z q = (z', o) ->
  (forall i d, names z i d = track h i d) -> forall i d, names z' i d = track (rev o ++ h) i d.
Proof.
  intros [B Id Lk] T W F H. unfold cf in F. set (i0 := g_imsi (q_gsup q)) in *.
  assert (FN : forall z1 p z2 o2 b h1, zbase z1 -> cache_by_imsi (z_cache z1) i0 = Some p -> forward_to_remote k x s z1 p q = (z2, o2, b) ->
     (forall i d, names z1 i d = track h1 i d) -> forall i d, names z2 i d = track (rev o2 ++ h1) i d).
  { intros z1 p z2 o2 b h1 B1 V FF H1 i d. destruct (by_imsi_in _ _ _ V) as (t & _ & Ei). rewrite <- Ei in V.
    destruct (forward_names z1 p q z2 o2 b B1 T W V Ei FF) as [N (o' & -> & IR)]. rewrite N, H1. cbn [rev]. rewrite <- app_assoc. cbn [app].
    rewrite track_irr by exact IR. reflexivity. }
  destruct (cache_by_imsi (z_cache z) i0) as [p|] eqn:V.
  - destruct (forward_to_remote k x s z p q) as [[z1 o1] b] eqn:E. cbn in F. injection F as <- <-. eapply FN; eauto.
  - set (p := mk_psub i0 "" SaNone pdom0 pdom0) in *. set (z1 := store k x z p) in *.
    assert (Wp : pwf p) by (intros []; split; apply ipa_empty_wf).
    assert (B1 : zbase z1) by (apply store_base; auto).
    assert (V1 : cache_by_imsi (z_cache z1) (ps_imsi p) = Some p) by (cbn; rewrite update_view; cbn; rewrite String.eqb_refl; reflexivity).
    assert (N1 : forall i d, names z1 i d = track h i d).
    { intros i d. rewrite <- H. unfold z1. rewrite names_store. cbn [ps_imsi p]. destruct (String.eqb_spec i0 i) as [<-|]; auto. unfold names. rewrite V. destruct d; reflexivity. }
    change (z_gw z1) with (z_gw z) in F. destruct (sa_nonzero (z_gw z)) eqn:G.
    + assert (I1 : idle nowhere z1).
      { intros e r Ie Ir Us N A D. destruct (store_in _ _ _ _ _ B Ie) as [->|[Ie2 _]]; [discriminate Us|]. change (waiting z (eimsi e) = false). eapply Id; eauto. }
      assert (L1 : looked (eq i0) z1).
      { intros e Ie Ue. destruct (store_in _ _ _ _ _ B Ie) as [->|[Ie2 D]]; [left; reflexivity|]. destruct (Lk e Ie2 Ue) as [[]|L]; auto. }
      destruct (resolved k x s z1 p (z_gw z)) as [z2 o1] eqn:R.
      destruct (resolved_inv k x s z1 p (z_gw z) z2 o1 V1 G B1 I1 L1 R) as ([B2 I2 L2] & _ & _ & p' & V2 & Ei & _).
      change (ps_imsi p) with i0 in V2. rewrite V2 in F. destruct (forward_to_remote k x s z2 p' q) as [[z3 o3] b] eqn:E. injection F as <- <-.
      destruct (resolved_irr _ _ _ _ _ V1 R) as [N2 IR]. intros i d. rewrite rev_app_distr, <- app_assoc. eapply FN; eauto.
      intros j dd. rewrite track_irr by exact IR. rewrite N2. apply N1.
    + destruct (forward_to_remote k x s z1 p q) as [[z3 o3] b] eqn:E. injection F as <- <-. exact (FN z1 p z3 o3 b h B1 V1 E N1).
Qed.

Lemma by_imsi_del c i j : NoDup (imsis c) -> cache_by_imsi (cache_del c i) j = if (i =? j)%string then None else cache_by_imsi c j.
Proof.
  intros N. destruct (cache_by_imsi (cache_del c i) j) as [p|] eqn:V.
  - destruct (by_imsi_in _ _ _ V) as (t & I & E). apply (del_in _ _ _ N) in I. destruct I as [I D]. unfold eimsi in D. cbn in D.
    destruct (String.eqb_spec i j); [congruence|]. symmetry. rewrite <- E. apply (in_by_imsi c (mk_pent p t) N I).
  - destruct (String.eqb_spec i j); auto. symmetry. destruct (cache_by_imsi c j) as [p|] eqn:V2; auto. destruct (by_imsi_in _ _ _ V2) as (t & I & E).
    assert (I2 : In (mk_pent p t) (cache_del c i)) by (apply (del_in _ _ _ N); split; auto; unfold eimsi; cbn; congruence).
    apply (in_by_imsi _ _ (del_one _ _ N)) in I2. unfold eimsi in I2. cbn in I2. congruence.
Qed.
Lemma lookup_names z i r z' o h : zinv z -> lookup_result k x s z i r = (z', o) -> (forall j d, names z j d = track h j d) -> forall j d, names z' j d = track (rev o ++ h) j d.
Proof.
  intros [B Id Lk] F H. unfold lookup_result in F. destruct (negb _); [injection F as <- <-; exact H|].
  destruct (match r with Some (v4, v6) => _ | None => None end) as [a|].
  - cbn [z_cache z_with_look] in F. destruct (cache_by_imsi _ _) as [p|] eqn:V; [|injection F as <- <-; exact H].
    destruct (by_imsi_in _ _ _ V) as (t & _ & Ei). rewrite <- Ei in V. apply resolved_irr in F; [|exact V]. destruct F as [N IR]. intros j d. rewrite N, (track_irr _ _ _ _ IR). apply H.
  - unfold subscr_del, pop in F. set (zl := z_with_look z (del1 i (z_look z))) in *.
    assert (Eo : flat_map (fun q => connect_result k s zl q None) (filter (of_imsi i) (z_wait zl)) ++ [DGone i] = o) by congruence.
    assert (Ez : cache_del (z_cache z) i = z_cache z').
    { change (z_cache z) with (z_cache (z_with_wait zl (filter (fun q => negb (of_imsi i q)) (z_wait zl)))). injection F as <- _. reflexivity. }
    intros j d. rewrite <- Eo, rev_app_distr. cbn [rev app track track1].
    rewrite track_irr; [|intros y I; apply in_flat_map in I; destruct I as (q & _ & I); eapply result_irr; eauto].
    unfold names. rewrite <- Ez, (by_imsi_del _ _ _ (zb_one _ B)), <- H. destruct (i =? j)%string; reflexivity.
Qed.

Lemma err_irr a up g c y : In y (err_reply k a up g c) -> irr y.
Proof. unfold err_reply. destruct (negb _); [intros []|]. cbv zeta. destruct (_ && _); [intros [<-|[]]; exact I|intros []]. Qed.
(** results of location updates can be encoded *)
Definition encodes : Prop := forall g, g_type g = MSGT_UPDATE_LOCATION_RESULT -> k_enc k g = true.

(** what [forward_to_vlr] does to the registrations *)
Lemma vlr_names z p g a z' r : encodes -> zbase z -> cache_by_imsi (z_cache z) (g_imsi g) = Some p -> forward_to_vlr k x s z p g a = (z', r) ->
  (r = None /\ (forall i d, names z' i d = names z i d)) \/
  exists c, r = Some [DTx a c g] /\ In (mk_route (g_dst g) c) (v_routes (t_srv s)) /\ (forall i d, names z' i d = track1 (DTx a c g) i d (names z i d)) /\
    (g_type g = MSGT_UPDATE_LOCATION_RESULT -> exists d, ipa_bytes (pd_prelim (pdom_of d p)) = g_dst g).
Proof.
  intros En B V F. unfold forward_to_vlr in F.
  destruct (ipa_set ipa_empty (Some (g_dst g))) as [rc dest] eqn:Es. destruct (ipa_set_bytes _ _ _ _ ipa_empty_wf Es) as (Wd & Bd).
  destruct (Z.eqb_spec rc 0) as [Rc|Rc]; cbn [negb] in F; [|injection F as <- <-; auto].
  destruct Bd as [[_ Bd]|(X & _)]; [|subst rc; discriminate].
  destruct (route_find _ _) as [c|] eqn:Rf; [|injection F as <- <-; auto]. apply route_find_some in Rf. rewrite Bd in Rf.
  destruct (find_conn _ _) as [cn|]; [|injection F as <- <-; auto].
  destruct (ack_from_remote _ _ _ _ _ _ _) as [z1|] eqn:A; [|injection F as <- <-; auto].
  destruct (by_imsi_in _ _ _ V) as (t & Ip & Ei). assert (Wp : pwf p) by (intros d; apply (zb_wf _ B (mk_pent p t) d Ip)).
  assert (G : (forall i d, names z1 i d = track1 (DTx a c g) i d (names z i d)) /\ (g_type g = MSGT_UPDATE_LOCATION_RESULT -> exists d, ipa_bytes (pd_prelim (pdom_of d p)) = g_dst g) /\
    (g_type g <> MSGT_UPDATE_LOCATION_RESULT -> forall i d, names z1 i d = names z i d)).
  { unfold ack_from_remote in A. destruct (Z.eqb_spec (g_type g) MSGT_UPDATE_LOCATION_RESULT) as [TR|TR].
    - assert (NI : (g_type g =? MSGT_INSERT_DATA_REQUEST) = false) by (rewrite TR; reflexivity). rewrite NI in A.
      set (v := if _ =? 0 then _ else _) in A. unfold confirm in A.
      assert (CC : forall d : dom, (ipa_cmp dest (pd_prelim (pdom_of d p)) =? 0) = true <-> ipa_bytes (pd_prelim (pdom_of d p)) = g_dst g).
      { intros d. rewrite Z.eqb_eq, (proj1 (c27_spec _ _ Wd (proj2 (Wp d)))), Bd. split; congruence. }
      assert (NN : forall p' i d, ps_imsi p' = ps_imsi p -> pnames p' d = (if name_dec (g_dst g) (fst (pnames p d)) then ([], g_dst g) else pnames p d) ->
        names (store k x z p') i d = track1 (DTx a c g) i d (names z i d)).
      { intros p' i d E1 E2. rewrite names_store, E1, Ei. cbn [track1]. rewrite (proj2 (Z.eqb_eq _ _) TR). cbn [andb].
        destruct (String.eqb_spec (g_imsi g) i) as [<-|]; cbn [andb]; auto. unfold names. rewrite V, E2. destruct (name_dec _ _); reflexivity. }
      assert (DD : forall d : dom, (if name_dec (g_dst g) (fst (pnames p d)) then ([], g_dst g) else pnames p d) =
        (if ipa_cmp dest (pd_prelim (pdom_of d p)) =? 0 then ([], g_dst g) else pnames p d)).
      { intros d. cbn [fst pnames]. destruct (ipa_cmp dest (pd_prelim (pdom_of d p)) =? 0) eqn:Q.
        - apply CC in Q. destruct (name_dec _ _); congruence.
        - destruct (name_dec _ _) as [D|]; auto. symmetry in D. apply CC in D. congruence. }
      pose proof (CC CsDom) as C1. pose proof (CC PsDom) as C2. cbn [pdom_of] in C1, C2. pose proof (DD CsDom) as D1. pose proof (DD PsDom) as D2. cbn [pdom_of] in D1, D2.
      destruct (ipa_cmp dest (pd_prelim (ps_cs p)) =? 0) eqn:Q1; destruct (ipa_cmp dest (pd_prelim (ps_ps p)) =? 0) eqn:Q2; cbn [orb] in A; try discriminate;
        injection A as <-; (split; [intros i d; apply NN; [reflexivity|]; destruct d; [rewrite D1|rewrite D2]; unfold pnames; cbn; rewrite ?Bd; reflexivity|]);
        (split; [intros _|congruence]); [exists CsDom|exists CsDom|exists PsDom]; cbn; tauto.
    - assert (SM : forall i d, names z1 i d = names z i d).
      { intros i d. destruct (_ =? MSGT_INSERT_DATA_REQUEST); [|injection A as <-; reflexivity].
        destruct (x_msisdn _) as [m|]; [|injection A as <-; reflexivity]. destruct (_ || _); injection A as <-; auto.
        rewrite names_store. cbn [ps_imsi]. rewrite Ei. destruct (String.eqb_spec (g_imsi g) i) as [<-|]; auto. unfold names. rewrite V. destruct d; reflexivity. }
      split; [|split; [congruence|auto]]. intros i d. rewrite SM. cbn [track1]. rewrite (proj2 (Z.eqb_neq _ _) TR). reflexivity. }
  destruct G as (G1 & G2 & G3). destruct (k_enc k g) eqn:K; injection F as <- <-.
  - right. exists c. auto.
  - left. split; auto. apply G3. intros T. rewrite (En g T) in K. discriminate.
Qed.
Lemma rx_names z a g z' o h : encodes -> zbase z -> remote_rx k x s z a g = (z', o) -> (forall j d, names z j d = track h j d) -> forall j d, names z' j d = track (rev o ++ h) j d.
Proof.
  intros En B F H. unfold remote_rx in F.
  assert (Q : forall r c, (z, err_reply k a r g c) = (z', o) -> forall j d, names z' j d = track (rev o ++ h) j d).
  { intros r c [= <- <-] j d. rewrite track_irr; [apply H|intros y; apply err_irr]. }
  destruct (find_rem z a) as [r|]; [|injection F as <- <-; exact H]. destruct (negb _); [eapply Q; eauto|].
  destruct (cache_by_imsi _ _) as [p|] eqn:V; [|eapply Q; eauto]. destruct (forward_to_vlr k x s z p g a) as [z1 ro] eqn:FV.
  destruct (vlr_names _ _ _ _ _ _ En B V FV) as [[-> N]|(c & -> & _ & N & _)].
  - injection F as <- <-. intros j d. rewrite N, H, track_irr; [reflexivity|intros y; apply err_irr].
  - injection F as <- <-. intros j d. rewrite N, H. reflexivity.
Qed.
End Fix.

Lemma track_gones l h i d : track (map DGone l ++ h) i d = if existsb (String.eqb i) l then ([], []) else track h i d.
Proof.
  induction l as [|j l IH]; cbn [map app track track1 existsb]; auto. rewrite IH, (String.eqb_sym j i). destruct (i =? j)%string; reflexivity.
Qed.
Lemma clean_names k x z c h : zbase z -> cache_clean (z_cache z) (stamp k x) FRESH = Val c -> (forall j d, names z j d = track h j d) ->
  forall j d, names (z_with_cache z c) j d = track (rev (gone (z_cache z) c) ++ h) j d.
Proof.
  intros B C H j d. pose proof (clean_in _ _ _ _ C) as Ic. pose proof (clean_one _ _ _ _ C (zb_one _ B)) as On.
  unfold gone. rewrite <- (map_map (fun e => ps_imsi (pe_sub e)) DGone), <- map_rev, track_gones, <- H.
  unfold names. cbn [z_cache z_with_cache].
  destruct (existsb (String.eqb j) _) eqn:E.
  - apply existsb_exists in E. destruct E as (j' & I & E). apply String.eqb_eq in E. subst j'. apply in_rev, in_map_iff in I. destruct I as (e & E & I). apply filter_In in I. destruct I as [I N].
    apply Bool.negb_true_iff in N. destruct (cache_by_imsi c j) as [p|] eqn:V; auto. exfalso. destruct (by_imsi_in _ _ _ V) as (t & I2 & E2).
    assert (X : existsb (fun e' => (ps_imsi (pe_sub e') =? ps_imsi (pe_sub e))%string) c = true); [|congruence].
    apply existsb_exists. exists (mk_pent p t). split; auto. cbn. apply String.eqb_eq. congruence.
  - assert (SAME : cache_by_imsi c j = cache_by_imsi (z_cache z) j); [|rewrite SAME; reflexivity].
    destruct (cache_by_imsi (z_cache z) j) as [p|] eqn:V.
    + destruct (by_imsi_in _ _ _ V) as (t & I & E2).
      assert (X : exists e', In e' c /\ ps_imsi (pe_sub e') = j).
      { destruct (existsb (fun e' => (ps_imsi (pe_sub e') =? j)%string) c) eqn:Q; [apply existsb_exists in Q; destruct Q as (e' & Q1 & Q2); apply String.eqb_eq in Q2; eauto|].
        exfalso. assert (X : existsb (String.eqb j) (rev (map (fun e => ps_imsi (pe_sub e)) (filter (fun e => negb (existsb (fun e' => (ps_imsi (pe_sub e') =? ps_imsi (pe_sub e))%string) c)) (z_cache z)))) = true); [|congruence].
        apply existsb_exists. exists j. split; [|apply String.eqb_refl]. apply -> in_rev. apply in_map_iff. exists (mk_pent p t). split; auto. apply filter_In. split; auto. cbn. rewrite E2, Q. reflexivity. }
      destruct X as ([p' t'] & I' & E'). cbn in E'. pose proof (proj1 (proj1 (Ic _) I')) as I3. apply (in_by_imsi _ _ (zb_one _ B)) in I3. unfold eimsi in I3. cbn in I3. rewrite E', V in I3. injection I3 as <-.
      apply (in_by_imsi _ _ On) in I'. unfold eimsi in I'. cbn in I'. rewrite E' in I'. exact I'.
    + destruct (cache_by_imsi c j) as [p|] eqn:V2; auto. destruct (by_imsi_in _ _ _ V2) as (t & I & E2). apply Ic in I. destruct I as [I _].
      apply (in_by_imsi _ _ (zb_one _ B)) in I. unfold eimsi in I. cbn in I. congruence.
Qed.

Lemma shape_names k x s z e s' z' o l : encodes k -> shape k x s z e s' z' o -> zinv z -> (forall i d, names z i d = track (rev l) i d) ->
  forall i d, names z' i d = track (rev (l ++ o)) i d.
Proof.
  intros En H Z N i d. rewrite rev_app_distr.
  assert (Q : z_cache z' = z_cache z -> (forall y, In y o -> irr y) -> names z' i d = track (rev o ++ rev l) i d).
  { intros C I. rewrite (names_cache _ _ _ _ C), track_irr by exact I. apply N. }
  destruct H.
  - apply Q; auto. intros y I. apply in_map_iff in I. destruct I as (y0 & <- & _). exact Logic.I.
  - cbn [rev]. rewrite <- app_assoc. apply (cf_names k x s' z q z' o _ Z (fr_ipa _ _ _ _ H1) (fr_wf _ _ _ _ H1) H3). intros j dd. cbn. apply N.
  - apply Q; auto. intros y [].
  - eapply lookup_names; eauto.
  - unfold rem_up in H. destruct (find_rem z a) as [r|]; [|injection H as <- <-; apply Q; auto; intros y []].
    destruct (call_cbs _ _ _ _ _ _) as [z1 o1] eqn:D. injection H as <- <-. destruct (call_cbs_wait _ _ _ _ _ _ _ _ D) as (W & _). destruct (call_cbs_out _ _ _ _ _ _ _ _ D) as [A _].
    apply Q; [rewrite W; reflexivity|]. intros y I. destruct (A y I) as (q & e & _ & _ & _ & _ & F). eapply fate_irr; eauto.
  - apply Q; auto. intros y [].
  - apply Q; auto. intros y [].
  - eapply rx_names; eauto. apply Z.
  - eapply clean_names; eauto. apply Z.
Qed.
Lemma reach_names k s z d l : encodes k -> dreached k (s, z, d, l) -> forall i dd, names z i dd = track (rev l) i dd.
Proof.
  intros En H. apply (dreach_ind k (fun s z l => zinv z /\ forall i dd, names z i dd = track (rev l) i dd)) in H; [apply H| | |].
  - split; [apply zinv0|reflexivity].
  - intros s0 z0 l0 _ _. split; [split; [split; cbn; [constructor|constructor|tauto]|intros e r []|intros e []]|reflexivity].
  - intros x s0 z0 l0 e s1 z1 o _ [Z Q] SH. split; [eapply shape_zinv; eauto|eapply shape_names; eauto].
Qed.

Theorem c40_asked k s z d l i dd n : encodes k -> dreached k (s, z, d, l) -> n <> [] -> (pending z i dd n <-> asked (rev l) i dd n).
Proof.
  intros En H N. rewrite (pending_names _ _ _ _ (zi_base _ (proj2 (reach_zinv _ _ _ _ _ H))) N), (track_asked _ _ _ _ N), (reach_names _ _ _ _ _ En H). tauto.
Qed.
Theorem c40_serving k s z d l i dd n : encodes k -> dreached k (s, z, d, l) -> n <> [] -> named l -> (registered z i dd n <-> serving (rev l) i dd n).
Proof.
  intros En H N M. rewrite (registered_names _ _ _ _ (zi_base _ (proj2 (reach_zinv _ _ _ _ _ H))) N), (track_serving _ _ _ _ N), (reach_names _ _ _ _ _ En H); [tauto|].
  intros a c g I. apply (M a c g). apply in_rev. exact I.
Qed.

(** no message of a remote HLR is passed on in another event *)
Lemma shape_tx k x s z e s' z' o a c g : encodes k -> shape k x s z e s' z' o -> zinv z -> In (DTx a c g) o ->
  e = DRx a g /\ (exists r, In r (z_rems z) /\ rm_addr r = a) /\ In (mk_route (g_dst g) c) (v_routes (t_srv s)) /\
  (g_type g = MSGT_UPDATE_LOCATION_RESULT -> exists d, pending z (g_imsi g) d (g_dst g)).
Proof.
  intros En H [B Id Lk] I.
  assert (IR : (forall y, In y o -> irr y) -> False) by (intros Q; exact (Q _ I)).
  destruct H.
  - exfalso. apply IR. intros y J. apply in_map_iff in J. destruct J as (y0 & <- & _). exact Logic.I.
  - exfalso. destruct I as [I|I]; [discriminate|]. unfold cf in H3. destruct (cache_by_imsi (z_cache z) (g_imsi (q_gsup q))) as [p|] eqn:V.
    + destruct (forward_to_remote _ _ _ _ _ _) as [[z1 o1] b] eqn:E. cbn in H3. injection H3 as <- <-.
      destruct (by_imsi_in _ _ _ V) as (t & _ & Ei). rewrite <- Ei in V.
      destruct (forward_names k x s' z p q z1 o1 b B (fr_ipa _ _ _ _ H1) (fr_wf _ _ _ _ H1) V Ei E) as [_ (o' & -> & IO)]. destruct I as [I|I]; [discriminate|]. exact (IO _ I).
    + set (p := mk_psub _ "" SaNone pdom0 pdom0) in *. set (z1 := store k x z p) in *.
      assert (Wp : pwf p) by (intros []; split; apply ipa_empty_wf).
      assert (B1 : zbase z1) by (apply store_base; auto).
      assert (V1 : cache_by_imsi (z_cache z1) (ps_imsi p) = Some p) by (cbn; rewrite update_view; cbn; rewrite String.eqb_refl; reflexivity).
      assert (FN : forall zz pp z2 o2 b, zbase zz -> cache_by_imsi (z_cache zz) (ps_imsi p) = Some pp -> forward_to_remote k x s' zz pp q = (z2, o2, b) -> In (DTx a c g) o2 -> False).
      { intros zz pp z2 o2 b BB VV FF II. destruct (by_imsi_in _ _ _ VV) as (t & _ & Ei). rewrite <- Ei in VV.
        destruct (forward_names k x s' zz pp q z2 o2 b BB (fr_ipa _ _ _ _ H1) (fr_wf _ _ _ _ H1) VV Ei FF) as [_ (o' & -> & IO)]. destruct II as [II|II]; [discriminate|]. exact (IO _ II). }
      change (z_gw z1) with (z_gw z) in H3. destruct (sa_nonzero (z_gw z)) eqn:G.
      * assert (I1 : idle nowhere z1).
        { intros e r Ie Ir Us N A D. destruct (store_in _ _ _ _ _ B Ie) as [->|[Ie2 _]]; [discriminate Us|]. change (waiting z (eimsi e) = false). eapply Id; eauto. }
        assert (L1 : looked (eq (ps_imsi p)) z1).
        { intros e Ie Ue. destruct (store_in _ _ _ _ _ B Ie) as [->|[Ie2 D]]; [left; reflexivity|]. destruct (Lk e Ie2 Ue) as [[]|L]; auto. }
        destruct (resolved k x s' z1 p (z_gw z)) as [z2 o1] eqn:R.
        destruct (resolved_inv k x s' z1 p (z_gw z) z2 o1 V1 G B1 I1 L1 R) as ([B2 I2 L2] & _ & _ & p' & V2 & Ei & _).
        change (g_imsi (q_gsup q)) with (ps_imsi p) in H3. rewrite V2 in H3. destruct (forward_to_remote k x s' z2 p' q) as [[z3 o3] b] eqn:E. injection H3 as <- <-.
        apply in_app_or in I. destruct I as [I|I]; [|eapply FN; eauto]. destruct (resolved_irr _ _ _ _ _ _ _ _ V1 R) as [_ IO]. exact (IO _ I).
      * destruct (forward_to_remote k x s' z1 p q) as [[z3 o3] b] eqn:E. injection H3 as <- <-. eapply FN; eauto.
  - destruct I.
  - exfalso. unfold lookup_result in H. destruct (negb _); [injection H as <- <-; destruct I|].
    destruct (match r with Some (v4, v6) => _ | None => None end) as [b|].
    + cbn [z_cache z_with_look] in H. destruct (cache_by_imsi _ _) as [p|] eqn:V; [|injection H as <- <-; destruct I].
      destruct (by_imsi_in _ _ _ V) as (t & _ & Ei). rewrite <- Ei in V. apply resolved_irr in H; [|exact V]. destruct H as [N IO]. exact (IO _ I).
    + unfold subscr_del, pop in H. set (zl := z_with_look z (del1 i (z_look z))) in *.
      assert (Eo : flat_map (fun q => connect_result k s zl q None) (filter (of_imsi i) (z_wait zl)) ++ [DGone i] = o) by congruence.
      rewrite <- Eo in I. apply in_app_or in I. destruct I as [I|[I|[]]]; [|discriminate]. apply in_flat_map in I. destruct I as (q & _ & I). exact (result_irr _ _ _ _ _ _ I).
  - exfalso. unfold rem_up in H. destruct (find_rem z a0) as [r|]; [|injection H as <- <-; destruct I].
    destruct (call_cbs _ _ _ _ _ _) as [z1 o1] eqn:D. injection H as <- <-. destruct (call_cbs_out _ _ _ _ _ _ _ _ D) as [A _].
    destruct (A _ I) as (q & e & _ & _ & _ & _ & F). exact (fate_irr _ _ _ _ _ F).
  - destruct I.
  - destruct I.
  - unfold remote_rx in H. assert (NE : forall u cc, In (DTx a c g) (err_reply k a0 u g0 cc) -> False) by (intros u cc J; exact (err_irr k a0 u g0 cc _ J)).
    destruct (find_rem z a0) as [r|] eqn:F; [|injection H as <- <-; destruct I]. destruct (negb _); [injection H as <- <-; exfalso; eapply NE; eauto|].
    destruct (cache_by_imsi _ _) as [p|] eqn:V; [|injection H as <- <-; exfalso; eapply NE; eauto]. destruct (forward_to_vlr k x s z p g0 a0) as [z1 ro] eqn:FV.
    destruct (vlr_names _ _ _ _ _ _ _ _ _ En B V FV) as [[-> N]|(c0 & -> & Rt & N & Cf)]; injection H as <- <-; [exfalso; eapply NE; eauto|].
    destruct I as [I|[]]. injection I as <- <- <-. split; auto. split; [apply find_rem_some in F; eauto|]. split; auto. intros T. destruct (Cf T) as (d & E). exists d, p. split; auto.
    apply cached_entry; auto.
  - exfalso. unfold gone in I. apply in_map_iff in I. destruct I as (e & E & _). discriminate.
Qed.
Theorem c40_passed k s z d l x e f s' z' d' o a c g : encodes k -> dreached k (s, z, d, l) -> dstep k (s, z, d, l) (x, e, f) = Some (s', z', d', l ++ o) -> In (DTx a c g) o ->
  e = DRx a g /\ (exists r, In r (z_rems z) /\ rm_addr r = a) /\ In (mk_route (g_dst g) c) (v_routes (t_srv s)) /\
  (g_type g = MSGT_UPDATE_LOCATION_RESULT -> g_dst g <> [] -> exists dd, asked (rev l) (g_imsi g) dd (g_dst g)).
Proof.
  intros En H E I. destruct (step_shape _ _ _ _ _ _ _ _ _ H E) as [(s1 & z1 & d1 & o1 & Y & SH)|(d1 & Y & _)].
  - injection Y as -> -> -> Y. apply app_inv_head in Y. subst o1. destruct (shape_tx _ _ _ _ _ _ _ _ _ _ _ En SH (proj2 (reach_zinv _ _ _ _ _ H)) I) as (A & B & C & D).
    split; auto. split; auto. split; auto. intros T N. destruct (D T) as (dd & P). exists dd. apply (c40_asked _ _ _ _ _ _ _ _ En H N). exact P.
  - injection Y as -> -> -> Y. destruct o; [destruct I|]. destruct l; discriminate.
Qed.
