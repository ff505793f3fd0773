(** Proofs for C08: every peer name. *)
From Verif Require Import Base PeerId Db DbSpec DbProofs DbThms DbThms2 DbThms3 AuthSpec PeerSpec PeerThms.

Lemma cstr_some : forall l t, cstr l = Some t -> begins_text l t.
Proof. intros l t H. exact (cstr_inv l t H). Qed.
Lemma cstr_none : forall l, cstr l = None <-> ~ In nul l.
Proof.
  induction l as [|c l IH]; cbn [cstr]; [split; [intros _ []|auto]|].
  change (c =? "000")%char with (c =? nul)%char. destruct (Ascii.eqb_spec c nul) as [->|Hc]; [split; [discriminate|intros H; exfalso; apply H; now left]|].
  destruct (cstr l) as [s|].
  - split; [discriminate|]. intros H. exfalso. assert (~ In nul l) by (intros A; apply H; now right). apply IH in H0. discriminate.
  - split; [|auto]. intros _ [A|A]; [now apply Hc|]. now apply (proj1 IH).
Qed.

Lemma c08_undefined d id vlr (ps : bool) via now c :
  run_out (db_subscr_lu id vlr ps via now) c d = Ub <->
  ~ In nul (in_val vlr) \/ exists p, given via p /\ ~ In nul (in_val p).
Proof.
  unfold db_subscr_lu. rewrite <- (cstr_none (in_val vlr)). fold (ipa_cstr vlr).
  destruct (ipa_cstr vlr) as [t|] eqn:Ec; [|split; [now left|reflexivity]].
  assert (V : lu_proxy via = None <-> exists p, given via p /\ ~ In nul (in_val p)).
  { unfold lu_proxy, ipa_is_empty. destruct via as [p|].
    - destruct (Nat.eqb_spec (in_len p) 0) as [Z0|Z0].
      + split; [discriminate|]. intros (q & ([= <-] & H) & _). contradiction.
      + destruct (ipa_cstr p) as [u|] eqn:Ep.
        * split; [discriminate|]. intros (q & ([= <-] & H) & A). apply cstr_none in A. unfold ipa_cstr in Ep. congruence.
        * split; [|auto]. intros _. exists p. split; [split; auto|]. now apply cstr_none.
    - split; [discriminate|]. intros (q & (A & _) & _). discriminate. }
  rewrite <- V. destruct (lu_proxy via) as [q|]; [|split; [now right|reflexivity]].
  split; [|intros [A|A]; discriminate]. intros A. exfalso. revert A. unfold run_out.
  destruct ps; cbn [run];
    repeat (match goal with |- context [match ?x with _ => _ end] => destruct x end; cbn [run fst snd]; try discriminate).
Qed.

Lemma cut_take max t : cut_at max t (str_take max t).
Proof.
  destruct (str_take_split max t) as (b & E & A & B). exists b. split; auto. split; [apply str_take_len|].
  intros N0. destruct (Nat.le_gt_cases (String.length t) max) as [L|L]; [exfalso; auto|auto].
Qed.
Lemma cut_fun : forall max t s, cut_at max t s -> s = str_take max t.
Proof.
  induction max as [|m IH]; intros t s (r & -> & L & F).
  - destruct s; [|cbn in L; lia]. destruct r; reflexivity.
  - destruct s as [|c s].
    + destruct r as [|c r]; [reflexivity|]. specialize (F ltac:(discriminate)). discriminate.
    + change (str_take (S m) (String c s ++ r)) with (String c (str_take m (s ++ r))). f_equal. apply IH.
      exists r. split; auto. cbn in L. split; [lia|]. intros N0. specialize (F N0). cbn in F. lia.
Qed.

Lemma set_str_none s : ipa_set_str ipa_empty s = None <-> exists t, s = Some t /\ ~ plain_text t.
Proof.
  unfold ipa_set_str. destruct s as [t|]; [|split; [discriminate|intros (t & A & _); discriminate]].
  destruct (no_percent t) eqn:E.
  - split; [discriminate|]. intros (u & [= <-] & A). destruct A. now apply no_percent_iff.
  - split; [|auto]. intros _. exists t. split; auto. intros A. apply no_percent_iff in A. congruence.
Qed.

Lemma lu_proxy_given via proxy : lu_proxy via = Some proxy ->
  (exists p u, given via p /\ begins_text (in_val p) u /\ proxy = Some u) \/ ((forall p, ~ given via p) /\ proxy = None).
Proof.
  unfold lu_proxy, ipa_is_empty. destruct via as [p|].
  - destruct (Nat.eqb_spec (in_len p) 0) as [Z0|Z0].
    + intros [= <-]. right. split; auto. intros q ([= <-] & A). contradiction.
    + destruct (ipa_cstr p) as [u|] eqn:Ep; [|discriminate]. intros [= <-]. left. exists p, u.
      split; [split; auto|]. split; auto. now apply cstr_some.
  - intros [= <-]. right. split; auto. intros q (A & _). discriminate.
Qed.
Lemma begins_fun l t u : begins_text l t -> begins_text l u -> t = u.
Proof.
  intros (A & r & E) (B & r' & E'). revert u l A B r r' E E'. induction t as [|c t IH]; intros [|e u] l A B r r' E E'; auto.
  - rewrite E' in E. injection E as E0 _. destruct B. left. exact E0.
  - rewrite E in E'. injection E' as E0 _. destruct A. left. exact E0.
  - rewrite E in E'. injection E' as E0 E1. subst e. f_equal.
    apply (IH u (bytes_of t ++ nul :: r)) with r r'; auto; intros H; [apply A|apply B]; now right.
Qed.
Lemma given_fun via p q : given via p -> given via q -> p = q.
Proof. intros (A & _) (B & _). congruence. Qed.

Lemma c08_exact d imsi id vlr (ps : bool) via now tz c c' :
  db_ok d -> is_subscriber d imsi id ->
  run_out (db_subscr_lu id vlr ps via now) c d = Fin 0 -> no_fault c' ->
  exists t, begins_text (in_val vlr) t /\
    let o := run_out (db_subscr_get_by_imsi tz imsi) c' (run_db (db_subscr_lu id vlr ps via now) c d) in
    (o = Ub <-> (exists p u, given via p /\ begins_text (in_val p) u /\ ~ plain_text u) \/
                (exists r u, In r (d_sub d) /\ s_id r = id /\ other_proxy ps r = Some u /\ ~ plain_text u)) /\
    (o <> Ub -> exists h, o = Fin (0, Some h) /\ cut_at 31 t (sub_number ps h) /\ proxy_read via (sub_proxy ps h)).
Proof.
  intros Hok (r & Hr & Ei & Eid) Hrun Hc. apply db_ok_inv in Hok.
  set (d' := run_db _ c d).
  assert (Hd' : db_inv d') by (now apply lu_inv).
  set (x := if ps then PS else CS). assert (Ex : ps = is_ps x) by (subst x; destruct ps; reflexivity).
  pose proof (c05_lu x d id vlr via now c) as [F _]. rewrite <- Ex in F. fold d' in F.
  rewrite Ex in Hrun. destruct (c05_lu_sets x d id vlr via now c Hrun) as (t & proxy & t0 & Ec & Ep & _ & [_ G]).
  rewrite <- Ex in G. fold d' in G. exists t. split; [now apply cstr_some|].
  destruct (Forall2_In_l _ _ _ r (Forall2_and _ _ _ _ F G) Hr) as (r' & Hr' & [[S _] E]). cbv beta in E.
  rewrite Eid, Z.eqb_refl in E. cbn in E.
  assert (Ei' : s_imsi r' = imsi) by (subst x; destruct ps; cbn in S; unfold not_ps, not_cs in S; congruence).
  assert (Uq : forall y, In y (d_sub d) -> s_id y = id -> y = r)
    by (intros y Hy Ey; eapply (NoDup_key_inj s_id); eauto; [apply Hok|congruence]).
  set (own := if ps then s_sgsn_proxy r' else s_vlr_proxy r'). set (oth := if ps then s_vlr_proxy r' else s_sgsn_proxy r').
  assert (Eo : own = proxy) by (subst own x; destruct ps; cbn in E; injection E as E1 E2 E3 E4 E5; exact E2).
  assert (Et : oth = other_proxy ps r) by (subst oth x; destruct ps; cbn in S; unfold not_ps, not_cs in S; cbn; congruence).
  assert (En : (if ps then s_sgsn r' else s_vlr r') = Some t) by (subst x; destruct ps; cbn in E; injection E as E1 E2 E3 E4 E5; exact E1).
  rewrite (proj1 (run_no_fault _ _ _ Hc)). unfold db_subscr_get_by_imsi, db_sel, run_out. cbn [run exec fst snd].
  unfold sel, by_imsi.
  replace (find (fun r => (s_imsi r =? imsi)%string) (d_sub d')) with (Some r')
    by (rewrite <- Ei'; symmetry; now apply find_by_imsi).
  cbn [fst snd].
  assert (Own : ipa_set_str ipa_empty own = None <-> exists p u, given via p /\ begins_text (in_val p) u /\ ~ plain_text u).
  { rewrite set_str_none, Eo. destruct (lu_proxy_given _ _ Ep) as [(p & u & Gp & Bu & ->)|(Ng & ->)].
    - split; [intros (v & [= <-] & A); eauto|]. intros (q & v & Gq & Bv & A). rewrite (given_fun _ _ _ Gq Gp) in Bv.
      rewrite (begins_fun _ _ _ Bv Bu) in A. eauto.
    - split; [intros (v & A & _); discriminate|]. intros (q & v & Gq & _). now destruct (Ng q). }
  assert (Oth : ipa_set_str ipa_empty oth = None <-> exists r u, In r (d_sub d) /\ s_id r = id /\ other_proxy ps r = Some u /\ ~ plain_text u).
  { rewrite set_str_none, Et. split; [intros (u & A & B); exists r, u; auto|].
    intros (y & u & Hy & Ey & A & B). rewrite (Uq y Hy Ey) in A. eauto. }
  rewrite <- Own, <- Oth.
  assert (Prd : forall n, ipa_set_str ipa_empty own = Some n -> proxy_read via n).
  { intros n Hn. rewrite Eo in Hn. destruct (lu_proxy_given _ _ Ep) as [(p & u & Gp & Bu & ->)|(Ng & ->)].
    - destruct (ipa_set_str_bytes _ _ _ ipa_empty_wf Hn) as [_ Hb]. split; [|intros A; now destruct (A p)].
      intros q Gq. rewrite (given_fun _ _ _ Gq Gp). exists u, (str_take 127 u). split; [exact Bu|]. split; [apply cut_take|exact Hb].
    - injection Hn as <-. split; [intros p Gp; now destruct (Ng p)|reflexivity]. }
  unfold sub_of_row. subst own oth. clear S E. destruct ps; cbn [sub_number sub_proxy] in *.
  - destruct (ipa_set_str ipa_empty (s_vlr_proxy r')) as [vp|]; [|cbn; split; [split; auto|congruence]].
    destruct (ipa_set_str ipa_empty (s_sgsn_proxy r')) as [sp|]; [|cbn; split; [split; auto|congruence]].
    cbn [run fst]. split; [split; [discriminate|intros [A|A]; discriminate]|]. intros _. eexists. split; [reflexivity|].
    cbn [h_sgsn h_sgsn_proxy]. rewrite En. split; [apply cut_take|auto].
  - destruct (ipa_set_str ipa_empty (s_vlr_proxy r')) as [vp|]; [|cbn; split; [split; auto|congruence]].
    destruct (ipa_set_str ipa_empty (s_sgsn_proxy r')) as [sp|]; [|cbn; split; [split; auto|congruence]].
    cbn [run fst]. split; [split; [discriminate|intros [A|A]; discriminate]|]. intros _. eexists. split; [reflexivity|].
    cbn [h_vlr h_vlr_proxy]. rewrite En. split; [apply cut_take|auto].
Qed.

Lemma c08_confused d imsi id v1 v2 (ps : bool) via1 via2 now1 now2 tz c1 c2 c' t1 t2 h1 h2 :
  db_ok d -> is_subscriber d imsi id -> no_fault c' ->
  run_out (db_subscr_lu id v1 ps via1 now1) c1 d = Fin 0 -> run_out (db_subscr_lu id v2 ps via2 now2) c2 d = Fin 0 ->
  begins_text (in_val v1) t1 -> begins_text (in_val v2) t2 ->
  run_out (db_subscr_get_by_imsi tz imsi) c' (run_db (db_subscr_lu id v1 ps via1 now1) c1 d) = Fin (0, Some h1) ->
  run_out (db_subscr_get_by_imsi tz imsi) c' (run_db (db_subscr_lu id v2 ps via2 now2) c2 d) = Fin (0, Some h2) ->
  (sub_number ps h1 = sub_number ps h2 <-> exists a, cut_at 31 t1 a /\ cut_at 31 t2 a).
Proof.
  intros Hok Hs Hc L1 L2 B1 B2 R1 R2.
  assert (P : forall v via now cc t h, run_out (db_subscr_lu id v ps via now) cc d = Fin 0 -> begins_text (in_val v) t ->
    run_out (db_subscr_get_by_imsi tz imsi) c' (run_db (db_subscr_lu id v ps via now) cc d) = Fin (0, Some h) -> cut_at 31 t (sub_number ps h)).
  { intros v via now cc t h L B R. destruct (c08_exact d imsi id v ps via now tz cc c' Hok Hs L Hc) as (u & Bu & _ & G).
    cbv zeta in G. rewrite R in G. destruct (G ltac:(discriminate)) as (h' & E & C & _). injection E as <-.
    now rewrite (begins_fun _ _ _ B Bu). }
  pose proof (P _ _ _ _ _ _ L1 B1 R1) as C1. pose proof (P _ _ _ _ _ _ L2 B2 R2) as C2. split.
  - intros E. exists (sub_number ps h1). split; auto. now rewrite E.
  - intros (a & A1 & A2). rewrite (cut_fun _ _ _ C1), (cut_fun _ _ _ C2), <- (cut_fun _ _ _ A1). exact (cut_fun _ _ _ A2).
Qed.
