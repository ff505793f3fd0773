From Verif Require Import Base PeerId Db DbSpec.

(** * Generic lemmas about programs *)
Fixpoint all_stmts {A} (S : stmt -> Prop) (p : prog A) : Prop :=
  match p with
  | Ret _ => True
  | Undef => True
  | Exec s k => S s /\ forall r, all_stmts S (k r)
  end.

Lemma all_stmts_bind {A B} (S : stmt -> Prop) (p : prog A) (f : A -> prog B) :
  all_stmts S p -> (forall a, all_stmts S (f a)) -> all_stmts S (bind p f).
Proof.
  induction p as [a|s k IH|]; cbn; intros H Hf; auto.
  destruct H as [Hs Hk]. split; auto.
Qed.

Lemma run_inv {A} (P : db -> Prop) (S : stmt -> Prop) :
  (forall s d, S s -> P d -> P (snd (exec s d))) ->
  forall (p : prog A), all_stmts S p -> forall c d, P d -> P (run_db p c d).
Proof.
  intros Hex p. induction p as [a|s k IH|]; intros Hall c d Hd; unfold run_db in *; cbn; auto.
  destruct Hall as [Hs Hk].
  destruct c as [|[] c']; cbn.
  - destruct (exec s d) as [r d'] eqn:E. apply IH; auto.
    specialize (Hex s d Hs Hd). rewrite E in Hex. exact Hex.
  - destruct (exec s d) as [r d'] eqn:E. apply IH; auto.
    specialize (Hex s d Hs Hd). rewrite E in Hex. exact Hex.
  - apply IH; auto.
  - exact Hd.
Qed.

Lemma run_bind {A B} (p : prog A) (f : A -> prog B) c d :
  run (bind p f) c d =
  match run p c d with
  | (Fin a, d', c') => run (f a) c' d'
  | (Crashed, d', c') => (Crashed, d', c')
  | (Ub, d', c') => (Ub, d', c')
  end.
Proof.
  revert c d. induction p as [a|s k IH|]; intros c d; cbn; auto.
  destruct c as [|[] c']; cbn; auto; destruct (exec s d) as [r d']; apply IH.
Qed.

(** * Small list lemmas *)
Lemma NoDup_map_inj {A B} (f : A -> B) (l : list A) :
  NoDup (map f l) <->
  (forall i j x y, nth_error l i = Some x -> nth_error l j = Some y -> f x = f y -> i = j).
Proof.
  split.
  - intros H i j x y Hi Hj E.
    rewrite NoDup_nth_error in H. apply H.
    + apply nth_error_Some. rewrite nth_error_map, Hi. discriminate.
    + rewrite !nth_error_map, Hi, Hj. cbn. now rewrite E.
  - intros H. apply NoDup_nth_error. intros i j Hi E.
    rewrite !nth_error_map in E.
    apply nth_error_Some in Hi. rewrite nth_error_map in Hi.
    destruct (nth_error l i) as [x|] eqn:Ex; cbn in *; [|congruence].
    destruct (nth_error l j) as [y|] eqn:Ey; cbn in *; [|congruence].
    injection E as E. eapply H; eauto.
Qed.

Lemma next_rowid_fresh l : ~ In (next_rowid l) l.
Proof.
  assert (H : forall x, In x l -> x <= fold_right Z.max 0 l).
  { induction l as [|a l IH]; cbn; intros x []; [subst; lia|]. specialize (IH x H). lia. }
  intros Hin. apply H in Hin. unfold next_rowid in Hin. lia.
Qed.
Lemma next_rowid_pos l : 0 < next_rowid l.
Proof.
  unfold next_rowid. induction l as [|a l IH]; cbn; lia.
Qed.

Lemma map_upd_same {R B} (g : R -> B) cond f (l : list R) :
  (forall r, g (f r) = g r) -> map g (upd cond f l) = map g l.
Proof.
  intros H. unfold upd. rewrite map_map. apply map_ext. intros r. destruct (cond r); auto.
Qed.

Lemma NoDup_map_filter {A B} (g : A -> B) p (l : list A) : NoDup (map g l) -> NoDup (map g (filter p l)).
Proof.
  induction l as [|x l IH]; cbn; intros H; auto.
  inversion H as [|? ? Hni Hnd]; subst. destruct (p x); cbn; auto.
  constructor; auto. intros Hin. apply Hni. apply in_map_iff in Hin as (y & Ey & Hy).
  apply filter_In in Hy as [Hy _]. apply in_map_iff. eauto.
Qed.

Lemma NoDup_snoc {A} (l : list A) x : NoDup l -> ~ In x l -> NoDup (l ++ [x]).
Proof.
  intros H Hx. apply (NoDup_Add (a := x) (l := l)).
  - pose proof (Add_app x l []) as H0. now rewrite app_nil_r in H0.
  - auto.
Qed.

(** * Character classes *)
Lemma str_forall_get f s : str_forall f s = true <-> forall n c, String.get n s = Some c -> f c = true.
Proof.
  induction s as [|c s IH]; cbn.
  - split; auto. intros _ n c. destruct n; discriminate.
  - rewrite andb_true_iff, IH. split.
    + intros [Hc Hs] [|n] c' E; cbn in E; [congruence|eauto].
    + intros H. split; [apply (H 0%nat); reflexivity|]. intros n c' E. apply (H (S n)). exact E.
Qed.

Lemma is_n_digits_spec s mn mx : is_n_digits s mn mx = true <-> digit_string mn mx s.
Proof.
  unfold is_n_digits, digit_string. rewrite !andb_true_iff, !Nat.leb_le, str_forall_get.
  split.
  - intros [[H1 H2] H3]. split; [lia|]. intros n c E. specialize (H3 n c E).
    unfold is_digit, acode in H3. rewrite andb_true_iff, !N.leb_le in H3. exact H3.
  - intros [H1 H3]. split; [lia|]. intros n c E. specialize (H3 n c E).
    unfold is_digit, acode. rewrite andb_true_iff, !N.leb_le. exact H3.
Qed.

Lemma imsi_valid_spec s : imsi_valid s = true <-> is_imsi s.
Proof. apply is_n_digits_spec. Qed.
Lemma msisdn_valid_spec s : msisdn_valid s = true <-> is_msisdn s.
Proof. apply is_n_digits_spec. Qed.
Lemma imei_valid_spec s : imei_valid14 s = true <-> is_imei14 s.
Proof. apply is_n_digits_spec. Qed.

Lemma is_hexstr_spec s mn mx : is_hexstr s mn mx = true <-> hex_string mn mx s.
Proof.
  unfold is_hexstr, hex_string. rewrite !andb_true_iff, !Nat.leb_le, str_forall_get, Nat.even_spec.
  unfold hex_digit, is_xdigit, is_digit, acode.
  split.
  - intros [[[H1 H2] H3] H4]. repeat split; auto. intros n c E. specialize (H4 n c E).
    rewrite !orb_true_iff, !andb_true_iff, !N.leb_le in H4. cbv zeta. lia.
  - intros [[H1 H2] [H3 H4]]. repeat split; auto. intros n c E. specialize (H4 n c E). cbv zeta in H4.
    rewrite !orb_true_iff, !andb_true_iff, !N.leb_le. lia.
Qed.

(** * The table invariant *)
Definition msisdns (l : list sub_row) : list string :=
  flat_map (fun r => match s_msisdn r with Some m => [m] | None => [] end) l.

Record db_inv (d : db) : Prop := {
  iv_id : NoDup (map s_id (d_sub d));
  iv_imsi : NoDup (map s_imsi (d_sub d));
  iv_msisdn : NoDup (msisdns (d_sub d));
  iv_wf : Forall (fun r => imsi_valid (s_imsi r) = true /\
                           forall m, s_msisdn r = Some m -> msisdn_valid m = true) (d_sub d);
  iv_pos : Forall (fun r => 0 < s_id r) (d_sub d);
  iv_a2 : NoDup (map a2_id (d_auc2 d));
  iv_a3 : NoDup (map a3_id (d_auc3 d));
  iv_ind : NoDup (map i_ind (d_ind d));
  iv_vlr : NoDup (map i_vlr (d_ind d)) }.

Lemma db_inv_init : db_inv db_init.
Proof. constructor; cbn; constructor. Qed.

(** parameters that the API guarantees for the two statements that store identities *)
Definition stmt_ok (s : stmt) : Prop :=
  match s with
  | SUBSCR_CREATE i _ _ => imsi_valid i = true
  | SET_MSISDN_BY_IMSI m _ => msisdn_valid m = true
  | _ => True
  end.

Lemma existsb_false {A} (f : A -> bool) l : existsb f l = false <-> forall x, In x l -> f x = false.
Proof.
  induction l as [|a l IH]; cbn; [intuition|].
  rewrite orb_false_iff, IH. split; [intros [? ?] x [<-|?]; auto|auto].
Qed.

(** updates that leave id, imsi and msisdn alone keep the invariant *)
Lemma inv_upd_benign d cond f :
  (forall r, s_id (f r) = s_id r) -> (forall r, s_imsi (f r) = s_imsi r) ->
  (forall r, s_msisdn (f r) = s_msisdn r) ->
  db_inv d -> db_inv (with_sub d (upd cond f (d_sub d))).
Proof.
  intros H1 H2 H3 []. constructor; cbn; auto.
  - rewrite map_upd_same; auto.
  - rewrite map_upd_same; auto.
  - assert (E : msisdns (upd cond f (d_sub d)) = msisdns (d_sub d)).
    { clear -H3. induction (d_sub d) as [|r l IH]; cbn; auto.
      unfold upd, msisdns in *. rewrite IH. destruct (cond r); now rewrite ?H3. }
    unfold msisdns in E. rewrite E. exact iv_msisdn0.
  - unfold upd. apply Forall_map. eapply Forall_impl; [|exact iv_wf0]. cbn.
    intros r Hr. destruct (cond r); auto. rewrite H2, H3. auto.
  - unfold upd. apply Forall_map. eapply Forall_impl; [|exact iv_pos0]. cbn.
    intros r Hr. destruct (cond r); auto. now rewrite H1.
Qed.

Lemma msisdns_in m l : In m (msisdns l) <-> exists r, In r l /\ s_msisdn r = Some m.
Proof.
  unfold msisdns. rewrite in_flat_map. split.
  - intros (r & Hr & Hm). exists r. split; auto. destruct (s_msisdn r); cbn in Hm; intuition congruence.
  - intros (r & Hr & Hm). exists r. split; auto. rewrite Hm. cbn. auto.
Qed.

Lemma msisdns_filter p l : NoDup (msisdns l) -> NoDup (msisdns (filter p l)).
Proof.
  induction l as [|r l IH]; cbn; auto. intros H.
  destruct (s_msisdn r) as [m|] eqn:E; cbn in *.
  - inversion H as [|? ? Hn Hd]; subst. specialize (IH Hd).
    destruct (p r); cbn; rewrite ?E; cbn; auto.
    constructor; auto. intros Hin. apply Hn. apply msisdns_in in Hin as (x & Hx & Ex).
    apply filter_In in Hx as [Hx _]. apply msisdns_in. eauto.
  - destruct (p r); cbn; rewrite ?E; cbn; auto.
Qed.

Lemma str_opt_is_spec s o : str_opt_is s o = true <-> o = Some s.
Proof.
  unfold str_opt_is, opt_eqb. destruct o as [x|]; [|intuition congruence].
  rewrite String.eqb_eq. intuition congruence.
Qed.

Lemma msisdns_set l i m :
  NoDup (map s_imsi l) -> NoDup (msisdns l) ->
  (forall r, In r l -> s_imsi r <> i -> s_msisdn r <> Some m) ->
  NoDup (msisdns (upd (by_imsi i) (set_msisdn (Some m)) l)).
Proof.
  induction l as [|r l IH]; cbn; intros Hi Hm Hx; [constructor|].
  inversion Hi as [|? ? Hni Hnd]; subst.
  assert (Hl : NoDup (msisdns l)).
  { destruct (s_msisdn r); cbn in Hm; [inversion Hm|]; auto. }
  unfold by_imsi at 1. destruct (String.eqb_spec (s_imsi r) i) as [E|E]; cbn.
  - assert (Hl' : upd (by_imsi i) (set_msisdn (Some m)) l = l).
    { unfold upd. rewrite <- (map_id l) at 2. apply map_ext_in. intros x Hxl.
      unfold by_imsi. destruct (String.eqb_spec (s_imsi x) i) as [E'|]; auto.
      exfalso. apply Hni. rewrite E, <- E'. now apply in_map. }
    fold (upd (by_imsi i) (set_msisdn (Some m)) l). rewrite Hl'. constructor; auto.
    intros Hin. apply msisdns_in in Hin as (x & Hxl & Ex).
    apply (Hx x); auto. intros E'. apply Hni. rewrite E, <- E'. now apply in_map.
  - fold (upd (by_imsi i) (set_msisdn (Some m)) l).
    specialize (IH Hnd Hl (fun x H => Hx x (or_intror H))).
    destruct (s_msisdn r) as [m'|] eqn:Em; cbn in *; auto.
    inversion Hm as [|? ? Hn Hd]; subst.
    constructor; auto. intros Hin. apply msisdns_in in Hin as (x & Hxl & Ex).
    unfold upd in Hxl. apply in_map_iff in Hxl as (y & Ey & Hy).
    unfold by_imsi in Ey. destruct (String.eqb_spec (s_imsi y) i) as [E'|E'].
    + subst x. cbn in Ex. injection Ex as <-. apply (Hx r); auto.
    + subst x. apply Hn. apply msisdns_in. eauto.
Qed.

Lemma inv_exec s d : stmt_ok s -> db_inv d -> db_inv (snd (exec s d)).
Proof.
  intros Hs Hd.
  destruct s; cbn [exec] in *; unfold sel, upd_sub in *; cbn [fst snd];
    try (apply inv_upd_benign; auto; fail);
    try (match goal with |- context [find ?f ?l] => destruct (find f l) end; exact Hd);
    try exact Hd.
  - (* AUC_UPD_SQN *)
    destruct Hd; constructor; cbn; auto. rewrite map_upd_same; auto.
  - (* SUBSCR_CREATE *)
    destruct (existsb (by_imsi imsi) (d_sub d)) eqn:Ex; [exact Hd|].
    cbn [snd]. destruct Hd. rewrite existsb_false in Ex.
    constructor; cbn; auto.
    + rewrite map_app. cbn.
      apply NoDup_snoc; auto. apply next_rowid_fresh.
    + rewrite map_app. cbn.
      apply NoDup_snoc; auto. intros Hin. apply in_map_iff in Hin as (r & E & Hr).
        specialize (Ex r Hr). unfold by_imsi in Ex. rewrite E, String.eqb_refl in Ex. discriminate.
    + unfold msisdns in *. rewrite flat_map_app. cbn. now rewrite app_nil_r.
    + apply Forall_app. split; auto. constructor; [|constructor]. cbn. split; [exact Hs|discriminate].
    + apply Forall_app. split; auto. constructor; [|constructor]. cbn. apply next_rowid_pos.
  - (* DEL_BY_ID *)
    destruct Hd. constructor; cbn; auto; unfold del.
    + now apply NoDup_map_filter.
    + now apply NoDup_map_filter.
    + now apply msisdns_filter.
    + rewrite Forall_forall in *. intros r Hr. apply filter_In in Hr as [Hr _]. auto.
    + rewrite Forall_forall in *. intros r Hr. apply filter_In in Hr as [Hr _]. auto.
  - (* SET_MSISDN *)
    destruct (existsb (by_imsi imsi) (d_sub d)) eqn:Ex; cbn [andb].
    + destruct (existsb (fun r => by_msisdn msisdn r && negb (by_imsi imsi r)) (d_sub d)) eqn:Em; [exact Hd|].
      rewrite existsb_false in Em. cbn [snd]. destruct Hd. constructor; cbn; auto.
      * rewrite map_upd_same; auto.
      * rewrite map_upd_same; auto.
      * apply msisdns_set; auto. intros r Hr Hne E.
        specialize (Em r Hr). unfold by_msisdn, by_imsi in Em.
        assert (E1 : str_opt_is msisdn (s_msisdn r) = true) by now apply str_opt_is_spec.
        rewrite E1 in Em. cbn in Em. apply negb_false_iff in Em. apply String.eqb_eq in Em. auto.
      * unfold upd. apply Forall_map. eapply Forall_impl; [|exact iv_wf0]. cbn.
        intros r [Hr1 Hr2]. destruct (by_imsi imsi r); auto. cbn. split; auto. intros m [= <-]. exact Hs.
      * unfold upd. apply Forall_map. eapply Forall_impl; [|exact iv_pos0]. cbn.
        intros r Hr. destruct (by_imsi imsi r); auto.
    + cbn [snd].
      assert (E : upd (by_imsi imsi) (set_msisdn (Some msisdn)) (d_sub d) = d_sub d).
      { rewrite existsb_false in Ex. unfold upd. rewrite <- (map_id (d_sub d)) at 2.
        apply map_ext_in. intros r Hr. now rewrite (Ex r Hr). }
      rewrite E. destruct d; exact Hd.
  - (* DELETE_MSISDN *)
    destruct Hd. constructor; cbn; auto.
    + rewrite map_upd_same; auto.
    + rewrite map_upd_same; auto.
    + clear - iv_msisdn0. induction (d_sub d) as [|r l IH]; cbn; [constructor|].
      cbn in iv_msisdn0. destruct (by_imsi imsi r); cbn.
      * apply IH. destruct (s_msisdn r); cbn in *; [now inversion iv_msisdn0|auto].
      * destruct (s_msisdn r) as [m|] eqn:E; cbn in *; auto.
        inversion iv_msisdn0 as [|? ? Hn Hd]; subst. constructor; auto.
        intros Hin. apply Hn. apply msisdns_in in Hin as (x & Hx & Ex).
        unfold upd in Hx. apply in_map_iff in Hx as (y & Ey & Hy).
        destruct (by_imsi imsi y); subst x; cbn in Ex; [discriminate|].
        apply msisdns_in; eauto.
    + unfold upd. apply Forall_map. eapply Forall_impl; [|exact iv_wf0]. cbn.
      intros r [Hr1 Hr2]. destruct (by_imsi imsi r); auto. cbn. split; auto. discriminate.
    + unfold upd. apply Forall_map. eapply Forall_impl; [|exact iv_pos0]. cbn.
      intros r Hr. destruct (by_imsi imsi r); auto.
  - (* AUC_2G_INSERT *)
    destruct (existsb (fun a => a2_id a =? id) (d_auc2 d)) eqn:Ex; [exact Hd|].
    cbn [snd]. rewrite existsb_false in Ex. destruct Hd. constructor; cbn; auto.
    rewrite map_app. cbn. apply NoDup_snoc; auto. intros Hin. apply in_map_iff in Hin as (r & E & Hr). specialize (Ex r Hr). lia.
  - destruct Hd. constructor; cbn; auto. now apply NoDup_map_filter.
  - (* AUC_3G_INSERT *)
    destruct (existsb (fun a => a3_id a =? id) (d_auc3 d)) eqn:Ex; [exact Hd|].
    cbn [snd]. rewrite existsb_false in Ex. destruct Hd. constructor; cbn; auto.
    rewrite map_app. cbn. apply NoDup_snoc; auto. intros Hin. apply in_map_iff in Hin as (r & E & Hr). specialize (Ex r Hr). lia.
  - destruct Hd. constructor; cbn; auto. now apply NoDup_map_filter.
  - (* IND_ADD *)
    destruct (existsb (fun r => (i_vlr r =? vlr)%string) (d_ind d)) eqn:Ex; [exact Hd|].
    cbn [snd]. rewrite existsb_false in Ex. destruct Hd. constructor; cbn; auto; rewrite map_app; cbn.
    + apply NoDup_snoc; auto. apply next_rowid_fresh.
    + apply NoDup_snoc; auto. intros Hin. apply in_map_iff in Hin as (r & E & Hr). specialize (Ex r Hr).
        rewrite E, String.eqb_refl in Ex. discriminate.
  - destruct Hd. constructor; cbn; auto; now apply NoDup_map_filter.
Qed.
