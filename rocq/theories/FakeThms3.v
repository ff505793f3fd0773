(** The fake lookup method: when freed memory is used, and histories. *)
From Verif Require Import Base MsLookup Mdns MsClient FakeMethod FakeSpec FakeThms FakeThms2.
From Coq Require Import Sorted.
Local Open Scope Z_scope.

(** * The loop ends *)
Definition fromb (u : option N) (r : freq) : bool := match u with None => false | Some u => (u <=? r_uid r)%N end.
Definition cnt (u : option N) (l : list freq) : nat := length (filter (fromb u) l).

Lemma filter_lt (f g : freq -> bool) l r : (forall x, In x l -> g x = true -> f x = true) -> In r l -> f r = true -> g r = false ->
  (length (filter g l) < length (filter f l))%nat.
Proof.
  intros H I F G.
  assert (LE : forall l, (forall x, In x l -> g x = true -> f x = true) -> (length (filter g l) <= length (filter f l))%nat).
  { clear. induction l as [|a l IH]; intros H; cbn; [lia|]. specialize (IH (fun x I => H x (or_intror I))).
    pose proof (H a (or_introl eq_refl)) as Ha. destruct (g a); [rewrite Ha by auto; cbn; lia|]. destruct (f a); cbn; lia. }
  induction l as [|a l IH]; [destruct I|]. cbn. destruct I as [->|I].
  - rewrite F, G. cbn. specialize (LE l (fun x I => H x (or_intror I))). lia.
  - specialize (IH (fun x I => H x (or_intror I)) I). pose proof (H a (or_introl eq_refl)) as Ha.
    destruct (g a); [rewrite Ha by auto; cbn; lia|]. destruct (f a); cbn; lia.
Qed.
Lemma cnt_le u l : (cnt u l <= length l)%nat.
Proof. unfold cnt. induction l; cbn; [lia|]. destruct (fromb u a); cbn; lia. Qed.
Lemma cnt_drop u h l : (cnt u (drop_handle h l) <= cnt u l)%nat.
Proof.
  unfold cnt. induction l as [|a l IH]; cbn; [lia|]. destruct (_ =? _)%N; cbn; destruct (fromb u a); cbn; lia.
Qed.
Lemma cnt_moves u ms : forall s, (cnt u (f_reqs (do_moves ms s)) <= cnt u (f_reqs s) + length ms)%nat.
Proof.
  induction ms as [|m ms IH]; intros s; [cbn; lia|]. change (do_moves (m :: ms) s) with (do_moves ms (do_move s m)).
  specialize (IH (do_move s m)). assert (G : (cnt u (f_reqs (do_move s m)) <= cnt u (f_reqs s) + 1)%nat).
  { unfold do_move. destruct (f_alive s); [|lia]. destruct m as [h q t|h|]; cbn [fake_request fake_cleanup fake_free f_reqs].
    - unfold cnt. rewrite filter_app, app_length. pose proof (cnt_le u [mk_freq (f_uid s) h q t]) as X. unfold cnt in X. cbn [length] in X. lia.
    - pose proof (cnt_drop u h (f_reqs s)). lia.
    - cbn. lia. }
  cbn [length]. lia.
Qed.

Lemma seek_cnt u l r n : StronglySorted older l -> seek u l = Some (r, n) -> (cnt n l < cnt (Some u) l)%nat.
Proof.
  intros S H. destruct (seek_some _ _ _ _ S H) as (I & U & Nx & Nn). unfold cnt. apply filter_lt with r; auto.
  - intros x Ix Gx. cbn. apply N.leb_le. assert (X : from n x) by (destruct n; cbn in *; [now apply N.leb_le|discriminate]).
    apply Nx in X; auto. lia.
  - cbn. apply N.leb_le. lia.
  - destruct n as [v|]; cbn; auto. apply N.leb_gt. destruct Nn. lia.
Qed.

Lemma concat_hd {A} (l : list (list A)) : length (concat l) = (length (hd [] l) + length (concat (tl l)))%nat.
Proof. destruct l; cbn; auto. apply app_length. Qed.

Lemma loop_fuel now : forall fuel script cur s, finv s -> (cnt cur (f_reqs s) + length (concat script) < fuel)%nat ->
  tick_loop fuel now script cur s <> FFuel.
Proof.
  induction fuel as [|fuel IH]; intros script [u|] s F L; try discriminate; [lia|].
  rewrite loop_unfold. destruct (seek u (f_reqs s)) as [[r n]|] eqn:Sk; [|discriminate].
  pose proof (seek_cnt _ _ _ _ (iv_sorted _ F) Sk) as Ct.
  destruct (find_resp now r (f_resps s)) as [i|].
  - destruct (f_alive _); [|discriminate]. apply IH; [now apply marked_inv|]. rewrite concat_hd in L.
    pose proof (cnt_moves n (hd [] script) (noted now r i s)) as X. cbn [marked f_reqs]. cbn [noted f_reqs] in X. lia.
  - apply IH; auto. lia.
Qed.

(** * When freed memory is used *)
Fixpoint own_onlyb (h : N) (ms : list move) : bool :=
  match ms with
  | [] => true
  | MRequest _ _ _ :: ms => own_onlyb h ms
  | MCleanup h' :: ms => (h' =? h)%N && forallb (fun m => match m with MRequest _ _ _ => true | _ => false end) ms
  | MFree :: _ => false
  end.
Lemma own_onlyb_sound h ms : own_onlyb h ms = true -> own_only h ms.
Proof.
  induction ms as [|m ms IH]; cbn; [left; constructor|]. destruct m as [h' q t|h'|]; [| |discriminate].
  - intros H. destruct (IH H) as [A|(a & b & -> & A & B)].
    + left. constructor; auto. exact I.
    + right. exists (MRequest h' q t :: a), b. split; auto. split; auto. constructor; auto. exact I.
  - rewrite andb_true_iff, N.eqb_eq, forallb_forall. intros [-> H]. right. exists [], ms. split; auto. split; [constructor|].
    apply Forall_forall. intros x Ix. specialize (H x Ix). destruct x; try discriminate; exact I.
Qed.
Lemma own_onlyb_complete h ms : own_only h ms -> own_onlyb h ms = true.
Proof.
  assert (R : forall b, Forall is_request b -> forallb (fun m => match m with MRequest _ _ _ => true | _ => false end) b = true).
  { induction 1 as [|m b Hm Hb IH]; cbn; auto. destruct m; try destruct Hm; auto. }
  intros [A|(a & b & -> & A & B)].
  - induction A as [|m l Hm Hl IH]; cbn; auto. destruct m; try destruct Hm; auto.
  - induction A as [|m l Hm Hl IH]; cbn.
    + rewrite N.eqb_refl, R; auto.
    + destruct m; try destruct Hm; auto.
Qed.

Lemma requests_keep ms : forall s, Forall is_request ms -> f_alive s = true ->
  f_alive (do_moves ms s) = true /\ exists t, f_reqs (do_moves ms s) = f_reqs s ++ t.
Proof.
  induction ms as [|m ms IH]; intros s H A; [split; auto; exists []; now rewrite app_nil_r|]. inversion H as [|x y Hm Hl]; subst.
  change (do_moves (m :: ms) s) with (do_moves ms (do_move s m)). destruct m as [h q t|h|]; try destruct Hm.
  unfold do_move. rewrite A. destruct (IH (fake_request h q t s) Hl A) as [B [t' E]]. split; auto.
  exists (mk_freq (f_uid s) h q t :: t'). rewrite E. cbn. rewrite <- app_assoc. reflexivity.
Qed.
Lemma drop_after l r x : StronglySorted older l -> In r l -> In x l -> (r_uid r < r_uid x)%N -> In x (drop_handle (r_handle r) l).
Proof.
  induction l as [|a l IH]; cbn; intros S I J L; [destruct I|]. inversion S as [|b c S' F]; subst.
  rewrite Forall_forall in F. unfold older in F.
  destruct (N.eqb_spec (r_handle a) (r_handle r)) as [E|E].
  - destruct J as [->|J]; auto. destruct I as [->|I]; [lia|]. specialize (F r I). lia.
  - destruct I as [->|I]; [congruence|]. destruct J as [->|J]; [now left|]. right. auto.
Qed.
Lemma own_keeps ms s r x : finv s -> f_alive s = true -> In r (f_reqs s) -> In x (f_reqs s) -> (r_uid r < r_uid x)%N ->
  own_only (r_handle r) ms -> f_alive (do_moves ms s) = true /\ In x (f_reqs (do_moves ms s)).
Proof.
  intros F A I J L [O|(a & b & -> & Oa & Ob)].
  - destruct (requests_keep ms s O A) as [B [t E]]. split; auto. rewrite E. apply in_or_app. auto.
  - unfold do_moves. rewrite fold_left_app. fold (do_moves a s). cbn [fold_left]. fold (do_moves b (do_move (do_moves a s) (MCleanup (r_handle r)))).
    destruct (requests_keep a s Oa A) as [B [t E]]. unfold do_move. rewrite B.
    destruct (requests_keep b (fake_cleanup (r_handle r) (do_moves a s)) Ob B) as [B2 [t2 E2]]. split; auto. rewrite E2.
    apply in_or_app. left. cbn. apply drop_after; auto; [apply moves_inv; auto| |]; rewrite E; apply in_or_app; auto.
Qed.
Lemma own_alive ms s h : f_alive s = true -> own_only h ms -> f_alive (do_moves ms s) = true.
Proof.
  intros A [O|(a & b & -> & Oa & Ob)]; [now apply requests_keep|].
  unfold do_moves. rewrite fold_left_app. fold (do_moves a s). cbn [fold_left].
  destruct (requests_keep a s Oa A) as [B _]. unfold do_move at 2. rewrite B.
  apply (requests_keep b (fake_cleanup h (do_moves a s)) Ob B).
Qed.

Lemma handles_app a b : answer_handles (a ++ b) = answer_handles b ++ answer_handles a.
Proof. unfold answer_handles. now rewrite flat_map_app, rev_app_distr. Qed.
Lemma no_answer_handles l : answers l = [] -> answer_handles l = [].
Proof.
  unfold answers, answer_handles. induction l as [|[]]; cbn; auto; discriminate.
Qed.

Lemma bad_log now : forall fuel script cur s s', tick_loop fuel now script cur s = FBad s' -> exists new, f_log s' = new ++ f_log s.
Proof.
  induction fuel as [|fuel IH]; intros script [u|] s s' H; try discriminate.
  rewrite loop_unfold in H. destruct (seek u (f_reqs s)) as [[r n]|]; [|injection H as <-; exists []; auto].
  destruct (find_resp now r (f_resps s)) as [i|]; [|eauto].
  destruct (moves_log (hd [] script) (noted now r i s)) as (n1 & E1 & _). cbn [noted f_log] in E1.
  destruct (f_alive _).
  - destruct (IH _ _ _ _ H) as [new E]. cbn [marked f_log] in E. rewrite E1 in E.
    exists (new ++ n1 ++ [FAnswered i (r_uid r) (r_handle r) now]). rewrite E, <- !app_assoc. reflexivity.
  - injection H as <-. exists (n1 ++ [FAnswered i (r_uid r) (r_handle r) now]). rewrite E1, <- app_assoc. reflexivity.
Qed.

Definition cursor_ok (cur : option N) (s : fstate) : Prop :=
  match cur with None => True | Some u => exists x, In x (f_reqs s) /\ r_uid x = u end.

Lemma loop_bad now : forall fuel script cur s s', finv s -> f_alive s = true -> cursor_ok cur s ->
  tick_loop fuel now script cur s = FBad s' ->
  exists new, f_log s' = new ++ f_log s /\
  exists k h, nth_error (answer_handles new) k = Some h /\ ~ own_only h (nth k script []).
Proof.
  induction fuel as [|fuel IH]; intros script [u|] s s' F A Cu H; try discriminate.
  rewrite loop_unfold in H. destruct (seek u (f_reqs s)) as [[r n]|] eqn:Sk.
  2:{ exfalso. destruct Cu as (x & Ix & Ux). destruct (seek_found _ _ (iv_sorted _ F) Ix) as [m Sm]. congruence. }
  destruct (seek_some _ _ _ _ (iv_sorted _ F) Sk) as (Ir & Ur & _ & Nn).
  destruct (find_resp now r (f_resps s)) as [i|].
  2:{ apply (IH script n s s'); auto. destruct n as [v|]; [|exact I]. exact (proj2 Nn). }
  set (ms := hd [] script) in *.
  destruct (moves_log ms (noted now r i s)) as (n1 & E1 & A1). cbn [noted f_log] in E1.
  assert (HD : answer_handles (n1 ++ [FAnswered i (r_uid r) (r_handle r) now]) = [r_handle r]).
  { rewrite handles_app, (no_answer_handles n1) by auto. reflexivity. }
  destruct (own_onlyb (r_handle r) ms) eqn:O.
  - apply own_onlyb_sound in O. rewrite (own_alive ms (noted now r i s) _ A O) in H.
    destruct (IH (tl script) n (marked now r i s ms) s' (marked_inv now r i s ms F) eq_refl) as (new & E & k & h & Hk & Nk); auto.
    + destruct n as [v|]; [|exact I]. destruct Nn as (Lv & x & Ix & Ux). exists x. split; auto. cbn [marked f_reqs].
      apply (own_keeps ms (noted now r i s) r x); auto; [now apply noted_inv|lia].
    + cbn [marked f_log] in E. rewrite E1 in E. exists (new ++ n1 ++ [FAnswered i (r_uid r) (r_handle r) now]).
      split; [rewrite E, <- !app_assoc; reflexivity|]. exists (S k), h. rewrite handles_app, HD. split; [exact Hk|].
      destruct script; [now destruct k|exact Nk].
  - assert (NO : ~ own_only (r_handle r) (nth 0 script [])).
    { intros X. apply own_onlyb_complete in X. unfold ms in O. destruct script; cbn in *; congruence. }
    assert (G : exists new, f_log s' = new ++ f_log (do_moves ms (noted now r i s))).
    { destruct (f_alive (do_moves ms _)); [|injection H as <-; now exists []].
      destruct (bad_log _ _ _ _ _ _ H) as [new E]. exists new. exact E. }
    destruct G as [new E]. rewrite E1 in E. exists (new ++ n1 ++ [FAnswered i (r_uid r) (r_handle r) now]).
    split; [rewrite E, <- !app_assoc; reflexivity|]. exists 0%nat, (r_handle r). rewrite handles_app, HD. auto.
Qed.

Lemma tick_fuel now script s : finv s -> tick now script s <> FFuel.
Proof.
  intros F. unfold tick. destruct (f_alive s); [|discriminate]. apply loop_fuel; auto.
  pose proof (cnt_le (match f_reqs s with [] => None | r :: _ => Some (r_uid r) end) (f_reqs s)). lia.
Qed.
Lemma tick_bad now script s s' : finv s -> f_alive s = true -> tick now script s = FBad s' ->
  exists new, f_log s' = new ++ f_log s /\
  exists k h, nth_error (answer_handles new) k = Some h /\ ~ own_only h (nth k script []).
Proof.
  intros F A H. unfold tick in H. rewrite A in H. eapply loop_bad; eauto.
  unfold cursor_ok. destruct (f_reqs s) as [|r l]; auto. exists r. split; [now left|auto].
Qed.

(** * Histories *)
Lemma step_whole table s e s' : resps_normal table -> ev_normal e -> whole table s -> fstep s e = FOk s' -> whole table s'.
Proof.
  intros TN EN W H. destruct e as [m|now script]; cbn in H.
  - injection H as <-. destruct W as (A & B & C). split; [now apply move_inv|]. split; [now apply move_logged|now apply move_marks].
  - unfold tick in H. destruct (f_alive s); [|discriminate]. destruct EN. eapply loop_whole; eauto.
Qed.
Lemma run_whole table es : resps_normal table -> forall s s', Forall ev_normal es -> whole table s -> frun s es = FOk s' -> whole table s'.
Proof.
  intros TN. induction es as [|e es IH]; intros s s' EN W H; cbn in H; [injection H as <-; auto|].
  inversion EN; subst. destruct (fstep s e) as [s1| |] eqn:E; try discriminate. eapply IH; [| |exact H]; auto.
  eapply step_whole; eauto.
Qed.
Lemma whole0 table : whole table (add_fake table).
Proof.
  split; [split; constructor|]. split; [split; cbn; tauto|]. split; auto. cbn. intros j p Hp. exists p. split; auto. split; auto.
  split; auto. intros [H|(u & h & t & [])]. auto.
Qed.
Lemma step_inv s e s' : finv s -> fstep s e = FOk s' -> finv s'.
Proof.
  intros F H. destruct e as [m|now script]; cbn in H; [injection H as <-; now apply move_inv|].
  unfold tick in H. destruct (f_alive s); [|discriminate]. revert H.
  generalize (S (length (f_reqs s) + length (concat script))) as fuel.
  generalize (match f_reqs s with [] => None | r :: _ => Some (r_uid r) end) as cur. intros cur fuel. revert script cur s F.
  induction fuel as [|fuel IH]; intros script [u|] s F H; try discriminate; try (injection H as <-; auto).
  rewrite loop_unfold in H. destruct (seek u (f_reqs s)) as [[r n]|]; [|discriminate].
  destruct (find_resp now r (f_resps s)) as [i|]; [|eapply IH; eauto].
  destruct (f_alive _); [|discriminate]. eapply IH; [|exact H]. now apply marked_inv.
Qed.
Lemma run_inv_f es : forall s s', finv s -> frun s es = FOk s' -> finv s'.
Proof.
  induction es as [|e es IH]; intros s s' F H; cbn in H; [injection H as <-; auto|].
  destruct (fstep s e) as [s1| |] eqn:E; try discriminate. eapply IH; [|exact H]. eapply step_inv; eauto.
Qed.
Lemma inv0_f table : finv (add_fake table). Proof. split; constructor. Qed.

Lemma c76_log table es s : resps_normal table -> Forall ev_normal es -> frun (add_fake table) es = FOk s -> log_ok table (f_log s).
Proof. intros TN EN H. apply (run_whole table es TN _ _ EN (whole0 table) H). Qed.

Lemma c76_once table es s : resps_normal table -> Forall ev_normal es -> frun (add_fake table) es = FOk s ->
  forall i a u h t b u' h' t' c, f_log s <> a ++ FAnswered i u h t :: b ++ FAnswered i u' h' t' :: c.
Proof.
  intros TN EN H i a u h t b u' h' t' c E. pose proof (c76_log _ _ _ TN EN H) as L. rewrite E in L. clear -L.
  induction a as [|x a IH]; cbn in L; [|apply IH, L]. destruct L as [(q & t0 & p & _ & _ & _ & N & _) _].
  apply N. exists u', h', t'. apply in_or_app. right. now left.
Qed.

Lemma c76_tick table es s now script s' : resps_normal table -> Forall ev_normal es -> ev_normal (ETick now script) ->
  frun (add_fake table) es = FOk s -> tick now script s = FOk s' ->
  exists new, f_log s' = new ++ f_log s /\ StronglySorted (fun a b => (b < a)%N) (answers new) /\
    forall r, In r (f_reqs s) -> In r (f_reqs s') -> In (r_uid r) (answers new) \/ ~ waits_for now r s'.
Proof.
  intros TN EN [NN SN] H T. pose proof (run_whole table es TN _ _ EN (whole0 table) H) as W.
  unfold tick in T. destruct (f_alive s); [|discriminate].
  destruct (loop_complete table now TN NN _ _ _ _ _ SN W T) as (new & E & C).
  destruct (loop_old now _ _ _ _ _ (proj1 W) T) as (_ & _ & (new' & E' & S & _) & _).
  assert (new' = new) by (rewrite E in E'; now apply app_inv_tail in E'). subst new'.
  exists new. split; auto. split; auto. intros r I J. apply C; auto.
  destruct (f_reqs s) as [|a l] eqn:El; [destruct I|]. cbn. destruct W as ([S0 _] & _). rewrite El in S0.
  inversion S0 as [|x y S1 F1]; subst. rewrite Forall_forall in F1. destruct I as [->|I]; [lia|]. specialize (F1 r I). unfold older in F1. lia.
Qed.

Lemma c76_safe table es s now script s' : frun (add_fake table) es = FOk s -> f_alive s = true -> tick now script s = FBad s' ->
  exists new, f_log s' = new ++ f_log s /\
  exists k h, nth_error (answer_handles new) k = Some h /\ ~ own_only h (nth k script []).
Proof. intros H A T. apply (tick_bad now script); auto. eapply run_inv_f; [|exact H]. apply inv0_f. Qed.

Lemma c76_ends table es : frun (add_fake table) es <> FFuel.
Proof.
  enough (G : forall s, finv s -> frun s es <> FFuel) by (apply G, inv0_f).
  induction es as [|e es IH]; intros s F; cbn; [discriminate|]. destruct (fstep s e) as [s1| |] eqn:E; [|discriminate|].
  - apply IH. eapply step_inv; eauto.
  - destruct e; [discriminate|]. now apply tick_fuel in E.
Qed.

(** * Refutations *)
Lemma c76_next table es s a b rest now : resps_normal table -> Forall ev_normal es -> normal now ->
  frun (add_fake table) es = FOk s -> f_alive s = true -> f_reqs s = a :: b :: rest -> r_handle a <> r_handle b -> waits_for now a s ->
  exists s', tick now [[MCleanup (r_handle b)]] s = FBad s'.
Proof.
  intros TN EN NN H A E Nh (i & p & Hp & Sp & Sq & Du). pose proof (run_whole table es TN _ _ EN (whole0 table) H) as (F & L & [_ Mk]).
  assert (R : replies now a p = true).
  { destruct (Mk i p Hp) as (p0 & H0 & St & _). unfold static in St. injection St as E1 _ _ _.
    apply replies_iff; auto.
    - apply (lg_reqs _ _ L a). rewrite E. now left.
    - rewrite E1. unfold resps_normal in TN. rewrite Forall_forall in TN. apply (TN p0). eapply nth_error_In; eauto. }
  unfold tick. rewrite A, E. cbn [length concat app Nat.add]. rewrite loop_unfold. rewrite E. cbn [seek]. rewrite N.eqb_refl.
  destruct (find_resp now a (f_resps s)) as [j|] eqn:Fd.
  2:{ exfalso. pose proof (find_resp_none _ _ _ Fd p (nth_error_In _ _ Hp)). congruence. }
  cbn [hd tl]. unfold do_moves at 1. cbn [fold_left]. unfold do_move at 1. cbn [noted f_alive]. rewrite A. cbn [fake_cleanup f_alive noted]. rewrite A.
  rewrite loop_unfold. unfold marked. unfold do_moves. cbn [fold_left]. unfold do_move. cbn [noted f_alive]. rewrite A.
  cbn [fake_cleanup f_reqs noted]. rewrite E. cbn [drop_handle].
  destruct (N.eqb_spec (r_handle a) (r_handle b)); [contradiction|]. rewrite N.eqb_refl.
  destruct F as [S _]. rewrite E in S. inversion S as [|x y S1 F1]; subst. inversion S1 as [|x y S2 F2]; subst.
  inversion F1 as [|x y O1 _]; subst. unfold older in *.
  assert (K : seek (r_uid b) (a :: rest) = None).
  { cbn. destruct (N.eqb_spec (r_uid a) (r_uid b)); [lia|]. clear -F2. induction rest as [|c rest IH]; cbn; auto.
    inversion F2; subst. destruct (N.eqb_spec (r_uid c) (r_uid b)); [lia|]. auto. }
  rewrite K. eauto.
Qed.

Lemma c76_freed table es s now script : frun (add_fake table) es = FOk s ->
  exists s', frun s [ECall MFree; ETick now script] = FBad s'.
Proof.
  intros _. cbn. unfold do_move, tick. destruct (f_alive s) eqn:A; cbn; [|rewrite A]; eauto.
Qed.
