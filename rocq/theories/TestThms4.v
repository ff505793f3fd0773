(** What follows from the invariant of the load test client. *)
From Verif Require Import Base Gsup Client CtrlSpec CtrlThms TestClient TestSpec TestThms TestThms2 TestThms3.
Local Open Scope Z_scope.

Lemma handled_two a b tr : a <> b -> handled [a; b] tr = (handled [a] tr + handled [b] tr)%nat.
Proof.
  intros N. unfold handled. induction tr as [|x tr IH]; auto. cbn [filter].
  assert (E : took [a; b] x = took [a] x || took [b] x).
  { unfold took. destruct (fst x) as [| |[[y t]|]]; auto. cbn [existsb]. rewrite !orb_false_r. destruct (t =? a), (t =? b), (existsb _ _); reflexivity. }
  assert (F : took [a] x && took [b] x = false).
  { unfold took. destruct (fst x) as [| |[[y t]|]]; auto. cbn [existsb]. rewrite !orb_false_r. destruct (Z.eqb_spec t a), (Z.eqb_spec t b), (existsb _ _); cbn; congruence. }
  rewrite E. destruct (took [a] x), (took [b] x); cbn in *; try discriminate; lia.
Qed.
Lemma counts_small n k : counts n k -> (N.of_nat k <= 10000)%N -> n = N.of_nat k.
Proof. unfold counts. intros -> L. apply N.mod_small. lia. Qed.

Lemma counters enc s tr : treached enc s tr ->
  t_sai s = mk_stats (N.of_nat (length (tried 8 tr))) (N.of_nat (handled [9; 10] tr)) (N.of_nat (handled [10] tr)) (N.of_nat (handled [9] tr)) 0 /\
  t_lu s = mk_stats (N.of_nat (length (tried 4 tr))) (N.of_nat (handled [5; 6] tr)) (N.of_nat (handled [6] tr)) (N.of_nat (handled [5] tr)) 0 /\
  counts (n_alloc (t_isd s)) (handled [16] tr) /\ counts (n_released (t_isd s)) (length (given 18 tr)) /\ counts (n_success (t_isd s)) (handled [16] tr) /\
  n_error (t_isd s) = 0%N /\ n_timeout (t_isd s) = 0%N /\ (length (tried 8 tr) = N.to_nat (t_i s)) /\ (t_i s <= 10000)%N.
Proof.
  intros R. apply reached_inv in R. destruct R.
  assert (LL : length (tried 8 tr) = N.to_nat (t_i s)) by (rewrite v_asked; apply asked_len).
  pose proof (handled_two 9 10 tr ltac:(discriminate)). pose proof (handled_two 5 6 tr ltac:(discriminate)).
  split; [|split; [|split; [|split; [|split; [|split; [|split; [|split]]]]]]]; auto.
  - destruct v_ssai as (A1 & A2 & A3 & A4 & A5). destruct (t_sai s) as [a r c e t]. cbn in *.
    apply counts_small in A1; [|lia]. apply counts_small in A2; [|lia]. apply counts_small in A3; [|lia]. apply counts_small in A4; [|lia]. congruence.
  - destruct v_slu as (A1 & A2 & A3 & A4 & A5). destruct (t_lu s) as [a r c e t]. cbn in *.
    apply counts_small in A1; [|lia]. apply counts_small in A2; [|lia]. apply counts_small in A3; [|lia]. apply counts_small in A4; [|lia]. congruence.
  - apply v_sisd.
  - apply v_sisd.
  - apply v_sisd.
  - destruct v_sisd as (_ & _ & _ & A & _). exact A.
  - apply v_sisd.
Qed.

Lemma asks enc s tr : treached enc s tr -> (length (tried 8 tr) <= N.to_nat 10000)%nat /\ NoDup (tried 8 tr) /\
  forall k x, nth_error (tried 8 tr) k = Some x -> imsi_of (N.of_nat k) x.
Proof.
  intros R. apply reached_inv in R. pose proof (v_max _ _ _ R) as M. rewrite (v_asked _ _ _ R). split; [rewrite asked_len; lia|]. split.
  - unfold asked. set (n := N.to_nat (t_i s)). assert (L : (n <= N.to_nat 10000)%nat) by lia. clearbody n. induction n as [|n IH]; [constructor|].
    rewrite seq_S, map_app. cbn [map]. apply (NoDup_Add (a := imsi_at (N.of_nat (0 + n))) (l := map (fun k => imsi_at (N.of_nat k)) (seq 0 n))).
    { rewrite <- (app_nil_r (map _ _)) at 1. apply Add_app. } split; [apply IH; lia|]. intros X. apply in_map_iff in X as (k & E & K). apply in_seq in K. apply imsi_at_inj in E; lia.
  - intros k x E. unfold asked in E. rewrite nth_error_map in E. destruct (nth_error (seq 0 _) k) as [j|] eqn:J; [|discriminate].
    assert (LK : (k < N.to_nat (t_i s))%nat). { rewrite <- (seq_length (N.to_nat (t_i s)) 0). apply nth_error_Some. congruence. }
    apply nth_error_nth with (d := O) in J. rewrite seq_nth in J by auto. cbn in E, J. subst j. assert (X : x = imsi_at (N.of_nat k)) by congruence. subst x. apply imsi_at_ok. lia.
Qed.

Lemma run_snoc enc l : forall s tr s' tr', trun enc l s tr = Some (TOk (s', tr')) -> exists more, tr' = tr ++ more /\ length more = length l.
Proof.
  induction l as [|e l IH]; intros s tr s' tr' H; cbn [trun] in H.
  - injection H as <- <-. exists []. now rewrite app_nil_r.
  - destruct (tstep enc e s) as [[[s1 o]|]|]; try discriminate. apply IH in H as (m & -> & L). exists ((e, o) :: m). rewrite <- app_assoc. cbn. auto.
Qed.

(** where the location updates come from *)
Definition explained (tr : ttrace) : Prop :=
  forall x, In x (tried 4 tr) -> exists a e o b, tr = a ++ (e, o) :: b /\ awaits_info x a /\ sai_answer x e /\ In x (tried_out 4 o).
Lemma explained_run enc l : forall s tr, tinv enc s tr -> explained tr -> match trun enc l s tr with Some (TOk (_, tr')) => explained tr' | _ => True end.
Proof.
  induction l as [|e l IH]; intros s tr V X; cbn [trun]; auto. destruct (tstep enc e s) as [r|] eqn:E; auto.
  destruct (step_all _ _ _ _ _ V E) as (s' & o & -> & M & V'). apply IH; auto. intros x T. rewrite tried_snoc in T. apply in_app_or in T as [T|T].
  - destruct (X x T) as (a & e' & o' & b & -> & A & B & C). exists a, e', o', (b ++ [(e, o)]). rewrite <- app_assoc. auto.
  - exists tr, e, o, []. split; auto.
    inversion M as [y o1 K O|now rc ev o1|y t o1 K A U O|y t K A U|y n N K U|y N K S| |t|y t K A|y t K A|y S|y t N]; subst; cbn in T; try contradiction.
    + rewrite (one_tried _ _ _ _ _ 4 O) in T. destruct T.
    + rewrite tried_free, (one_tried _ _ _ _ _ 4 O) in T. destruct T as [<-|[]]. split; auto. split; [now apply sai_ne|]. rewrite tried_free, (one_tried _ _ _ _ _ 4 O). now left.
Qed.
Lemma updates enc s tr : treached enc s tr -> explained tr.
Proof.
  intros (now & rc & l & H). pose proof (explained_run enc l _ _ (start_inv enc now rc)) as R. rewrite H in R. apply R. intros x [].
Qed.

Lemma made_step enc s tr e r : treached enc s tr -> tstep enc e s = Some r -> exists s' o, r = TOk (s', o) /\ made enc tr (is_up s) e o.
Proof. intros R E. apply reached_inv in R. destruct (step_all _ _ _ _ _ R E) as (s' & o & -> & M & _). eauto. Qed.

Lemma open_forever enc s tr x : treached enc s tr -> In x (tried 8 tr) -> (forall y, In y tr -> ~ sai_answer x (fst y)) -> In (mk_op x OpSai) (t_ops s).
Proof.
  intros R T N. pose proof (updates _ _ _ R) as U. apply reached_inv in R. apply (v_sai _ _ _ R). split; auto. intros T4.
  destruct (U x T4) as (a & e & o & b & -> & _ & S & _). apply (N (e, o)); auto. apply in_or_app. right. now left.
Qed.

Lemma first_refused enc now rc e l s tr : trun enc (e :: l) (tstart now rc) [] = Some (TOk (s, tr)) ->
  exists x o more, tr = (TAsk, o) :: more /\ imsi_of 0 x /\ one_try enc 8 x false o.
Proof.
  cbn [trun]. intros H. destruct (tstep enc e (tstart now rc)) as [r|] eqn:E; [|discriminate].
  destruct (step_all _ _ _ _ _ (start_inv enc now rc) E) as (s' & o & -> & M & _). apply run_snoc in H as (m & -> & _).
  assert (e = TAsk) as ->.
  { destruct e as [|n r ev|m']; auto; cbn [tstep] in E; cbn [tstart t_gc t_i] in E; destruct (client_create now (env rc)) as [[c oc]|]; try discriminate.
    - destruct ev; discriminate.
    - destruct ev; discriminate.
    - destruct (c_link c); discriminate. }
  inversion M as [x o1 K O| | | | | | | | | | |]; subst. exists x, o, m. split; auto. split; auto.
  replace (is_up (tstart now rc)) with false in O; auto. unfold is_up, tstart. cbn [t_gc]. destruct (client_create now (env rc)) as [[c oc]|] eqn:C; auto.
  apply create_conn in C as [_ C]. auto.
Qed.

