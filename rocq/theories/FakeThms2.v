(** The fake lookup method: what is given to whom. *)
From Verif Require Import Base MsLookup Mdns MsClient FakeMethod FakeSpec FakeThms.
From Coq Require Import Sorted.
Local Open Scope Z_scope.

Record logged (table : list fresp) (s : fstate) : Prop := {
  lg_reqs : forall r, In r (f_reqs s) -> In (FAsked (r_uid r) (r_handle r) (r_query r) (r_at r)) (f_log s) /\ normal (r_at r);
  lg_uid : forall u h q t, In (FAsked u h q t) (f_log s) -> (u < f_uid s)%N;
  lg_ok : log_ok table (f_log s) }.
(** a response is marked exactly if it was marked in the table or given *)
Definition marks (table : list fresp) (s : fstate) : Prop :=
  length (f_resps s) = length table /\
  forall j p, nth_error (f_resps s) j = Some p -> exists p0, nth_error table j = Some p0 /\ static p = static p0 /\
    (p_sent p = true <-> p_sent p0 = true \/ answered j (f_log s)).

Lemma move_logged table m s : move_normal m -> logged table s -> logged table (do_move s m).
Proof.
  intros N [A B C]. unfold do_move. destruct (f_alive s); [|now split]. destruct m as [h q t|h|]; split; cbn.
  - intros r I. apply in_app_or in I as [I|[<-|[]]]; cbn; auto. destruct (A r I); auto.
  - intros u h' q' t' [E|I]; [injection E as <- _ _ _; lia|]. apply B in I. lia.
  - split; auto. intros h' q' t' I. apply B in I. lia.
  - intros r I. apply drop_incl in I. auto.
  - exact B.
  - exact C.
  - intros r [].
  - exact B.
  - exact C.
Qed.
Lemma moves_logged table ms : forall s, Forall move_normal ms -> logged table s -> logged table (do_moves ms s).
Proof. induction ms as [|m ms IH]; intros s N H; auto. inversion N; subst. apply IH; auto. now apply move_logged. Qed.

Lemma answers_answered l : answers l = [] -> forall i, ~ answered i l.
Proof.
  intros H i (u & h & now & I). assert (X : In u (answers l)) by (apply in_flat_map; exists (FAnswered i u h now); split; [exact I|now left]).
  rewrite H in X. destruct X.
Qed.
Lemma moves_answered ms s i : answered i (f_log (do_moves ms s)) <-> answered i (f_log s).
Proof.
  destruct (moves_log ms s) as (new & E & A). rewrite E. pose proof (answers_answered new A i) as Nn. split.
  - intros (u & h & now & I). apply in_app_or in I as [I|I]; [destruct Nn; repeat eexists; eauto|repeat eexists; eauto].
  - intros (u & h & now & I). exists u, h, now. apply in_or_app. auto.
Qed.
Lemma move_marks table m s : marks table s -> marks table (do_move s m).
Proof.
  intros [L M]. assert (E : f_resps (do_move s m) = f_resps s) by (unfold do_move; destruct (f_alive s), m; reflexivity).
  split; rewrite E; auto. intros j p Hp. destruct (M j p Hp) as (p0 & A & B & C). exists p0. split; auto. split; auto.
  rewrite C. pose proof (moves_answered [m] s j) as X. cbn in X. rewrite X. reflexivity.
Qed.

Lemma hd_normal script : Forall (Forall move_normal) script -> Forall move_normal (hd [] script).
Proof. intros H. destruct H; cbn; auto. Qed.
Lemma tl_normal script : Forall (Forall move_normal) script -> Forall (Forall move_normal) (tl script).
Proof. intros H. destruct H; cbn; auto. Qed.

(** one response given *)
Section Given.
  Context (table : list fresp) (now : timeval) (r : freq) (i : nat) (s : fstate).
  Hypothesis (TN : resps_normal table) (NN : normal now) (L : logged table s) (M : marks table s)
             (I : In r (f_reqs s)) (Fd : find_resp now r (f_resps s) = Some i).

  Lemma given_note : note_ok table (FAnswered i (r_uid r) (r_handle r) now) (f_log s).
  Proof.
    destruct (lg_reqs _ _ L r I) as [Ia Na]. destruct M as [_ Mk]. destruct (find_resp_some _ _ _ _ Fd) as ((p & Hp & Rp) & Hj).
    destruct (Mk i p Hp) as (p0 & H0 & St & Sn). unfold static in St. injection St as E1 E2 E3 E4.
    assert (N0 : normal (p_wait p)) by (rewrite E1; unfold resps_normal in TN; rewrite Forall_forall in TN; apply (TN p0); eapply nth_error_In; eauto).
    apply replies_iff in Rp as (R1 & R2 & R3); auto.
    cbn. exists (r_query r), (r_at r), p0. split; auto. split; auto.
    assert (X : ~ (p_sent p0 = true \/ answered i (f_log s))) by (rewrite <- Sn, R1; discriminate).
    split; [destruct (p_sent p0); auto; exfalso; apply X; auto|]. split; [tauto|]. rewrite <- E2. split; auto.
    split; [unfold due in *; rewrite <- E1; auto|].
    intros j p' Lj Hp' Sq Du.
    destruct (nth_error (f_resps s) j) as [pj|] eqn:Ej.
    2:{ exfalso. apply nth_error_None in Ej. rewrite (proj1 M) in Ej. apply nth_error_None in Ej. congruence. }
    destruct (Mk j pj Ej) as (p1 & H1 & St1 & Sn1). assert (p1 = p') by congruence. subst p1.
    unfold static in St1. injection St1 as F1 F2 F3 F4. pose proof (Hj j pj Lj Ej) as Nr. apply Sn1.
    destruct (p_sent pj) eqn:Sp; auto. exfalso. enough (replies now r pj = true) by congruence.
    apply replies_iff; auto.
    - rewrite F1. unfold resps_normal in TN. rewrite Forall_forall in TN. apply (TN p'). eapply nth_error_In; eauto.
    - rewrite F2. unfold due in *. rewrite F1. auto.
  Qed.

  Definition noted : fstate := mk_fs (f_reqs s) (f_resps s) (f_uid s) (f_alive s) (FAnswered i (r_uid r) (r_handle r) now :: f_log s).
  Definition marked (ms : list move) : fstate :=
    let s' := do_moves ms noted in mk_fs (f_reqs s') (mark i (f_resps s')) (f_uid s') true (f_log s').

  Lemma noted_logged : logged table noted.
  Proof.
    destruct L as [A B C]. split; cbn.
    - intros x Ix. destruct (A x Ix); auto.
    - intros u h q t [E|J]; [discriminate|eauto].
    - split; auto. exact given_note.
  Qed.
  Lemma marked_logged ms : Forall move_normal ms -> logged table (marked ms).
  Proof.
    intros N. destruct (moves_logged table ms noted N noted_logged) as [A B C]. split; auto.
  Qed.
  Lemma marked_marks ms : marks table (marked ms).
  Proof.
    destruct M as [Ln Mk]. unfold marked. unfold marks. cbn [f_resps f_log]. rewrite moves_resps. cbn [noted f_resps]. split.
    - assert (G : forall n l, length (mark n l) = length l).
      { intros n l. revert n. induction l as [|p l IH]; intros [|n]; cbn; auto. }
      rewrite G. auto.
    - intros j p. rewrite mark_nth.
      assert (G : answered j (f_log (do_moves ms noted)) <-> j = i \/ answered j (f_log s)).
      { rewrite moves_answered. cbn [f_log noted]. split.
        - intros (u & h & t & [E|J]); [injection E as -> _ _ _; auto|right; repeat eexists; eauto].
        - intros [->|(u & h & t & J)]; repeat eexists; [left; reflexivity|right; eauto]. }
      destruct (Nat.eqb_spec i j) as [->|Ne].
      + destruct (nth_error (f_resps s) j) as [q|] eqn:E; cbn; [|discriminate]. intros [= <-].
        destruct (Mk j q E) as (p0 & H0 & St & Sn). exists p0. split; auto. split; [exact St|]. rewrite G. cbn. tauto.
      + intros Hp. destruct (Mk j p Hp) as (p0 & H0 & St & Sn). exists p0. split; auto. split; auto. rewrite Sn, G.
        intuition congruence.
  Qed.
End Given.

Lemma noted_inv now r i s : finv s -> finv (noted now r i s).
Proof. intros [A B]. split; auto. Qed.
Lemma marked_inv now r i s ms : finv s -> finv (marked now r i s ms).
Proof. intros H. destruct (moves_inv ms _ (noted_inv now r i s H)) as [A B]. split; auto. Qed.

Lemma loop_unfold fuel now script u s : tick_loop (S fuel) now script (Some u) s =
  match seek u (f_reqs s) with
  | None => FBad s
  | Some (r, n) =>
      match find_resp now r (f_resps s) with
      | None => tick_loop fuel now script n s
      | Some i => if f_alive (do_moves (hd [] script) (noted now r i s)) then
                    tick_loop fuel now (tl script) n (marked now r i s (hd [] script))
                  else FBad (do_moves (hd [] script) (noted now r i s))
      end
  end.
Proof. reflexivity. Qed.

Definition whole (table : list fresp) (s : fstate) : Prop := finv s /\ logged table s /\ marks table s.

(** ** One tick *)
Lemma loop_whole table now : resps_normal table -> normal now -> forall fuel script cur s s',
  Forall (Forall move_normal) script -> whole table s -> tick_loop fuel now script cur s = FOk s' -> whole table s'.
Proof.
  intros TN NN. induction fuel as [|fuel IH]; intros script [u|] s s' SN W H; try (injection H as <-; exact W); [discriminate|].
  rewrite loop_unfold in H. destruct W as (A & B & C).
  destruct (seek u (f_reqs s)) as [[r n]|] eqn:Sk; [|discriminate].
  destruct (seek_some _ _ _ _ (iv_sorted _ A) Sk) as (Ir & _).
  destruct (find_resp now r (f_resps s)) as [i|] eqn:Fd.
  - destruct (f_alive _); [|discriminate]. eapply IH; [|  |exact H]; [now apply tl_normal|].
    split; [now apply marked_inv|]. split; [apply marked_logged; auto; now apply hd_normal|now apply marked_marks].
  - eapply IH; [exact SN| |exact H]. exact (conj A (conj B C)).
Qed.

(** the state after the loop, compared with the one before *)
Lemma loop_old now : forall fuel script cur s s', finv s -> tick_loop fuel now script cur s = FOk s' ->
  (f_uid s <= f_uid s')%N /\ (forall r, In r (f_reqs s') -> (r_uid r < f_uid s)%N -> In r (f_reqs s)) /\
  (exists new, f_log s' = new ++ f_log s /\ StronglySorted (fun a b => (b < a)%N) (answers new) /\
     Forall (fun u => match cur with None => False | Some c => (c <= u)%N end) (answers new)) /\
  (forall i p, nth_error (f_resps s') i = Some p -> p_sent p = false -> nth_error (f_resps s) i = Some p).
Proof.
  induction fuel as [|fuel IH]; intros script [u|] s s' F H;
    try (injection H as <-; repeat split; auto; [lia|exists []; repeat split; constructor]); [discriminate|].
  rewrite loop_unfold in H. destruct (seek u (f_reqs s)) as [[r n]|] eqn:Sk; [|discriminate].
  destruct (seek_some _ _ _ _ (iv_sorted _ F) Sk) as (Ir & Ur & Nx & Nn).
  assert (WK : forall l, Forall (fun u => match n with None => False | Some c => (c <= u)%N end) l -> Forall (fun v => (u < v)%N) l).
  { intros l Fl. eapply Forall_impl; [|exact Fl]. cbn. intros v Hv. destruct n as [c|]; [|destruct Hv]. destruct Nn. lia. }
  destruct (find_resp now r (f_resps s)) as [i|] eqn:Fd.
  - destruct (f_alive _); [|discriminate]. set (ms := hd [] script) in *.
    destruct (IH _ _ _ _ (marked_inv now r i s ms F) H) as (A & B & (new & E & S1 & G) & D).
    assert (U : (f_uid s <= f_uid (do_moves ms (noted now r i s)))%N) by apply (moves_uid ms (noted now r i s)).
    cbn [marked f_uid f_reqs f_log f_resps] in *. split; [lia|]. split; [|split].
    + intros x Ix Lx. apply (moves_old ms (noted now r i s)); auto. apply B; auto. lia.
    + destruct (moves_log ms (noted now r i s)) as (n1 & E1 & A1). rewrite E1 in E. cbn [noted f_log] in E.
      exists (new ++ n1 ++ [FAnswered i (r_uid r) (r_handle r) now]). split; [rewrite E, <- !app_assoc; reflexivity|].
      apply WK in G. rewrite <- Ur in G |- *.
      assert (EA : answers (new ++ n1 ++ [FAnswered i (r_uid r) (r_handle r) now]) = answers new ++ [r_uid r]).
      { unfold answers in *. rewrite !flat_map_app, A1. reflexivity. }
      rewrite EA. split.
      * clear -S1 G. induction (answers new) as [|a l IHl]; cbn; [repeat constructor|]. inversion S1; subst. inversion G; subst.
        constructor; auto. apply Forall_app. split; auto.
      * apply Forall_app. split; [|repeat constructor; lia]. eapply Forall_impl; [|exact G]. cbn. lia.
    + intros j p Hp Sp. specialize (D j p Hp Sp). rewrite moves_resps, mark_nth in D. cbn [noted f_resps] in D.
      destruct (Nat.eqb_spec i j) as [->|Ne]; auto. destruct (nth_error (f_resps s) j); [|discriminate].
      cbn in D. injection D as <-. discriminate.
  - destruct (IH _ _ _ _ F H) as (A & B & (new & E & S1 & G) & D). repeat split; auto. exists new. repeat split; auto.
    apply WK in G. eapply Forall_impl; [|exact G]. cbn. lia.
Qed.

(** whoever was there before and after was answered, or there is nothing for it *)
Lemma loop_complete table now : resps_normal table -> normal now -> forall fuel script cur s s',
  Forall (Forall move_normal) script -> whole table s -> tick_loop fuel now script cur s = FOk s' ->
  exists new, f_log s' = new ++ f_log s /\
  forall r, In r (f_reqs s) -> In r (f_reqs s') -> from cur r -> In (r_uid r) (answers new) \/ ~ waits_for now r s'.
Proof.
  intros TN NN. induction fuel as [|fuel IH]; intros script [u|] s s' SN W H;
    try (injection H as <-; exists []; split; [reflexivity|]; intros r _ _ []); [discriminate|].
  pose proof H as H0. pose proof (loop_old now _ _ _ _ _ (proj1 W) H) as (_ & _ & _ & D0).
  rewrite loop_unfold in H. destruct W as (A & B & C).
  destruct (seek u (f_reqs s)) as [[r n]|] eqn:Sk; [|discriminate].
  destruct (seek_some _ _ _ _ (iv_sorted _ A) Sk) as (Ir & Ur & Nx & Nn).
  assert (UQ : forall x, In x (f_reqs s) -> r_uid x = u -> x = r).
  { intros x Ix Ex. destruct (seek_found _ _ (iv_sorted _ A) Ix) as [m Sm]. rewrite Ex in Sm. congruence. }
  destruct (find_resp now r (f_resps s)) as [i|] eqn:Fd.
  - destruct (f_alive _); [|discriminate]. set (ms := hd [] script) in *.
    assert (W1 : whole table (marked now r i s ms)).
    { split; [now apply marked_inv|]. split; [apply marked_logged; auto; now apply hd_normal|now apply marked_marks]. }
    destruct (IH _ _ _ _ (tl_normal _ SN) W1 H) as (new & E & G).
    destruct (loop_old now _ _ _ _ _ (proj1 W1) H) as (_ & OL & _).
    destruct (moves_log ms (noted now r i s)) as (n1 & E1 & A1). cbn [marked f_log] in E. rewrite E1 in E. cbn [noted f_log] in E.
    exists (new ++ n1 ++ [FAnswered i (r_uid r) (r_handle r) now]). split; [rewrite E, <- !app_assoc; reflexivity|].
    assert (EA : answers (new ++ n1 ++ [FAnswered i (r_uid r) (r_handle r) now]) = answers new ++ [r_uid r]).
    { unfold answers in *. rewrite !flat_map_app, A1. reflexivity. }
    rewrite EA. intros x Ix Ix' Fx. cbn in Fx. destruct (N.eq_dec (r_uid x) u) as [Ex|Nu].
    + left. apply in_or_app. right. left. congruence.
    + assert (Lx : from n x) by (apply Nx; auto; lia).
      assert (Lu : (r_uid x < f_uid s)%N) by (pose proof (iv_lt _ A) as Z0; rewrite Forall_forall in Z0; auto).
      assert (U : (f_uid s <= f_uid (do_moves ms (noted now r i s)))%N) by apply (moves_uid ms (noted now r i s)).
      destruct (G x) as [G1|G1]; auto.
      * apply OL; auto. cbn [marked f_uid]. lia.
      * left. apply in_or_app. auto.
  - pose proof (conj A (conj B C) : whole table s) as W0.
    destruct (IH _ _ _ _ SN W0 H) as (new & E & G). exists new. split; auto.
    intros x Ix Ix' Fx. cbn in Fx. destruct (N.eq_dec (r_uid x) u) as [Ex|Nu].
    + apply UQ in Ex; auto. subst x. right. intros (j & p & Hp & Sp & Sq & Du).
      apply (D0 j p) in Hp; auto. pose proof (find_resp_none _ _ _ Fd p (nth_error_In _ _ Hp)) as Nr.
      destruct C as [_ Mk]. destruct (Mk j p Hp) as (p0 & H1 & St & _). unfold static in St. injection St as E1 _ _ _.
      enough (replies now r p = true) by congruence. apply replies_iff; auto.
      * apply (lg_reqs _ _ B r Ir).
      * rewrite E1. unfold resps_normal in TN. rewrite Forall_forall in TN. apply (TN p0). eapply nth_error_In; eauto.
    + apply G; auto. apply Nx; auto. lia.
Qed.
