(** Lemmas behind C50: the invariant of the client. *)
From Verif Require Import Base Client ClientSpec.
Local Open Scope Z_scope.

(** the invariant of every state; [last] is the time of the latest attempt *)
Definition cinv (c : client) : Prop :=
  match c_link c with
  | LUp => c_conn c = true /\ c_ct c = None /\ (exists t, c_pt c = Some t) /\ Forall (fun x => fst x = c_nr c) (c_q c)
  | LConnecting => c_conn c = false /\ c_ct c = None /\ c_pt c = None /\ c_q c = []
  | LClosed => c_conn c = false /\ (c_ct c = None \/ c_pt c = None)
  end.
(** every timer that runs is due at least a second after [last] and at most 20 seconds after [now] *)
Definition cdue (last now : Z) (c : client) : Prop :=
  (forall t, c_ct c = Some t -> last + 1 <= t <= now + 1) /\ (forall t, c_pt c = Some t -> last + 1 <= t <= now + 20).
(** something will happen *)
Definition calive (c : client) : Prop := c_link c = LClosed -> c_ct c <> None \/ c_pt c <> None.

Definition attemptb (o : cout) : bool := match o with OOpen | OOpenFailed _ => true | _ => false end.
Definition wires (o : list cout) : Prop := forall n m i, In (OWire n m i) o -> n = m.
Definition open_now (c : client) : nat := match c_link c with LClosed => 0 | _ => 1 end.

Ltac cases :=
  repeat match goal with
  | H : match ?x with _ => _ end = Some _ |- _ => destruct x eqn:?; try discriminate H
  | H : (if ?x then _ else _) = Some _ |- _ => destruct x eqn:?; try discriminate H
  | H : (let '(_, _) := ?x in _) = Some _ |- _ => destruct x eqn:?
  end.

Record step_facts (last now : Z) (v : cenv) (e : cevent) (c c' : client) (o : list cout) : Prop := {
  sf_inv : cinv c';
  sf_due : cdue (if existsb attemptb o then now else last) now c';
  sf_space : existsb attemptb o = true -> last + 1 <= now /\ filter attemptb o = [if existsb (fun x => match x with OOpen => true | _ => false end) o then OOpen else OOpenFailed (v_open v)];
  sf_alive : willing v -> calive c -> calive c';
  sf_wires : wires o;
  sf_sock : sockets (open_now c) o = Some (open_now c');
  sf_pong : c_pong c' = if pings o then false else match e with CPong => true | _ => c_pong c end
}.

Lemma fatal_eqb rc : ((rc =? - EBADF) || (rc =? - ENOTSOCK) || (rc =? - EAFNOSUPPORT) || (rc =? - EINVAL)) = true -> fatal rc.
Proof.
  intros H. unfold fatal, EBADF, ENOTSOCK, EAFNOSUPPORT, EINVAL in *. cbn in *.
  repeat (apply orb_true_iff in H as [H|H]); apply Z.eqb_eq in H; subst; auto.
Qed.

Lemma connect_cases now v c : c_conn c = false ->
  let r := gsup_client_connect now v c in
  (0 <= v_open v /\ r = (0, mk_client false (c_pong c) None None LConnecting (Datatypes.S (c_nr c)) [], [OOpen])) \/
  (v_open v < 0 /\ fatal (v_open v) /\ r = (v_open v, mk_client false (c_pong c) None None (c_link c) (c_nr c) [], [OOpenFailed (v_open v)])) \/
  (v_open v < 0 /\ r = (0, mk_client false (c_pong c) (Some (now + 1)) None (c_link c) (c_nr c) [], [OOpenFailed (v_open v)])).
Proof.
  intros E r. subst r. destruct c as [conn pong ct pt lk nr q]. cbn [c_conn] in E. subst conn.
  unfold gsup_client_connect, conn_open. cbn [c_conn c_pong c_ct c_pt c_link c_nr c_q set_ct set_pt set_q].
  destruct (Z.ltb_spec (v_open v) 0) as [L|L]; cbn [c_conn c_pong c_ct c_pt c_link c_nr c_q set_ct set_pt set_q].
  - rewrite (proj2 (Z.leb_gt 0 (v_open v)) L). right.
    destruct ((v_open v =? - EBADF) || (v_open v =? - ENOTSOCK) || (v_open v =? - EAFNOSUPPORT) || (v_open v =? - EINVAL)) eqn:F.
    + left. split; [exact L|]. split; [now apply fatal_eqb|reflexivity].
    + right. split; [exact L|reflexivity].
  - rewrite (proj2 (Z.leb_le 0 (v_open v)) L). left. split; [exact L|reflexivity].
Qed.

Ltac sl H := unfold set_conn, set_link, set_pong, set_pt, set_q, set_ct in H; cbn [c_conn c_pong c_ct c_pt c_link c_nr c_q app] in H.
Ltac facts :=
  constructor;
  [ unfold cinv; cbn [c_link c_conn c_ct c_pt c_q c_nr]
  | cbn [existsb attemptb orb app]; split; cbn [c_ct c_pt]; intros t' Ht'; try discriminate Ht'; try (injection Ht' as <-); unfold RECONNECT_INTERVAL, PING_INTERVAL; try lia
  | cbn [existsb attemptb orb app filter]; try discriminate
  | intros W A; unfold calive; cbn [c_link c_ct c_pt]; try discriminate; try (intros _; first [left; discriminate | right; discriminate])
  | intros n' m' i' Hin; cbn [app In] in Hin; repeat (destruct Hin as [Hin|Hin]; try discriminate Hin); try contradiction
  | cbn [sockets open_now c_link app]; try reflexivity
  | cbn [pings existsb orb app c_pong]; try reflexivity ].

Lemma step_ok last now v e c c' o :
  cinv c -> last <= now ->
  cdue last now c ->
  cstep now v e c = Some (c', o) -> step_facts last now v e c c' o.
Proof.
  intros I L [D1 D2] H. destruct c as [conn pong ct pt lk nr q]. unfold cinv in I. cbn [c_link c_conn c_ct c_pt c_q c_nr] in *.
  destruct e; cbn [cstep c_link c_ct c_pt c_q c_nr] in H.
  - (* established *)
    destruct lk; try discriminate. destruct I as (-> & -> & -> & ->).
    unfold gsup_client_updown_cb, start_test_procedure, conn_send in H.
    sl H.
    destruct (v_oap v), (v_cb v) as [b|];
      sl H;
      injection H as <- <-; facts.
    all: split; [reflexivity|split; [reflexivity|split; [eexists; reflexivity|]]]; repeat constructor.
  - (* connect failed *)
    destruct lk; try discriminate. destruct I as (-> & -> & -> & ->).
    unfold conn_close, gsup_client_updown_cb in H.
    sl H.
    destruct (v_cb v) as [[|]|] eqn:CB; injection H as <- <-; facts.
    all: try (split; [reflexivity|auto]).
    destruct W as [W _]. now rewrite CB in W.
  - (* lost *)
    destruct lk; try discriminate. destruct I as (-> & -> & (t & ->) & Q).
    unfold conn_close, gsup_client_updown_cb in H.
    sl H.
    destruct (v_cb v) as [[|]|] eqn:CB; injection H as <- <-; facts.
    all: try (split; [reflexivity|auto]).
    destruct W as [W _]. now rewrite CB in W.
  - destruct lk; try discriminate. destruct I as (-> & -> & (t & ->) & Q). injection H as <- <-.
    unfold set_pong; cbn [c_conn c_pong c_ct c_pt c_link c_nr c_q]. facts; eauto; specialize (D2 _ eq_refl); lia.
  - destruct lk; try discriminate. destruct I as (-> & -> & (t & ->) & Q).
    unfold conn_close in H. sl H. injection H as <- <-. facts; eauto; specialize (D2 _ eq_refl); lia.
  - destruct lk; try discriminate. destruct I as (-> & -> & (t & ->) & Q). injection H as <- <-. facts; eauto; specialize (D2 _ eq_refl); lia.
  - destruct lk; try discriminate. destruct I as (-> & -> & (t & ->) & Q). injection H as <- <-. facts; eauto; specialize (D2 _ eq_refl); lia.
  - destruct lk; try discriminate. destruct I as (-> & -> & (t & ->) & Q). injection H as <- <-. facts; eauto; specialize (D2 _ eq_refl); lia.
  - destruct lk; try discriminate. destruct I as (-> & -> & (t & ->) & Q).
    destruct (v_oap v); unfold conn_send in H; sl H; injection H as <- <-; facts; eauto.
    + split; [reflexivity|split; [reflexivity|split; [eexists; reflexivity|]]]. apply Forall_app; auto.
  - (* connect timer *)
    destruct ct as [t|]; [|discriminate]. destruct (Z.leb_spec t now) as [Le|]; [|discriminate].
    specialize (D1 _ eq_refl).
    destruct lk; [|destruct I as (_ & X & _); discriminate|destruct I as (_ & X & _); discriminate].
    destruct I as (-> & [X|X]); [discriminate|]. subst pt.
    unfold connect_timer_cb in H. sl H.
    destruct (connect_cases now v (mk_client false pong None None LClosed nr q) eq_refl) as [(P & E)|[(P & F & E)|(P & E)]];
      cbn [c_conn c_pong c_ct c_pt c_link c_nr c_q] in E; rewrite E in H; destruct (v_cb v) as [[|]|] eqn:CB; injection H as <- <-; facts; auto.
    all: try (intros _; split; [lia|reflexivity]).
    all: exfalso; destruct W as [W1 W2]; rewrite ?CB in W1; auto.
  - (* ping timer *)
    destruct pt as [t|]; [|discriminate]. destruct (Z.leb_spec t now) as [Le|]; [|discriminate].
    specialize (D2 _ eq_refl).
    unfold ping_timer_cb in H. sl H. destruct pong.
    + unfold start_test_procedure, conn_send in H.
      sl H. injection H as <- <-.
      destruct lk.
      * destruct I as (-> & [-> | X]); [|discriminate]. facts; auto.
      * destruct I as (_ & _ & X & _); discriminate.
      * destruct I as (-> & -> & _ & Q). facts; eauto.
        split; [reflexivity|split; [reflexivity|split; [eexists; reflexivity|]]]. apply Forall_app; auto.
    + unfold conn_close in H. sl H.
      assert (CT : ct = None). { destruct lk; [destruct I as (_ & [X|X]); [exact X|discriminate] | |]; destruct I as (_ & X & _); exact X. }
      subst ct.
      destruct (connect_cases now v (mk_client false false None None LClosed nr q) eq_refl) as [(P & E)|[(P & F & E)|(P & E)]];
        cbn [c_conn c_pong c_ct c_pt c_link c_nr c_q] in E; rewrite E in H; destruct lk; injection H as <- <-; facts; auto.
      all: try (intros _; split; [lia|reflexivity]).
      all: try (exfalso; destruct W as [W1 W2]; auto; fail).
      all: destruct I as (_ & _ & X & _); discriminate.
  - (* write *)
    destruct lk; try discriminate. destruct I as (-> & -> & (t & ->) & Q).
    destruct q as [|[n0 i0] q]; injection H as <- <-; unfold set_q; cbn [c_conn c_pong c_ct c_pt c_link c_nr c_q]; facts; eauto.
    + inversion Q; subst. split; [reflexivity|split; [reflexivity|split; [eexists; reflexivity|assumption]]].
    + pose proof (Forall_inv Q) as X. cbn [fst] in X. congruence.
  - (* send *)
    unfold osmo_gsup_client_send in H. cbn [c_conn] in H.
    destruct conn; [unfold conn_send in H|]; injection H as <- <-; unfold set_q; cbn [c_conn c_pong c_ct c_pt c_link c_nr c_q]; facts; auto.
    all: try (specialize (D1 _ Ht'); lia); try (specialize (D2 _ Ht'); lia).
    destruct lk; [destruct I as (X & _); discriminate|destruct I as (X & _); discriminate|].
    destruct I as (_ & -> & P & Q). split; [reflexivity|split; [reflexivity|split; [exact P|]]]. apply Forall_app; auto.
Qed.
