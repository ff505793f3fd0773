(** C50 (the GSUP client reconnects) and C51 (its link notifications): theorems and cases. *)
From Verif Require Import Base Client ClientSpec ClientThms ClientThms2.
Local Open Scope Z_scope.

(** ** C50 *)
(** At any time of any history, at most one attempt to connect is going on or scheduled, none while the link is up, and never more
    than one socket is open. *)
Theorem C50_one_attempt : forall now c tr, creached anything now c tr ->
  (pending c <= 1)%nat /\ (c_link c = LUp -> pending c = 0%nat) /\
  sockets 0 (all_outs tr) = Some (match c_link c with LClosed => 0 | _ => 1 end)%nat.
Proof. intros now c tr R. exact (one_attempt _ _ _ _ R). Qed.
Print Assumptions C50_one_attempt.

(** Attempts of one history are at least a second apart. *)
Theorem C50_no_flood : forall now c tr, creached anything now c tr -> spaced 1 (attempt_times tr).
Proof. intros now c tr R. exact (attempts_spaced _ _ _ _ R). Qed.
Print Assumptions C50_no_flood.

(** As long as the user wants to go on and opening a socket does not fail in one of four ways (see C50_retry_refuted): whenever there is
    no link, a timer is running that is due within a second and then makes the next attempt, or (the link was closed because of an
    invalid control message) one that is due within 20 seconds and either makes the attempt or starts another 20 seconds after which it is
    made. *)
Theorem C50_retry_partial : forall now c tr, creached willing now c tr -> c_link c = LClosed ->
  (exists t, c_ct c = Some t /\ t <= now + 1 /\
    forall now' v, t <= now' -> willing v -> exists c' o, cstep now' v CConnectTimer c = Some (c', o) /\ attempts o) \/
  (exists t, c_pt c = Some t /\ t <= now + 20 /\
    forall now' v, t <= now' -> willing v -> exists c' o, cstep now' v CPingTimer c = Some (c', o) /\
      (attempts o \/
       (c_link c' = LClosed /\ c_pt c' = Some (now' + 20) /\
        forall now'' v', now' + 20 <= now'' -> exists c'' o', cstep now'' v' CPingTimer c' = Some (c'', o') /\ attempts o'))).
Proof. intros now c tr R L. exact (retries _ _ _ R L). Qed.
Print Assumptions C50_retry_partial.

(** An attempt that is going on ends with an established link under keep-alive supervision, or with another attempt scheduled in a second. *)
Theorem C50_attempt_ends : forall now c tr now' v, creached willing now c tr -> c_link c = LConnecting -> willing v ->
  (exists c' o, cstep now' v CEstablished c = Some (c', o) /\ c_link c' = LUp /\ c_conn c' = true /\ c_pt c' = Some (now' + 20)) /\
  (exists c' o, cstep now' v CConnectFailed c = Some (c', o) /\ c_link c' = LClosed /\ c_ct c' = Some (now' + 1)).
Proof. intros now c tr now' v R L W. exact (attempt_ends _ _ _ _ _ R L W). Qed.
Print Assumptions C50_attempt_ends.

(** An established link has a keep-alive timer due within 20 seconds. If the peer has answered the last keep-alive, the next one is
    sent and the timer runs again; if not, the link is dropped and an attempt is made. *)
Theorem C50_keep_alive : forall now c tr, creached anything now c tr -> c_link c = LUp ->
  exists t, c_pt c = Some t /\ t <= now + 20 /\ forall now' v, t <= now' -> exists c' o, cstep now' v CPingTimer c = Some (c', o) /\
    (if answered tr then c_link c' = LUp /\ c_conn c' = true /\ o = [OQueue LUp IPing] /\ c_pt c' = Some (now' + 20)
     else exists o', o = OClose :: o' /\ attempts o' /\ c_conn c' = false).
Proof. intros now c tr R L. exact (keep_alive _ _ _ _ R L). Qed.
Print Assumptions C50_keep_alive.

(** Nothing is written to a socket that was queued while another socket or none was open, and messages are refused unless the
    link is established. Data is queued at an established link only; the exception is the keep-alive of a link that was closed because of
    an invalid control message (C50_ping_refuted), which is discarded before the next attempt. *)
Theorem C50_no_data_down : forall now c tr, creached anything now c tr ->
  (forall n m i, In (OWire n m i) (all_outs tr) -> n = m) /\
  (forall now' v g c' o, cstep now' v (CSend g) c = Some (c', o) -> o = if (match c_link c with LUp => true | _ => false end) then [OQueue LUp (IGsup g)] else [ORefused g]) /\
  (forall now' v e c' o l i, cstep now' v e c = Some (c', o) -> In (OQueue l i) o ->
     l = LUp \/ (i = IPing /\ e = CPingTimer /\ l = LClosed /\ c_link c = LClosed /\ answered tr = true)).
Proof.
  intros now c tr R. split; [|split].
  - intros n m i. exact (wire_ok _ _ _ _ _ _ _ R).
  - intros now' v g c' o H. pose proof (conn_link _ _ _ _ R) as E. cbn [cstep] in H. unfold osmo_gsup_client_send, conn_send in H.
    destruct (c_conn c) eqn:C, (c_link c) eqn:L; cbn in H; try (injection H as <- <-; reflexivity);
      first [discriminate (proj1 E eq_refl)|discriminate (proj2 E eq_refl)].
  - intros now' v e c' o l i. exact (queue_up _ _ _ _ _ _ _ _ _ _ _ R).
Qed.
Print Assumptions C50_no_data_down.

(** ** Concrete runs *)
Definition cv_ok : cenv := mk_cenv 0 (Some true) false.
Definition cv_rc (rc : Z) : cenv := mk_cenv rc (Some true) false.
Definition ex_run (l : list (Z * cenv * cevent)) : option (client * trace) := crun 100 cv_ok l.
Definition run_of (l : list (Z * cenv * cevent)) : client * trace := match ex_run l with Some x => x | None => (client0, []) end.
Lemma ex_reached (P : cenv -> Prop) l : ordered 100 l -> P cv_ok -> Forall (fun x => P (snd (fst x))) l -> (if ex_run l then true else false) = true ->
  creached P (last_time 100 l) (fst (run_of l)) (snd (run_of l)).
Proof.
  intros O P0 F H. exists 100, cv_ok, l. split; [exact O|]. split; [exact P0|]. split; [exact F|]. split; [|reflexivity].
  unfold run_of. unfold ex_run in *. destruct (crun 100 cv_ok l) as [[c tr]|]; [reflexivity|discriminate].
Qed.

Lemma willing_ok : willing cv_ok.
Proof. split; [discriminate|]. intros [X|[X|[X|[X|[]]]]]; discriminate. Qed.
Lemma willing_refused : willing (cv_rc (-111)).
Proof. split; [discriminate|]. intros [X|[X|[X|[X|[]]]]]; discriminate. Qed.
Ltac willing_all := repeat (apply Forall_cons; [first [exact willing_ok|exact willing_refused]|]); apply Forall_nil.

(** The client gives up when a later attempt fails with EINVAL (what libosmocore's osmo_sock_init2() returns if the address does
    not resolve) or three other errors: nothing ever happens again, although the user did not ask it to stop. *)
Definition gave_up : list (Z * cenv * cevent) := [(100, cv_ok, CEstablished); (150, cv_ok, CLost); (151, cv_rc (-22), CConnectTimer)].
Theorem C50_retry_refuted : exists now c tr, creached (fun v => v_cb v = Some true) now c tr /\ c_link c = LClosed /\
  (forall now' v e, (forall g, e <> CSend g) -> cstep now' v e c = None) /\
  (forall l c' tr', chist l c tr = Some (c', tr') -> exists more, tr' = tr ++ more /\ forall x, In x (all_outs more) -> exists g, x = ORefused g).
Proof.
  exists (last_time 100 gave_up), (fst (run_of gave_up)), (snd (run_of gave_up)). split; [|split; [|split]].
  - apply ex_reached; [cbn; lia|reflexivity|repeat constructor|vm_compute; reflexivity].
  - vm_compute. reflexivity.
  - intros now' v e N. assert (D : cdead (fst (run_of gave_up))) by (vm_compute; auto).
    destruct (cstep now' v e (fst (run_of gave_up))) as [[c' o]|] eqn:E; [|reflexivity].
    destruct (dead_step _ _ _ _ _ _ D E) as (_ & g & -> & _). destruct (N g eq_refl).
  - intros l c' tr' H. assert (D : cdead (fst (run_of gave_up))) by (vm_compute; auto). exact (proj2 (dead_hist l _ _ _ _ D H)).
Qed.
Print Assumptions C50_retry_refuted.

(** After a keep-alive was answered, an invalid control message closes the link; the keep-alive timer then queues a message at
    the closed link and the next attempt is put off by another 20 seconds. *)
Definition bad_ccm : list (Z * cenv * cevent) := [(100, cv_ok, CEstablished); (101, cv_ok, CPong); (102, cv_ok, CBadCcm); (120, cv_ok, CPingTimer)].
Theorem C50_ping_refuted : exists now c tr, creached willing now c tr /\ c_link c = LClosed /\
  In (OQueue LClosed IPing) (all_outs tr) /\ c_ct c = None /\ c_pt c = Some (now + 20).
Proof.
  exists (last_time 100 bad_ccm), (fst (run_of bad_ccm)), (snd (run_of bad_ccm)). split; [|split; [|split; [|split]]].
  - apply ex_reached; [cbn; lia|exact willing_ok|willing_all|vm_compute; reflexivity].
  - vm_compute. reflexivity.
  - vm_compute. auto 10.
  - vm_compute. reflexivity.
  - vm_compute. reflexivity.
Qed.
Print Assumptions C50_ping_refuted.

(** ** C51 *)
(** With a callback set: "up" is reported exactly when the link has been established, and "down" is never reported while it is up. A lost
    link and a failed attempt are always reported. *)
Theorem C51_reports_partial : forall now c tr now' v e c' o b, creached anything now c tr -> v_cb v = Some b -> cstep now' v e c = Some (c', o) ->
  (In (OUpDown true) o <-> e = CEstablished) /\
  (In (OUpDown false) o -> c_link c' <> LUp) /\
  (e = CLost \/ e = CConnectFailed -> In (OUpDown false) o) /\
  (c_link c <> LUp -> c_link c' = LUp -> In (OUpDown true) o).
Proof. intros now c tr now' v e c' o b R CB H. exact (reports _ _ _ _ _ _ _ _ _ _ R CB H). Qed.
Print Assumptions C51_reports_partial.

(** A link that is dropped because the keep-alive was not answered is not reported: the user is told "up" twice. The same after an
    invalid control message. And one loss of a link is reported once more for each attempt to reconnect. *)
Definition no_pong : list (Z * cenv * cevent) := [(100, cv_ok, CEstablished); (120, cv_ok, CPingTimer); (121, cv_ok, CEstablished)].
Definition told (tr : trace) : list bool := flat_map (fun o => match o with OUpDown b => [b] | _ => [] end) (all_outs tr).
Definition lost_once : list (Z * cenv * cevent) := [(100, cv_ok, CEstablished); (105, cv_ok, CLost); (106, cv_rc (-111), CConnectTimer); (107, cv_rc (-111), CConnectTimer)].
Theorem C51_reports_refuted :
  (exists now c tr, creached willing now c tr /\ In OClose (all_outs tr) /\ told tr = [true; true]) /\
  (exists now c tr, creached willing now c tr /\ told tr = [true; false; false; false] /\ length (filter (fun o => match o with OClose => true | _ => false end) (all_outs tr)) = 1%nat).
Proof.
  split.
  - exists (last_time 100 no_pong), (fst (run_of no_pong)), (snd (run_of no_pong)). split; [|vm_compute; auto 10].
    apply ex_reached; [cbn; lia|exact willing_ok|willing_all|vm_compute; reflexivity].
  - exists (last_time 100 lost_once), (fst (run_of lost_once)), (snd (run_of lost_once)). split; [|vm_compute; auto 10].
    apply ex_reached; [cbn; lia|exact willing_ok|willing_all|vm_compute; reflexivity].
Qed.
Print Assumptions C51_reports_refuted.

(** ** Cases *)
(** a history with a refused connect, an established link with messages in both directions and an answered keep-alive, an unanswered one, and a lost
    link *)
Definition long_run : list (Z * cenv * cevent) :=
  [ (100, cv_ok, CSend 1%nat); (100, cv_ok, CConnectFailed); (101, cv_ok, CConnectTimer); (101, mk_cenv 0 (Some true) true, CEstablished);
    (102, cv_ok, CSend 2%nat); (102, cv_ok, CWrite); (102, cv_ok, CPong); (103, cv_ok, CRxGsup 3%nat); (121, cv_ok, CPingTimer); (141, cv_ok, CPingTimer);
    (142, cv_ok, CSend 4%nat); (143, cv_ok, CEstablished); (144, cv_ok, CWrite); (150, cv_ok, CLost); (151, cv_rc (-111), CConnectTimer) ].
Example C50_case : all_outs (snd (run_of long_run)) =
  [ OOpen; ORefused 1%nat; OClose; OUpDown false; OUpDown false; OOpen; OQueue LUp IPing; OQueue LUp IOap; OUpDown true;
    OQueue LUp (IGsup 2); OWire 2 2 IPing; ORead 3%nat; OQueue LUp IPing; OClose; OOpen; ORefused 4%nat; OQueue LUp IPing; OUpDown true; OWire 3 3 IPing;
    OClose; OUpDown false; OUpDown false; OOpenFailed (-111) ]
  /\ attempt_times (snd (run_of long_run)) = [100; 101; 141; 151]
  /\ c_ct (fst (run_of long_run)) = Some 152 /\ pending (fst (run_of long_run)) = 1%nat.
Proof. vm_compute. auto. Qed.
(** an orderly history of C51: each loss of an established link that the read or write side notices is told, then the retries *)
Definition told_run : list (Z * cenv * cevent) :=
  [(100, cv_ok, CEstablished); (105, cv_ok, CLost); (106, cv_ok, CConnectTimer); (107, cv_ok, CEstablished); (108, cv_ok, CLost)].
Example C51_case : told (snd (run_of told_run)) = [true; false; false; true; false] /\ c_link (fst (run_of told_run)) = LClosed
  /\ (forall b, v_cb cv_ok = Some b -> b = true).
Proof. vm_compute. split; [reflexivity|]. split; [reflexivity|]. intros b H. now injection H. Qed.
