(** C75 the load test client: theorems and cases. *)
From Verif Require Import Base Gsup Client CtrlSpec TestClient TestSpec TestThms TestThms2 TestThms3 TestThms4.
Local Open Scope Z_scope.

(** Whatever the server sends, whenever and however the link comes and goes, no null pointer and no freed memory is read. Two places
    depend on it: req_loc_upd() on there being one location update per IMSI, resp_isd() on the connection being up whenever
    something is read. *)
Theorem C75_safe : forall enc now rc l, trun enc l (tstart now rc) [] <> Some TUb.
Proof. intros enc now rc l H. pose proof (run_inv enc l _ _ (start_inv enc now rc)) as R. rewrite H in R. exact R. Qed.
Print Assumptions C75_safe.

(** What is made of each event depends on the history only and is as in TestSpec.v. *)
Theorem C75_exact : forall enc s tr e r, treached enc s tr -> tstep enc e s = Some r ->
  exists s' o, r = TOk (s', o) /\ made enc tr (match t_gc s with Some c => c_conn c | None => false end) e o.
Proof. exact made_step. Qed.
Print Assumptions C75_exact.

(** Authentication info is asked for once for each IMSI from 901790000000000 on, at most 10000, in their order. *)
Theorem C75_asks : forall enc s tr, treached enc s tr -> (length (tried 8 tr) <= N.to_nat 10000)%nat /\ NoDup (tried 8 tr) /\
  forall k x, nth_error (tried 8 tr) k = Some x -> imsi_of (N.of_nat k) x.
Proof. exact asks. Qed.
Print Assumptions C75_asks.

(** A location update is asked for at most once for an IMSI, and only when an answer for it comes, result or error, after its authentication
    info was asked for. *)
Theorem C75_updates_partial : forall enc s tr, treached enc s tr -> NoDup (tried 4 tr) /\
  forall x, In x (tried 4 tr) -> exists a e o b, tr = a ++ (e, o) :: b /\ In x (tried 8 a) /\ ~ In x (tried 4 a) /\ sai_answer x e /\ In x (tried_out 4 o).
Proof.
  intros enc s tr R. split; [exact (v_once _ _ _ (reached_inv _ _ _ R))|]. intros x M. destruct (updates _ _ _ R x M) as (a & e & o & b & H & [A B] & C & D).
  exists a, e, o, b. auto 10.
Qed.
Print Assumptions C75_updates_partial.

(** Every Insert Data with an IMSI is answered with a result for that IMSI if that can be encoded. *)
Theorem C75_inserts_partial : forall enc s tr x r, treached enc s tr -> x <> ""%string -> enc 18 x = true -> tstep enc (TRx (Some (x, 16))) s = Some r ->
  exists s' n, r = TOk (s', [TSend n 18 x true; TFreed]).
Proof.
  intros enc s tr x r R N E H. destruct (made_step _ _ _ _ _ R H) as (s' & o & -> & M).
  inversion M as [|now rc ev o1|y t o1 K A U O|y t K A U|y n N' K U|y N' K S| |t|y t K A|y t K A|y S|y t NI]; subst; try (destruct K; discriminate); try congruence.
  - eauto.
  - destruct S as (_ & S & _). congruence.
  - destruct NI. cbn. auto 10.
Qed.
Print Assumptions C75_inserts_partial.

(** The counters say what happened: operations begun, answers taken by their type, operations ended. Those of authentication info and location
    updates cannot overflow; those of Insert Data are modulo 2^32. *)
Theorem C75_counters : forall enc s tr, treached enc s tr ->
  t_sai s = mk_stats (N.of_nat (length (tried 8 tr))) (N.of_nat (handled [9; 10] tr)) (N.of_nat (handled [10] tr)) (N.of_nat (handled [9] tr)) 0 /\
  t_lu s = mk_stats (N.of_nat (length (tried 4 tr))) (N.of_nat (handled [5; 6] tr)) (N.of_nat (handled [6] tr)) (N.of_nat (handled [5] tr)) 0 /\
  counts (n_alloc (t_isd s)) (handled [16] tr) /\ counts (n_released (t_isd s)) (length (given 18 tr)) /\ counts (n_success (t_isd s)) (handled [16] tr) /\
  n_error (t_isd s) = 0%N /\ n_timeout (t_isd s) = 0%N.
Proof. intros enc s tr R. destruct (counters _ _ _ R) as (A & B & C & D & E & F & G & _). auto 10. Qed.
Print Assumptions C75_counters.

(** What was begun and has not ended is what is in the list, each operation once: those that wait for an answer, and those whose answer
    could not be encoded. *)
Theorem C75_open : forall enc s tr, treached enc s tr -> NoDup (t_ops s) /\
  (forall x, In (mk_op x OpSai) (t_ops s) <-> awaits_info x tr) /\ (forall x, In (mk_op x OpLu) (t_ops s) <-> awaits_update x tr) /\
  (forall x, In (mk_op x OpIsd) (t_ops s) <-> stuck_insert enc x tr) /\
  length (tried 8 tr) = (handled [9; 10]%Z tr + length (filter (fun o => op_eqb (p_type o) OpSai) (t_ops s)))%nat /\
  length (tried 4 tr) = (handled [5; 6]%Z tr + length (filter (fun o => op_eqb (p_type o) OpLu) (t_ops s)))%nat.
Proof. intros enc s tr R. apply reached_inv in R. destruct R. repeat (split; [assumption|]). assumption. Qed.
Print Assumptions C75_open.

(** The first request is made before the program has waited for its connection, and so is always refused (or not encoded). *)
Theorem C75_first_refuted : forall enc now rc e l s tr, trun enc (e :: l) (tstart now rc) [] = Some (TOk (s, tr)) ->
  exists x o more, tr = (TAsk, o) :: more /\ imsi_of 0 x /\ one_try enc 8 x false o.
Proof. exact first_refused. Qed.
Print Assumptions C75_first_refuted.

(** An operation that gets no answer never ends: its timer is not started. With C75_asks, it is also never tried again. *)
Theorem C75_forever_refuted : forall enc s tr x, treached enc s tr -> In x (tried 8 tr) -> (forall y, In y tr -> ~ sai_answer x (fst y)) ->
  In (mk_op x OpSai) (t_ops s) /\ n_timeout (t_sai s) = 0%N.
Proof. intros enc s tr x R T N. split; [exact (open_forever _ _ _ _ R T N)|]. destruct (counters _ _ _ R) as (-> & _). reflexivity. Qed.
Print Assumptions C75_forever_refuted.

(** An error instead of authentication info is followed by a location update as well. *)
Theorem C75_error_refuted : forall enc s tr x r, treached enc s tr -> awaits_info x tr -> tstep enc (TRx (Some (x, 9))) s = Some r ->
  exists s' o, r = TOk (s', o ++ [TFreed]) /\ one_try enc 4 x true o.
Proof.
  intros enc s tr x r R A H. destruct (made_step _ _ _ _ _ R H) as (s' & o & -> & M).
  inversion M as [|now rc ev o1|y t o1 K A' U O|y t K A' U|y n N' K U|y N' K S| |t E|y t K A'|y t K A'|y S|y t NI]; subst; try (destruct K; discriminate); try contradiction.
  - eauto.
  - exfalso. destruct A as [A _]. now apply (nonempty_asked _ _ _ _ (reached_inv _ _ _ R)) in A.
  - destruct NI. cbn. auto 10.
Qed.
Print Assumptions C75_error_refuted.

(** The buffer of a message is freed exactly if the message belongs to an operation; all others stay in memory. *)
Theorem C75_buffers_refuted : forall enc s tr m r, treached enc s tr -> tstep enc (TRx m) s = Some r ->
  exists s' o, r = TOk (s', o) /\
    (In TFreed o <-> exists x t, m = Some (x, t) /\ ((t = 9 \/ t = 10) /\ awaits_info x tr \/ (t = 5 \/ t = 6) /\ awaits_update x tr \/ t = 16 /\ x <> ""%string /\ ~ stuck_insert enc x tr)) /\
    (In TKept o <-> ~ In TFreed o).
Proof.
  intros enc s tr m r R H. destruct (made_step _ _ _ _ _ R H) as (s' & o & -> & M). exists s', o. split; [reflexivity|].
  assert (NE : forall x, awaits_info x tr -> x <> ""%string) by (intros x [A _]; exact (nonempty_asked _ _ _ _ (reached_inv _ _ _ R) A)).
  assert (NE2 : forall x, awaits_update x tr -> x <> ""%string).
  { intros x A. apply awaits_tried in A. apply (v_sub _ _ _ (reached_inv _ _ _ R)) in A. exact (nonempty_asked _ _ _ _ (reached_inv _ _ _ R) A). }
  inversion M as [|now rc ev o1|y t o1 K A U O|y t K A U|y n N' K U|y N' K S| |t E|y t K A|y t K A|y S|y t NI]; subst.
  - split.
    + split; [|intros _; apply in_or_app; right; now left]. intros _. exists y, t. auto.
    + split; [|intros N; destruct N; apply in_or_app; right; now left]. intros I. exfalso. unfold one_try in O. apply in_app_or in I as [I|[I|[]]]; [|discriminate].
      destruct (enc 4 y); [destruct O as [n ->]|subst o1]; destruct I as [I|[]]; discriminate.
  - split; [split; [|now left]|split; [intros [I|[]]; discriminate|intros N; destruct N; now left]]. intros _. exists y, t. auto.
  - split; [split; [|cbn; auto]|split; [intros [I|[I|[]]]; discriminate|intros N; destruct N; cbn; auto]]. intros _. exists y, 16. split; auto. right. right. split; auto. split; auto.
    intros (_ & X & _). congruence.
  - split; [split; [|cbn; auto]|split; [intros [I|[I|[]]]; discriminate|intros N; destruct N; cbn; auto]]. intros _. exists y, 16. split; auto.
  - split; [|split; [intros _ [I|[]]; discriminate|now left]]. split; [intros [I|[]]; discriminate|]. intros (x & t & [=] & _).
  - split; [|split; [intros _ [I|[]]; discriminate|now left]]. split; [intros [I|[]]; discriminate|]. intros (x & t' & Q & C). exfalso. assert (x = ""%string) by congruence. subst x.
    destruct C as [[_ C]|[[_ C]|[_ [C _]]]]; [now apply NE in C|now apply NE2 in C|congruence].
  - split; [|split; [intros _ [I|[]]; discriminate|now left]]. split; [intros [I|[]]; discriminate|]. intros (x & t' & Q & C). assert (x = y) by congruence. assert (t' = t) by congruence. subst x t'.
    destruct C as [[_ C]|[[C _]|[C _]]]; [contradiction|destruct K; lia|destruct K; lia].
  - split; [|split; [intros _ [I|[]]; discriminate|now left]]. split; [intros [I|[]]; discriminate|]. intros (x & t' & Q & C). assert (x = y) by congruence. assert (t' = t) by congruence. subst x t'.
    destruct C as [[C _]|[[_ C]|[C _]]]; [destruct K; lia|contradiction|destruct K; lia].
  - split; [|split; [intros _ [I|[]]; discriminate|now left]]. split; [intros [I|[]]; discriminate|]. intros (x & t' & Q & C). assert (x = y) by congruence. assert (t' = 16) by congruence. subst x t'.
    destruct C as [[C _]|[[C _]|[_ [_ C]]]]; [lia|lia|contradiction].
  - split; [|split; [intros _ [I|[]]; discriminate|now left]]. split; [intros [I|[]]; discriminate|]. intros (x & t' & Q & C). exfalso. assert (t' = t) by congruence. subst t'. apply NI. cbn.
    destruct C as [[C _]|[[C _]|[C _]]]; lia.
Qed.
Print Assumptions C75_buffers_refuted.

(** If the socket cannot even be opened in one of the four ways of C50, the program goes on without a client and nothing is ever sent or received. *)
Theorem C75_no_client_refuted : forall enc now rc l s tr, In rc [-9; -88; -97; -22] -> trun enc l (tstart now rc) [] = Some (TOk (s, tr)) ->
  Forall (fun e => e = TAsk) l /\ forall n t x, ~ In (TSend n t x true) (flat_map snd tr).
Proof.
  intros enc now rc l s tr F.
  assert (G : t_gc (tstart now rc) = None). { destruct F as [<-|[<-|[<-|[<-|[]]]]]; reflexivity. }
  pose proof (start_inv enc now rc) as V. assert (Q : forall n t x, ~ In (TSend n t x true) (flat_map snd (@nil (tevent * list tout)))) by (intros n t x []).
  revert G V Q. generalize (tstart now rc). generalize (@nil (tevent * list tout)). clear F now rc.
  induction l as [|e l IH]; intros tr0 s0 G V Q H; cbn [trun] in H.
  - injection H as <- <-. split; [constructor|exact Q].
  - destruct (tstep enc e s0) as [r|] eqn:E; [|discriminate]. destruct (step_all _ _ _ _ _ V E) as (s1 & o & -> & M & V1).
    assert (e = TAsk) as ->. { destruct e as [|n c ev|m]; auto; cbn [tstep] in E; rewrite G in E; [destruct ev; discriminate|discriminate]. }
    assert (G1 : t_gc s1 = None).
    { cbn [tstep] in E. destruct (t_i s0 <? 10000)%N; [|discriminate]. injection E as E. unfold request in E. destruct (imsi_op_alloc _ _ _) as [[io s2]|] eqn:A; [|discriminate].
      assert (G2 : t_gc s2 = None). { unfold imsi_op_alloc in A. destruct (imsi_op_find _ _ _); [discriminate|]. assert (Z : forall (a b : op * tc), Some a = Some b -> snd a = snd b) by congruence. apply Z in A. cbn [snd] in A. subst s2. destruct s0. exact G. }
      unfold encode_send, send in E. destruct (enc _ _); [|congruence]. destruct s2. cbn in G2. subst. cbn in E. injection E as <- <-. reflexivity. }
    apply IH in H as [A B]; auto. intros n t x I. rewrite flat_map_app in I. apply in_app_or in I as [I|I]; [now apply Q in I|]. cbn in I. rewrite app_nil_r in I.
    inversion M as [y o1 K O| | | | | | | | | | |]; subst. unfold is_up in O. rewrite G in O. unfold one_try in O.
    destruct (enc 8 y); [destruct O as [k ->]|subst o]; destruct I as [I|[]]; discriminate.
Qed.
Print Assumptions C75_no_client_refuted.

(** ** Cases *)
Definition enc_all (t : Z) (x : string) : bool := true.
Definition test_run (l : list tevent) : option (tres (tc * ttrace)) := trun enc_all l (tstart 0 0) [].
Definition imsi0 : string := "901790000000000".
Definition imsi1 : string := "901790000000001".
(** The first request is refused, the second answered and followed by a location update and data; a second answer for the same
    IMSI, a message for another one and an unknown type are left in memory; the first operation is still open at the end. *)
Definition ordinary : list tevent :=
  [TAsk; TLink 0 0 CEstablished; TAsk; TRx (Some (imsi1, 10)); TRx (Some (imsi1, 16)); TRx (Some (imsi1, 6)); TRx (Some (imsi1, 10)); TRx (Some (imsi0, 6)); TRx (Some (imsi1, 28)); TRx None].
Example C75_case : match test_run ordinary with
  | Some (TOk (s, tr)) =>
      map snd tr = [ [TSend 0 8 imsi0 false]; [TClient [OQueue LUp IPing]]; [TSend 1 8 imsi1 true]; [TSend 2 4 imsi1 true; TFreed]; [TSend 3 18 imsi1 true; TFreed]; [TFreed]; [TKept]; [TKept]; [TKept]; [TKept] ] /\
      t_ops s = [mk_op imsi0 OpSai] /\ t_sai s = mk_stats 2 1 1 0 0 /\ t_lu s = mk_stats 1 1 1 0 0 /\ t_isd s = mk_stats 1 1 1 0 0 /\
      awaits_info imsi0 tr /\ ~ awaits_info imsi1 tr
  | _ => False
  end.
Proof. vm_compute. repeat (split; [reflexivity|]). split; [split; [auto|intros [X|[]]; discriminate]|]. intros [_ N]. apply N. auto. Qed.
(** An IMSI that cannot be encoded: its operation stays, and later data for it is left in memory. *)
Example C75_stuck_case : match trun (fun t x => negb (x =? "12*")%string) [TAsk; TLink 0 0 CEstablished; TRx (Some ("12*"%string, 16)); TRx (Some ("12*"%string, 16))] (tstart 0 0) [] with
  | Some (TOk (s, tr)) => map snd tr = [ [TSend 0 8 imsi0 false]; [TClient [OQueue LUp IPing]]; [TLost 18 "12*"; TFreed]; [TKept] ] /\ t_ops s = [mk_op "12*" OpIsd; mk_op imsi0 OpSai]
  | _ => False
  end.
Proof. vm_compute. auto. Qed.
(** A server that answers what was never sent to it: an error for the first IMSI, after which a location update is asked for. *)
Example C75_error_case : match test_run [TAsk; TLink 0 0 CEstablished; TRx (Some (imsi0, 9)); TLink 5 0 CLost; TAsk; TLink 6 (-111) CConnectTimer] with
  | Some (TOk (s, tr)) => map snd tr = [ [TSend 0 8 imsi0 false]; [TClient [OQueue LUp IPing]]; [TSend 1 4 imsi0 true; TFreed]; [TClient [OClose]]; [TSend 2 8 imsi1 false]; [TClient [OOpenFailed (-111)]] ] /\
      t_ops s = [mk_op imsi1 OpSai; mk_op imsi0 OpLu] /\ t_sai s = mk_stats 2 1 0 1 0
  | _ => False
  end.
Proof. vm_compute. auto. Qed.
(** Without a client: every request is refused. *)
Example C75_no_client_case : match trun enc_all [TAsk; TAsk] (tstart 0 (-22)) [] with
  | Some (TOk (s, tr)) => t_gc s = None /\ map snd tr = [ [TSend 0 8 imsi0 false]; [TSend 1 8 imsi1 false] ]
  | _ => False
  end.
Proof. vm_compute. auto. Qed.
