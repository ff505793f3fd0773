(** C35, C36 the lookup client: theorems and cases. *)
From Verif Require Import Base MsLookup Mdns MsClient MsClientSpec MsClientThms MsClientThms2.
Local Open Scope N_scope.

(** the states of [creach] are those of all runs with less than 2^32 requests, and more *)
Theorem C35_runs : forall l s, crun c_init l = Val s -> reqs_in l <= 4294967295 -> creach s.
Proof. exact creach_short. Qed.
Print Assumptions C35_runs.
(** notes are told of a request only after its start, and each request starts once *)
Theorem C35_started_partial : forall s a n b, creach s -> c_trace s = a ++ n :: b ->
  match n with TStart u _ _ _ _ => forall m, In m b -> note_uid m <> u | _ => exists q mn tm t0, In (TStart (note_uid n) q mn tm t0) b end.
Proof. exact c35_started. Qed.
Print Assumptions C35_started_partial.
(** at most one final call; nothing but a cancellation, which the final callback itself may ask for, follows it *)
Theorem C35_one_end_partial : forall s a u rc x t b, creach s -> c_trace s = a ++ TCall u rc x true t :: b ->
  ~ final_call u b /\ ~ cancelled u b /\ forall n, In n a -> note_uid n = u -> exists t', n = TCancel u t'.
Proof. exact c35_one_end. Qed.
Print Assumptions C35_one_end_partial.
(** nothing follows a cancellation *)
Theorem C35_cancel_partial : forall s a u t b, creach s -> c_trace s = a ++ TCancel u t :: b -> forall n, In n a -> note_uid n <> u.
Proof. exact c35_cancel. Qed.
Print Assumptions C35_cancel_partial.
(** a request that is gone had its final call, unless the user cancelled it *)
Theorem C35_ended_partial : forall s u q mn tm t0, creach s -> In (TStart u q mn tm t0) (c_trace s) -> open u s \/ final_call u (c_trace s) \/ cancelled u (c_trace s).
Proof. exact c35_ended. Qed.
Print Assumptions C35_ended_partial.
(** a request that is open gets its final call by its timer, which comes up at most twice *)
Theorem C35_ends_partial : forall s u q mn tm t0 ms ms', creach s -> c_stack s = [] -> open u s -> In (TStart u q mn tm t0) (c_trace s) -> mn + tm <= ms -> mn + tm <= ms' ->
  exists s', crun s [CTick ms; CTimer u; CReturn; CTick ms'; CTimer u; CReturn] = Val s' /\ ~ open u s' /\ final_call u (c_trace s').
Proof. exact c35_ends. Qed.
Print Assumptions C35_ends_partial.
(** ages of delivered results strictly decrease *)
Theorem C35_ages_partial : forall s a u rc x l t b y l' t', creach s -> c_trace s = a ++ TCall u rc x l t :: b -> In (TCall u RcResult y l' t') a -> rc = RcResult /\ lr_age y < lr_age x.
Proof. exact c35_ages. Qed.
Print Assumptions C35_ages_partial.
(** a result of age 0 is at once told in the final call *)
Theorem C35_age0_partial : forall s a u q x t b, creach s -> c_trace s = a ++ TRes u q RcResult x t :: b -> lr_age x = 0 -> exists a', a = a' ++ [TCall u RcResult x true t].
Proof. exact c35_age0. Qed.
Print Assumptions C35_age0_partial.
(** no call before the minimum delay, unless for a result of age 0 *)
Theorem C35_min_partial : forall s u rc x l t q mn tm t0, creach s -> In (TCall u rc x l t) (c_trace s) -> In (TStart u q mn tm t0) (c_trace s) -> (rc = RcResult /\ lr_age x = 0) \/ t0 + mn <= t.
Proof. exact c35_min. Qed.
Print Assumptions C35_min_partial.
(** what the final call says: not found exactly without any result *)
Theorem C35_final_partial : forall s a u rc x t b q mn tm t0, creach s -> c_trace s = a ++ TCall u rc x true t :: b -> In (TStart u q mn tm t0) (c_trace s) ->
  match rc with
  | RcNotFound => (forall q' y t', ~ In (TRes u q' RcResult y t') b) /\ t0 + tm <= t
  | RcNone => (exists y t', In (TCall u RcResult y false t') b) /\ t0 + tm <= t
  | RcResult => (exists q' t', In (TRes u q' RcResult x t') b) /\ (lr_age x = 0 \/ (tm <= mn /\ t0 + mn <= t))
  end.
Proof. exact c35_final. Qed.
Print Assumptions C35_final_partial.
(** other calls tell a result that came in, and only to a user that waits longer *)
Theorem C35_result_partial : forall s a u rc x t b q mn tm t0, creach s -> c_trace s = a ++ TCall u rc x false t :: b -> In (TStart u q mn tm t0) (c_trace s) ->
  rc = RcResult /\ lr_age x <> 0 /\ mn < tm /\ exists q' t', In (TRes u q' RcResult x t') b.
Proof. exact c35_partial_result. Qed.
Print Assumptions C35_result_partial.
(** at the end, the user was told the best of the results *)
Theorem C35_best_partial : forall s a u rc x t b q' y t', creach s -> c_trace s = a ++ TCall u rc x true t :: b -> In (TRes u q' RcResult y t') b ->
  exists z l t1, In (TCall u RcResult z l t1) (c_trace s) /\ lr_age z <= lr_age y.
Proof. exact c35_best. Qed.
Print Assumptions C35_best_partial.
(** an answer from the network concerns only requests for the same service and subscriber, and is taken by one if there is one *)
Theorem C35_own_partial : forall s q x s' n, creach s -> lq_type q <> IdNone -> cstep s (CAnswer q x) = Val s' -> In n (c_trace s') ->
  In n (c_trace s) \/ exists mn tm t0, In (TStart (note_uid n) q mn tm t0) (c_trace s).
Proof. exact c35_own. Qed.
Print Assumptions C35_own_partial.
Theorem C35_taken_partial : forall s q x u mn tm t0, creach s -> c_stack s = [] -> lq_type q <> IdNone -> open u s -> In (TStart u q mn tm t0) (c_trace s) ->
  exists s' v, cstep s (CAnswer q x) = Val s' /\ open v s /\ In (TRes v q RcResult x (c_now s)) (c_trace s').
Proof. exact c35_taken. Qed.
Print Assumptions C35_taken_partial.
(** after 2^32 requests a request that is still open is ended at time 0 by a final call that says neither result nor not found *)
Theorem C35_wrap_refuted : exists l s x, crun c_init l = Val s /\ In (TStart 0 wq 0 500 0) (c_trace s) /\ In (TCall 0 RcNone x true 0) (c_trace s) /\ forall q rc y t, ~ In (TRes 0 q rc y t) (c_trace s).
Proof. exact c35_wrap. Qed.
Print Assumptions C35_wrap_refuted.

(** two requests, one with a minimum delay; the first gets three results, the last of them of age 0, the second none in time *)
Definition cl_q1 : query := mk_query "gsup.hlr" IdImsi "901700000014705".
Definition cl_q2 : query := mk_query "sip.voice" IdMsisdn "1234".
Definition cl_age (a : N) : lresult := mk_result (Some ([10; 0; 0; 1], 4222)) None a.
Definition cl_run : list cev :=
  [CRequest cl_q1 100 900; CRequest cl_q2 0 300; CTick 10; CAnswer cl_q1 (cl_age 80); CTick 90; CTimer 0; CReturn; CTick 50; CAnswer cl_q1 (cl_age 90); CAnswer cl_q1 (cl_age 7); CReturn;
   CTick 200; CTimer 1; CReturn; CAnswer cl_q1 (cl_age 0); CReturn; CAnswer cl_q1 (cl_age 0); CAnswer cl_q2 (cl_age 0)].
Definition cl_end : cst := match crun c_init cl_run with Val s => s | Bad => c_init end.
Example C35_case : crun c_init cl_run = Val cl_end /\ filter (fun n => match n with TCall _ _ _ _ _ => true | _ => false end) (rev (c_trace cl_end)) =
  [TCall 0 RcResult (cl_age 80) false 100; TCall 0 RcResult (cl_age 7) false 150; TCall 1 RcNotFound (mk_result None None 0) true 350; TCall 0 RcResult (cl_age 0) true 350].
Proof. vm_compute. split; reflexivity. Qed.
Example C35_case_reached : creach cl_end.
Proof. apply (creach_short cl_run); [apply C35_case|vm_compute; discriminate]. Qed.
(** the first request is open here *)
Definition cl_mid : cst := match crun c_init (firstn 11 cl_run) with Val s => s | Bad => c_init end.
Example C35_case_open : creach cl_mid /\ c_stack cl_mid = [] /\ open 0 cl_mid /\ open 1 cl_mid /\ In (TStart 0 cl_q1 100 900 0) (c_trace cl_mid).
Proof. split; [apply (creach_short (firstn 11 cl_run)); vm_compute; [reflexivity|discriminate]|]. vm_compute. split; [reflexivity|]. split; [eexists; split; [left; reflexivity|reflexivity]|]. split; [eexists; split; [right; left; reflexivity|reflexivity]|]. auto 10. Qed.

(** C36: a request is freed while its timer function runs, which then uses it *)
Theorem C36_refuted : exists q x, crun c_init [CRequest q 100 500; CResult 1 RcResult x; CTick 100; CTimer 0; CCancel 1; CReturn] = Bad.
Proof. exists cl_q1, (cl_age 7). vm_compute. reflexivity. Qed.
Print Assumptions C36_refuted.
(** this is the only case: the callback of the end of the minimum delay cancels its request, which was to go on *)
Theorem C36_only_partial : forall s e, creach s -> cstep s e = Bad ->
  e = CReturn /\ exists h u ms q mn tm t0, c_stack s = [mk_frame h false (ATimer u ms)] /\ In (TStart u q mn tm t0) (c_trace s) /\ 0 < mn /\ mn < tm /\ cancelled u (c_trace s).
Proof. exact c36_bad. Qed.
Print Assumptions C36_only_partial.
Theorem C36_safe_partial : forall s e, creach s -> (forall u q mn tm t0, In (TStart u q mn tm t0) (c_trace s) -> mn = 0 \/ tm <= mn) -> cstep s e <> Bad.
Proof. exact c36_safe. Qed.
Print Assumptions C36_safe_partial.
(** the HLR itself asks for no timeout beyond the minimum delay (dgsm.c:150-153): it is not concerned *)
Theorem C36_hlr_partial : forall s e, reach_hlr s -> cstep s e <> Bad.
Proof. exact c36_hlr. Qed.
Print Assumptions C36_hlr_partial.
Example C36_case : exists s, crun c_init [CRequest cl_q1 100 0; CResult 1 RcResult (cl_age 7); CTick 100; CTimer 0; CCancel 1; CRequest cl_q1 0 0; CReturn] = Val s /\
  rev (c_trace s) = [TStart 0 cl_q1 100 100 0; TRes 0 cl_q1 RcResult (cl_age 7) 0; TCall 0 RcResult (cl_age 7) true 100; TCancel 0 100; TStart 1 cl_q1 0 1000 100] /\ map q_uid (c_reqs s) = [1].
Proof. eexists. vm_compute. repeat split. Qed.
