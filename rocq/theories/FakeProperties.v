(** C76: the fake lookup method gives each prepared response once, to the right request, not too early. *)
From Verif Require Import Base MsLookup Mdns MsClient FakeMethod FakeSpec FakeThms FakeThms2 FakeThms3.
From Coq Require Import Sorted.
Local Open Scope Z_scope.

(** Whatever is asked, cancelled and answered, whatever the client does meanwhile and whatever the clock shows: every response that is
    given is one of the table, not given before, for a request that was made, for its service and subscriber, and late enough; and it
    is the first of the table of this kind. *)
Theorem C76_right_response : forall table es s,
  resps_normal table -> Forall ev_normal es -> frun (add_fake table) es = FOk s -> log_ok table (f_log s).
Proof. exact c76_log. Qed.
Print Assumptions C76_right_response.

(** no response is given twice *)
Theorem C76_once : forall table es s,
  resps_normal table -> Forall ev_normal es -> frun (add_fake table) es = FOk s ->
  forall i a u h t b u' h' t' c, f_log s <> a ++ FAnswered i u h t :: b ++ FAnswered i u' h' t' :: c.
Proof. exact c76_once. Qed.
Print Assumptions C76_once.

(** When the timer fires: each request is given at most one response, in the order in which they were made; and every request that is
    there before and after was given one, or no response that is left is for it and due. *)
Theorem C76_tick : forall table es s now script s',
  resps_normal table -> Forall ev_normal es -> ev_normal (ETick now script) ->
  frun (add_fake table) es = FOk s -> tick now script s = FOk s' ->
  exists new, f_log s' = new ++ f_log s /\ StronglySorted (fun a b => (b < a)%N) (answers new) /\
    forall r, In r (f_reqs s) -> In r (f_reqs s') -> In (r_uid r) (answers new) \/ ~ waits_for now r s'.
Proof. exact c76_tick. Qed.
Print Assumptions C76_tick.

(** Freed memory is used by a method that still exists only if, while the client was given one of the results, it ended another request
    than the one the result was for, or freed the client. *)
Theorem C76_safe : forall table es s now script s',
  frun (add_fake table) es = FOk s -> f_alive s = true -> tick now script s = FBad s' ->
  exists new, f_log s' = new ++ f_log s /\
  exists k h, nth_error (answer_handles new) k = Some h /\ ~ own_only h (nth k script []).
Proof. exact c76_safe. Qed.
Print Assumptions C76_safe.

(** the loops end *)
Theorem C76_ends : forall table es, frun (add_fake table) es <> FFuel.
Proof. exact c76_ends. Qed.
Print Assumptions C76_ends.

(** ** What goes wrong *)
(** a callback that cancels the request after its own makes the loop go on with freed memory, always *)
Theorem C76_cancel_next_refuted : forall table es s a b rest now,
  resps_normal table -> Forall ev_normal es -> normal now ->
  frun (add_fake table) es = FOk s -> f_alive s = true -> f_reqs s = a :: b :: rest -> r_handle a <> r_handle b -> waits_for now a s ->
  exists s', tick now [[MCleanup (r_handle b)]] s = FBad s'.
Proof. exact c76_next. Qed.
Print Assumptions C76_cancel_next_refuted.

(** the timer outlives the method: after the client (or the method) was freed it fires on freed memory, always *)
Theorem C76_freed_refuted : forall table es s now script, frun (add_fake table) es = FOk s ->
  exists s', frun s [ECall MFree; ETick now script] = FBad s'.
Proof. exact c76_freed. Qed.
Print Assumptions C76_freed_refuted.

(** ** Cases *)
Definition ex_q (id : string) : query := mk_query "hlr.gsup" IdImsi id.
Definition ex_resp (sec usec : Z) (id : string) (age : N) : fresp := mk_resp (mk_tv sec usec) (ex_q id) RcResult (mk_result None None age) false.
Definition ex_table : list fresp :=
  [ex_resp 1 0 "901700000000014" 5; ex_resp 0 500000 "901700000000014" 3; ex_resp 0 0 "901700000000023" 0; ex_resp 0 0 "901700000000014" 0].
Definition at_ (sec usec : Z) : timeval := mk_tv sec usec.
(** two requests for one subscriber and one for another; the client ends the request with handle 3 when it is given its result; the first
    response of the table is not due before one second has passed *)
Definition ex_evs : list fev :=
  [ECall (MRequest 1 (ex_q "901700000000014") (at_ 10 900000)); ECall (MRequest 2 (ex_q "901700000000014") (at_ 11 0));
   ECall (MRequest 3 (ex_q "901700000000023") (at_ 11 0)); ETick (at_ 11 400000) [[]; []; [MCleanup 3]];
   ETick (at_ 11 900000) [[MRequest 4 (ex_q "901700000000014") (at_ 11 900000)]]; ECall (MCleanup 1); ECall (MCleanup 9)].
Example C76_case_hyps : resps_normal ex_table /\ Forall ev_normal ex_evs.
Proof. split; repeat constructor; cbn; lia. Qed.
Example C76_case :
  match frun (add_fake ex_table) ex_evs with
  | FOk s => (filter (fun a => match a with FAnswered _ _ _ _ => true | _ => false end) (f_log s), map r_handle (f_reqs s), map p_sent (f_resps s))
  | _ => ([], [], [])
  end =
  ([FAnswered 0 0 1 (at_ 11 900000); FAnswered 2 2 3 (at_ 11 400000); FAnswered 3 1 2 (at_ 11 400000); FAnswered 1 0 1 (at_ 11 400000)],
   [2; 4]%N, [true; true; true; true]).
Proof. vm_compute. reflexivity. Qed.
(** the hypotheses of the two refutations are met: the first request is due, the second has another handle *)
Example C76_next_case :
  match frun (add_fake ex_table) (firstn 3 ex_evs) with
  | FOk s => match tick (at_ 11 400000) [[MCleanup 2]] s, tick (at_ 11 400000) [[MCleanup 1]] s, tick (at_ 11 400000) [[MCleanup 3]] s with
             | FBad b, FOk g, FOk g3 => (f_alive s, map r_handle (f_reqs b), map r_handle (f_reqs g), map r_handle (f_reqs g3)) = (true, [1; 3], [2; 3], [1; 2])%N
             | _, _, _ => False
             end
  | _ => False
  end.
Proof. vm_compute. reflexivity. Qed.
(** a response is not used at a time before the request was made (the clock was set back), and one that is marked in the table never *)
Example C76_clock_case :
  match frun (add_fake [mk_resp (at_ 0 0) (ex_q "901700000000014") RcResult (mk_result None None 0) true; ex_resp 0 0 "901700000000014" 0])
          [ECall (MRequest 1 (ex_q "901700000000014") (at_ 11 0)); ETick (at_ 10 999999) []] with
  | FOk s => map p_sent (f_resps s) = [true; false] /\
             match tick (at_ 11 0) [] s with FOk s => hd_error (f_log s) = Some (FAnswered 1 0 1 (at_ 11 0)) | _ => False end
  | _ => False
  end.
Proof. vm_compute. auto. Qed.

(** The comment at mslookup_client_fake.c:119 says that the request is gone after its result was handed over. The client keeps it unless the
    result has age 0 (or its callback cancels). *)
Theorem C76_still_there_refuted : exists s h x s' r,
  crun c_init [CRequest (ex_q "901700000000014") 0 1000] = Val s /\ crun s [CResult h RcResult x; CReturn] = Val s' /\
  get_request s' h = Some r /\ q_rc r = RcResult.
Proof.
  eexists. exists 1%N, (mk_result None None 5). do 2 eexists. split; [vm_compute; reflexivity|].
  split; [vm_compute; reflexivity|]. split; [vm_compute; reflexivity|reflexivity].
Qed.
Print Assumptions C76_still_there_refuted.
