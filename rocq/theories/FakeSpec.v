(** C76: what the fake lookup method is expected to do. *)
From Verif Require Import Base MsLookup Mdns MsClient FakeMethod.
From Coq Require Import Sorted.
Local Open Scope Z_scope.

Definition micro (t : timeval) : Z := tv_sec t * 1000000 + tv_usec t.
Definition normal (t : timeval) : Prop := 0 <= tv_usec t < 1000000.

Definition same_query (a b : query) : Prop :=
  lq_service a = lq_service b /\ lq_type a = lq_type b /\ (lq_type a <> IdNone -> lq_id a = lq_id b).
(** at [now] a request made at [t] has waited long enough for [p] *)
Definition due (p : fresp) (t now : timeval) : Prop := micro (p_wait p) <= micro now - micro t.

Definition answered (i : nat) (l : list fnote) : Prop := exists u h now, In (FAnswered i u h now) l.

(** A response was given rightly, [l] being what happened before: it is a response of the table that was not given before, for a request
    that was made, for the same subscriber and service, late enough; and all responses before it in the table that could have been
    given instead were already given. *)
Definition note_ok (table : list fresp) (a : fnote) (l : list fnote) : Prop :=
  match a with
  | FAsked u h q t => forall h' q' t', ~ In (FAsked u h' q' t') l
  | FAnswered i u h now =>
      exists q t p, In (FAsked u h q t) l /\ nth_error table i = Some p /\ p_sent p = false /\ ~ answered i l /\
        same_query q (p_for p) /\ due p t now /\
        forall j p', (j < i)%nat -> nth_error table j = Some p' -> same_query q (p_for p') -> due p' t now ->
          p_sent p' = true \/ answered j l
  end.
Fixpoint log_ok (table : list fresp) (l : list fnote) : Prop :=
  match l with [] => True | a :: l => note_ok table a l /\ log_ok table l end.

(** the clock readings of a call *)
Definition move_normal (m : move) : Prop := match m with MRequest _ _ t => normal t | _ => True end.
Definition ev_normal (e : fev) : Prop :=
  match e with ECall m => move_normal m | ETick now script => normal now /\ Forall (Forall move_normal) script end.

(** while it is given a result for the handle [h] the client ends at most this request, once, and may make others *)
Definition is_request (m : move) : Prop := match m with MRequest _ _ _ => True | _ => False end.
Definition own_only (h : N) (ms : list move) : Prop :=
  Forall is_request ms \/ exists a b, ms = a ++ MCleanup h :: b /\ Forall is_request a /\ Forall is_request b.

(** the requests answered in a piece of the log *)
Definition answers (l : list fnote) : list N :=
  flat_map (fun a => match a with FAnswered _ u _ _ => [u] | FAsked _ _ _ _ => [] end) l.

(** something is waiting for the request that could be given now *)
Definition waits_for (now : timeval) (r : freq) (s : fstate) : Prop :=
  exists i p, nth_error (f_resps s) i = Some p /\ p_sent p = false /\ same_query (r_query r) (p_for p) /\ due p (r_at r) now.
(** the handles of the answers in a piece of the log, oldest first *)
Definition answer_handles (l : list fnote) : list N :=
  rev (flat_map (fun a => match a with FAnswered _ _ h _ => [h] | FAsked _ _ _ _ => [] end) l).
