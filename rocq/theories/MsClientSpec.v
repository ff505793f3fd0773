(** Vocabulary for the lookup client (C35, C36). What happened is told by the list of notes, newest first. *)
From Verif Require Import Base MsLookup Mdns MsClient.
Local Open Scope N_scope.

(** the handle that the next request gets is in use neither by an open request nor by a callback that is running *)
Definition handle_free (s : cst) : Prop :=
  let h := if c_next s =? 0 then 1 else c_next s in
  (forall r, In r (c_reqs s) -> q_handle r <> h) /\ (forall f, In f (c_stack s) -> f_handle f <> h).
(** states that a run can get to; handles have 32 bit, it is assumed that none comes up again while it is in use *)
Inductive creach : cst -> Prop :=
| cr_init : creach c_init
| cr_step s e s' : creach s -> (forall q mn tm, e = CRequest q mn tm -> handle_free s) -> cstep s e = Val s' -> creach s'.

Definition final_call (u : N) (tr : list note) : Prop := exists rc x t, In (TCall u rc x true t) tr.
Definition cancelled (u : N) (tr : list note) : Prop := exists t, In (TCancel u t) tr.
Definition open (u : N) (s : cst) : Prop := exists r, In r (c_reqs s) /\ q_uid r = u.
Definition note_uid (n : note) : N := match n with TStart u _ _ _ _ | TRes u _ _ _ _ | TCall u _ _ _ _ | TCancel u _ => u end.
