(** Vocabulary of C47. *)
From Verif Require Import Base PeerId Auth Gsup ClientMux.
Local Open Scope Z_scope.

(** The class that the procedure of a message type belongs to, 3GPP procedures as numbered in libosmocore's gsup.h: each procedure has
    the types 4n (request), 4n+1 (error), 4n+2 (result): supplementary services 32-34, short messages (MO forward 36-38, MT forward 40-42,
    ready 44-46), everything else is subscriber management unless it says so. *)
Definition procedure_class (t : Z) : Z :=
  if t mod 4 =? 3 then 1 else if t / 4 =? 8 then 3 else if (9 <=? t / 4) && (t / 4 <=? 11) then 2 else 1.
(** the class a message belongs to *)
Definition belongs (g : gsup) : Z := if g_class g =? 0 then procedure_class (g_type g) else g_class g.
(** the four short message types that a switching centre sends: MO-forwardSM request, MT-forwardSM error and result, READY-FOR-SM
    request *)
Definition sent_by_msc (t : Z) : Prop := t = 36 \/ t = 41 \/ t = 42 \/ t = 44.
(** an answer to [g] that reports an error *)
Definition error_for (m : mux) (cause : Z) (g r : gsup) : Prop :=
  g_type r = g_type g + 1 /\ g_imsi r = g_imsi g /\ g_cause r = cause /\ g_class r = g_class g /\ g_dst r = g_src g /\ g_mr r = g_mr g /\
  (forall s, m_name m = Some s -> g_src r = bytes_of s ++ [nul]) /\
  (g_ss g <> 0 -> g_sid r = g_sid g /\ g_ss r = 3) /\ (g_ss g = 0 -> g_ss r = 0 /\ g_sid r = 0) /\ g_cn r = 0 /\ g_x r = ext0.
