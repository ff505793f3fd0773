(** What is expected of the demonstration external USSD entity. *)
From Verif Require Import Base PeerId Db Gsup Router Hlr HlrSpec UssdSpec Euse.

(** [m] is an answer to [g]: the last message of the session that [g] belongs to, for the HLR itself *)
Record last_answer (g m : gsup) : Prop := {
  la_type : g_type m = MSGT_PROC_SS_RESULT;
  la_imsi : g_imsi m = g_imsi g;
  la_sid : g_sid m = g_sid g;
  la_end : g_ss m = SS_END;
  la_src : g_src m = [];
  la_dst : g_dst m = [] }.

(** what is written back: the text in quotes, as far as there is room for it *)
Definition said_back (text s : string) : Prop :=
  exists rest, ("You sent """ ++ text ++ """" = s ++ rest)%string /\
    (rest = "" \/ String.length s = 183%nat)%string /\ (String.length s <= 183)%nat.

(** what other peers and the operator do: anything, but nobody else is or calls itself an external entity or speaks on the
    connection of this one *)
Definition somebody_else (e : event) : Prop :=
  match e with
  | EIdent c tag => c <> 0%nat /\ forall a, tag = Some a -> ~ entity_name a
  | ERx c g => c <> 0%nat /\ ~ entity_name (g_src g)
  | _ => True
  end.
Definition proper (a : nact) : Prop := match a with AHlr _ e _ => somebody_else e | _ => True end.
(** nobody else does anything *)
Definition alone (a : nact) : Prop := match a with AHlr _ _ _ => False | _ => True end.
(** how often the entity reads *)
Definition reads (acts : list nact) : nat := length (filter (fun x => match x with ARead => true | _ => false end) acts).
(** the HLR reads what the entity has sent, as often as [ws] is long *)
Definition ups (ws : list (world * sched)) : list nact := map (fun x => AUp (fst x) (snd x)) ws.
