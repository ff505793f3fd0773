(** Vocabulary of C50. *)
From Verif Require Import Base Client.
Local Open Scope Z_scope.

(** times never go back *)
Fixpoint ordered (now : Z) (l : list (Z * cenv * cevent)) : Prop :=
  match l with [] => True | (t, _, _) :: l => now <= t /\ ordered t l end.
(** The client was created at some time and went through a history; [now] is the time of the last event. *)
Definition last_time (now : Z) (l : list (Z * cenv * cevent)) : Z := last (map (fun x => fst (fst x)) l) now.
Definition creached (P : cenv -> Prop) (now : Z) (c : client) (tr : trace) : Prop :=
  exists t0 v0 l, ordered t0 l /\ P v0 /\ Forall (fun x => P (snd (fst x))) l /\ crun t0 v0 l = Some (c, tr) /\ now = last_time t0 l.
Definition anything (v : cenv) : Prop := True.
(** errors of opening a socket after which the client gives up, gsup_client.c:84-86 *)
Definition fatal (rc : Z) : Prop := In rc [-9; -88; -97; -22].
(** the user, if asked, wants to go on, and opening a socket does not fail in a way the client gives up at *)
Definition willing (v : cenv) : Prop := v_cb v <> Some false /\ ~ fatal (v_open v).

(** an attempt to connect *)
Definition attempt (o : cout) : Prop := match o with OOpen | OOpenFailed _ => True | _ => False end.
Definition attempts (o : list cout) : Prop := Exists attempt o.
(** attempts that are going on or waiting for their time *)
Definition pending (c : client) : nat :=
  ((match c_link c with LConnecting => 1 | _ => 0 end) + (match c_ct c with Some _ => 1 | None => 0 end))%nat.
(** times of all attempts of a trace *)
Definition attempt_times (tr : trace) : list Z :=
  flat_map (fun x => map (fun _ => fst (fst x)) (filter (fun o => match o with OOpen | OOpenFailed _ => true | _ => false end) (snd x))) tr.
Fixpoint spaced (d : Z) (l : list Z) : Prop :=
  match l with
  | x :: ((y :: _) as r) => x + d <= y /\ spaced d r
  | _ => True
  end.
(** the last keep-alive that was queued has been answered *)
Definition pings (o : list cout) : bool := existsb (fun x => match x with OQueue _ IPing => true | _ => false end) o.
Definition answered (tr : trace) : bool :=
  fold_left (fun b (x : Z * option cevent * list cout) =>
    if pings (snd x) then false else match snd (fst x) with Some CPong => true | _ => b end) tr false.
(** all outputs of a trace *)
Definition all_outs (tr : trace) : list cout := flat_map snd tr.
(** how often sockets were opened and closed: never more than one is open *)
Fixpoint sockets (n : nat) (l : list cout) : option nat :=
  match l with
  | [] => Some n
  | OOpen :: r => match n with O => sockets 1 r | _ => None end
  | OClose :: r => match n with O => None | S m => sockets m r end
  | _ :: r => sockets n r
  end.
