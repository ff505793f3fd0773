(** Vocabulary of C75, the load test client, in terms of histories: what came in and what was made of it. *)
From Verif Require Import Base Gsup Client CtrlSpec TestClient.
Local Open Scope Z_scope.

(** The client was started and went through a history. *)
Definition treached (enc : Z -> string -> bool) (s : tc) (tr : ttrace) : Prop :=
  exists now rc l, trun enc l (tstart now rc) [] = Some (TOk (s, tr)).

(** the IMSIs for which messages of a type were made, sent or not, in their order *)
Definition tried_out (t : Z) (o : list tout) : list string :=
  flat_map (fun x => match x with TSend _ t' i _ => if t' =? t then [i] else [] | TLost t' i => if t' =? t then [i] else [] | _ => [] end) o.
Definition tried (t : Z) (tr : ttrace) : list string := flat_map (fun x => tried_out t (snd x)) tr.
(** one message was made and nothing else came of it than that it was queued, refused or not encoded *)
Definition one_try (enc : Z -> string -> bool) (t : Z) (imsi : string) (queued : bool) (o : list tout) : Prop :=
  if enc t imsi then exists n, o = [TSend n t imsi queued] else o = [TLost t imsi].

(** The numbers are those of GSUP: 4, 5, 6 Update Location request, error, result; 8, 9, 10 Send Authentication Info; 16, 18 Insert Data request, result. *)
Definition sai_answer (x : string) (e : tevent) : Prop := e = TRx (Some (x, 9)) \/ e = TRx (Some (x, 10)).
Definition lu_answer (x : string) (e : tevent) : Prop := e = TRx (Some (x, 5)) \/ e = TRx (Some (x, 6)).
(** authentication info was asked for and no answer has come since: there was no location update yet, as each answer brings one *)
Definition awaits_info (x : string) (tr : ttrace) : Prop := In x (tried 8 tr) /\ ~ In x (tried 4 tr).
(** a location update was asked for and no answer has come since *)
Definition awaits_update (x : string) (tr : ttrace) : Prop :=
  exists a e o b, tr = a ++ (e, o) :: b /\ In x (tried_out 4 o) /\ forall y, In y b -> ~ lu_answer x (fst y).
(** data was inserted and the answer could not be encoded *)
Definition stuck_insert (enc : Z -> string -> bool) (x : string) (tr : ttrace) : Prop :=
  x <> ""%string /\ enc 18 x = false /\ In (TRx (Some (x, 16))) (map fst tr).

(** how many messages of some types were taken for an operation *)
Definition took (ts : list Z) (x : tevent * list tout) : bool :=
  match fst x with
  | TRx (Some (_, t)) => existsb (Z.eqb t) ts && existsb (fun o => match o with TFreed => true | _ => false end) (snd x)
  | _ => false
  end.
Definition handled (ts : list Z) (tr : ttrace) : nat := length (filter (took ts) tr).
(** how many messages of a type were given to osmo_gsup_client_send() *)
Definition sent_out (t : Z) (o : list tout) : list string :=
  flat_map (fun x => match x with TSend _ t' i _ => if t' =? t then [i] else [] | _ => [] end) o.
Definition given (t : Z) (tr : ttrace) : list string := flat_map (fun x => sent_out t (snd x)) tr.
(** an uint32_t that counts *)
Definition counts (n : N) (k : nat) : Prop := n = (N.of_nat k mod 4294967296)%N.
(** the IMSI of a number: 15 digits *)
Definition imsi_of (n : N) (x : string) : Prop := numeral x (Z.of_N (901790000000000 + n)) /\ String.length x = 15%nat.

(** What is made of an event after a history, [up]: while there is a connection. *)
Inductive made (enc : Z -> string -> bool) (tr : ttrace) (up : bool) : tevent -> list tout -> Prop :=
| m_ask x o : imsi_of (N.of_nat (length (tried 8 tr))) x -> one_try enc 8 x up o -> made enc tr up TAsk o
| m_link now rc e o : made enc tr up (TLink now rc e) [TClient o]
| m_info x t o : t = 9 \/ t = 10 -> awaits_info x tr -> up = true -> one_try enc 4 x true o -> made enc tr up (TRx (Some (x, t))) (o ++ [TFreed])
| m_update x t : t = 5 \/ t = 6 -> awaits_update x tr -> up = true -> made enc tr up (TRx (Some (x, t))) [TFreed]
| m_insert x n : x <> ""%string -> enc 18 x = true -> up = true -> made enc tr up (TRx (Some (x, 16))) [TSend n 18 x true; TFreed]
| m_stuck x : x <> ""%string -> enc 18 x = false -> ~ stuck_insert enc x tr -> made enc tr up (TRx (Some (x, 16))) [TLost 18 x; TFreed]
| m_garbage : made enc tr up (TRx None) [TKept]
| m_nobody t : made enc tr up (TRx (Some (""%string, t))) [TKept]
| m_no_info x t : t = 9 \/ t = 10 -> ~ awaits_info x tr -> made enc tr up (TRx (Some (x, t))) [TKept]
| m_no_update x t : t = 5 \/ t = 6 -> ~ awaits_update x tr -> made enc tr up (TRx (Some (x, t))) [TKept]
| m_again x : stuck_insert enc x tr -> made enc tr up (TRx (Some (x, 16))) [TKept]
| m_other x t : ~ In t [5; 6; 9; 10; 16] -> made enc tr up (TRx (Some (x, t))) [TKept].
