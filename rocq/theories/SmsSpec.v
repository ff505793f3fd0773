(** Vocabulary for short messages (C31). *)
From Verif Require Import Base PeerId Db DbSpec Auth AuthSpec Gsup Router Hlr UssdCfg SmsCfg PeerSpec HlrSpec UssdSpec.

(** ** Service centre addresses: two symbols per octet, the low half first; 15 marks the end *)
Definition half (l : list N) (i : nat) (v : N) : Prop :=
  exists j o, nth_error l j = Some o /\ ((i = 2 * j)%nat /\ v = (o mod 16)%N \/ (i = 2 * j + 1)%nat /\ v = (o / 16)%N).
Definition symbol (v : N) (c : ascii) : Prop := String.get (N.to_nat v) "0123456789*#abc" = Some c.
Definition reads (l : list N) (a : string) : Prop :=
  (forall i c, String.get i a = Some c -> exists v, half l i v /\ symbol v c) /\
  (String.length a = (2 * length l)%nat \/ half l (String.length a) 15).
(** the message names the service centre with address [a]: one octet for type and plan with the top bit set, then 1 to 10 octets *)
Definition smsc_address (g : gsup) (a : string) : Prop :=
  exists t da, x_da (g_x g) = Some (3, t :: da) /\ (1 <= length da <= 10)%nat /\ (128 <= t)%N /\ reads da a.

(** ** Choice *)
Inductive centre (k : cfg) (a : string) : option string -> Prop :=
| ce_route n l1 l2 : k_smsc_routes k = l1 ++ (a, n) :: l2 -> (forall m, ~ In (a, m) l1) -> centre k a (Some n)
| ce_default : (forall m, ~ In (a, m) (k_smsc_routes k)) -> centre k a (k_smsc_default k).

(** ** Outcome *)
Definition named (n : string) : list ascii := bytes_of n ++ [nul].
(** a final error answer to request [nr] *)
Definition refused (nr : nat) (t cause : Z) (rp : option Z) (o : list out) : Prop :=
  exists r co, o = [OResp nr r true co] /\ g_type r = t /\ g_cause r = cause /\ x_sm_cause (g_x r) = rp.
(** request [nr] for [g] of the peer called [a] is passed to the peer called [n], or answered with a routing error *)
Inductive passed_on (k : cfg) (v : server) (nr : nat) (g : gsup) (a : list ascii) (n : string) : list out -> Prop :=
| po_sent c : leads v (named n) c -> k_enc k (with_src g a) = true -> passed_on k v nr g a n [OTx c (with_src g a); OFree nr]
| po_error o : (forall c, ~ leads v (named n) c) \/ k_enc k (with_src g a) = false -> refused nr MSGT_ROUTING_ERROR 0 None o -> passed_on k v nr g a n o.
Inductive mo_outcome (k : cfg) (v : server) (nr : nat) (g : gsup) (a : list ascii) (o : list out) : Prop :=
| mo_missing : (forall t l, x_da (g_x g) = Some (t, l) -> t <> 3 \/ l = []) -> refused nr 37 CAUSE_INV_MAND_INFO None o -> mo_outcome k v nr g a o
| mo_bad t da : x_da (g_x g) = Some (3, t :: da) -> ~ ((1 <= length da <= 10)%nat /\ (128 <= t)%N) -> refused nr 37 0 (Some 95) o -> mo_outcome k v nr g a o
| mo_nobody ad : smsc_address g ad -> centre k ad None -> refused nr 37 0 (Some 1) o -> mo_outcome k v nr g a o
| mo_passed ad n : smsc_address g ad -> centre k ad (Some n) -> passed_on k v nr g a n o -> mo_outcome k v nr g a o.
Inductive mt_outcome (k : cfg) (v : server) (d : db) (fault : Prop) (nr : nat) (g : gsup) (a : list ascii) (o : list out) : Prop :=
| mt_unknown : ~ has_imsi d (g_imsi g) \/ fault -> refused nr 41 CAUSE_IMSI_UNKNOWN None o -> mt_outcome k v d fault nr g a o
| mt_detached row : In row (d_sub d) -> s_imsi row = g_imsi g -> serving CS row = None \/ serving CS row = Some ""%string ->
    refused nr 41 CAUSE_IMPL_DETACHED None o -> mt_outcome k v d fault nr g a o
| mt_passed row n : In row (d_sub d) -> s_imsi row = g_imsi g -> serving CS row = Some n -> n <> ""%string ->
    passed_on k v nr g a (str_take 31 n) o -> mt_outcome k v d fault nr g a o.
(** a copy of the message, with the HLR as its source, for each service centre that is connected *)
Definition copy_for (k : cfg) (v : server) (g : gsup) (n : string) (o : list out) : Prop :=
  (exists c, leads v (named n) c /\ k_enc k (with_src g (named (k_serno k))) = true /\ o = [OTx c (with_src g (named (k_serno k)))]) \/
  (((forall c, ~ leads v (named n) c) \/ k_enc k (with_src g (named (k_serno k))) = false) /\ o = []).
(** ** Definedness *)
Definition sms_type (t : Z) : Prop := t = 36 \/ t = 40 \/ t = 44.
Definition short_names (k : cfg) : Prop :=
  (forall n, In n (k_smscs k) -> (String.length n <= 127)%nat) /\ (forall a n, In (a, n) (k_smsc_routes k) -> (String.length n <= 127)%nat) /\
  (forall n, k_smsc_default k = Some n -> (String.length n <= 127)%nat).
(** ** Configuration *)
(** entry [r] of the table was asked for by command [i] of [h], when there was none for its address, with the service centre of the name given;
    no later command takes it away *)
Definition entry_of (h : list scmd) (i : nat) (r : string * aim) : Prop :=
  exists n nr, nth_error h i = Some (SRoute (fst r) n) /\ snd r = AExt nr /\ In (mk_euse nr n) (u_euses (scmds_run (firstn i h))) /\
  ~ In (fst r) (map fst (u_routes (scmds_run (firstn i h)))) /\ forall j, (i < j)%nat -> nth_error h j <> Some (SNoRoute (fst r)).
