(** Several HLRs that know each other through D-GSM: a network of the processes of Dgsm.v, and where what they say comes from. *)
From Verif Require Import Base PeerId Db DbSpec DbThms Auth AuthSpec Gsup Router Hlr HlrSpec Mdns Proxy Dgsm ContentSpec.

(** One event in the network: at which HLR, what the outside decides, the event, and the HLR before and after it *)
Record entry := mk_entry { en_node : nat; en_world : dworld; en_ev : devent; en_pre : dstate; en_post : dstate }.
Definition log_of (y : dstate) : list dout := snd y.
Definition db_of (y : dstate) : db := snd (fst y).
Definition srv_of (y : dstate) : server := t_srv (fst (fst (fst y))).
(** during the event, [o] was done *)
Definition done (en : entry) (o : dout) : Prop := exists l, log_of (en_post en) = log_of (en_pre en) ++ l /\ In o l.
(** [o] sends message [m] on connection [c] of the GSUP server: to an MSC, SGSN, ... or to another HLR *)
Definition on_conn (o : dout) (c : nat) (m : gsup) : Prop :=
  match o with
  | DLoc (OResp _ r _ (Some c')) | DAns (OResp _ r _ (Some c')) => c' = c /\ r = m
  | DLoc (OTx c' r) | DAns (OTx c' r) | DTx _ c' r => c' = c /\ r = m
  | _ => False
  end.
Definition says (en : entry) (c : nat) (m : gsup) : Prop := exists o, done en o /\ on_conn o c m.

(** What a remote HLR is heard saying has been said before by the HLR with this address, on some connection. Messages may be lost, repeated and reordered.
    Nothing is assumed about what arrives on the connections of the GSUP server. *)
Definition heard (addr : nat -> sa) (tr : list entry) (e : devent) : Prop :=
  match e with DRx a m => exists en c, In en tr /\ addr (en_node en) = a /\ says en c m | _ => True end.
(** A run of a network, latest event first. HLR [i] has configuration [ks i] and address [addr i] (remote HLRs: /repo/src/remote_hlr.c:133-200). *)
Inductive network (ks : nat -> cfg) (addr : nat -> sa) : list entry -> (nat -> dstate) -> Prop :=
| net_start ds : (forall i, db_ok (ds i) /\ keys_wellformed (ds i)) -> network ks addr [] (fun i => (hst0, dgst0, ds i, []))
| net_step tr st i x e c y st' : network ks addr tr st -> heard addr tr e -> dstep (ks i) (st i) (x, e, c) = Some y ->
    (forall j, st' j = if (j =? i)%nat then y else st j) -> network ks addr (mk_entry i x e (st i) y :: tr) st'.

(** ** Origins *)
(** [en]: the message [g] comes in on connection [c] of an HLR *)
Definition comes (en : entry) (c : nat) (g : gsup) : Prop := en_ev en = DHlr (ERx c g).
(** A location update of the subscriber, in the name of the node [dst] (if a name is given), is taken up: the HLR has the subscriber, with access in this
    domain, and has registered the node. *)
Definition taken_up (en : entry) (imsi : string) (dst : list ascii) : Prop :=
  exists c g x r, comes en c g /\ g_type g = 4 /\ g_imsi g = imsi /\ g_src g = dst /\ in_domain g x /\
    In r (d_sub (db_of (en_post en))) /\ s_imsi r = imsi /\ access x r = true /\ registered (srv_of (en_pre en)) c g x r.
(** authentication data of the subscriber is asked for, and the HLR has the subscriber, with a key in use *)
Definition auth_asked (en : entry) (imsi : string) : Prop :=
  exists c g id, comes en c g /\ g_type g = 8 /\ g_imsi g = imsi /\
    is_subscriber (db_of (en_post en)) imsi id /\ (uses_2g (db_of (en_post en)) id \/ uses_3g (db_of (en_post en)) id).
(** the HLR has the subscriber, with this number ("" if none), and tells it because of a location update or a change on the VTY; before a change on the VTY it
    may have been another one: the number that "msisdn none" removes is told *)
Definition number_told (en : entry) (imsi number : string) : Prop :=
  exists r d, In r (d_sub d) /\ s_imsi r = imsi /\ number = match s_msisdn r with Some n => n | None => "" end /\
    ((exists c g, comes en c g /\ g_type g = 4 /\ g_imsi g = imsi /\ d = db_of (en_post en)) \/
     (exists x n, en_ev en = DHlr (EVtyMsisdn x (Some n)) /\ number = n /\ d = db_of (en_post en)) \/
     (exists x, en_ev en = DHlr (EVtyMsisdn x None) /\ d = db_of (en_pre en))).
(** a peer of an HLR has said the same itself *)
Definition made_up (en : entry) (m : gsup) : Prop := exists c g, comes en c g /\ passed_on g m.
