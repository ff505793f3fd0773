(** Vocabulary for the lookup server (C37), ages (C44) and the service addresses (C48). *)
From Verif Require Import Base PeerId Db DbSpec PeerSpec MsLookup Mdns Proxy MsServer.

(** an address that can be contacted: port and address are not zero *)
Definition usable (a : sa) : Prop :=
  match a with SaNone => False | Sa4 ip p | Sa6 ip p => p <> 0%N /\ exists x, In x ip /\ x <> 0%N end.

(** ** Service addresses as a map (C48) *)
Inductive fam := F4 | F6.
Definition of_fam (a : sa) : fam := match a with Sa6 _ _ => F6 | _ => F4 end.
(** name of an MSC that can be stored: fits into the buffer, no conversion specification of printf *)
Definition plain_name (s : string) : Prop := (String.length s <= 127)%nat /\ plain_text s.
Definition plain_node (n : option string) : Prop := match n with None => True | Some s => plain_name s end.
Definition node_of (x : vcmd) : option string := match x with VMsc s => Some s | VSet n _ _ | VNo n _ | VNoAt n _ _ => n end.
Definition good_entry (s : string) (a : sa) : Prop := s <> ""%string /\ (String.length s <= 64)%nat /\ usable a.

(** what MSC (or wildcard), service and family are mapped to after a history, newest command first *)
Inductive mapped : list vcmd -> option string -> string -> fam -> sa -> Prop :=
| map_set h n s a : good_entry s a -> mapped (VSet n s a :: h) n s (of_fam a) a
| map_keep h x n s f a : mapped h n s f a ->
    match x with
    | VMsc _ => True
    | VSet n' s' a' => ~ (good_entry s' a' /\ n' = n /\ s' = s /\ of_fam a' = f)
    | VNo n' s' => ~ (n' = n /\ s' = s)
    | VNoAt n' s' a' => ~ (n' = n /\ s' = s /\ a' = a)
    end -> mapped (x :: h) n s f a.

(** what the lookup finds: fields of the entry that mslookup_server_service_get returns *)
Definition field (f : fam) (e : svc) : sa := match f with F4 => sv_v4 e | F6 => sv_v6 e end.
Definition found (c : list msc) (n : option string) (s : string) (f : fam) (a : sa) : Prop :=
  exists m e, node_name n = Some m /\ service_get c m s = Some e /\ field f e = a /\ a <> SaNone.

(** ** Answers (C37) *)
(** rows and cache entries that the question is about *)
Definition asks_row (q : query) (r : sub_row) : Prop :=
  match lq_type q with IdNone => False | IdImsi => s_imsi r = lq_id q | IdMsisdn => s_msisdn r = Some (lq_id q) end.
Definition asks_ent (q : query) (s : psub) : Prop :=
  match lq_type q with IdNone => False | IdImsi => ps_imsi s = lq_id q | IdMsisdn => ps_msisdn s = lq_id q end.
Definition cached (c : list pent) (q : query) (s : psub) : Prop := exists e, In e c /\ pe_sub e = s /\ asks_ent q s.
(** no two cache entries for the number asked about *)
Definition one_cached (c : list pent) (q : query) : Prop := forall s s', cached c q s -> cached c q s' -> s = s'.

(** a location update, [age] seconds ago at the MSC with this name: of a subscriber of this HLR, or of a roaming one *)
Definition lu_home (d : db) (q : query) (now max : Z) (age : Z) (name : list ascii) : Prop :=
  exists r v t, In r (d_sub d) /\ asks_row q r /\ s_vlr r = Some v /\ v <> ""%string /\ name = bytes_of v ++ [nul] /\
    s_vlr_proxy r = None /\ s_lu_cs r = Some t /\ age = now - t /\ 0 <= age <= max.
Definition lu_roaming (tz : Z) (c : list pent) (q : query) (now max : Z) (age : Z) (name : list ascii) : Prop :=
  exists s, cached c q s /\ name = ipa_bytes (pd_name (ps_cs s)) /\ ipa_bytes (pd_via (ps_cs s)) = [] /\
    age = now - tz - pd_lu (ps_cs s) /\ 0 <= age <= max.
(** the one that counts: the younger, the one at home if both are of the same age *)
Definition lu_latest (tz : Z) (d : db) (c : list pent) (q : query) (now max : Z) (age : Z) (name : list ascii) : Prop :=
  (lu_home d q now max age name /\ forall a n, lu_roaming tz c q now max a n -> age <= a) \/
  (lu_roaming tz c q now max age name /\ forall a n, lu_home d q now max a n -> age < a).
(** addresses configured for an MSC *)
Definition at_msc (c : list msc) (name : list ascii) (s : string) (v4 v6 : sa) : Prop :=
  exists m e, In m c /\ ipa_bytes (m_name m) = name /\ In e (m_svcs m) /\ sv_name e = s /\ sv_v4 e = v4 /\ sv_v6 e = v6.
Definition serves (c : list msc) (name : list ascii) (s : string) (v4 v6 : sa) : Prop :=
  at_msc c name s v4 v6 \/ ((forall a b, ~ at_msc c name s a b) /\ at_msc c [] s v4 v6).
(** configurations that commands can make: names and services are listed once, an entry has a usable address *)
Definition cfg_ok (c : list msc) : Prop :=
  NoDup (map (fun m => ipa_bytes (m_name m)) c) /\
  (forall m, In m c -> ipa_wf (m_name m) /\ NoDup (map sv_name (m_svcs m)) /\
     forall e, In e (m_svcs m) -> (usable (sv_v4 e) \/ sv_v4 e = SaNone) /\ (usable (sv_v6 e) \/ sv_v6 e = SaNone) /\
       (usable (sv_v4 e) \/ usable (sv_v6 e)) /\ of_fam (sv_v4 e) = F4 /\ (of_fam (sv_v6 e) = F6 \/ sv_v6 e = SaNone)).

(** the address of this HLR: the service gsup.hlr of the wildcard, else the address that the GSUP server listens on *)
Definition local_addr (c : list msc) (bind v4 v6 : sa) : Prop :=
  at_msc c [] "gsup.hlr" v4 v6 \/
  ((forall a b, ~ at_msc c [] "gsup.hlr" a b) /\
   match bind with Sa6 _ _ => v4 = SaNone /\ v6 = bind | _ => v4 = bind /\ v6 = SaNone end).

(** rows with names of VLRs that survive reading (see C08), and times that are no problem for timestamp_age *)
Definition plain_rows (d : db) : Prop :=
  forall r, In r (d_sub d) ->
    (forall v, s_vlr r = Some v -> (String.length v <= 31)%nat /\ plain_text v) /\
    (forall v, s_vlr_proxy r = Some v -> plain_text v) /\ (forall v, s_sgsn_proxy r = Some v -> plain_text v).
Definition sane_time (z : Z) : Prop := - 2 ^ 60 <= z <= 2 ^ 60.
Definition sane_times (d : db) (c : list pent) : Prop :=
  (forall r t, In r (d_sub d) -> s_lu_cs r = Some t -> sane_time t) /\ (forall e, In e c -> sane_time (pd_lu (ps_cs (pe_sub e)))).
Definition names_ok (c : list pent) : Prop := forall e, In e c -> ipa_wf (pd_name (ps_cs (pe_sub e))) /\ ipa_wf (pd_via (ps_cs (pe_sub e))).
