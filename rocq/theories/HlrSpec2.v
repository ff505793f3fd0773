(** Vocabulary for notifications (C28). *)
From Verif Require Import Base PeerId Db DbSpec Auth AuthSpec Gsup Router Hlr HlrSpec.

(** The command means subscriber [row] and nobody else. *)
Definition means (x : selector) (row : sub_row) : Prop :=
  match x with
  | ByImsi i => s_imsi row = i
  | ByMsisdn m => s_msisdn row = Some m
  | ById i => s_id row = i
  | ByImei m => s_imei row = Some m
  end.
Definition selects (d : db) (x : selector) (row : sub_row) : Prop :=
  In row (d_sub d) /\ means x row /\ forall r, In r (d_sub d) -> means x r -> r = row.
(** name of the node serving the subscriber in domain [x], at most 31 characters; "" if there is none *)
Definition node (x : domain) (row : sub_row) : string := str_take 31 (match serving x row with Some n => n | None => "" end).
Definition name_of (n : string) : list ascii := bytes_of n ++ [nul].

(** access in domain [x] set to [v] *)
Definition with_access (x : domain) (v : bool) (r : sub_row) : sub_row :=
  {| s_id := s_id r; s_imsi := s_imsi r; s_msisdn := s_msisdn r; s_imei := s_imei r; s_vlr := s_vlr r; s_sgsn := s_sgsn r;
     s_nam_cs := match x with CS => v | PS => s_nam_cs r end; s_nam_ps := match x with CS => s_nam_ps r | PS => v end;
     s_purged_cs := s_purged_cs r; s_purged_ps := s_purged_ps r;
     s_lu_cs := s_lu_cs r; s_lu_ps := s_lu_ps r; s_vlr_proxy := s_vlr_proxy r; s_sgsn_proxy := s_sgsn_proxy r |}.
Definition with_msisdn (m : option string) (r : sub_row) : sub_row :=
  {| s_id := s_id r; s_imsi := s_imsi r; s_msisdn := m; s_imei := s_imei r; s_vlr := s_vlr r; s_sgsn := s_sgsn r;
     s_nam_cs := s_nam_cs r; s_nam_ps := s_nam_ps r; s_purged_cs := s_purged_cs r; s_purged_ps := s_purged_ps r;
     s_lu_cs := s_lu_cs r; s_lu_ps := s_lu_ps r; s_vlr_proxy := s_vlr_proxy r; s_sgsn_proxy := s_sgsn_proxy r |}.
(** The log entry tells the peer on connection [c] to delete the subscriber. *)
Definition tells_delete (imsi : string) (c : nat) (o : out) : Prop :=
  exists g, o = OTx c g /\ g_type g = MSGT_DELETE_DATA_REQUEST /\ g_imsi g = imsi.
(** The log entry tells the peer on connection [c] the number of the subscriber. *)
Definition tells_number (imsi m : string) (x : domain) (c : nat) (o : out) : Prop :=
  exists g, o = OTx c g /\ g_type g = MSGT_INSERT_DATA_REQUEST /\ g_imsi g = imsi /\ x_msisdn (g_x g) = Some m /\
    g_cn g = (match x with CS => CN_CS | PS => CN_PS end).
(** The domain in which a peer is known to serve, by its location updates: PS if it ever sent one for PS. *)
Definition serves (x : domain) (c : conn) : Prop :=
  match x with PS => c_ps c = true | CS => c_ps c = false /\ c_cs c = true end.
(** the name a peer gave is [n], followed by NUL *)
Definition is_named (c : conn) (n : string) : Prop := c_ccm c = Some (name_of n).
(** The log entry tells a connected node that serves the subscriber, in one domain or the other, to delete it. *)
Definition told (v : server) (row : sub_row) (y : out) : Prop :=
  exists z c, node z row <> ""%string /\ leads v (name_of (node z row)) c /\ tells_delete (s_imsi row) c y.
(** The peer is known to serve in domain [x]. *)
Definition flag (x : domain) (c : conn) : bool := match x with CS => c_cs c | PS => c_ps c end.
(** the message is a location update for domain [x] *)
Definition updates_in (x : domain) (g : gsup) : Prop :=
  g_type g = MSGT_UPDATE_LOCATION_REQUEST /\ match x with CS => g_cn g = CN_CS | PS => g_cn g <> CN_CS end.
