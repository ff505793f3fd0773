(** Vocabulary for saving and reading the configuration (C56) and for PDP profiles (C57). *)
From Verif Require Import Base PeerId Db Auth Gsup Router Hlr UssdCfg SmsCfg MsLookup Mdns Proxy MsServer PeerSpec MsServerSpec Ctrl Config.
Local Open Scope string_scope.
Local Open Scope list_scope.

(** ** Texts *)
(** a word of a command: not empty, without blanks *)
Definition is_word (w : string) : Prop := w <> "" /\ forall k c, String.get k w = Some c -> is_space c = false.
(** a character that is written as it is in the name of an MSC *)
Definition plain_char (c : ascii) : Prop := (32 <= acode c <= 126)%N /\ c <> "\"%char /\ c <> """"%char.
(** a name of an MSC, as typed: words; it fits and has no characters with a meaning *)
Definition msc_name (ws : list string) : Prop :=
  ws <> [] /\ Forall is_word ws /\ (String.length (join ws) <= 127)%nat /\
  forall k c, String.get k (join ws) = Some c -> plain_char c /\ c <> "%"%char.

(** ** Histories *)
(** what is typed are words; names of MSCs are as above, wherever one is given or its node is used *)
Definition node_ok (n : node) : Prop := match n with NdMsc s => exists ws, s = join ws /\ msc_name ws | _ => True end.
Definition line_ok (n : node) (ws : list string) : Prop :=
  Forall is_word ws /\ node_ok n /\ forall r, n = NdServer -> ws = "msc" :: "ipa-name" :: r -> r <> [] -> msc_name r.
Definition act_ok (a : act) : Prop :=
  match a with AFile n ws | ATyped n ws => line_ok n ws | APath p => is_word p end.

(** ** What the texts of libosmocore have to be for the addresses and APNs of a configuration *)
(** the text of an address is a word that stands for that address; a port has 16 bits *)
Definition addr_text (e : venv) (a : sa) : Prop :=
  usable a -> is_word (v_show e a) /\ v_addr e (v_show e a) (sa_port a) = a /\ (sa_port a <= 65535)%N.
Definition addrs_ok (e : venv) (c : conf) : Prop :=
  addr_text e (sr_bind (f_srv c)) /\ addr_text e (cl_gw (f_cli c)) /\ addr_text e (cl_query (f_cli c)) /\
  forall m x, In m (sr_mscs (f_srv c)) -> In x (m_svcs m) -> addr_text e (sv_v4 x) /\ addr_text e (sv_v6 x).
(** the text of an APN is a word that stands for that APN and is not too long *)
Definition apns_ok (e : venv) (c : conf) : Prop :=
  forall s a, In s (pd_slots (f_pdp c)) -> sl_apn s = Some a -> is_word a /\ (String.length a < 100)%nat /\ v_apn e a = Some a.

(** ** Configurations with the same meaning *)
Definition ussd_same (u v : ucfg) : Prop :=
  map e_name (u_euses u) = map e_name (u_euses v) /\ route_table u = route_table v /\
  match u_default u with Some d => euse_name u d | None => None end = match u_default v with Some d => euse_name v d | None => None end.
Definition cod_same (c d : conf) : Prop :=
  f_cod c = f_cod d /\ (f_cod c <> CodOff -> f_cs c = f_cs d /\ f_ps c = f_ps d).
(** the profiles in use, in their order *)
Definition profiles (p : pdp) : list pslot := filter (fun s => negb (sl_ctx s =? 0)%Z) (pd_slots p).
Definition pdp_same (p q : pdp) : Prop := pd_on p = pd_on q /\ (pd_on p = true -> profiles p = profiles q).
Definition srv_same (s t : ms_server) : Prop :=
  sr_on s = sr_on t /\ (forall n x f a, plain_node n -> (found (sr_mscs s) n x f a <-> found (sr_mscs t) n x f a)) /\
  (sr_on s = true -> sr_mdns s = sr_mdns t /\ sr_suffix s = sr_suffix t /\ (sr_mdns s = true -> sr_bind s = sr_bind t)).
Definition cli_same (s t : ms_client) : Prop :=
  cl_on s = cl_on t /\
  (cl_on s = true -> cl_gw s = cl_gw t /\ cl_timeout s = cl_timeout t /\ cl_mdns s = cl_mdns t /\ cl_suffix s = cl_suffix t /\
     (cl_mdns s = true -> cl_query s = cl_query t)).
Definition hlr_same (c d : conf) : Prop :=
  f_reject c = f_reject d /\ f_noproxy c = f_noproxy d /\ f_imei c = f_imei d /\ f_db c = f_db d /\ cod_same c d /\
  f_bind c = f_bind d /\ f_name c = f_name d /\ ussd_same (f_ussd c) (f_ussd d) /\ f_ncss c = f_ncss d /\
  ussd_same (f_smsc c) (f_smsc d) /\ pdp_same (f_pdp c) (f_pdp d).
Definition conf_same (c d : conf) : Prop := hlr_same c d /\ srv_same (f_srv c) (f_srv d) /\ cli_same (f_cli c) (f_cli d).

(** ** Configurations that can be written *)
(** no route points to an entity that was removed *)
Definition no_dangling (c : conf) : Prop :=
  (forall p nr, In (p, AExt nr) (u_routes (f_ussd c)) -> exists x, In x (u_euses (f_ussd c)) /\ e_nr x = nr) /\
  (forall p nr, In (p, AExt nr) (u_routes (f_smsc c)) -> exists x, In x (u_euses (f_smsc c)) /\ e_nr x = nr).
(** no free slot before one in use *)
Definition packed (p : pdp) : Prop :=
  forall i j s t, (i < j)%nat -> nth_error (pd_slots p) i = Some s -> nth_error (pd_slots p) j = Some t -> sl_ctx t <> 0 -> sl_ctx s <> 0.
(** Distributed GSM is not configured *)
Definition no_mslookup (c : conf) : Prop := sr_on (f_srv c) = false /\ sr_mscs (f_srv c) = [] /\ cl_on (f_cli c) = false.

(** ** Another order: the lines of write, those of the node ps before those of mslookup *)
Definition ps_first (e : venv) (c : conf) : mres (list string) :=
  mdo u <- write_euse c;; mdo s <- write_smsc c;; Val (write_hlr c ++ write_gsup c ++ u ++ s ++ write_ps c ++ write_ms e c).

(** ** no profile is removed *)
Definition keeps_profiles (a : act) : Prop :=
  match a with AFile n ws | ATyped n ws => n = NdPdps -> hd "" ws <> "no" | APath _ => True end.

(** ** Which settings a command is about *)
Inductive setting := SReject | SNoproxy | SImei | SDb | SCod | SBind | SName | SUssd | SNcss | SSmsc | SPdp | SServer | SClient.
Definition keeps (s : setting) (c d : conf) : Prop :=
  match s with
  | SReject => f_reject d = f_reject c | SNoproxy => f_noproxy d = f_noproxy c | SImei => f_imei d = f_imei c | SDb => f_db d = f_db c
  | SCod => f_cod d = f_cod c /\ f_cs d = f_cs c /\ f_ps d = f_ps c
  | SBind => f_bind d = f_bind c | SName => f_name d = f_name c | SUssd => f_ussd d = f_ussd c | SNcss => f_ncss d = f_ncss c
  | SSmsc => f_smsc d = f_smsc c | SPdp => f_pdp d = f_pdp c | SServer => f_srv d = f_srv c | SClient => f_cli d = f_cli c
  end.
(** by the words of the command, after "no" *)
Inductive about : node -> list string -> setting -> Prop :=
| ab_no n ws s : about n ws s -> about n ("no" :: ws) s
| ab_db ws : about NdHlr ("database" :: ws) SDb
| ab_euse ws : about NdHlr ("euse" :: ws) SUssd
| ab_ussd ws : about NdHlr ("ussd" :: ws) SUssd
| ab_ncss ws : about NdHlr ("ncss-guard-timeout" :: ws) SNcss
| ab_smsc ws : about NdHlr ("smsc" :: ws) SSmsc
| ab_reject ws : about NdHlr ("reject-cause" :: "not-found" :: ws) SReject
| ab_noproxy ws : about NdHlr ("reject-cause" :: "no-proxy" :: ws) SNoproxy
| ab_imei ws : about NdHlr ("store-imei" :: ws) SImei
| ab_cod ws : about NdHlr ("subscriber-create-on-demand" :: ws) SCod
| ab_bind ws : about NdGsup ("bind" :: ws) SBind
| ab_name ws : about NdGsup ("ipa-name" :: ws) SName
| ab_ps ws : about NdPs ("pdp-profiles" :: ws) SPdp
| ab_pdps ws : about NdPdps ("profile" :: ws) SPdp
| ab_profile k ws : about (NdProfile k) ("apn" :: ws) SPdp
| ab_ms_srv ws : about NdMs ("mdns" :: ws) SServer
| ab_ms_cli ws : about NdMs ("mdns" :: ws) SClient
| ab_server ws : about NdMs ("server" :: ws) SServer
| ab_client ws : about NdMs ("client" :: ws) SClient
| ab_srv ws : about NdServer ws SServer
| ab_msc m ws : about (NdMsc m) ws SServer
| ab_cli ws : about NdClient ws SClient.
