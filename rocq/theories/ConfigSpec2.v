(** What the lines of the nodes server and msc say about services, for C56. *)
From Verif Require Import Base PeerId Db Auth Gsup Router Hlr UssdCfg MsLookup Mdns Proxy MsServer MsServerSpec Ctrl CtrlSpec Config ConfigSpec.
Local Open Scope string_scope.
Local Open Scope list_scope.

(** a port is a number from 1 to 65535, in decimal *)
Definition port_text (w : string) (p : N) : Prop := numeral w (Z.of_N p) /\ (1 <= p <= 65535)%N.
(** the node server is about every MSC, the node of an MSC about that one *)
Inductive whose : node -> option string -> Prop :=
| wh_server : whose NdServer None
| wh_msc m : whose (NdMsc m) (Some m).
(** the commands on services, as documented *)
Inductive says (e : venv) : node -> list string -> vcmd -> Prop :=
| sy_msc ws : ws <> [] -> says e NdServer ("msc" :: "ipa-name" :: ws) (VMsc (join ws))
| sy_set n o s ip w p : whose n o -> port_text w p -> says e n ["service"; s; "at"; ip; w] (VSet o s (v_addr e ip p))
| sy_no n o s : whose n o -> says e n ["no"; "service"; s] (VNo o s)
| sy_no_at n o s ip w p : whose n o -> port_text w p -> says e n ["no"; "service"; s; "at"; ip; w] (VNoAt o s (v_addr e ip p)).
Definition act_says (e : venv) (a : act) (x : vcmd) : Prop :=
  match a with AFile n ws | ATyped n ws => says e n ws x | APath _ => False end.
(** those of a history, in their order; lines about other things left out *)
Inductive said (e : venv) : list act -> list vcmd -> Prop :=
| sd_nil : said e [] []
| sd_cmd a h x l : act_says e a x -> said e h l -> said e (a :: h) (x :: l)
| sd_other a h l : (forall x, ~ act_says e a x) -> said e h l -> said e (a :: h) l.

(** a line that says nothing: blank, or a comment *)
Definition no_command (l : string) : Prop :=
  forall w ws, words l = w :: ws -> exists c t, w = String c t /\ (c = "!"%char \/ c = "#"%char).

(** ** Entities and routes *)
Definition routed (u : ucfg) (p : string) : Prop := exists a, In (p, a) (u_routes u).
Definition entity (u : ucfg) (n : string) : Prop := exists x, In x (u_euses u) /\ e_name x = n.
(** the commands that are accepted: one route per prefix, to an entity that exists; the default is not removed *)
Definition accepted (u : ucfg) (x : ucmd) : Prop :=
  match x with
  | CRouteInt p _ => ~ routed u p
  | CRouteExt p n => ~ routed u p /\ entity u n
  | CNoRoute p => routed u p
  | CDefault n => entity u n
  | CNoDefault | CEuse _ => True
  | CNoEuse n => exists x, In x (u_euses u) /\ e_name x = n /\ u_default u <> Some (e_nr x)
  end.
(** lines about external USSD entities and about service centres for short messages *)
Inductive ussd_line : list string -> ucmd -> Prop :=
| ul_euse n : ussd_line ["euse"; n] (CEuse n)
| ul_no_euse n : ussd_line ["no"; "euse"; n] (CNoEuse n)
| ul_msisdn p : ussd_line ["ussd"; "route"; "prefix"; p; "internal"; "own-msisdn"] (CRouteInt p OwnMsisdn)
| ul_imsi p : ussd_line ["ussd"; "route"; "prefix"; p; "internal"; "own-imsi"] (CRouteInt p OwnImsi)
| ul_idle p : ussd_line ["ussd"; "route"; "prefix"; p; "internal"; "test-idle"] (CRouteInt p TestIdle)
| ul_ext p n : ussd_line ["ussd"; "route"; "prefix"; p; "external"; n] (CRouteExt p n)
| ul_no_route p : ussd_line ["no"; "ussd"; "route"; "prefix"; p] (CNoRoute p)
| ul_default n : ussd_line ["ussd"; "default-route"; "external"; n] (CDefault n)
| ul_no_default : ussd_line ["no"; "ussd"; "default-route"] CNoDefault.
Inductive smsc_line : list string -> ucmd -> Prop :=
| sl_entity n : smsc_line ["smsc"; "entity"; n] (CEuse n)
| sl_no_entity n : smsc_line ["no"; "smsc"; "entity"; n] (CNoEuse n)
| sl_route a n : smsc_line ["smsc"; "route"; a; n] (CRouteExt a n)
| sl_no_route a : smsc_line ["no"; "smsc"; "route"; a] (CNoRoute a)
| sl_default n : smsc_line ["smsc"; "default-route"; n] (CDefault n)
| sl_no_default : smsc_line ["no"; "smsc"; "default-route"] CNoDefault.
