(** The SMSC part of the configuration as it is edited on the VTY: /repo/src/hlr_sms.c:43-105, hlr_vty.c:639-755. *)
From Verif Require Import Base PeerId Db Auth Gsup Router Hlr UssdCfg.

(** The commands, hlr_vty.c:639-755. *)
Inductive scmd :=
| SEntity (n : string)      (* 639-659 *)
| SNoEntity (n : string)    (* 661-680 *)
| SRoute (a n : string)     (* 682-705 *)
| SNoRoute (a : string)     (* 707-721 *)
| SDefault (n : string)     (* 723-745 *)
| SNoDefault.               (* 747-755 *)

(** smsc_find, smsc_alloc, smsc_free, smsc_route_find, smsc_route_alloc, smsc_route_free (hlr_sms.c:43-105) and the commands are
    the same code as that for external USSD entities in hlr_ussd.c:40-122 and hlr_vty.c:469-586 with other names: struct hlr_smsc for
    struct hlr_euse, struct hlr_smsc_route for a struct hlr_ussd_route that is external. So the configuration is a [ucfg]
    and each command the corresponding one. *)
Definition as_ucmd (x : scmd) : ucmd :=
  match x with
  | SEntity n => CEuse n
  | SNoEntity n => CNoEuse n
  | SRoute a n => CRouteExt a n
  | SNoRoute a => CNoRoute a
  | SDefault n => CDefault n
  | SNoDefault => CNoDefault
  end.
Definition scmds_run (h : list scmd) : ucfg := ucmds_run ucfg0 (map as_ucmd h).

(** the values of [k_smscs], [k_smsc_routes] and [k_smsc_default] of Hlr.v; [None]: a route points to a freed service centre *)
Definition smsc_names (c : ucfg) : list string := map e_name (u_euses c).
Definition smsc_table (c : ucfg) : option (list (string * string)) :=
  all_some (map (fun r => match snd r with
                          | AExt nr => match euse_name c nr with Some n => Some (fst r, n) | None => None end
                          | AInt _ => None
                          end) (u_routes c)).
