(** Concrete configuration, database, peers and messages for the examples. *)
From Verif Require Import Base PeerId Db DbSpec DbProofs DbThms DbThms2 DbThms3 DbProperties AuthProperties Auth Gsup Router Hlr HlrSpec.

(** octets of a USSD request in the examples: operation, invoke id, coding scheme, then characters *)
Definition ex_facility (l : list N) : option ss_req :=
  match l with
  | op :: inv :: dcs :: data => Some (mk_ss_req (Z.of_N op) (Z.of_N inv) (Z.of_N dcs) data)
  | _ => None
  end.
Definition ex_7bit (l : list N) : string := str_of (map ascii_of_N l).
Definition ex_cfg : cfg := mk_cfg 2 CodOff 3 true None "HLR" 0
  [("*#100#", TInt OwnMsisdn); ("*#1", TInt OwnImsi); ("*2", TExt "app")]%string ["app"; "bank"]%string (Some "bank"%string) 30
  ["SMSC-1"; "SMSC-2"]%string [("1234", "SMSC-1")]%string (Some "SMSC-2"%string)
  (fun _ => true) (fun _ => true) ex_facility ex_7bit.
Definition ex_crypto : crypto := mk_crypto (fun i => Some [N.of_nat i])
  (fun _ r => Some (mk_vec r [] [] [] [] [2%N] [3%N] true false None))
  (fun a r => (Some (mk_vec r [4%N] [5%N] [6%N] [7%N] [2%N] [3%N] true true (Some (u_sqn a))), (u_sqn a + 32)%N))
  (fun _ _ _ _ => (None, 0%N)).
Definition ex_world : world := mk_world ex_crypto (fun i j => Some (fun n => N.of_nat (i + n + 1))) (Some 1000).

Definition nm (s : string) : list ascii := bytes_of s ++ [nul].
Definition ev (e : event) : world * event * sched := (ex_world, e, []).
(** connection [c] comes and says its name *)
Definition ex_peer_up (c : nat) (name : string) : list (world * event * sched) :=
  [ev EAccept; ev (EIdent c (Some (nm name)))].
Definition ex_msg (t : Z) (imsi : string) : gsup := mk_gsup t imsi 0 0 [] [] None 0 SS_NONE 0 ext0.
Definition ex_from_to (src dst : list ascii) (g : gsup) : gsup :=
  mk_gsup (g_type g) (g_imsi g) (g_cause g) (g_class g) src dst (g_mr g) (g_sid g) (g_ss g) (g_cn g) (g_x g).
Definition ex_lu_req (imsi : string) (cn : Z) : gsup := mk_gsup MSGT_UPDATE_LOCATION_REQUEST imsi 0 1 [] [] None 0 SS_NONE cn ext0.
Definition ex_run (es : list (world * event * sched)) : option (hst * db * list out) := hist ex_cfg (hst0, ex_db2) es.
Definition ex_log (es : list (world * event * sched)) : option (list out) :=
  match ex_run es with Some (_, _, o) => Some o | None => None end.
Definition ex_imsi : string := "901700000002".

(** short form of a log: message types, cause, connections *)
Inductive brief :=
| BRx (nr conn : nat) (t : Z) | BResp (nr : nat) (t cause : Z) (final : bool) (conn : option nat) | BFree (nr : nat) | BTx (conn : nat) (t : Z).
Definition short (o : out) : brief :=
  match o with
  | ORx nr c g => BRx nr c (g_type g)
  | OResp nr r f c => BResp nr (g_type r) (g_cause r) f c
  | OFree nr => BFree nr
  | OTx c g => BTx c (g_type g)
  end.
Definition ex_short (es : list (world * event * sched)) : option (list brief) := option_map (map short) (ex_log es).

(** USSD request [t] in session [sid], state [ss] *)
Definition ex_ussd (t : Z) (sid ss : Z) (code : string) : gsup :=
  mk_gsup t ex_imsi 0 0 [] [] None sid ss 0
    (mk_ext None None 0 0 [] None false None [] (PlRaw (59%N :: 1%N :: 15%N :: map N_of_ascii (bytes_of code))) None None None []).
