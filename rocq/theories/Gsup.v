(** GSUP messages and requests: /repo/src/gsupclient/gsup_req.c *)
From Verif Require Import Base PeerId Auth.

(** ** Messages *)

(** libosmocore osmocom/gsm/gsup.h: message types. The two low bits are 0 for a request, 1 for an
    error, 2 for a result. *)
Definition MSGT_UPDATE_LOCATION_REQUEST : Z := 4.
Definition MSGT_UPDATE_LOCATION_RESULT : Z := 6.
Definition MSGT_SEND_AUTH_INFO_REQUEST : Z := 8.
Definition MSGT_SEND_AUTH_INFO_RESULT : Z := 10.
Definition MSGT_PURGE_MS_REQUEST : Z := 12.
Definition MSGT_PURGE_MS_RESULT : Z := 14.
Definition MSGT_INSERT_DATA_REQUEST : Z := 16.
Definition MSGT_INSERT_DATA_ERROR : Z := 17.
Definition MSGT_INSERT_DATA_RESULT : Z := 18.
Definition MSGT_DELETE_DATA_REQUEST : Z := 20.
Definition MSGT_DELETE_DATA_ERROR : Z := 21.
Definition MSGT_DELETE_DATA_RESULT : Z := 22.
Definition MSGT_LOCATION_CANCEL_ERROR : Z := 29.
Definition MSGT_LOCATION_CANCEL_RESULT : Z := 30.
Definition MSGT_PROC_SS_REQUEST : Z := 32.
Definition MSGT_PROC_SS_ERROR : Z := 33.
Definition MSGT_PROC_SS_RESULT : Z := 34.
Definition MSGT_MO_FORWARD_SM_REQUEST : Z := 36.
Definition MSGT_MT_FORWARD_SM_REQUEST : Z := 40.
Definition MSGT_READY_FOR_SM_REQUEST : Z := 44.
Definition MSGT_READY_FOR_SM_RESULT : Z := 46.
Definition MSGT_CHECK_IMEI_REQUEST : Z := 48.
Definition MSGT_CHECK_IMEI_RESULT : Z := 50.
Definition MSGT_ROUTING_ERROR : Z := 78.

(** OSMO_GSUP_IS_MSGT_REQUEST, OSMO_GSUP_IS_MSGT_ERROR, OSMO_GSUP_TO_MSGT_ERROR,
    OSMO_GSUP_TO_MSGT_RESULT (gsup.h of libosmocore) *)
Definition is_request (t : Z) : bool := t mod 4 =? 0.
Definition is_error (t : Z) : bool := t mod 4 =? 1.
Definition to_error (t : Z) : Z := t - t mod 4 + 1.
Definition to_result (t : Z) : Z := t - t mod 4 + 2.

(** libosmocore gsm_04_08_gprs.h: enum gsm48_gmm_cause *)
Definition CAUSE_IMSI_UNKNOWN : Z := 2.
Definition CAUSE_GPRS_NOTALLOWED : Z := 7.
Definition CAUSE_IMPL_DETACHED : Z := 10.
Definition CAUSE_PLMN_NOTALLOWED : Z := 11.
Definition CAUSE_NET_FAIL : Z := 17.
Definition CAUSE_INV_MAND_INFO : Z := 96.
Definition CAUSE_MSGT_INCOMP_P_STATE : Z := 98.
Definition CAUSE_PROTO_ERR_UNSPEC : Z := 111.

(** gsup.h: enum osmo_gsup_cn_domain, enum osmo_gsup_session_state, enum osmo_rat_type *)
Definition CN_PS : Z := 1.
Definition CN_CS : Z := 2.
Definition SS_NONE : Z := 0.
Definition SS_BEGIN : Z := 1.
Definition SS_CONTINUE : Z := 2.
Definition SS_END : Z := 3.
Definition RAT_EUTRAN_SGS : Z := 6.
(** OSMO_GSUP_MAX_NUM_AUTH_INFO *)
Definition MAX_AUTH_INFO : nat := 5.

(** SS payload (ss_info): absent, the octets received, or one of the two components the HLR
    generates itself with gsm0480_gen_return_error() and gsm0480_gen_ussd_resp_7bit(). *)
Inductive ss_payload :=
| PlNone
| PlRaw (l : list N)
| PlErr (invoke code : Z)
| PlText (invoke : Z) (text : string).

(** Information elements used by single procedures. Absent ones are [None], 0 or []. [x_other]
    stands for everything the HLR does not look at. *)
Record gext := mk_ext {
  x_rand : option (list N); x_auts : option (list N); x_nvec : Z; x_rat : Z; x_vecs : list vec;
  x_imei : option (list N); x_imei_ack : bool;
  x_msisdn : option string; x_pdp : list Z;
  x_ss : ss_payload;
  x_da : option (Z * list N); x_oa : option (Z * list N); x_sm_cause : option Z;
  x_other : list N }.
Definition ext0 : gext := mk_ext None None 0 0 [] None false None [] PlNone None None None [].

(** struct osmo_gsup_message (gsup.h). An absent name has length 0. [g_mr]: the sm_rp_mr
    pointer, NULL is [None]. *)
Record gsup := mk_gsup {
  g_type : Z; g_imsi : string; g_cause : Z; g_class : Z;
  g_src : list ascii; g_dst : list ascii;
  g_mr : option Z; g_sid : Z; g_ss : Z; g_cn : Z; g_x : gext }.
(** { .message_type = t }, e.g. gsup_req.c:245 *)
Definition msg0 (t : Z) : gsup := mk_gsup t "" 0 0 [] [] None 0 SS_NONE 0 ext0.
Definition with_src (g : gsup) (s : list ascii) : gsup :=
  mk_gsup (g_type g) (g_imsi g) (g_cause g) (g_class g) s (g_dst g) (g_mr g) (g_sid g) (g_ss g) (g_cn g) (g_x g).
Definition with_ext (g : gsup) (x : gext) : gsup :=
  mk_gsup (g_type g) (g_imsi g) (g_cause g) (g_class g) (g_src g) (g_dst g) (g_mr g) (g_sid g) (g_ss g) (g_cn g) x.
Definition with_cause (g : gsup) (c : Z) : gsup :=
  mk_gsup (g_type g) (g_imsi g) c (g_class g) (g_src g) (g_dst g) (g_mr g) (g_sid g) (g_ss g) (g_cn g) (g_x g).

(** ** BCD numbers *)

(** gsm48_decode_bcd_number2(), libosmocore gsm48_ie.c (assumed): length octet, then two digits
    per octet, low nibble first; 15 ends the string. [cap] (an even number here): digits that fit into the
    output buffer. [None]: negative return code. *)
Definition bcd_char (n : N) : ascii := nth (N.to_nat n) (bytes_of "0123456789*#abc") nul.
Fixpoint bcd_text (l : list N) : string :=
  match l with
  | [] => ""
  | n :: l' => if (n =? 15)%N then "" else String (bcd_char n) (bcd_text l')
  end.
Definition nibbles_of (l : list N) : list N := flat_map (fun o => [(o mod 16)%N; (o / 16)%N]) l.
Definition bcd_decode (cap : nat) (lv : list N) : option string :=
  match lv with
  | [] => None
  | n :: l => if (length l <? N.to_nat n)%nat then None
              else let d := nibbles_of (firstn (N.to_nat n) l) in
                   if (cap <? length d)%nat then None else Some (bcd_text d)
  end.

(** ** Requests *)

(** struct osmo_gsup_req, gsup_req.h:49-83. [q_conn] is a ghost: the connection it was received on. *)
Record req := mk_req { q_nr : nat; q_conn : nat; q_src : peer_id; q_via : peer_id; q_gsup : gsup }.

(** osmo_gsup_make_response, gsup_req.c:307-354: return code and completed reply *)
Definition make_response (reply rx : gsup) (error final : bool) : Z * gsup :=
  let t := if g_type reply =? 0 then (if error then to_error (g_type rx) else to_result (g_type rx)) else g_type reply in
  let imsi := if (g_imsi reply =? "")%string then g_imsi rx else g_imsi reply in
  let cls := if g_class reply =? 0 then g_class rx else g_class reply in
  let dst := match g_dst reply with [] => g_src rx | l => l end in
  let mr := match g_mr reply with None => g_mr rx | m => m end in
  let sid := if g_sid reply =? 0 then g_sid rx else g_sid reply in
  let ss := if negb (g_ss rx =? SS_NONE) && (g_ss reply =? SS_NONE)
            then (if final || (g_ss rx =? SS_END) then SS_END else SS_CONTINUE)
            else g_ss reply in
  let rc := (if (imsi =? g_imsi rx)%string then 0 else 1) +
            (if cls =? g_class rx then 0 else 2) +
            (match g_mr rx with Some m => match mr with Some m' => if m =? m' then 0 else 4 | None => 4 end | None => 0 end) +
            (if sid =? g_sid rx then 0 else 8) in
  (rc, mk_gsup t imsi (g_cause reply) cls (g_src reply) dst mr sid ss (g_cn reply) (g_x reply)).

(** What the HLR does towards its peers, in a log: a message was received (number, connection), a respond call on an open request (number, message,
    whether it closes the request, connection it is transmitted on if any), a request freed without
    answer, or a message of its own. *)
Inductive out :=
| ORx (nr conn : nat) (g : gsup)
| OResp (nr : nat) (r : gsup) (final : bool) (conn : option nat)
| OFree (nr : nat)
| OTx (conn : nat) (g : gsup).

(** Transmission function behind a request (send_response_cb). *)
Definition sender := req -> gsup -> option nat.

(** _osmo_gsup_req_respond, gsup_req.c:200-228 *)
Definition respond (tx : sender) (q : req) (resp : gsup) (error final : bool) : Z * list out :=
  let '(rc, r) := make_response resp (q_gsup q) error final in
  if rc =? 0 then (0, [OResp (q_nr q) r final (tx q r)])
  else (- EINVAL, if final then [OFree (q_nr q)] else []).

(** _osmo_gsup_req_respond_msgt, gsup_req.c:242-250 *)
Definition respond_msgt (tx : sender) (q : req) (t : Z) (final : bool) : Z * list out :=
  respond tx q (msg0 t) (is_error t) final.

(** _osmo_gsup_req_respond_err, gsup_req.c:263-277: only requests are answered *)
Definition respond_err (tx : sender) (q : req) (cause : Z) : list out :=
  if negb (is_request (g_type (q_gsup q))) then [OFree (q_nr q)]
  else snd (respond tx q (with_cause (msg0 0) cause) true true).
