(** Dispatching of received messages in a GSUP client: /repo/src/gsupclient/gsup_client_mux.c *)
From Verif Require Import Base PeerId Auth Gsup.
Local Open Scope Z_scope.

(** Further message types, libosmocore gsup.h *)
Definition MSGT_MO_FORWARD_SM_ERROR : Z := 37.
Definition MSGT_MO_FORWARD_SM_RESULT : Z := 38.
Definition MSGT_READY_FOR_SM_ERROR : Z := 45.
(** enum osmo_gsup_message_class, libosmocore gsup.h *)
Definition CLASS_UNSET : Z := 0.
Definition CLASS_SUBSCRIBER_MANAGEMENT : Z := 1.
Definition CLASS_SMS : Z := 2.
Definition CLASS_USSD : Z := 3.
Definition CLASS_INTER_MSC : Z := 4.
Definition CLASS_ARRAYSIZE : Z := 5.

(** struct gsup_client_mux, gsup_client_mux.h:40-45: for which classes a receiver is set; of its client: the serial number of the IPA unit
    (NULL is [None]) and whether it is connected. [m_enc]: whether osmo_gsup_encode() accepts a message (libosmocore). *)
Record mux := mk_mux { m_rx : Z -> bool; m_name : option string; m_conn : bool; m_enc : gsup -> bool }.
(** Observable: the receiver of a class is called, a message is given to osmo_gsup_client_send() of a connected client. *)
Inductive mout := MDeliver (cls : Z) (g : gsup) | MSend (g : gsup).

(** gsup_client_mux_classify, gsup_client_mux.c:30-56 *)
Definition mux_classify (g : gsup) : Z :=
  if negb (g_class g =? 0) then g_class g
  else if (g_type g =? MSGT_PROC_SS_REQUEST) || (g_type g =? MSGT_PROC_SS_RESULT) || (g_type g =? MSGT_PROC_SS_ERROR) then CLASS_USSD
  else if (g_type g =? MSGT_MO_FORWARD_SM_ERROR) || (g_type g =? MSGT_MO_FORWARD_SM_RESULT) || (g_type g =? MSGT_READY_FOR_SM_ERROR)
          || (g_type g =? MSGT_READY_FOR_SM_RESULT) || (g_type g =? MSGT_MT_FORWARD_SM_REQUEST) then CLASS_SMS
  else CLASS_SUBSCRIBER_MANAGEMENT.

(** osmo_gsup_client_enc_send, gsup_client.c:417-447 *)
Definition enc_send (m : mux) (g : gsup) : list mout := if m_enc m g && m_conn m then [MSend g] else [].

(** gsup_client_mux_tx_set_source, gsup_client_mux.c:142-161: name with its terminating zero *)
Definition mux_set_source (m : mux) (g : gsup) : gsup :=
  match m_name m with
  | Some s => with_src g (bytes_of s ++ [nul])
  | None => g
  end.

(** gsup_client_mux_tx_error_reply, gsup_client_mux.c:163-196 *)
Definition mux_tx_error_reply (m : mux) (orig : gsup) (cause : Z) : list mout :=
  if negb (is_request (g_type orig)) then []
  else
    let ss := negb (g_ss orig =? SS_NONE) in
    enc_send m (mux_set_source m
      (mk_gsup (to_error (g_type orig)) (g_imsi orig) cause (g_class orig) [] (g_src orig) (g_mr orig)
               (if ss then g_sid orig else 0) (if ss then SS_END else SS_NONE) 0 ext0)).

(** gsup_client_mux_rx, gsup_client_mux.c:58-100. [d]: what osmo_gsup_decode() makes of the message. The return code of a
    receiver is not modelled. *)
Definition mux_rx (m : mux) (d : option gsup) : list mout :=
  match d with
  | None => []
  | Some g =>
      if (g_imsi g =? "")%string then
        (if is_request (g_type g) then mux_tx_error_reply m g CAUSE_INV_MAND_INFO else [])
      else
        let cls := mux_classify g in
        if (cls <=? CLASS_UNSET) || (CLASS_ARRAYSIZE <=? cls) then []
        else if negb (m_rx m cls) then []
        else [MDeliver cls g]
  end.

(** gsup_client_mux_tx, gsup_client_mux.c:122-140, of a mux with a client *)
Definition mux_tx (m : mux) (g : gsup) : list mout := if m_enc m g && m_conn m then [MSend g] else [].
