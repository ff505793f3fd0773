(** The demonstration external USSD entity, /repo/src/osmo-euse-demo.c, and the HLR together with it. *)
From Verif Require Import Base PeerId Db Gsup Router Hlr.

(** What libosmocore does for the program: [f_parse] gsm0480_parse_facility_ie (invoke id and text of the
    request; 0 and "" where it fills in nothing), [f_text] the octets of gsm0480_gen_ussd_resp_7bit,
    [f_reject] those of gsm0480_gen_reject. *)
Record euse_lib := mk_lib {
  f_parse : list N -> option (Z * string);
  f_text : Z -> string -> list N;
  f_reject : Z -> Z -> Z -> list N }.

(** libosmocore gsm_04_80.h: GSM_0480_PROBLEM_CODE_TAG_GENERAL, GSM_0480_GEN_PROB_CODE_UNRECOGNISED,
    GSM_0480_GEN_PROB_CODE_BAD_STRUCTURE; gsm0480.h: GSM0480_USSD_7BIT_STRING_LEN *)
Definition TAG_GENERAL : Z := 128.
Definition PROB_UNRECOGNISED : Z := 0.
Definition PROB_BAD_STRUCTURE : Z := 2.
Definition USSD_7BIT_STRING_LEN : nat := 183.

(** euse_tx_ss, osmo-euse-demo.c:60-93: the message handed to osmo_gsup_client_send(), if any. The IMSI fits:
    it comes from a field of the same type. *)
Definition euse_tx_ss (imsi : string) (sid t : Z) (final : bool) (pl : list N) : list gsup :=
  if (t =? MSGT_PROC_SS_REQUEST) || (t =? MSGT_PROC_SS_RESULT) || (t =? MSGT_PROC_SS_ERROR) then
    [mk_gsup t imsi 0 0 [] [] None sid (if final then SS_END else SS_CONTINUE) 0
       (mk_ext None None 0 0 [] None false None [] (PlRaw pl) None None None [])]
  else [].

(** euse_tx_ussd_reject, osmo-euse-demo.c:103-111 *)
Definition euse_tx_reject (l : euse_lib) (imsi : string) (sid invoke tag code : Z) : list gsup :=
  euse_tx_ss imsi sid MSGT_PROC_SS_RESULT true (f_reject l invoke tag code).

(** euse_tx_ussd_resp_7bit, osmo-euse-demo.c:121-132; the invoke id is an uint8_t here *)
Definition euse_tx_text (l : euse_lib) (imsi : string) (sid : Z) (final : bool) (invoke : Z) (text : string) : list gsup :=
  euse_tx_ss imsi sid MSGT_PROC_SS_RESULT final (f_text l (invoke mod 256) text).

Definition quote : string := String (ascii_of_nat 34) "".

(** euse_rx_proc_ss_req, osmo-euse-demo.c:134-160. snprintf() cuts the text to the buffer. *)
Definition euse_rx (l : euse_lib) (g : gsup) : list gsup :=
  match (match pl_octets (x_ss (g_x g)) with [] => Some (0, ""%string) | o => f_parse l o end) with
  | None => euse_tx_reject l (g_imsi g) (g_sid g) (-1) TAG_GENERAL PROB_BAD_STRUCTURE
  | Some (invoke, text) =>
      if negb (g_ss g =? SS_BEGIN)
      then euse_tx_reject l (g_imsi g) (g_sid g) invoke TAG_GENERAL PROB_UNRECOGNISED
      else euse_tx_text l (g_imsi g) (g_sid g) true invoke
             (str_take USSD_7BIT_STRING_LEN ("You sent " ++ quote ++ text ++ quote))
  end.

(** gsupc_read_cb, osmo-euse-demo.c:162-190, for a message that was decoded, or [None]: what is sent, and
    whether the buffer of the message is freed. *)
Definition euse_read (l : euse_lib) (m : option gsup) : list gsup * bool :=
  match m with
  | None => ([], false)
  | Some g => (if (g_type g =? MSGT_PROC_SS_REQUEST) || (g_type g =? MSGT_PROC_SS_RESULT) then euse_rx l g else [], true)
  end.

(** The name given to osmo_gsup_client_create(), osmo-euse-demo.c:231, as the HLR gets it in the SERNR tag. *)
Definition demo_name : list ascii := bytes_of "EUSE-foobar" ++ [nul].

(** ** The HLR and the demonstration entity *)

(** What a step of the HLR transmits on connection [c]. *)
Definition sent_on (c : nat) (o : list out) : list gsup :=
  flat_map (fun x => match x with
                     | OTx c' g => if (c' =? c)%nat then [g] else []
                     | OResp _ r _ (Some c') => if (c' =? c)%nat then [r] else []
                     | _ => []
                     end) o.

(** The HLR with its database, and the messages under way on the connection of the demonstration entity,
    to it and from it, oldest first. *)
Record net := mk_net { n_hlr : hst; n_db : db; n_down : list gsup; n_up : list gsup }.

(** What happens: an event of anybody else at the HLR, the entity reads a message, the HLR reads a message
    of the entity. Messages that nobody sent do not exist. *)
Inductive nact := AHlr (w : world) (e : event) (f : sched) | ARead | AUp (w : world) (f : sched).
Definition net_step (k : cfg) (l : euse_lib) (c : nat) (n : net) (a : nact) : option (net * list out) :=
  match a with
  | AHlr w e f =>
      match step k (n_hlr n, n_db n) (w, e, f) with
      | None => None
      | Some (s, d, o) => Some (mk_net s d (n_down n ++ sent_on c o) (n_up n), o)
      end
  | ARead =>
      match n_down n with
      | [] => Some (n, [])
      | g :: down => Some (mk_net (n_hlr n) (n_db n) down (n_up n ++ fst (euse_read l (Some g))), [])
      end
  | AUp w f =>
      match n_up n with
      | [] => Some (n, [])
      | g :: up =>
          match step k (n_hlr n, n_db n) (w, ERx c g, f) with
          | None => None
          | Some (s, d, o) => Some (mk_net s d (n_down n ++ sent_on c o) up, o)
          end
      end
  end.
Fixpoint net_run (k : cfg) (l : euse_lib) (c : nat) (n : net) (acts : list nact) : option (net * list out) :=
  match acts with
  | [] => Some (n, [])
  | a :: acts' =>
      match net_step k l c n a with
      | None => None
      | Some (n', o) => match net_run k l c n' acts' with None => None | Some (n'', o') => Some (n'', o ++ o') end
      end
  end.

(** The HLR after start-up and after the entity has connected and named itself. *)
Definition net0 (d : db) : net := mk_net (with_srv hst0 (srv_ident (srv_accept server0) 0 (Some demo_name))) d [] [].
