(** The load test client, /repo/src/gsupclient/gsup_test_client.c, on top of the GSUP client of Client.v. *)
From Verif Require Import Base Gsup Client.
From Verif Require Hlr.
Local Open Scope Z_scope.

(** enum imsi_op_type, gsup_test_client.c:32-37; struct imsi_op, 48-53, without its timer, which nothing ever starts: it is set up
    in line 80 and deleted in line 89, so that imsi_op_timer_cb (95-101) is never called. *)
Inductive op_type := OpSai | OpLu | OpIsd.
Record op := mk_op { p_imsi : string; p_type : op_type }.
(** struct imsi_op_stats, gsup_test_client.c:24-30, uint32_t *)
Record stats := mk_stats { n_alloc : N; n_released : N; n_success : N; n_error : N; n_timeout : N }.
(** The global variables: g_gc (line 16; [None]: NULL), g_imsi_ops (22), imsi_op_stats (46), and i of main() (289). [t_nr] (ghost) numbers the
    messages given to the GSUP client. *)
Record tc := mk_tc { t_gc : option client; t_ops : list op; t_sai : stats; t_lu : stats; t_isd : stats; t_i : N; t_nr : nat }.
(** What is seen of it: a message (type, IMSI) given to osmo_gsup_client_send(), which queued or refused it; a message that could not be encoded,
    whose buffer is lost; outputs of the GSUP client; whether a received buffer was freed. *)
Inductive tout := TSend (nr : nat) (t : Z) (imsi : string) (queued : bool) | TLost (t : Z) (imsi : string) | TClient (o : list cout) | TFreed | TKept.
(** A step: state and outputs, or undefined behaviour (a null pointer or freed memory is read). *)
Inductive tres (A : Type) := TOk (a : A) | TUb.
Arguments TOk {A} _.
Arguments TUb {A}.

Definition op_eqb (a b : op_type) : bool := match a, b with OpSai, OpSai | OpLu, OpLu | OpIsd, OpIsd => true | _, _ => false end.
Definition stats0 : stats := mk_stats 0 0 0 0 0.
Definition stats_of (s : tc) (t : op_type) : stats := match t with OpSai => t_sai s | OpLu => t_lu s | OpIsd => t_isd s end.
Definition with_stats (s : tc) (t : op_type) (x : stats) : tc :=
  match t with
  | OpSai => mk_tc (t_gc s) (t_ops s) x (t_lu s) (t_isd s) (t_i s) (t_nr s)
  | OpLu => mk_tc (t_gc s) (t_ops s) (t_sai s) x (t_isd s) (t_i s) (t_nr s)
  | OpIsd => mk_tc (t_gc s) (t_ops s) (t_sai s) (t_lu s) x (t_i s) (t_nr s)
  end.
Definition with_ops (s : tc) (l : list op) : tc := mk_tc (t_gc s) l (t_sai s) (t_lu s) (t_isd s) (t_i s) (t_nr s).
Definition with_gc (s : tc) (c : option client) : tc := mk_tc c (t_ops s) (t_sai s) (t_lu s) (t_isd s) (t_i s) (t_nr s).
Definition with_i (s : tc) (i : N) : tc := mk_tc (t_gc s) (t_ops s) (t_sai s) (t_lu s) (t_isd s) i (t_nr s).
Definition with_nr (s : tc) (n : nat) : tc := mk_tc (t_gc s) (t_ops s) (t_sai s) (t_lu s) (t_isd s) (t_i s) n.

(** ++ of an uint32_t *)
Definition inc (n : N) : N := ((n + 1) mod 4294967296)%N.

(** imsi_op_find, gsup_test_client.c:55-65 *)
Definition is_op (imsi : string) (t : op_type) (o : op) : bool := (p_imsi o =? imsi)%string && op_eqb (p_type o) t.
Definition imsi_op_find (imsi : string) (t : op_type) (s : tc) : option op := find (is_op imsi t) (t_ops s).

(** imsi_op_alloc, gsup_test_client.c:69-85: the new operation is the first of the list; [None]: NULL *)
Definition imsi_op_alloc (imsi : string) (t : op_type) (s : tc) : option (op * tc) :=
  match imsi_op_find imsi t s with
  | Some _ => None
  | None =>
      let io := mk_op (str_take 16 imsi) t in
      let x := stats_of s t in
      let s := with_ops s (io :: t_ops s) in
      Some (io, with_stats s t (mk_stats (inc (n_alloc x)) (n_released x) (n_success x) (n_error x) (n_timeout x)))
  end.

(** imsi_op_release, gsup_test_client.c:87-93. The operation is the first with its IMSI and type, as imsi_op_find() found it or
    imsi_op_alloc() put it in front. *)
Fixpoint drop_op (f : op -> bool) (l : list op) : list op :=
  match l with [] => [] | o :: r => if f o then r else o :: drop_op f r end.
Definition imsi_op_release (io : op) (s : tc) : tc :=
  let x := stats_of s (p_type io) in
  let s := with_ops s (drop_op (is_op (p_imsi io) (p_type io)) (t_ops s)) in
  with_stats s (p_type io) (mk_stats (n_alloc x) (inc (n_released x)) (n_success x) (n_error x) (n_timeout x)).

(** osmo_gsup_client_send(), gsup_client.c:399-410, of a message that was encoded: whether the result is not negative *)
Definition send (t : Z) (imsi : string) (s : tc) : bool * tc * list tout :=
  let n := t_nr s in
  let s := with_nr s (S n) in
  match t_gc s with
  | None => (false, s, [TSend n t imsi false])
  | Some c => let '(c', _) := osmo_gsup_client_send n c in (c_conn c, with_gc s (Some c'), [TSend n t imsi (c_conn c)])
  end.
(** The second halves of req_auth_info, req_loc_upd, gsup_test_client.c:111-120, 131-140: encode and send. [enc]: whether osmo_gsup_encode() of a message
    with this type and IMSI and nothing else succeeds. *)
Definition encode_send (enc : Z -> string -> bool) (t : Z) (imsi : string) (s : tc) : bool * tc * list tout :=
  if enc t imsi then send t imsi s else (false, s, [TLost t imsi]).

(** req_auth_info and req_loc_upd, gsup_test_client.c:104-121, 124-141: io->imsi is read without a look at io *)
Definition request (enc : Z -> string -> bool) (t : Z) (ot : op_type) (imsi : string) (s : tc) : tres (tc * list tout) :=
  match imsi_op_alloc imsi ot s with
  | None => TUb
  | Some (io, s) => let '(_, s, o) := encode_send enc t (p_imsi io) s in TOk (s, o)
  end.

(** imsi_op_rx_gsup, gsup_test_client.c:164-198, with resp_isd, 143-161. After a failure of resp_isd() io->imsi is printed (line 191), which is freed
    memory if it was the sending that failed (158-160). *)
Definition imsi_op_rx_gsup (enc : Z -> string -> bool) (io : op) (t : Z) (s : tc) : tres (tc * list tout) :=
  let x := stats_of s (p_type io) in
  let s := with_stats s (p_type io)
             (if is_error t then mk_stats (n_alloc x) (n_released x) (n_success x) (inc (n_error x)) (n_timeout x)
              else mk_stats (n_alloc x) (n_released x) (inc (n_success x)) (n_error x) (n_timeout x)) in
  match p_type io with
  | OpSai =>
      match request enc MSGT_UPDATE_LOCATION_REQUEST OpLu (p_imsi io) s with
      | TUb => TUb
      | TOk (s, o) => TOk (imsi_op_release io s, o)
      end
  | OpLu => TOk (imsi_op_release io s, [])
  | OpIsd =>
      if enc MSGT_INSERT_DATA_RESULT (p_imsi io) then
        let '(ok, s, o) := send MSGT_INSERT_DATA_RESULT (p_imsi io) (imsi_op_release io s) in
        if ok then TOk (s, o) else TUb
      else TOk (s, [TLost MSGT_INSERT_DATA_RESULT (p_imsi io)])
  end.

(** op_type_by_gsup_msgt, gsup_test_client.c:200-215; the error types are one above those of the requests *)
Definition op_type_by_gsup_msgt (t : Z) : option op_type :=
  if (t =? MSGT_SEND_AUTH_INFO_RESULT) || (t =? MSGT_SEND_AUTH_INFO_REQUEST + 1) then Some OpSai
  else if (t =? MSGT_UPDATE_LOCATION_RESULT) || (t =? MSGT_UPDATE_LOCATION_REQUEST + 1) then Some OpLu
  else if t =? MSGT_INSERT_DATA_REQUEST then Some OpIsd
  else None.

(** gsupc_read_cb, gsup_test_client.c:217-253, for the IMSI and type that osmo_gsup_decode() found, or [None] where it failed. Every
    return but the last one leaves the buffer. *)
Definition gsupc_read_cb (enc : Z -> string -> bool) (m : option (string * Z)) (s : tc) : tres (tc * list tout) :=
  match m with
  | None => TOk (s, [TKept])
  | Some (imsi, t) =>
      if (imsi =? "")%string then TOk (s, [TKept])
      else
        match op_type_by_gsup_msgt t with
        | None => TOk (s, [TKept])
        | Some ot =>
            match (match ot with
                   | OpIsd => imsi_op_alloc imsi OpIsd s
                   | _ => match imsi_op_find imsi ot s with Some io => Some (io, s) | None => None end
                   end) with
            | None => TOk (s, [TKept])
            | Some (io, s) =>
                match imsi_op_rx_gsup enc io t s with
                | TUb => TUb
                | TOk (s, o) => TOk (s, o ++ [TFreed])
                end
            end
        end
  end.

(** The IMSI of a round of the loop, main, gsup_test_client.c:303-307: "%015llu" into a buffer of 17 octets *)
Definition zeros (n : nat) : string := string_of_list_ascii (repeat "0"%char n).
Definition imsi_at (i : N) : string :=
  let d := Hlr.dec_digits 20 (901790000000000 + i) in str_take 16 (zeros (15 - String.length d) ++ d)%string.

(** What happens: main() comes to a round of its loop (302-313), or osmo_select_main() finds something for the GSUP client: an
    event of Client.v other than a message for the user ([rc]: the result of opening a socket, if one is opened), or such a message. *)
Inductive tevent := TAsk | TLink (now rc : Z) (e : cevent) | TRx (m : option (string * Z)).
(** The client is created without OAP and without a callback for its link, main, gsup_test_client.c:296-297. *)
Definition env (rc : Z) : cenv := mk_cenv rc None false.

(** One event; [None]: cannot happen. osmo_select_main() is called for the first time after the first round. A decoded IMSI fits its field,
    which has 17 octets like that of struct imsi_op. *)
Definition tstep (enc : Z -> string -> bool) (e : tevent) (s : tc) : option (tres (tc * list tout)) :=
  match e with
  | TAsk =>
      if (t_i s <? 10000)%N
      then Some (request enc MSGT_SEND_AUTH_INFO_REQUEST OpSai (imsi_at (t_i s)) (with_i s (t_i s + 1)))
      else None
  | TLink now rc ev =>
      match ev with
      | CSend _ | CRxGsup _ => None
      | _ =>
          match t_gc s with
          | Some c =>
              if (t_i s =? 0)%N then None
              else match cstep now (env rc) ev c with
                   | Some (c', o) => Some (TOk (with_gc s (Some c'), [TClient o]))
                   | None => None
                   end
          | None => None
          end
      end
  | TRx m =>
      match t_gc s with
      | Some c =>
          match c_link c with
          | LUp =>
              if (t_i s =? 0)%N then None
              else if match m with Some (imsi, _) => (String.length imsi <=? 16)%nat | None => true end
                   then Some (gsupc_read_cb enc m s) else None
          | _ => None
          end
      | None => None
      end
  end.

(** main, gsup_test_client.c:296-297: the state before the loop *)
Definition tstart (now rc : Z) : tc :=
  mk_tc (match client_create now (env rc) with Some (c, _) => Some c | None => None end) [] stats0 stats0 stats0 0 0.

(** A history: the state after it and the outputs of each event, oldest first. [None]: it cannot happen. *)
Definition ttrace := list (tevent * list tout).
Fixpoint trun (enc : Z -> string -> bool) (l : list tevent) (s : tc) (tr : ttrace) : option (tres (tc * ttrace)) :=
  match l with
  | [] => Some (TOk (s, tr))
  | e :: l =>
      match tstep enc e s with
      | None => None
      | Some TUb => Some TUb
      | Some (TOk (s, o)) => trun enc l s (tr ++ [(e, o)])
      end
  end.
