(** Scripts that forward calls and messages by mslookup, in /repo/contrib/dgsm: freeswitch_dialplan_dgsm.py, esme_dgsm.py, osmo-mslookup-pipe.py and
    osmo-mslookup-socket.py, run on the lookup tool of Cmd.v and MsTool.v.

    Simplifications: osmo-mslookup-client is installed. json.loads() is read_json() of MsToolSpec.v, which reads the texts that the tool
    writes, without escapes; it ignores the line feed at the end. A line on stdout is what readline() gives back; a query that holds a
    line feed is not looked at. What the scripts print or log is left out. freeswitch, smpplib and the network are outside. *)
From Verif Require Import Base Ctrl MsLookup Mdns MsClient Cmd.
From Verif Require Import MsTool MsToolSpec.
Local Open Scope string_scope. Local Open Scope N_scope.

Definition LF : string := String "010"%char "".
Definition ascii_char (c : ascii) : bool := N_of_ascii c <? 128.
(** a Python dict; the value of a key *)
Definition dict := list (string * jval).
Fixpoint key_of (k : string) (d : dict) : option jval :=
  match d with [] => None | (n, v) :: r => if (n =? k)%string then Some v else key_of k r end.
(** what is on stdout, oldest first *)
Fixpoint stdout (l : list tout) : list string :=
  match l with [] => [] | OLine s :: r => stdout r ++ [s] | _ :: r => stdout r end%list.

(** How a function of Python goes on: it still waits, it raised an exception, it returns *)
Inductive py (A : Type) := PWait | PRaise | PGot (a : A).
Arguments PWait {A}. Arguments PRaise {A}. Arguments PGot {A} a.

(** ** query_mslookup of the dialplan and the ESME *)
(** decode('ascii') and json.loads() of the whole output, freeswitch_dialplan_dgsm.py:22-26, esme_dgsm.py:59-63 *)
Definition loads (l : list string) : py dict :=
  let t := String.concat LF l in
  if all_chars ascii_char t then match read_json t with Some d => PGot d | None => PRaise end else PRaise.
(** freeswitch_dialplan_dgsm.py:17, esme_dgsm.py:54 *)
Definition query_text (service id id_type : string) : string := service ++ "." ++ id ++ "." ++ id_type.
(** query_mslookup, freeswitch_dialplan_dgsm.py:16-26, esme_dgsm.py:53-63; subprocess.check_output() waits for the end of the program
    and raises an exception if its status is not 0. [b] is what befalls the tool. *)
Definition query_mslookup (e : lenv) (service id id_type : string) (b : list (list tev)) : py dict :=
  match look_main e [query_text service id id_type; "-f"; "json"] b with
  | Bad => PRaise
  | Val (x, _) =>
      match look_status x with
      | None => PWait
      | Some 0%Z => loads (match x with LRan s _ => stdout (t_out s) | _ => [] end)
      | Some _ => PRaise
      end
  end.
(** result['v4'] that is not empty, and its two parts: freeswitch_dialplan_dgsm.py:40-45, esme_dgsm.py:107-112. [PGot None]: no such
    key, or empty; other values cannot be unpacked *)
Definition v4_of (d : dict) : py (option (string * string)) :=
  match key_of "v4" d with
  | None | Some (JArr []) | Some (JStr "") | Some (JNum 0) | Some (JBool false) => PGot None
  | Some (JArr [h; p]) => PGot (Some (h, p))
  | Some _ => PRaise
  end.

(** ** freeswitch_dialplan_dgsm.py *)
(** what is done with the call *)
Inductive call := CallWaits | CallHangup (cause : string) | CallBridge (dial : string).
(** handler, freeswitch_dialplan_dgsm.py:29-53; a variable that is not set is None, which is written as such *)
Definition handler (e : lenv) (number : option string) (b : list (list tev)) : call :=
  let msisdn := opt_default "None" number in
  match query_mslookup e "sip.voice" msisdn "msisdn" b with
  | PWait => CallWaits
  | PRaise => CallHangup "UNALLOCATED_NUMBER"
  | PGot d =>
      match v4_of d with
      | PGot (Some (ip, port)) => CallBridge ("sofia/internal/sip:" ++ msisdn ++ "@" ++ ip ++ ":" ++ port)
      | _ => CallHangup "UNALLOCATED_NUMBER"
      end
  end.

(** ** esme_dgsm.py *)
(** smpplib.consts: SMPP_ESME_ROK, SMPP_ESME_RSYSERR, SMPP_TON_INTL *)
Definition ESME_ROK : N := 0.
Definition ESME_RSYSERR : N := 8.
Definition TON_INTL : N := 1.
(** a PDU: whether it is a DeliverSM, and of it what is used here; the text of destination_addr, [None]: decode() fails *)
Record pdu := mk_pdu { p_deliver : bool; p_ton : N; p_dest : option string }.
(** what is sent on by tx_sms, esme_dgsm.py:66-88: to which host and port, for whom; and the status that the SMSC is answered with *)
Record sms := mk_sms { m_host : string; m_port : string; m_dest : string }.
(** can_handle_pdu, esme_dgsm.py:40-50 *)
Definition can_handle (p : pdu) : bool := p_deliver p && negb (p_ton p =? TON_INTL).
(** rx_deliver_sm, esme_dgsm.py:91-117; [fail] is --always-fail; [tx] tells whether tx_sms() gets through, it raises an exception otherwise *)
Definition rx_deliver (e : lenv) (fail : option N) (tx : sms -> bool) (p : pdu) (b : list (list tev)) : py (option sms * N) :=
  if negb (can_handle p) then PGot (None, ESME_RSYSERR)
  else
    match p_dest p with
    | None => PRaise
    | Some msisdn =>
        match fail with
        | Some n => PGot (None, n)
        | None =>
            match query_mslookup e "smpp.sms" msisdn "msisdn" b with
            | PWait => PWait
            | PRaise => PRaise
            | PGot d =>
                match v4_of d with
                | PWait => PWait
                | PRaise => PRaise
                | PGot None => PGot (None, ESME_RSYSERR)
                | PGot (Some (host, port)) =>
                    let m := mk_sms host port msisdn in
                    if tx m then PGot (Some m, ESME_ROK) else PRaise
                end
            end
        end
    end.

(** ** osmo-mslookup-pipe.py *)
Definition is_result (v : option jval) : bool := match v with Some (JStr s) => (s =? "result")%string | _ => false end.
(** the loop, osmo-mslookup-pipe.py:10-16; json.loads() of the octets of a line *)
Fixpoint pipe_lines (l : list string) (result : dict) : py dict :=
  match l with
  | [] => PGot result
  | x :: r => match read_json x with
              | None => PRaise
              | Some d => pipe_lines r (if is_result (key_of "result" d) then d else result)
              end
  end.
(** query_mslookup, osmo-mslookup-pipe.py:6-17. The status of the tool is not looked at. *)
Definition pipe_query (e : lenv) (query : string) (b : list (list tev)) : py dict :=
  match look_main e ["-f"; "json"; query] b with
  | Bad => PGot [("result", JStr "not-found")]
  | Val (x, _) =>
      match pipe_lines (match x with LRan s _ => stdout (t_out s) | _ => [] end) [("result", JStr "not-found")] with
      | PGot d => match look_status x with None => PWait | Some _ => PGot d end
      | r => r
      end
  end.

(** ** osmo-mslookup-socket.py *)
(** dict(zip(..)), osmo-mslookup-socket.py:22; a name that comes twice is not looked at *)
Fixpoint zip (a b : list string) : list (string * string) :=
  match a, b with x :: a, y :: b => (x, y) :: zip a b | _, _ => [] end.
Fixpoint cell_of (k : string) (d : list (string * string)) : option string :=
  match d with [] => None | (n, v) :: r => if (n =? k)%string then Some v else cell_of k r end.
(** the loop, osmo-mslookup-socket.py:18-26; split() is fields() of MsToolSpec.v *)
Fixpoint socket_lines (names : list string) (l : list string) (result : list (string * string)) : list (string * string) :=
  match l with
  | [] => result
  | x :: r => let d := zip names (fields x) in
              socket_lines names r (match cell_of "result" d with Some v => if (v =? "result")%string then d else result | None => result end)
  end.
(** query_mslookup_socket, osmo-mslookup-socket.py:8-26, as far as it comes with these messages from the daemon: the query that it sends,
    and what it returns. [closed]: the daemon has closed the socket. Messages are of the ASCII characters. *)
Definition socket_query (query : string) (l : list string) (closed : bool) : option string * py (list (string * string)) :=
  match l with
  | [] => (None, if closed then PGot [("result", "not-found")] else PWait)
  | names :: l => (Some query, if closed then PGot (socket_lines (fields names) l [("result", "not-found")]) else PWait)
  end.
