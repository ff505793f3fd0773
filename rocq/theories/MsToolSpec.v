(** Vocabulary for the lookup tool and its daemon (C58 to C60). *)
From Verif Require Import Base Db Auth Gsup Router Ctrl CtrlSpec MsLookup Mdns MsClient MsClientSpec MsTool.
Local Open Scope N_scope.

(** the packets that came from socket clients *)
Fixpoint packets (l : list tev) : nat :=
  match l with [] => O | EPacket _ _ :: r => S (packets r) | _ :: r => packets r end.
(** a state that the program gets to, started with these queries, by these events; at most 2^32 - 1 queries, so that the handles
    of the lookup client do not come up again *)
Definition reached (o : topts) (args : list string) (l : list tev) (s : tst) : Prop :=
  N.of_nat (length args + packets l) <= 4294967295 /\ exists s0, start o args = Val s0 /\ trun o s0 l = Val s.

(** what socket client [i] was sent, newest first *)
Fixpoint sent (i : N) (l : list tout) : list string :=
  match l with
  | [] => []
  | OMsg j t :: r => if j =? i then t :: sent i r else sent i r
  | _ :: r => sent i r
  end.
Definition closed (i : N) (s : tst) : Prop := In (OClose i) (t_out s).
(** the calls of the callback for one request of the lookup client, newest first *)
Fixpoint calls (u : N) (tr : list note) : list tres :=
  match tr with
  | [] => []
  | TCall v rc x last _ :: r => if v =? u then mk_tres rc x last :: calls u r else calls u r
  | _ :: r => calls u r
  end.
(** the query in a packet: the first line, after the timeouts *)
Definition asked (b : list ascii) : option string := match line_of b with Some x => Some (domain_of x) | None => None end.
(** a socket client is connected, and has asked this ("": nothing yet) *)
Definition connected (s : tst) (i : N) (d : string) : Prop := In (mk_tclient i d) (t_cls s).
(** nobody waits for an answer to this *)
Definition unasked (s : tst) (d : string) : Prop := (forall i, ~ connected s i d) /\ forall h, ~ In (h, d) (t_qs s).
(** events that do not concern the query [d] of client [i]: no packet from [i], no hangup of [i], no packet of others that asks for [d] *)
Definition apart (i : N) (d : string) (e : tev) : Prop :=
  match e with
  | EPacket j b => j <> i /\ asked b <> Some d
  | EHangup j => j <> i
  | _ => True
  end.

(** ** Lines *)
Fixpoint all_chars (p : ascii -> bool) (s : string) : bool := match s with EmptyString => true | String c r => p c && all_chars p r end.
(** the columns of a line *)
Fixpoint fields (s : string) : list string :=
  match s with
  | EmptyString => [EmptyString]
  | String c r => if (c =? "009")%char then EmptyString :: fields r
                  else match fields r with [] => [String c EmptyString] | f :: fs => String c f :: fs end
  end.
Definition no_tab (c : ascii) : bool := negb (c =? "009")%char.
(** characters that stand for themselves in a JSON string (RFC 8259, section 7) *)
Definition literal (c : ascii) : bool := (32 <=? N_of_ascii c) && negb (c =? "034")%char && negb (c =? "092")%char.
(** the texts of addresses: hexadecimal digits, dots and colons, at most 45 of them *)
Definition address_char (c : ascii) : bool :=
  let n := N_of_ascii c in ((48 <=? n) && (n <=? 58)) || ((65 <=? n) && (n <=? 70)) || ((97 <=? n) && (n <=? 102)) || (n =? 46).
Definition plain_ntop (o : topts) : Prop := forall a, all_chars address_char (o_ntop o a) = true /\ (String.length (o_ntop o a) <= 45)%nat.
(** a reader of JSON: an object of strings, numbers without fraction, booleans and arrays of strings, without escapes, and with the
    blanks that this program writes *)
Inductive jval := JStr (s : string) | JNum (n : N) | JBool (b : bool) | JArr (l : list string).
Fixpoint strip (p s : string) : option string :=
  match p, s with
  | EmptyString, _ => Some s
  | String a p, String c s => if (a =? c)%char then strip p s else None
  | _, _ => None
  end.
Fixpoint read_chars (s : string) : option (string * string) :=
  match s with
  | EmptyString => None
  | String c r => if (c =? "034")%char then Some (EmptyString, r)
                  else if literal c then match read_chars r with Some (x, y) => Some (String c x, y) | None => None end else None
  end.
Definition read_string (s : string) : option (string * string) := match strip QT s with Some r => read_chars r | None => None end.
Definition is_digit (c : ascii) : bool := (48 <=? N_of_ascii c) && (N_of_ascii c <=? 57).
Fixpoint read_digits (acc : N) (s : string) : N * string :=
  match s with
  | String c r => if is_digit c then read_digits (acc * 10 + (N_of_ascii c - 48)) r else (acc, s)
  | EmptyString => (acc, s)
  end.
Fixpoint read_strings (fuel : nat) (s : string) : option (list string * string) :=
  match fuel with
  | O => None
  | S f =>
      match read_string s with
      | None => None
      | Some (x, r) =>
          match strip "]" r with
          | Some r => Some ([x], r)
          | None => match strip ", " r with
                    | Some r => match read_strings f r with Some (l, r) => Some (x :: l, r) | None => None end
                    | None => None
                    end
          end
      end
  end.
Definition read_value (s : string) : option (jval * string) :=
  match s with
  | String c r =>
      if (c =? "034")%char then match read_string s with Some (x, r) => Some (JStr x, r) | None => None end
      else if is_digit c then let (n, r) := read_digits 0 s in Some (JNum n, r)
      else if (c =? "[")%char then match read_strings (String.length r) r with Some (l, r) => Some (JArr l, r) | None => None end
      else match strip "true" s with
           | Some r => Some (JBool true, r)
           | None => match strip "false" s with Some r => Some (JBool false, r) | None => None end
           end
  | EmptyString => None
  end.
Fixpoint read_members (fuel : nat) (s : string) : option (list (string * jval)) :=
  match fuel with
  | O => None
  | S f =>
      match read_string s with
      | None => None
      | Some (x, r) =>
          match strip ": " r with
          | None => None
          | Some r =>
              match read_value r with
              | None => None
              | Some (v, r) =>
                  if (r =? "}")%string then Some [(x, v)]
                  else match strip ", " r with
                       | Some r => match read_members f r with Some l => Some ((x, v) :: l) | None => None end
                       | None => None
                       end
              end
          end
      end
  end.
Definition read_json (s : string) : option (list (string * jval)) := match strip "{" s with Some r => read_members (String.length r) r | None => None end.
(** what a line says *)
Definition told_host (o : topts) (h : option (list N * N)) : list string := match nonzero h with Some (a, p) => [o_ntop o a; dec p] | None => [] end.
Definition cells (l : list string) : list string := match l with [] => [""; ""] | _ => l end.
Definition result_cells (o : topts) (q : string) (r : option tres) : list string :=
  match r with
  | None => [q; "ERROR"; ""; ""; ""; ""; ""; ""]
  | Some r => [q; code_name (r_code r); if r_last r then "last" else "not-last"; dec (lr_age (r_res r))] ++
              (match r_code r with RcResult => cells (told_host o (lr_v4 (r_res r))) ++ cells (told_host o (lr_v6 (r_res r))) | _ => [""; ""; ""; ""] end)
  end%list.
Definition members (o : topts) (q : string) (r : option tres) : list (string * jval) :=
  ("query", JStr q) ::
  match r with
  | None => [("result", JStr "ERROR")]
  | Some r => [("result", JStr (code_name (r_code r))); ("last", JBool (r_last r)); ("age", JNum (lr_age (r_res r)))] ++
              (match r_code r with
               | RcResult => match told_host o (lr_v4 (r_res r)) with [] => [] | l => [("v4", JArr l)] end ++
                             match told_host o (lr_v6 (r_res r)) with [] => [] | l => [("v6", JArr l)] end
               | _ => []
               end)
  end%list.

(** ** Timeouts *)
(** what may be before '@': "delay-timeout", "timeout", "delay-", nothing; in milliseconds *)
Inductive times : string -> N -> N -> Prop :=
| times_both : forall a b mn tm, numeral a (Z.of_N mn) -> numeral b (Z.of_N tm) -> times (a ++ "-" ++ b) mn tm
| times_timeout : forall b tm, numeral b (Z.of_N tm) -> times b 0 tm
| times_delay : forall a mn, numeral a (Z.of_N mn) -> times (a ++ "-") mn 0
| times_none : times "" 0 0.
(** the timeouts of a query *)
Definition has_times (o : topts) (x : string) (d : string) (mn tm : N) : Prop :=
  (exists t, x = t ++ "@" ++ d /\ times t mn tm)%string \/ (x = d /\ all_chars (fun c => negb (c =? "@")%char) d = true /\ mn = o_min o /\ tm = o_tmo o).
(** a timeout of 0 stands for the delay, and if there is none, for a second: mslookup_client.h, osmo_mslookup_query_handling *)
Definition effective (mn tm : N) : N := if tm =? 0 then (if mn =? 0 then 1000 else mn) else tm.

(** ** Lines *)
(** a character inside a line: not NUL, LF, CR *)
Definition no_end (c : ascii) : Prop := c <> "000"%char /\ c <> "010"%char /\ c <> "013"%char.
(** [x] is the first line of the packet [b] that is not empty; packets of 1024 octets or more have none *)
Definition first_line (b : list ascii) (x : string) : Prop :=
  (length b < 1024)%nat /\ exists pre post, b = (pre ++ bytes_of x ++ post)%list /\ Forall (fun c => c = "010"%char \/ c = "013"%char) pre /\ x <> ""%string /\
    Forall no_end (bytes_of x) /\ (post = nil \/ exists c p, post = (c :: p)%list /\ ~ no_end c).
