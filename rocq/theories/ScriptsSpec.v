(** Vocabulary for the scripts that forward calls and messages (C74). *)
From Verif Require Import Base Ctrl MsLookup Mdns MsClient Cmd MsTool MsToolSpec Scripts.
Local Open Scope string_scope. Local Open Scope N_scope.

(** the tool was not asked for a socket, so that no program talks to it; ages have 32 bits *)
Definition network (e : tev) : Prop := match e with EAccept | EPacket _ _ | EHangup _ => False | EAnswer _ x => lr_age x < 4294967296 | _ => True end.
(** [x] is news after [best]: it is the first, or younger *)
Definition news (best : option lresult) (x : lresult) : Prop := match best with None => True | Some y => lr_age x < lr_age y end.
(** What becomes of a query in the second that is waited for answers, from time [now] on with the best answer so far: a perfect
    answer, of age 0, ends it at once; otherwise the best one is taken when the second is over. *)
Inductive settled (q : query) : N -> option lresult -> list tev -> option lresult -> Prop :=
| se_now : forall now best q' x l, q' = q -> lr_age x = 0 -> settled q now best (EAnswer q' x :: l) (Some x)
| se_better : forall now best q' x l r, q' = q -> lr_age x <> 0 -> news best x -> settled q now (Some x) l r -> settled q now best (EAnswer q' x :: l) r
| se_worse : forall now best q' x l r, q' = q -> lr_age x <> 0 -> ~ news best x -> settled q now best l r -> settled q now best (EAnswer q' x :: l) r
| se_other : forall now best q' x l r, q' <> q -> settled q now best l r -> settled q now best (EAnswer q' x :: l) r
| se_time : forall now best ms l r, settled q (now + ms) best l r -> settled q now best (ETick ms :: l) r
| se_over : forall now best l, 1000 <= now -> settled q now best (ETimer 0 :: l) best
| se_early : forall now best l r, now < 1000 -> settled q now best l r -> settled q now best (ETimer 0 :: l) r
| se_skip : forall now best u l r, u <> 0 -> settled q now best l r -> settled q now best (ETimer u :: l) r.
(** the address of an answer that the scripts use *)
Definition v4_told (x : lresult) (a : list N) (p : N) : Prop := lr_v4 x = Some (a, p) /\ p <> 0 /\ exists y, In y a /\ y <> 0.
(** the environment lets the tool run, and writes addresses as such *)
Definition tool_runs (e : lenv) : Prop :=
  e_mdns e "239.192.23.42" 4266 = true /\ forall a, all_chars address_char (e_ntop e a) = true /\ (String.length (e_ntop e a) <= 45)%nat.

(** of the results told, newest first: the newest that is an answer *)
Fixpoint newest (l : list tres) : option tres := match l with [] => None | r :: l => match r_code r with RcResult => Some r | _ => newest l end end.
(** where a call is sent *)
Definition dial (e : lenv) (n : string) (a : list N) (p : N) : string := "sofia/internal/sip:" ++ n ++ "@" ++ e_ntop e a ++ ":" ++ dec p.
(** the ESME deals with it: a message for a number that is not international *)
Definition taken (p : pdu) (n : string) : Prop := p_deliver p = true /\ p_ton p <> 1 /\ p_dest p = Some n.
Definition no_dot (c : ascii) : bool := negb (c =? ".")%char.
(** the options of the tool as the scripts use it *)
Definition json_opts (e : lenv) : topts := mk_topts false 1000 1000 Json true (e_ntop e).
(** what osmo-mslookup-pipe.py and osmo-mslookup-socket.py give back, after these results, newest first *)
Definition nothing : dict := [("result", JStr "not-found")].
Definition answer (o : topts) (d : string) (rs : list tres) : dict := match newest rs with Some r => members o d (Some r) | None => nothing end.
Definition COLUMNS : list string := ["query"; "result"; "last"; "age"; "v4_ip"; "v4_port"; "v6_ip"; "v6_port"].
Definition row (o : topts) (d : string) (rs : list tres) : list (string * string) := match newest rs with Some r => zip COLUMNS (result_cells o d (Some r)) | None => [("result", "not-found")] end.
