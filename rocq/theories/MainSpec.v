(** C70: command line and start-up. *)
From Verif Require Import Base Upgrade Ctrl Main.
Local Open Scope string_scope.

(** ** Spelling of options *)
Definition begins (p s : string) : Prop := exists r, s = p ++ r.
Definition without_eq (s : string) : Prop := forall i, String.get i s <> Some "="%char.
(** [p] is the name of a long option, or a beginning of its name that no other one has *)
Definition names (longs : list lopt) (p : string) (o : lopt) : Prop :=
  In o longs /\ (lo_name o = p \/ (begins p (lo_name o) /\ forall o', In o' longs -> begins p (lo_name o') -> o' = o)).
Definition plain_word (w : string) : Prop := w = "" \/ w = "-" \/ exists c r, w = String c r /\ c <> "-"%char.
(** The words [args] spell the options [l] with their arguments, and the other words [ws], each in order. *)
Inductive spells (shorts : list (ascii * bool)) (longs : list lopt) : list gev -> list string -> list string -> Prop :=
| sp_nil : spells shorts longs [] [] []
| sp_word w l ws args : plain_word w -> spells shorts longs l ws args -> spells shorts longs l (w :: ws) (w :: args)
| sp_long p o l ws args : p <> "" -> without_eq p -> names longs p o -> lo_arg o = false ->
    spells shorts longs l ws args -> spells shorts longs ((lo_ret o, None) :: l) ws (("--" ++ p) :: args)
| sp_long_eq p o v l ws args : without_eq p -> names longs p o -> lo_arg o = true ->
    spells shorts longs l ws args -> spells shorts longs ((lo_ret o, Some v) :: l) ws (("--" ++ p ++ "=" ++ v) :: args)
| sp_long_next p o v l ws args : p <> "" -> without_eq p -> names longs p o -> lo_arg o = true ->
    spells shorts longs l ws args -> spells shorts longs ((lo_ret o, Some v) :: l) ws (("--" ++ p) :: v :: args)
| sp_short cs l ws args : cs <> [] -> (forall c, In c cs -> In (c, false) shorts) ->
    spells shorts longs l ws args -> spells shorts longs (map (fun c => (RChar c, None)) cs ++ l)%list ws (("-" ++ str_of cs) :: args)
| sp_short_same cs c v l ws args : (forall c, In c cs -> In (c, false) shorts) -> In (c, true) shorts -> v <> "" ->
    spells shorts longs l ws args -> spells shorts longs (map (fun c => (RChar c, None)) cs ++ (RChar c, Some v) :: l)%list ws (("-" ++ str_of cs ++ String c v) :: args)
| sp_short_next cs c v l ws args : (forall c, In c cs -> In (c, false) shorts) -> In (c, true) shorts ->
    spells shorts longs l ws args -> spells shorts longs (map (fun c => (RChar c, None)) cs ++ (RChar c, Some v) :: l)%list ws (("-" ++ str_of cs ++ String c "") :: v :: args).
(** the same, and "--" may end the options *)
Definition spelled (shorts : list (ascii * bool)) (longs : list lopt) (l : list gev) (ws args : list string) : Prop :=
  spells shorts longs l ws args \/ exists ws1 ws2 a, ws = (ws1 ++ ws2)%list /\ args = (a ++ "--" :: ws2)%list /\ spells shorts longs l ws1 a.

(** ** What the help texts say *)
(** hlr.c:588-611 *)
Definition hlr_documented : list (ascii * string * bool) := [
  ("h"%char, "help", false); ("c"%char, "config-file", true); ("l"%char, "database", true); ("d"%char, "debug", true); ("D"%char, "daemonize", false);
  ("s"%char, "disable-color", false); ("T"%char, "timestamp", false); ("e"%char, "log-level", true); ("U"%char, "db-upgrade", false);
  ("C"%char, "db-check", false); ("V"%char, "version", false)].
(** hlr_db_tool.c:54-77 *)
Definition tool_documented : list (ascii * string * bool) := [
  ("l"%char, "database", true); ("h"%char, "help", false); ("d"%char, "debug", true); ("s"%char, "disable-color", false); ("T"%char, "timestamp", false);
  ("e"%char, "log-level", true); ("U"%char, "db-upgrade", false); ("V"%char, "version", false)].

(** ** What options ask for *)
Definition given (l : list gev) (c : ascii) : Prop := exists v, In (RChar c, v) l.
(** the last argument of option [c] in [l], or [d] *)
Definition last_given (l : list gev) (c : ascii) (d x : option string) : Prop :=
  (~ given l c /\ x = d) \/ exists l1 v l2, l = (l1 ++ (RChar c, v) :: l2)%list /\ ~ given l2 c /\ v <> None /\ x = v.
(** all its arguments *)
Inductive all_given (c : ascii) : list gev -> list string -> Prop :=
| ag_nil : all_given c [] []
| ag_one v l x : all_given c l x -> all_given c ((RChar c, Some v) :: l) (v :: x)
| ag_other e l x : fst e <> RChar c -> all_given c l x -> all_given c (e :: l) x.
(** options of osmo-hlr after which nothing else is looked at *)
Definition ends (modes : string -> Z) (e : gev) : Prop :=
  fst e = RChar "h" \/ fst e = RChar "V" \/ fst e = RFlag 2 \/ (fst e = RFlag 1 /\ exists v, snd e = Some v /\ (modes v < 0)%Z).
(** what osmo-hlr is to do, in the words of its help *)
Record asked (l : list gev) (o : hopts) : Prop := {
  ak_config : last_given l "c"%char (Some "osmo-hlr.cfg") (Some (o_config o));
  ak_db : last_given l "l"%char None (o_db o);
  ak_daemon : o_daemon o = true <-> given l "D"%char;
  ak_upgrade : o_upgrade o = true <-> given l "U"%char;
  ak_check : o_check o = true <-> given l "C"%char;
  ak_debug : all_given "d"%char l (o_debug o);
  ak_color : o_color o = false <-> given l "s"%char;
  ak_level : exists x, last_given l "e"%char None x /\ o_level o = option_map Ctrl.atoi x;
  ak_time : o_time o = true <-> given l "T"%char }.
(** the database that osmo-hlr uses: from the command line, from the configuration, or the default *)
Definition db_name (l : list gev) (path : option string) (n : string) : Prop :=
  last_given l "l"%char (match path with Some p => Some p | None => Some "hlr.db" end) (Some n).
(** what osmo-hlr-db-tool is to do *)
Record tool_asked (l : list gev) (o : topts) : Prop := {
  tk_db : last_given l "l"%char (Some "hlr.db") (Some (p_db o));
  tk_upgrade : p_upgrade o = true <-> given l "U"%char }.
(** the mode of the VTY reference: the one named last, or the first *)
Definition mode_named (modes : string -> Z) (l : list gev) (d m : Z) : Prop :=
  ((forall e, In e l -> fst e <> RFlag 1) /\ m = d) \/
  exists l1 v l2, l = (l1 ++ (RFlag 1, Some v) :: l2)%list /\ (forall e, In e l2 -> fst e <> RFlag 1) /\ m = modes v.
