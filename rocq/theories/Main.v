(** Command line and start-up of osmo-hlr and osmo-hlr-db-tool. *)
From Verif Require Import Base Upgrade Ctrl.
Local Open Scope string_scope. Local Open Scope Z_scope.

(** ** getopt_long() *)
(** What the C library does with the arguments, as documented: options and other words in any order, "--" ends the options, an option
    that takes an argument finds it in the same word or is given the next one, whatever that is; long options may be cut short as long
    as only one begins so.  [lo_ret]: what getopt_long() gives back, a character, or 0 with a number stored (the field "flag").
    POSIXLY_CORRECT is not set. *)
Inductive gret := RChar (c : ascii) | RFlag (n : Z).
Record lopt := mk_lopt { lo_name : string; lo_arg : bool; lo_ret : gret }.
Definition gev := (gret * option string)%type.

Definition find_long (longs : list lopt) (p : string) : option lopt :=
  match find (fun o => (lo_name o =? p)%string) longs with
  | Some o => Some o
  | None => match filter (fun o => prefix p (lo_name o)) longs with [o] => Some o | _ => None end
  end.
(** up to the first '=', and what follows it *)
Fixpoint split_eq (s : string) : string * option string :=
  match s with
  | "" => ("", None)
  | String c r => if (c =? "=")%char then ("", Some r) else let '(a, v) := split_eq r in (String c a, v)
  end.
(** A word of short options: those found, and whether the last one [c] wants the next word as its argument. [None]: not an option. *)
Fixpoint cluster (shorts : list (ascii * bool)) (s : string) : list gev * option (option ascii) :=
  match s with
  | "" => ([], Some None)
  | String c r =>
      match find (fun x => (fst x =? c)%char) shorts with
      | None => ([], None)
      | Some (_, false) => let '(l, e) := cluster shorts r in ((RChar c, None) :: l, e)
      | Some (_, true) => match r with "" => ([], Some (Some c)) | _ => ([(RChar c, Some r)], Some None) end
      end
  end.
(** all options up to the first mistake, and the other words if there is none *)
Fixpoint getopt (shorts : list (ascii * bool)) (longs : list lopt) (args : list string) : list gev * option (list string) :=
  match args with
  | [] => ([], Some [])
  | String "-"%char (String "-"%char "") :: rest => ([], Some rest)
  | String "-"%char (String "-"%char s) :: rest =>
      let '(p, v) := split_eq s in
      match find_long longs p with
      | None => ([], None)
      | Some o =>
          if lo_arg o then
            match v, rest with
            | Some v, _ => let '(l, w) := getopt shorts longs rest in ((lo_ret o, Some v) :: l, w)
            | None, v :: rest' => let '(l, w) := getopt shorts longs rest' in ((lo_ret o, Some v) :: l, w)
            | None, [] => ([], None)
            end
          else
            match v with
            | Some _ => ([], None)
            | None => let '(l, w) := getopt shorts longs rest in ((lo_ret o, None) :: l, w)
            end
      end
  | String "-"%char (String c s) :: rest =>
      let '(l0, e) := cluster shorts (String c s) in
      match e, rest with
      | None, _ => (l0, None)
      | Some None, _ => let '(l, w) := getopt shorts longs rest in ((l0 ++ l)%list, w)
      | Some (Some c), v :: rest' => let '(l, w) := getopt shorts longs rest' in ((l0 ++ (RChar c, Some v) :: l)%list, w)
      | Some (Some _), [] => (l0, None)
      end
  | a :: rest => let '(l, w) := getopt shorts longs rest in (l, option_map (cons a) w)
  end.

(** ** osmo-hlr: handle_options() *)
(** hlr.c:657-676 *)
Definition hlr_shorts : list (ascii * bool) :=
  [("h", false); ("c", true); ("l", true); ("d", true); ("D", false); ("s", false); ("e", true); ("T", false); ("U", false); ("V", false)]%char.
Definition hlr_longs : list lopt := [
  mk_lopt "help" false (RChar "h"); mk_lopt "config-file" true (RChar "c"); mk_lopt "database" true (RChar "l"); mk_lopt "debug" true (RChar "d");
  mk_lopt "daemonize" false (RChar "D"); mk_lopt "disable-color" false (RChar "s"); mk_lopt "log-level" true (RChar "e"); mk_lopt "timestamp" false (RChar "T");
  mk_lopt "db-upgrade" false (RChar "U"); mk_lopt "db-check" false (RChar "C"); mk_lopt "version" false (RChar "V");
  mk_lopt "vty-ref-mode" true (RFlag 1); mk_lopt "vty-ref-xml" false (RFlag 2)].
(** cmdline_opts, hlr.c:613-625, the settings of the log to stderr and vty_ref_mode, hlr.c:628 *)
Record hopts := mk_hopts { o_config : string; o_db : option string; o_daemon : bool; o_upgrade : bool; o_check : bool;
  o_debug : list string; o_color : bool; o_level : option Z; o_time : bool; o_mode : Z }.
Definition hopts0 : hopts := mk_hopts "osmo-hlr.cfg" None false false false [] true None false 0.
(** how the process ends *)
Inductive ending :=
| EHelp | EVersion | EXml (mode : Z) | EMode | EOption | EWords          (* in the options *)
| EConfig (rc : Z) | ERandom | EDb | EChecked | ETelnet (rc : Z) | EGsup | EFork | EStopped
| EDied                                                                    (* killed in the midst of opening the database *)
| ECommand | EInput | EDone | EFailed.                                     (* osmo-hlr-db-tool *)
(** the status that the shell sees *)
Definition status (e : ending) : Z :=
  match e with
  | EHelp | EVersion | EXml _ | EChecked | EStopped | EDone => 0
  | EMode | EWords => 2
  | EOption => 255
  | EConfig rc | ETelnet rc => rc mod 256
  | ERandom | EDb | EGsup | EFork | ECommand | EInput | EFailed => 1
  | EDied => 137
  end.
(** One option, hlr.c:679-723; [modes] is get_string_value() on the names of the modes of the VTY reference. An option that
    getopt_long() does not know does not come here. *)
Definition hlr_option (modes : string -> Z) (o : hopts) (e : gev) : hopts + ending :=
  let arg := opt_default "" (snd e) in
  let '(mk_hopts cf db dm up ck dbg col lev tim mode) := o in
  match fst e with
  | RFlag 1 => let m := modes arg in if (m <? 0)%Z then inr EMode else inl (mk_hopts cf db dm up ck dbg col lev tim m)
  | RFlag 2 => inr (EXml mode)
  | RFlag _ => inr EMode
  | RChar "h" => inr EHelp
  | RChar "c" => inl (mk_hopts arg db dm up ck dbg col lev tim mode)
  | RChar "l" => inl (mk_hopts cf (Some arg) dm up ck dbg col lev tim mode)
  | RChar "d" => inl (mk_hopts cf db dm up ck (dbg ++ [arg])%list col lev tim mode)
  | RChar "D" => inl (mk_hopts cf db true up ck dbg col lev tim mode)
  | RChar "s" => inl (mk_hopts cf db dm up ck dbg false lev tim mode)
  | RChar "e" => inl (mk_hopts cf db dm up ck dbg col (Some (atoi arg)) tim mode)
  | RChar "T" => inl (mk_hopts cf db dm up ck dbg col lev true mode)
  | RChar "U" => inl (mk_hopts cf db dm true ck dbg col lev tim mode)
  | RChar "C" => inl (mk_hopts cf db dm up true dbg col lev tim mode)
  | RChar "V" => inr EVersion
  | RChar _ => inr EOption
  end%char.
Fixpoint hlr_options (modes : string -> Z) (o : hopts) (l : list gev) (words : option (list string)) : hopts + ending :=
  match l with
  | [] => match words with None => inr EOption | Some [] => inl o | Some _ => inr EWords end
  | e :: l => match hlr_option modes o e with inl o => hlr_options modes o l words | inr x => inr x end
  end.
(** handle_options, hlr.c:652-730, for the arguments behind the name of the program *)
Definition hlr_handle_options (modes : string -> Z) (args : list string) : hopts + ending :=
  let '(l, words) := getopt hlr_shorts hlr_longs args in hlr_options modes hopts0 l words.

(** ** main() *)
(** what main() does, in order *)
Inductive act :=
| AConfig (name : string) | AOpen (name : string) (upgrade : bool) | ATelnet | AGsup | ACtrl | ADgsm | AFork | AServe | AClose
| AImport (name : string).
(** what is outside: the configuration file (return code of reading it, and the path that it gives to the database, if it does), the
    modes of the VTY reference, rand_init(), what befalls the statements that open the database, the sockets, osmo_daemonize() *)
Record menv := mk_menv { e_config : string -> Z * option string; e_modes : string -> Z; e_rand : Z; e_fates : list fate;
  e_telnet : Z; e_gsup : bool; e_daemon : Z }.
Definition disk := string -> file.
Definition disk_set (k : disk) (n : string) (f : file) : disk := fun m => if (m =? n)%string then f else k m.
Definition DB_PATH : string := "hlr.db".

(** main, hlr.c:760-897. Serving ends with a signal. osmo_init_logging2() works. *)
Definition hlr_main (e : menv) (args : list string) (k : disk) : list act * disk * ending :=
  match hlr_handle_options (e_modes e) args with
  | inr x => ([], k, x)
  | inl o =>
      let '(rc, path) := e_config e (o_config o) in
      let a := [AConfig (o_config o)] in
      if rc <? 0 then (a, k, EConfig rc)
      else if e_rand e <? 0 then (a, k, ERandom)
      else
        let name := match o_db o with Some n => n | None => opt_default DB_PATH path end in
        let r := db_open (o_upgrade o) (e_fates e) (k name) in
        let k := disk_set k name (op_file r) in
        let a := (a ++ [AOpen name (o_upgrade o)])%list in
        match r with
        | Died _ => (a, k, EDied)
        | Refused _ => (a, k, EDb)
        | Opened _ =>
            if o_check o then ((a ++ [AClose])%list, k, EChecked)
            else
              let a := (a ++ [ATelnet])%list in
              if e_telnet e <? 0 then (a, k, ETelnet (e_telnet e))
              else
                let a := (a ++ [AGsup])%list in
                if negb (e_gsup e) then (a, k, EGsup)
                else
                  let a := (a ++ [ACtrl; ADgsm] ++ if o_daemon o then [AFork] else [])%list in
                  if o_daemon o && (e_daemon e <? 0) then (a, k, EFork)
                  else ((a ++ [AServe; AClose])%list, k, EStopped)
        end
  end.

(** ** osmo-hlr-db-tool *)
(** hlr_db_tool.c:92-105 *)
Definition tool_shorts : list (ascii * bool) := [("h", false); ("l", true); ("d", true); ("s", false); ("T", false); ("e", true); ("U", false); ("V", false)]%char.
Definition tool_longs : list lopt := [
  mk_lopt "help" false (RChar "h"); mk_lopt "database" true (RChar "l"); mk_lopt "debug" true (RChar "d"); mk_lopt "disable-color" false (RChar "s");
  mk_lopt "timestamp" false (RChar "T"); mk_lopt "log-level" true (RChar "e"); mk_lopt "db-upgrade" false (RChar "U"); mk_lopt "version" false (RChar "V")].
(** hlr_db_tool.c:44-52, without the log *)
Record topts := mk_topts { p_db : string; p_upgrade : bool; p_import : option string }.
Definition topts0 : topts := mk_topts DB_PATH false None.
(** hlr_db_tool.c:109-141 *)
Definition tool_option (o : topts) (e : gev) : topts + ending :=
  let arg := opt_default "" (snd e) in
  match fst e with
  | RChar "h" => inr EHelp
  | RChar "l" => inl (mk_topts arg (p_upgrade o) (p_import o))
  | RChar "U" => inl (mk_topts (p_db o) true (p_import o))
  | RChar "V" => inr EVersion
  | RChar "d" | RChar "s" | RChar "T" | RChar "e" => inl o
  | _ => inr EFailed
  end%char.
(** hlr_db_tool.c:145-175 *)
Definition tool_words (o : topts) (w : list string) : topts + ending :=
  match w with
  | [] => inr ECommand
  | cmd :: w =>
      if (cmd =? "create")%string then match w with [] => inl o | _ => inr EInput end
      else if (cmd =? "import-nitb-db")%string then
        match w with
        | [] => inr EInput
        | [f] => inl (mk_topts (p_db o) (p_upgrade o) (Some f))
        | _ => inr EInput
        end
      else inr ECommand
  end.
Fixpoint tool_options (o : topts) (l : list gev) (words : option (list string)) : topts + ending :=
  match l with
  | [] => match words with None => inr EFailed | Some w => tool_words o w end
  | e :: l => match tool_option o e with inl o => tool_options o l words | inr x => inr x end
  end.
(** handle_options, hlr_db_tool.c:91-177 *)
Definition tool_handle_options (args : list string) : topts + ending :=
  let '(l, words) := getopt tool_shorts tool_longs args in tool_options topts0 l words.
(** main, hlr_db_tool.c:473-534; [imported] is what import_nitb_db() returns and leaves, for which see Nitb.v *)
Definition tool_main (rand : Z) (fates : list fate) (imported : string -> file -> Z * file) (args : list string) (k : disk) : list act * disk * ending :=
  match tool_handle_options args with
  | inr x => ([], k, x)
  | inl o =>
      if rand <? 0 then ([], k, ERandom)
      else
        let r := db_open (p_upgrade o) fates (k (p_db o)) in
        let k := disk_set k (p_db o) (op_file r) in
        let a := [AOpen (p_db o) (p_upgrade o)] in
        match r with
        | Died _ => (a, k, EDied)
        | Refused _ => (a, k, EDb)
        | Opened _ =>
            match p_import o with
            | None => ((a ++ [AClose])%list, k, EDone)
            | Some n => let '(rc, f) := imported n (op_file r) in
                ((a ++ [AImport n; AClose])%list, disk_set k (p_db o) f, if rc =? 0 then EDone else EFailed)
            end
        end
  end.
