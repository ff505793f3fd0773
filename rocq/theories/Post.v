(** contrib/osmo-hlr-post-upgrade.sh: the script that packagers call after an upgrade of the package, on top of osmo-hlr-db-tool (Main.v).

    Simplifications: what msg() and err() print is left out.  A file of the model is the database with what is in its write-ahead log, so that "cp" copies all of it (SQLite
    writes the log back when the last connection is closed).  Nothing but the script and what it runs changes the files meanwhile.  That the file "$DB" exists means that
    it can be read as a file of the model.  The outcome of each command is a matter of the environment [penv]; whether the script itself is killed is left to the
    theorems, which speak of all commands run so far. *)
From Verif Require Import Base Upgrade Main.
Local Open Scope string_scope. Local Open Scope list_scope. Local Open Scope Z_scope.

(** osmo-hlr-post-upgrade.sh:8 *)
Definition DB : string := "/var/lib/osmocom/hlr.db".
(** The files, whether the service osmo-hlr is active, and the variable IS_ACTIVE of osmo-hlr-post-upgrade.sh:9 *)
Record pw := mk_pw { w_files : string -> option file; w_active : bool; w_flag : bool }.
Definition set_file (w : pw) (n : string) (f : option file) : pw :=
  mk_pw (fun m => if (m =? n)%string then f else w_files w m) (w_active w) (w_flag w).
Definition set_active (w : pw) (b : bool) : pw := mk_pw (w_files w) b (w_flag w).
Definition set_flag (w : pw) (b : bool) : pw := mk_pw (w_files w) (w_active w) b.
(** What is outside of the script: for the i-th run of osmo-hlr-db-tool, what the random source says and the fates of its database calls; the status of "systemctl stop",
    and after a failure whether the service is still active; the answers to the i-th question thereafter; the date; the status of "cp" and what it leaves under the new name
    if it fails; the status of "systemctl start". *)
Record penv := mk_penv {
  v_rand : nat -> Z; v_fates : nat -> list fate; v_import : string -> file -> Z * file;
  v_stop : Z; v_left : bool; v_polls : nat -> bool; v_date : string; v_cp : Z; v_torn : option file; v_start : Z }.

(** The commands run, each with what was before and after it, and its status *)
Inductive pcmd := PTool (upgrade : bool) | PStop | PAsk | PCopy (n : string) | PStart.
Record step := mk_step { s_cmd : pcmd; s_before : pw; s_after : pw; s_rc : Z }.
(** A piece of the script: the commands run, the state after it, and the status if the script has ended *)
Definition piece := pw -> list step * pw * option Z.
Definition p_skip : piece := fun w => ([], w, None).
Definition p_exit (rc : Z) : piece := fun w => ([], w, Some rc).
Definition p_seq (a b : piece) : piece := fun w =>
  let '(t, w, x) := a w in
  match x with Some _ => (t, w, x) | None => let '(t', w, x) := b w in (t ++ t', w, x) end.
Definition p_run (c : pcmd) (r : pw -> pw * Z) (k : Z -> piece) : piece := fun w =>
  let '(w', rc) := r w in let '(t, w'', x) := k rc w' in (mk_step c w w' rc :: t, w'', x).
(** a command that is not the condition of an "if": the shell was started with -e, osmo-hlr-post-upgrade.sh:1 *)
Definition p_must (c : pcmd) (r : pw -> pw * Z) : piece := p_run c r (fun rc => if rc =? 0 then p_skip else p_exit rc).

(** osmo-hlr-post-upgrade.sh:22 and 72: the i-th run of osmo-hlr-db-tool *)
Definition tool_args (upgrade : bool) : list string := if upgrade then ["-s"; "-U"; "-l"; DB; "create"] else ["-s"; "-l"; DB; "create"].
Definition run_tool (e : penv) (i : nat) (upgrade : bool) (w : pw) : pw * Z :=
  let '(_, k, x) := tool_main (v_rand e i) (v_fates e i) (v_import e) (tool_args upgrade) (fun n => opt_default file_empty (w_files w n)) in
  (set_file w DB (Some (k DB)), status x).

(** check_upgrade_required(), osmo-hlr-post-upgrade.sh:25-37 *)
Definition check_upgrade_required (e : penv) : piece := fun w =>
  match w_files w DB with
  | None => p_exit 0 w
  | Some _ => p_run (PTool false) (run_tool e 0 false) (fun rc => if rc =? 0 then p_exit 0 else p_skip) w
  end.
(** osmo-hlr-post-upgrade.sh:46-51: the loop; [n] more rounds, the next question is the i-th *)
Fixpoint wait_stopped (e : penv) (n i : nat) : piece :=
  match n with
  | O => p_exit 1
  | S n => p_run PAsk (fun w => (set_active w (v_polls e i), if v_polls e i then 3 else 0)) (fun rc => if rc =? 0 then p_skip else wait_stopped e n (S i))
  end.
(** stop_service(), osmo-hlr-post-upgrade.sh:39-58 *)
Definition stop_service (e : penv) : piece := fun w =>
  if w_active w then
    p_seq (p_must PStop (fun w => (if v_stop e =? 0 then w else set_active w (v_left e), v_stop e))) (wait_stopped e 100 0) (set_flag w true)
  else p_skip w.
(** osmo-hlr-post-upgrade.sh:61 *)
Definition backup (e : penv) : string := (DB ++ "." ++ v_date e ++ ".bak")%string.
(** create_backup(), osmo-hlr-post-upgrade.sh:60-68 *)
Definition create_backup (e : penv) : piece := fun w =>
  match w_files w (backup e) with
  | Some _ => p_exit 1 w
  | None => p_must (PCopy (backup e)) (fun w => (set_file w (backup e) (if v_cp e =? 0 then w_files w DB else v_torn e), v_cp e)) w
  end.
(** upgrade(), osmo-hlr-post-upgrade.sh:70-82 *)
Definition upgrade_db (e : penv) : piece :=
  p_seq (p_must (PTool true) (run_tool e 1 true))
    (p_run (PTool false) (run_tool e 2 false) (fun rc => if rc =? 0 then p_skip else p_must (PTool false) (run_tool e 3 false))).
(** start_service(), osmo-hlr-post-upgrade.sh:84-89 *)
Definition start_service (e : penv) : piece := fun w =>
  if w_flag w then p_must PStart (fun w => (if v_start e =? 0 then set_active w true else w, v_start e)) w else p_skip w.
(** osmo-hlr-post-upgrade.sh:91-95, from [IS_ACTIVE=0] of line 9 on: the commands, what is left, the status *)
Definition post_upgrade (e : penv) (w : pw) : list step * pw * Z :=
  let '(t, w', x) := p_seq (check_upgrade_required e) (p_seq (stop_service e) (p_seq (create_backup e) (p_seq (upgrade_db e) (start_service e)))) (set_flag w false) in
  (t, w', opt_default 0 x).
