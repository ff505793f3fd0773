(** What C72 says of the script that upgrades the database after an upgrade of the package. *)
From Verif Require Import Base Upgrade UpgradeSpec Post.
Local Open Scope string_scope. Local Open Scope list_scope. Local Open Scope Z_scope.

(** Every moment at which the script may be interrupted: before the first command, and after each *)
Definition moments (w : pw) (t : list step) : list pw := w :: map s_after t.
(** what the database is *)
Definition contents (w : pw) (f : file) : Prop := w_files w DB = Some f.
(** a file that osmo-hlr can be started with *)
Definition usable (f : file) : Prop := is_open (db_open false [] f) = true /\ f_version f = 7.
(** all commands other than the i-th run of the tool succeed, and the service stops within 100 questions *)
Record smooth (e : penv) : Prop := {
  sm_stop : v_stop e = 0; sm_polls : exists i, (i < 100)%nat /\ v_polls e i = false; sm_cp : v_cp e = 0; sm_start : v_start e = 0 }.
(** so do all runs of the tool *)
Definition calm (e : penv) : Prop := forall i, 0 <= v_rand e i /\ v_fates e i = [].
