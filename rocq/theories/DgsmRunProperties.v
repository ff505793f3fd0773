(** Property C63: the mDNS server and client of the HLR run as configured. *)
From Verif Require Import Base PeerId Db DbProperties Auth Gsup Router Hlr HlrSpec HlrExamples UssdCfg SmsCfg MsLookup Mdns Proxy MsServer PeerSpec MsServerSpec Ctrl Config ConfigSpec ConfigThms ConfigThms2 ConfigProperties
  DgsmRun DgsmRunSpec DgsmRunThms DgsmRunThms2 DgsmRunThms3 Dgsm DgsmSpec DgsmThms6 DgsmProperties.
Local Open Scope string_scope.
Local Open Scope list_scope.

(** Full statement: once the program has started, at any time the server and the client run if and only if they are configured, with the configured address and
    suffix; a command that does not change them does not disturb them; nothing undefined happens. *)
(** what runs is what is configured *)
Theorem C63_only : forall e l s, rrun e dr_init l = Val s ->
  (forall a w, srv_runs s a w -> dr_allow s = true /\ srv_wanted (dr_conf s) a w) /\ (forall a w, cli_runs s a w -> dr_allow s = true /\ cli_wanted (dr_conf s) a w).
Proof. exact c63_only. Qed.
Print Assumptions C63_only.
(** what is configured runs, if the sockets for it can be opened when commands are given *)
Theorem C63_up_partial : forall e l s, opens e dr_init l -> rrun e dr_init l = Val s -> srv_up s /\ cli_up s.
Proof. exact c63_up. Qed.
Print Assumptions C63_up_partial.
(** what runs and is to run on is neither stopped nor started again *)
Theorem C63_quiet : forall e l s x s', rrun e dr_init l = Val s -> rstep e s x = Val s' -> dr_allow s' = true ->
  (forall a w, srv_runs s a w -> srv_wanted (dr_conf s') a w -> srv_runs s' a w /\ filter on_srv (dr_log s') = filter on_srv (dr_log s)) /\
  (forall a w, cli_runs s a w -> cli_wanted (dr_conf s') a w -> cli_runs s' a w /\ filter (fun n => negb (on_srv n)) (dr_log s') = filter (fun n => negb (on_srv n)) (dr_log s)).
Proof. exact c63_quiet. Qed.
Print Assumptions C63_quiet.
(** only the commands that set the client's suffix can be undefined, besides those of C56 *)
Theorem C63_safe_partial : forall e l s x, rrun e dr_init l = Val s -> rstep e s x = Bad ->
  (exists f n ws, snd x = RCmd f n ws /\ exec e f n ws (dr_conf s) = XUb) \/ (sets_cli_suffix (snd x) /\ exists a w, cli_runs s a w).
Proof. exact c63_safe. Qed.
Print Assumptions C63_safe_partial.

(** these are undefined whenever the client runs: the suffix it was started with is compared after it was freed *)
Theorem C63_text_refuted : forall e l s o x, rrun e dr_init l = Val s -> sets_cli_suffix x -> (exists a w, cli_runs s a w) -> rstep e s (o, x) = Bad.
Proof. exact c63_text. Qed.
Print Assumptions C63_text_refuted.
(** a command that moves a running server where no socket can be opened succeeds, and leaves nothing running *)
Theorem C63_fail_refuted : forall e l s o f n ws c ch a w, rrun e dr_init l = Val s -> srv_runs s a w -> (n = NdServer /\ exists v, ws = "mdns" :: "bind" :: v) ->
  exec e f n ws (dr_conf s) = XOk c ch -> sr_bind (f_srv c) <> a -> sock_init o (sr_bind (f_srv c)) = false ->
  exists s', rstep e s (o, RCmd f n ws) = Val s' /\ dr_conf s' = c /\ dr_srv s' = None /\ srv_wanted c (sr_bind (f_srv c)) w.
Proof. exact c63_fail. Qed.
Print Assumptions C63_fail_refuted.
(** nothing runs at an IPv6 address *)
Theorem C63_ip6_refuted : forall e l s a w, (forall x, In x l -> joins_multicast (fst x)) -> rrun e dr_init l = Val s -> srv_runs s a w \/ cli_runs s a w ->
  exists x r p, a = Sa4 (x :: r) p /\ (224 <= x <= 239)%N.
Proof. exact c63_ip6. Qed.
Print Assumptions C63_ip6_refuted.
(** "no client" does not put the gateway out of use: requests of unknown subscribers are still passed on to it *)
Theorem C63_gateway_refuted : exists e l s gw, rrun e dr_init l = Val s /\ cl_on (f_cli (dr_conf s)) = false /\ dr_cli s = None /\ cl_gw (f_cli (dr_conf s)) = gw /\
  dg_log (dg_peer 0 "MSC-1" ++ [dev 0 (DSet (is_some (dr_cli s)) gw CAUSE_NET_FAIL); lu 0 roamer CN_CS]) = [HLoc (BRx 0 0 MSGT_UPDATE_LOCATION_REQUEST); HTake 0 roamer] /\
  z_rems (dg_z (dg_end (dg_peer 0 "MSC-1" ++ [dev 0 (DSet (is_some (dr_cli s)) gw CAUSE_NET_FAIL); lu 0 roamer CN_CS]))) = [mk_rem gw false 1].
Proof.
  set (o := mk_os (fun _ => true) true true (fun _ => true) true (fun _ => true) true true).
  exists ex_env, [(o, RCmd true NdMs ["client"]); (o, RCmd true NdClient ["gateway-proxy"; "127.0.0.1"]); (o, RStart); (o, RCmd false NdMs ["no"; "client"])].
  eexists. exists (Sa4 [127; 0; 0; 1]%N 4222%N). split; [vm_compute; reflexivity|]. repeat split; vm_compute; reflexivity.
Qed.
Print Assumptions C63_gateway_refuted.

(** ** Cases *)
Definition multicast (g : list N) : bool := (224 <=? hd 0 g)%N && (hd 0 g <=? 239)%N.
Definition good_os : os := mk_os (fun _ => true) true true multicast true (fun _ => true) true true.
Definition full_os : os := mk_os (fun _ => true) true true multicast true (fun _ => false) true true.
Example C63_good_case : joins_multicast good_os.
Proof. intros g H. cbn in H. unfold multicast in H. apply andb_prop in H as [A B]. apply N.leb_le in A. apply N.leb_le in B. destruct g as [|x r]; [cbn in A; lia|]. exists x, r. auto. Qed.
Definition file1 : list runev := [RCmd true NdMs ["mdns"; "bind"]; RCmd true NdMs ["mdns"; "domain-suffix"; "a.org"]].
Definition at1 : sa := Sa4 [239; 192; 23; 42]%N 4266%N.
Definition at2 : sa := Sa4 [239; 192; 23; 42]%N 5000%N.
Definition with_os (o : os) (l : list runev) : list (os * runev) := map (pair o) l.
(** nothing runs while the file is read; both start, are left alone by commands that change nothing for them, follow their settings, and stop at the end *)
Definition run1 : list runev := file1 ++ [RStart; RCmd false NdMs ["mdns"; "bind"]; RCmd false NdServer ["mdns"; "bind"; "239.192.23.42"; "5000"]; RCmd false NdServer ["mdns"; "domain-suffix"; "b.org"];
  RCmd false NdMs ["no"; "server"]; RCmd false NdMs ["server"]; RCmd false NdClient ["no"; "mdns"; "bind"]].
Definition notes (e : venv) (l : list (os * runev)) : option (list dnote) := match rrun e dr_init l with Val s => Some (rev (dr_log s)) | Bad => None end.
Example C63_file_case : notes ex_env (with_os good_os file1) = Some [].
Proof. vm_compute. reflexivity. Qed.
Example C63_run_case : notes ex_env (with_os good_os (run1 ++ [RStop])) =
  Some [SrvStart at1 "a.org"; CliStart at1 "a.org"; SrvStop; SrvStart at2 "a.org"; SrvStop; SrvStart at2 "b.org"; SrvStop; SrvStart at2 "b.org"; CliStop; SrvStop].
Proof. vm_compute. reflexivity. Qed.
Example C63_opens_case : opens ex_env dr_init (with_os good_os run1) /\ exists s, rrun ex_env dr_init (with_os good_os run1) = Val s /\ srv_runs s at2 "b.org" /\ dr_cli s = None.
Proof.
  split; [|eexists; split; [vm_compute; reflexivity|split; vm_compute; reflexivity]]. unfold with_os, run1, file1. cbn [map app opens].
  repeat match goal with |- context [rstep ?a ?b ?c] => let v := eval vm_compute in (rstep a b c) in change (rstep a b c) with v; cbv iota beta end.
  repeat match goal with |- _ /\ _ => split; [split; intros a w (A & B & C & D); cbn in *; try discriminate; subst; vm_compute; auto|] end. exact Logic.I.
Qed.
(** the configured suffix set to what it is *)
Example C63_text_case : rrun ex_env dr_init (with_os good_os (file1 ++ [RStart; RCmd false NdClient ["mdns"; "domain-suffix"; "a.org"]])) = Bad /\
  exists s, rrun ex_env dr_init (with_os good_os (file1 ++ [RStart])) = Val s /\ cli_runs s at1 "a.org".
Proof. split; [vm_compute; reflexivity|]. eexists. split; [vm_compute; reflexivity|]. eexists. vm_compute. reflexivity. Qed.
(** the server is to be moved to a port that is in use, and to an IPv6 address *)
Example C63_fail_case : notes ex_env (with_os good_os (file1 ++ [RStart]) ++ [(full_os, RCmd false NdServer ["mdns"; "bind"; "239.192.23.42"; "5000"])]) =
  Some [SrvStart at1 "a.org"; CliStart at1 "a.org"; SrvStop; SrvFail at2].
Proof. vm_compute. reflexivity. Qed.
Example C63_ip6_case : notes ex_env (with_os good_os (file1 ++ [RStart; RCmd false NdMs ["mdns"; "bind"; "::1"]])) =
  Some [SrvStart at1 "a.org"; CliStart at1 "a.org"; SrvStop; SrvFail (Sa6 [0; 1]%N 4266%N); CliStop; CliFail (Sa6 [0; 1]%N 4266%N)].
Proof. vm_compute. reflexivity. Qed.
(** each of the system calls is needed; a client also needs a random number *)
Example C63_sock_case :
  map (fun o => sock_init o at1) [good_os; mk_os (fun _ => false) true true multicast true (fun _ => true) true true; mk_os (fun _ => true) false true multicast true (fun _ => true) true true;
    mk_os (fun _ => true) true false multicast true (fun _ => true) true true; mk_os (fun _ => true) true true (fun _ => false) true (fun _ => true) true true;
    mk_os (fun _ => true) true true multicast false (fun _ => true) true true; full_os; mk_os (fun _ => true) true true multicast true (fun _ => true) false true] =
  [true; false; false; false; false; false; false; false] /\
  notes ex_env (with_os (mk_os (fun _ => true) true true multicast true (fun _ => true) true false) (file1 ++ [RStart])) = Some [SrvStart at1 "a.org"; CliFail at1].
Proof. split; vm_compute; reflexivity. Qed.
(** the group that is joined for an IPv6 address is always 0.0.0.0 *)
Example C63_group_case : let joins (g : list N) := mk_os (fun _ => true) true true (fun x => if list_eq_dec N.eq_dec x g then true else false) true (fun _ => true) true true in
  map (fun g => sock_init (joins g) (Sa6 [255; 2; 0; 0; 0; 0; 0; 0; 0; 0; 0; 0; 0; 0; 0; 251]%N 4266%N)) [[0; 0; 0; 0]; [0; 0; 0; 1]; [255; 2; 0; 0]]%N = [true; false; false] /\
  map (fun g => sock_init (joins g) (Sa4 [239; 192; 23; 42]%N 4266%N)) [[0; 0; 0; 0]; [239; 192; 23; 42]]%N = [false; true].
Proof. vm_compute. auto. Qed.
(** each command tries again what could not be started, but only its own part *)
Example C63_again_case : map (fun c => notes ex_env (with_os full_os (file1 ++ [RStart]) ++ [(full_os, RCmd false (fst c) (snd c))]))
    [(NdMs, ["client"]); (NdMs, ["no"; "client"]); (NdMs, ["server"]); (NdMs, ["no"; "server"]); (NdClient, ["mdns"; "domain-suffix"; "b.org"]); (NdServer, ["mdns"; "domain-suffix"; "b.org"])] =
  map (fun l => Some ([SrvFail at1; CliFail at1] ++ l)) [[CliFail at1]; []; [SrvFail at1]; []; [CliFail at1]; [SrvFail at1]].
Proof. vm_compute. reflexivity. Qed.
