(** C71 (command lines of osmo-mslookup-client and osmo-euse-demo): theorems and cases. *)
From Verif Require Import Base Ctrl CtrlSpec Mdns Main MainSpec MainThms Cmd CmdSpec CmdThms CmdThms2.
From Verif Require MsNet MsNetSpec MsNetThms3 MsTool MsToolSpec MsToolThms8 CtrlThms4.
Local Open Scope string_scope. Local Open Scope N_scope.

(** All options of the help, and -V, are there, by both names *)
Theorem C71_documented c n b : In (c, n, b) look_documented -> In (mk_lopt n b (RChar c)) look_longs /\ In (c, b) look_shorts.
Proof. intros I. cbn in I. repeat (destruct I as [I|I]; [injection I as <- <- <-; cbn; split; auto 20|]). destruct I. Qed.
Print Assumptions C71_documented.
(** The manual (doc/manuals/chapters/dgsm.adoc:401) has an option --csv-headers, with which the program fails. *)
Theorem C71_manual_refuted e args b : look_main e ("--csv-headers" :: args) b = Val (LBad, [MLibrary; MOptions]) /\ look_status LBad = Some 1%Z.
Proof. split; reflexivity. Qed.
Print Assumptions C71_manual_refuted.

(** Options are taken exactly if they are spelled right, have arguments that can be used, and neither help nor version is asked for; *)
Theorem C71_accepted e args : (exists o ws, look_args e args = inl (o, ws)) <->
  exists l ws, spelled look_shorts look_longs l ws args /\ Forall (fun x => ~ stops (e_pton e) x) l.
Proof.
  split.
  - intros (o & ws & H). apply args_inl in H as (l & S & F & _). eauto.
  - intros (l & ws & S & F). destruct (args_accepted _ _ _ _ S F) as (o & A & _). eauto.
Qed.
Print Assumptions C71_accepted.
(** then they say what is to be done, and the other words are to be looked up or sent. *)
Theorem C71_settings e args o ws l ws' : look_args e args = inl (o, ws) -> spelled look_shorts look_longs l ws' args -> ws' = ws /\ look_asked l o.
Proof. intros H S. apply args_inl in H as (l' & S' & _ & A & _). destruct (spelled_unique _ _ _ _ _ _ _ look_tables S S') as [-> ->]. auto. Qed.
Print Assumptions C71_settings.
Definition pton1 (t : string) : option (bool * list N) :=
  if (t =? "10.0.0.1")%string then Some (false, [10; 0; 0; 1]) else if (t =? "0.0.0.0")%string then Some (false, [0; 0; 0; 0]) else None.
Definition env1 : lenv := mk_lenv pton1 (fun _ => "10.0.0.1") (fun ip p => negb (p =? 1)) (fun p => (p =? "/tmp/mslookup")%string).
Example settings1 : look_args env1 ["sip.voice.1001.msisdn"; "-f"; "csv"; "-M4000"; "--mdns-i=10.0.0.1"; "-T"; "2000"; "-Hf"; "json"; "--min-delay"; " +5"; "-D"; "x.org"; "--"; "-d"] =
  inl (mk_lopts false "10.0.0.1" 4000 5 2000 None (Some "json") "x.org" false false false, ["sip.voice.1001.msisdn"; "-d"]).
Proof. reflexivity. Qed.

(** Help, version, and the first argument that cannot be used end it, whatever follows; nothing is done; *)
Theorem C71_ends e l x l2 ws a c b : spells look_shorts look_longs (l ++ x :: l2) ws a -> Forall (fun y => ~ stops (e_pton e) y) l -> stops (e_pton e) x ->
  exists r m, look_main e (a ++ c) b = Val (r, m) /\ (fst x = RChar "h" -> r = LHelp /\ look_status r = Some 0%Z /\ m = []) /\ (fst x = RChar "V" -> r = LVersion /\ look_status r = Some 0%Z /\ m = []) /\
    (~ usable (e_pton e) x -> r = LBad /\ look_status r = Some 1%Z /\ exists ch, fst x = RChar ch /\ ((given l "q" /\ m = []) \/ (~ given l "q" /\ m = [MValue ch]))).
Proof.
  intros S F St. pose proof (spells_known _ _ _ _ _ S) as K. apply Forall_app in K as [K1 K2]. inversion K2 as [|? ? K3 _]; subst.
  destruct (options_ok (e_pton e) l lopts0 K1 port0 F) as (o & P & L & H). destruct (option_ok (e_pton e) o x K3 P) as [(o1 & _ & N & _)|[_ (r & m & E & A & B & C)]]; [tauto|].
  exists r, m. split; [|split; [|split]]; [|intros Q; destruct (A Q) as [-> ->]; auto|intros Q; destruct (B Q) as [-> ->]; auto|].
  - apply main_stopped. unfold look_args. rewrite (spells_getopt _ _ _ _ _ _ look_tables S). rewrite <- app_assoc, H. cbn [List.app look_options]. rewrite E. reflexivity.
  - intros U. destruct (C U) as (-> & ch & Ch & ->). split; auto. split; auto. exists ch. split; auto. apply lf_quiet in L. cbn in L. unfold say. destruct (k_quiet o); [left|right]; split; auto; try tauto; try (intros X; intuition discriminate). apply proj1 in L. destruct (L eq_refl); [discriminate|auto].
Qed.
Print Assumptions C71_ends.
Example ends1 : map (fun a => look_main env1 a []) [["-d"; "-h"; "--nonsense"]; ["--vers"]; ["-M"; "0"; "-h"]; ["-qm"; "0.0.0.0"; "x"]; ["-T"; "4294967296"]; ["-t"; "1s"]] =
  map Val [(LHelp, []); (LVersion, []); (LBad, [MValue "M"]); (LBad, []); (LBad, [MValue "T"]); (LBad, [MValue "t"])].
Proof. reflexivity. Qed.
(** with any mistake nothing is done; *)
Theorem C71_mistake e args b : ~ (exists l ws, spelled look_shorts look_longs l ws args /\ Forall (fun x => ~ stops (e_pton e) x) l) ->
  exists r m, look_main e args b = Val (r, m) /\ In r [LHelp; LVersion; LBad] /\ (look_status r = Some 0%Z \/ look_status r = Some 1%Z).
Proof.
  intros N. rewrite <- C71_accepted in N. destruct (look_args e args) as [[o ws]|[r m]] eqn:A; [destruct N; eauto|]. exists r, m. split; [apply main_stopped; auto|].
  assert (I : In r [LHelp; LVersion; LBad]).
  { unfold look_args in A. destruct (getopt look_shorts look_longs args) as [l w] eqn:G. clear - A. revert A. generalize lopts0. induction l as [|x l IH]; cbn; intros o.
    - destruct w; [discriminate|]. intros [= <- _]. auto.
    - destruct (look_option (e_pton e) o x) as [o1|[r1 m1]] eqn:E; [apply IH|]. intros [= -> ->]. clear IH. destruct o as [dm ip port mn tm sock fm sfx hd sn qt]. cbv beta iota zeta delta [look_option] in E.
      destruct (fst x) as [ch|]; [|injection E as <- _; auto]. destruct ch as [[] [] [] [] [] [] [] []]; try (injection E as <- _; auto; fail); try discriminate;
        repeat match type of E with context [match ?y with _ => _ end] => destruct y end; try discriminate; injection E as <- _; auto. }
  split; auto. cbn in I. destruct I as [<-|[<-|[<-|[]]]]; cbn; auto.
Qed.
Print Assumptions C71_mistake.
Example mistake1 : map (fun a => look_main env1 a []) [["-x"]; ["-f"]; ["--mdns"; "1"]; ["--daemon=1"]] = map Val (repeat (LBad, [MLibrary; MOptions]) 4).
Proof. reflexivity. Qed.

(** Without --send the lookup starts exactly if there is something to look up or -d is given, then with a timeout; the format exists, and the sockets can be opened.
    It runs with the options given; *)
Theorem C71_starts e args b l ws o : spelled look_shorts look_longs l ws args -> look_args e args = inl (o, ws) -> ~ given l "S" -> startable e o ws ->
  exists t, runs_with e o t /\ look_main e args b = mdo r <- MsTool.main t ws b;; Val (LRan (fst r) (snd r), []).
Proof.
  intros S A N H. destruct (C71_settings _ _ _ _ _ _ A S) as [_ K]. apply (main_accepted e args b l ws o S A); auto. destruct (k_send o) eqn:Q; auto. exfalso. apply N, K. exact Q.
Qed.
Print Assumptions C71_starts.
(** otherwise nothing is looked up, and it fails. *)
Theorem C71_refuses e args b l ws o : spelled look_shorts look_longs l ws args -> look_args e args = inl (o, ws) -> ~ given l "S" -> ~ startable e o ws ->
  exists x m, look_main e args b = Val (x, m) /\ look_status x = Some 1%Z /\ In x [LUsage; LTimeout; LFormat; LMdns; LSocket].
Proof.
  intros S A N H. destruct (C71_settings _ _ _ _ _ _ A S) as [_ K]. destruct (main_accepted e args b l ws o S A) as [_ X]. { destruct (k_send o) eqn:Q; auto. exfalso. apply N, K. exact Q. }
  destruct (X H) as (x & m & E & I & _). exists x, m. split; auto. split; auto. cbn in I. repeat destruct I as [<-|I]; try destruct I; reflexivity.
Qed.
Print Assumptions C71_refuses.
Definition is_ran (r : mres (lend * list lmsg)) : bool := match r with Val (LRan _ false, []) => true | _ => false end.
Example starts1 : map (fun a => is_ran (look_main env1 a [])) [["sip.voice.1001.msisdn"]; ["-d"]; ["-s"; "/tmp/mslookup"; "-d"; "-f"; "js"]; ["sip.voice.1001.msisdn"; "-T"; "0"]] = [true; true; true; true].
Proof. vm_compute. reflexivity. Qed.
Example refuses1 : map (fun a => look_main env1 a []) [["-f"; "json"]; ["-d"; "--timeout=0"]; ["x"; "-f"; "jsonx"]; ["x"; "-M"; "1"]; ["x"; "-s"; "/root"]; ["-qd"; "-s"; "/root"]] =
  map Val [(LUsage, []); (LTimeout, [MTimeout]); (LFormat, [MFormat]); (LMdns, [MMdns]); (LSocket, [MSocket]); (LSocket, [])].
Proof. reflexivity. Qed.
(** Nothing undefined happens then; *)
Theorem C71_safe e args b l ws o : spelled look_shorts look_longs l ws args -> look_args e args = inl (o, ws) -> ~ given l "S" ->
  N.of_nat (length ws + MsToolSpec.packets (concat b)) <= 4294967295 -> exists x, look_main e args b = Val x.
Proof.
  intros S A N L. destruct (C71_settings _ _ _ _ _ _ A S) as [_ K]. assert (Sn : k_send o = false). { destruct (k_send o) eqn:Q; auto. exfalso. apply N, K. exact Q. }
  destruct (look_main e args b) eqn:E; [eauto|]. exfalso. destruct (main_accepted e args b l ws o S A Sn) as [X Y].
  assert (D : ~ startable e o ws). { intros H. destruct (X H) as (t & _ & E'). rewrite E in E'. destruct (tool_safe t ws b L) as [r R]. rewrite R in E'. discriminate. }
  destruct (Y D) as (x & m & E' & _). congruence.
Qed.
Print Assumptions C71_safe.
(** with -d the program runs on, whatever happens; *)
Theorem C71_daemon e args b l ws o x m : spelled look_shorts look_longs l ws args -> look_args e args = inl (o, ws) -> ~ given l "S" -> given l "d" -> startable e o ws ->
  look_main e args b = Val (x, m) -> look_status x = None.
Proof.
  intros S A N D H E. destruct (C71_starts e args b l ws o S A N H) as (t & R & E'). rewrite E in E'. destruct (C71_settings _ _ _ _ _ _ A S) as [_ K]. apply (la_daemon _ _ K) in D.
  unfold MsTool.main in E'. destruct (MsTool.start t ws) as [s|]; cbn in E'; [|discriminate]. destruct (MsTool.loop t s b) as [[s' y]|] eqn:Lp; cbn in E'; [|discriminate]. injection E' as -> ->.
  rewrite (loop_daemon t b) with (s := s) (s' := s') (x := y); auto. rewrite (rw_daemon _ _ _ R). exact D.
Qed.
Print Assumptions C71_daemon.
(** Full statement: without it, it succeeds at last even if nobody answers. Proved for the loop; if all queries are refused, nothing wakes the loop up (C60_refused_refuted). *)
Theorem C71_oneshot_partial e args l ws o : spelled look_shorts look_longs l ws args -> look_args e args = inl (o, ws) -> ~ given l "S" -> ~ given l "d" -> startable e o ws -> N.of_nat (length ws) <= 4294967295 ->
  exists b s, Forall MsToolThms8.timer_ev b /\ look_main e args [b] = Val (LRan s true, []) /\ look_status (LRan s true) = Some 0%Z.
Proof.
  intros S A N D H L. destruct (C71_settings _ _ _ _ _ _ A S) as [_ K].
  assert (Dm : k_daemon o = false). { destruct (k_daemon o) eqn:Q; auto. exfalso. apply D, K. exact Q. }
  assert (W : ws <> []). { destruct (st_work _ _ _ H); [auto|congruence]. }
  destruct (C71_starts e args [] l ws o S A N H) as (t & R & _). destruct (tool_oneshot t ws) as (b & s & F & M); auto. { rewrite (rw_daemon _ _ _ R). exact Dm. }
  exists b, s. split; auto. split; auto. destruct (C71_starts e args [b] l ws o S A N H) as (t' & R' & E).
  assert (t' = t) as ->. { destruct t, t', R, R'. cbn in *. f_equal; try congruence. apply format_ok in rw_fmt0, rw_fmt. congruence. }
  rewrite E, M. reflexivity.
Qed.
Print Assumptions C71_oneshot_partial.
Example oneshot1 : match look_main env1 ["gsup.hlr.901700000014701.imsi"; "-t0"; "-Hfcsv"] [[MsTool.ETick 500]; [MsTool.ETick 500; MsTool.ETimer 0]; [MsTool.ETick 1]] with
  Val (LRan s true, []) => MsTool.t_out s = [MsTool.OLine (String.concat MsTool.TAB ["gsup.hlr.901700000014701.imsi"; "not-found"; "last"; "0"; ""; ""; ""; ""; ""])] | _ => False end.
Proof. vm_compute. reflexivity. Qed.

(** --send sends what the words say, to the address, port and domain of the options, or fails; *)
Theorem C71_send e args b l ws o : spelled look_shorts look_longs l ws args -> look_args e args = inl (o, ws) -> given l "S" ->
  (e_mdns e (k_ip o) (k_port o) = false -> exists m, look_main e args b = Val (LSent 1 None, m)) /\
  (e_mdns e (k_ip o) (k_port o) = true -> forall x m, look_main e args b = Val (x, m) ->
    (exists p q r, x = LSent 0 (Some p) /\ MsNetSpec.given (e_pton e) ws q r /\ MsNetSpec.addrs_valid (e_pton e) ws /\ mdns_result_encode 0 q r (k_suffix o) = Val (Some p)) \/ x = LSent 1 None).
Proof.
  intros S A G. destruct (C71_settings _ _ _ _ _ _ A S) as [_ K]. apply (la_send _ _ K) in G. rewrite (main_send _ _ _ _ _ A G). split.
  - intros ->. cbn. eauto.
  - intros ->. intros x m. destruct (MsNet.do_send (e_pton e) (k_suffix o) ws) as [[rc p]|] eqn:E; cbn; [|discriminate]. intros [= <- _]. destruct (MsNetThms3.c62_only _ _ _ _ _ E) as [(-> & p' & q & r & -> & X)|[-> ->]]; [left|right; auto].
    exists p', q, r. tauto.
Qed.
Print Assumptions C71_send.
(** but options for listening, about which it complains, do not keep it from sending. *)
Theorem C71_send_refuted : exists e args b l ws o p m, spelled look_shorts look_longs l ws args /\ look_args e args = inl (o, ws) /\ given l "S" /\ given l "d" /\
  look_main e args b = Val (LSent 0 (Some p), m) /\ m = [MListening] /\ look_status (LSent 0 (Some p)) = Some 0%Z.
Proof.
  exists env1, ["-dS"; "sip.voice.1001.msisdn"; "5"; "10.0.0.1"; "5060"], [], [(RChar "d", None); (RChar "S", None)], ["sip.voice.1001.msisdn"; "5"; "10.0.0.1"; "5060"].
  do 3 eexists. split; [apply getopt_iff; [apply look_tables|vm_compute; reflexivity]|]. split; [vm_compute; reflexivity|]. split; [exists None; cbn; auto|]. split; [exists None; cbn; auto|].
  split; [vm_compute; reflexivity|]. split; reflexivity.
Qed.
Print Assumptions C71_send_refuted.
Example send1 : map (fun a => match look_main env1 a [] with Val (LSent rc p, m) => Some (rc, is_some p, m) | _ => None end)
   [["--send"; "sip.voice.1001.msisdn"; "5"; "10.0.0.1"]; ["--send"]; ["-qS"; "sip.voice.1001.msisdn"; "x"]; ["-S"; "-M1"; "sip.voice.1001.msisdn"; "5"; "10.0.0.1"]] =
   [Some (0%Z, true, []); Some (1%Z, false, [MSend]); Some (1%Z, false, []); Some (1%Z, false, [MSend])].
Proof. vm_compute. reflexivity. Qed.

(** With -q nothing is written to stderr, if the options are taken; *)
Theorem C71_quiet_partial e args b l ws x m : spelled look_shorts look_longs l ws args -> Forall (fun y => ~ stops (e_pton e) y) l -> given l "q" -> look_main e args b = Val (x, m) -> m = [].
Proof.
  intros S F G E. destruct (args_accepted _ _ _ _ S F) as (o & A & K). apply (la_quiet _ _ K) in G. destruct (k_send o) eqn:Sn.
  - rewrite (main_send _ _ _ _ _ A Sn) in E. destruct (if e_mdns _ _ _ then _ else _) as [[rc p]|] in E; cbn in E; [|discriminate]. injection E as _ <-. unfold say. rewrite G. destruct (_ || _ || _), (rc =? 0)%Z; reflexivity.
  - unfold look_main in E. rewrite A, Sn in E. unfold say in E. rewrite G in E.
    repeat match type of E with (if ?y then _ else _) = _ => destruct y; [injection E as _ <-; reflexivity|] end.
    destruct (look_format (k_fmt o)); [|injection E as _ <-; reflexivity].
    repeat match type of E with (if ?y then _ else _) = _ => destruct y; [injection E as _ <-; reflexivity|] end.
    destruct (MsTool.main _ _ _) in E; cbn in E; [|discriminate]. injection E as _ <-. reflexivity.
Qed.
Print Assumptions C71_quiet_partial.
(** but the library complains about unknown options. *)
Theorem C71_quiet_refuted e args b : look_main e ("--quiet" :: "--nonsense" :: args) b = Val (LBad, [MLibrary]).
Proof. reflexivity. Qed.
Print Assumptions C71_quiet_refuted.

(** ** osmo-euse-demo *)
(** The demonstration entity connects to the host of its first argument, or to this one; port: the second argument, or the one of the HLR. *)
Theorem C71_demo_partial h p n : h <> "-h" -> h <> "--help" -> numeral p (Z.of_N n) -> n < 65536 -> demo_main [] = Some ("127.0.0.1", 4222) /\ demo_main [h] = Some (h, 4222) /\ demo_main [h; p] = Some (h, n).
Proof.
  intros H1 H2 P L. apply String.eqb_neq in H1, H2. unfold demo_main. rewrite H1, H2. cbn [orb]. split; auto. split; auto. f_equal. f_equal.
  assert (atoi p = Z.of_N n) as ->. { apply CtrlThms4.numeral_atoi; [exact P|lia]. }
  rewrite Z.mod_small by lia. apply N2Z.id.
Qed.
Print Assumptions C71_demo_partial.
(** A port that is no port is not refused: of a number the last 16 bits are taken, *)
Theorem C71_demo_refuted h p n : h <> "-h" -> h <> "--help" -> numeral p (Z.of_N n) -> n < 9223372036854775808 -> demo_main [h; p] = Some (h, n mod 65536) /\ demo_main [h; "gsup"] = Some (h, 0).
Proof.
  intros H1 H2 P L. apply String.eqb_neq in H1, H2. unfold demo_main. rewrite H1, H2. cbn [orb]. split; [|reflexivity]. f_equal. f_equal.
  assert ((atoi p mod 65536 = Z.of_N n mod 65536)%Z) as ->; [|change 65536%Z with (Z.of_N 65536); rewrite <- N2Z.inj_mod by lia; apply N2Z.id].
  destruct (CtrlThms.numeral_digits p _ P) as (A & NE & F & Q). unfold atoi.
  assert (D : forall s acc v, all_digits s acc = Some v -> lead_digits s acc = v).
  { induction s as [|c s IH]; intros acc v H; cbn in *; [congruence|]. destruct (is_digit c); [auto|discriminate]. }
  destruct p as [|c t]; [congruence|]. specialize (F c t eq_refl).
  assert (S1 : skip_space (String c t) = String c t) by (cbn; destruct c as [[] [] [] [] [] [] [] []]; try discriminate F; reflexivity).
  assert (S2 : sign_of (String c t) = (false, String c t)) by (cbn; destruct c as [[] [] [] [] [] [] [] []]; try discriminate F; reflexivity).
  rewrite S1, S2, (D _ _ _ A). rewrite Z.min_r, Z.max_r by lia. set (z := Z.of_N n).
  pose proof (Z.div_mod (z + 2147483648) 4294967296 ltac:(lia)) as E. set (k := ((z + 2147483648) / 4294967296)%Z) in *.
  replace ((z + 2147483648) mod 4294967296 - 2147483648)%Z with (z + (- k * 65536) * 65536)%Z by lia. apply Z.mod_add. lia.
Qed.
Print Assumptions C71_demo_refuted.
Example demo1 : map demo_main [["-h"]; ["--help"; "x"]; ["10.0.0.1"; "4223"]; ["10.0.0.1"; "70000"]; ["10.0.0.1"; "4294971518"]] = [None; None; Some ("10.0.0.1", 4223); Some ("10.0.0.1", 4464); Some ("10.0.0.1", 4222)].
Proof. reflexivity. Qed.
