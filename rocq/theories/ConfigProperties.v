(** Properties C56: a saved configuration is read back as it was; C57: the PDP profiles sent are those configured. *)
From Verif Require Import Base PeerId Db Auth Gsup Router Hlr UssdCfg SmsCfg MsLookup Mdns Proxy MsServer PeerSpec MsServerSpec Ctrl CtrlSpec Config ConfigSpec ConfigSpec2 ConfigThms ConfigThms2 ConfigThms5 ConfigThms7 ConfigThms8 ConfigThms9 ConfigThms10.
Local Open Scope string_scope.
Local Open Scope list_scope.

(** ** C56 *)
(** Full statement: for every history of commands, [write] produces a file, and reading it gives the same configuration.
    Proved unless a route points to an entity that was removed ([C56_dangling_refuted]), there is a gap between the profiles
    ([C56_gap_refuted]), or Distributed GSM is configured ([C56_mslookup_refuted]); and only as far as the settings are in use
    ([C56_disabled_refuted]), and for paths that are one word ([C56_path_refuted]). *)
Theorem C56_hlr_partial : forall e h c, Forall act_ok h -> acts e h conf0 = Val c -> no_dangling c -> packed (f_pdp c) -> apns_ok e c -> no_mslookup c ->
  exists ls d, write e c = Val ls /\ read_file e ls = Val (Some d) /\ conf_same c d.
Proof. exact c56_hlr. Qed.
Print Assumptions C56_hlr_partial.
(** there is no gap if no profile was removed *)
Theorem C56_no_gap : forall e h c, Forall keeps_profiles h -> acts e h conf0 = Val c -> packed (f_pdp c).
Proof. exact keeps_packed. Qed.
Print Assumptions C56_no_gap.

(** every line is right by itself: with the node ps before mslookup the whole configuration is read back *)
Theorem C56_lines : forall e h c, Forall act_ok h -> acts e h conf0 = Val c -> no_dangling c -> packed (f_pdp c) -> apns_ok e c -> addrs_ok e c ->
  exists ls d, ps_first e c = Val ls /\ read_file e ls = Val (Some d) /\ conf_same c d.
Proof. exact c56_order. Qed.
Print Assumptions C56_lines.

(** as it is, no file that was written while Distributed GSM was configured can be read *)
Theorem C56_mslookup_refuted : forall e h c, Forall act_ok h -> acts e h conf0 = Val c -> no_dangling c -> addrs_ok e c -> ~ no_mslookup c ->
  exists ls, write e c = Val ls /\ read_file e ls = Val None.
Proof. exact c56_mslookup. Qed.
Print Assumptions C56_mslookup_refuted.

(** *** cases *)
Definition ex_env : venv := mk_venv (fun w => w =? "10.0.0.1")
  (fun w p => if w =? "127.0.0.1" then Sa4 [127; 0; 0; 1]%N p else if w =? "239.192.23.42" then Sa4 [239; 192; 23; 42]%N p else if w =? "::1" then Sa6 [0; 1]%N p else SaNone)
  (fun a => match a with Sa4 ip _ => if (hd 0 ip =? 127)%N then "127.0.0.1" else "239.192.23.42" | Sa6 _ _ => "::1" | SaNone => "" end)
  (fun w => if w =? "" then None else Some w).
Definition ex_h : list act :=
  [AFile NdHlr ["reject-cause"; "not-found"; "imsi-unknown"]; AFile NdHlr ["store-imei"]; AFile NdHlr ["database"; "my.db"];
   AFile NdHlr ["subscriber-create-on-demand"; "4"; "cs"]; AFile NdGsup ["bind"; "ip"; "10.0.0.1"]; AFile NdGsup ["ipa-name"; "HLR-1"];
   ATyped NdHlr ["euse"; "EUSE-a"]; ATyped NdHlr ["euse"; "EUSE-b"]; ATyped NdHlr ["ussd"; "route"; "prefix"; "*100#"; "internal"; "own-msisdn"];
   ATyped NdHlr ["ussd"; "route"; "prefix"; "*12"; "external"; "EUSE-b"]; ATyped NdHlr ["ussd"; "default-route"; "external"; "EUSE-a"];
   ATyped NdHlr ["ncss-guard-timeout"; "5"]; ATyped NdHlr ["smsc"; "entity"; "SMSC"]; ATyped NdHlr ["smsc"; "route"; "4917"; "SMSC"];
   ATyped NdPs ["pdp-profiles"; "default"]; ATyped NdPdps ["profile"; "3"]; ATyped (NdProfile 0) ["apn"; "internet"]; ATyped NdPdps ["profile"; "1"]].
Definition ex_ls : list string :=
  ["hlr"; " reject-cause not-found imsi-unknown"; " reject-cause no-proxy net-fail"; " store-imei"; " database my.db"; " subscriber-create-on-demand 4 cs";
   " gsup"; "  bind ip 10.0.0.1"; "  ipa-name HLR-1"; " euse EUSE-a"; " euse EUSE-b"; " ussd route prefix *100# internal own-msisdn";
   " ussd route prefix *12 external EUSE-b"; " ussd default-route external EUSE-a"; " ncss-guard-timeout 5"; " smsc entity SMSC"; " smsc route 4917 SMSC";
   " ps"; "  pdp-profiles default"; "   profile 3"; "    apn internet"; "   profile 1"].
Definition ex_ms : list act :=
  [AFile NdMs ["mdns"; "bind"]; AFile NdServer ["service"; "sip.voice"; "at"; "127.0.0.1"; "5060"]; AFile NdServer ["msc"; "ipa-name"; "MSC"; "1"];
   AFile (NdMsc "MSC 1") ["service"; "smpp.sms"; "at"; "::1"; "2775"]; AFile NdClient ["timeout"; "500"]; AFile NdClient ["gateway-proxy"; "127.0.0.1"]].
Definition ex_ms_ls : list string :=
  ["mslookup"; " server"; "  mdns bind 239.192.23.42 4266"; "  service sip.voice at 127.0.0.1 5060"; "  msc ipa-name MSC 1"; "   service smpp.sms at ::1 2775";
   " client"; "  gateway-proxy 127.0.0.1 4222"; "  mdns bind 239.192.23.42 4266"; "  timeout 500"].
Definition get_conf (r : mres conf) : conf := match r with Val c => c | Bad => conf0 end.
Definition ex_c : conf := Eval vm_compute in get_conf (acts ex_env ex_h conf0).
Definition ex_cm : conf := Eval vm_compute in get_conf (acts ex_env (ex_h ++ ex_ms) conf0).
Ltac line_now := first [exact Logic.I | split; [kws|split; [exact Logic.I|intros ? ? ?; discriminate]]].
Ltac acts_now := repeat (first [apply Forall_nil | apply Forall_cons; [line_now|]]).
Lemma msc1 : msc_name ["MSC"; "1"].
Proof.
  split; [discriminate|]. split; [kws|]. split; [cbn; lia|]. intros k c. cbn. do 5 (destruct k as [|k]; [intros [= <-]; repeat split; try discriminate; vm_compute; discriminate|]). destruct k; discriminate.
Qed.
Lemma ex_h_ok : Forall act_ok ex_h. Proof. unfold ex_h. acts_now. Qed.
Lemma ex_hm_ok : Forall act_ok (ex_h ++ ex_ms).
Proof.
  apply Forall_app. split; [apply ex_h_ok|]. unfold ex_ms. constructor; [line_now|]. constructor; [line_now|]. constructor.
  { split; [kws|]. split; [exact Logic.I|]. intros r _ [= <-] _. exact msc1. }
  constructor; [|acts_now]. split; [kws|]. split; [|discriminate]. exists ["MSC"; "1"]. split; [reflexivity|exact msc1].
Qed.
Lemma ex_run : acts ex_env ex_h conf0 = Val ex_c. Proof. vm_compute. reflexivity. Qed.
Lemma ex_run_m : acts ex_env (ex_h ++ ex_ms) conf0 = Val ex_cm. Proof. vm_compute. reflexivity. Qed.
Lemma ex_keeps : Forall keeps_profiles ex_h. Proof. unfold ex_h. repeat constructor; cbn; discriminate. Qed.
Lemma ex_dangling : no_dangling ex_c /\ no_dangling ex_cm.
Proof.
  assert (H : no_dangling ex_c).
  { split; intros p nr I; vm_compute in I.
    - destruct I as [I|[I|[]]]; [discriminate I|]. injection I as <- <-. exists (mk_euse 1 "EUSE-b"). split; [right; left; reflexivity|reflexivity].
    - destruct I as [I|[]]. injection I as <- <-. exists (mk_euse 0 "SMSC"). split; [left; reflexivity|reflexivity]. }
  split; exact H.
Qed.
Lemma ex_apns : apns_ok ex_env ex_c /\ apns_ok ex_env ex_cm.
Proof.
  assert (H : apns_ok ex_env ex_c).
  { intros s a I. cbn in I. destruct I as [<-|I]; [intros [= <-]; split; [kw|split; [cbn; lia|reflexivity]]|]. repeat (destruct I as [<-|I]; [discriminate|]). destruct I. }
  split; exact H.
Qed.
Lemma ex_addrs : addrs_ok ex_env ex_cm.
Proof.
  assert (G : forall a, v_addr ex_env (v_show ex_env a) (sa_port a) = a -> wordb (v_show ex_env a) = true -> (sa_port a <=? 65535)%N = true -> addr_text ex_env a).
  { intros a A B C _. split; [apply wordb_iff; auto|]. split; auto. apply N.leb_le; auto. }
  split; [apply G; reflexivity|]. split; [apply G; reflexivity|]. split; [apply G; reflexivity|].
  intros m x I J. cbn in I. destruct I as [<-|[<-|[]]]; cbn in J; destruct J as [<-|[]]; split; try (apply G; reflexivity); intros [].
Qed.
Example C56_hlr_case : acts ex_env ex_h conf0 = Val ex_c /\ write ex_env ex_c = Val ex_ls /\ exists d, read_file ex_env ex_ls = Val (Some d) /\ conf_same ex_c d.
Proof.
  split; [exact ex_run|]. assert (W : write ex_env ex_c = Val ex_ls) by (vm_compute; reflexivity). split; [exact W|].
  destruct (C56_hlr_partial ex_env ex_h ex_c ex_h_ok ex_run) as (ls & d & W' & R & S).
  - apply ex_dangling.
  - apply (C56_no_gap ex_env ex_h ex_c ex_keeps ex_run).
  - apply ex_apns.
  - repeat split.
  - rewrite W in W'. injection W' as <-. exists d. auto.
Qed.
(** the causes that can be configured, with the numbers of 3GPP TS 24.008 10.5.5.14; without a port in the command the port stays *)
Example C56_causes_case : map (fun w => f_reject (get_conf (acts ex_env [AFile NdHlr ["reject-cause"; "not-found"; w]] conf0)))
    ["imsi-unknown"; "illegal-ms"; "plmn-not-allowed"; "la-not-allowed"; "roaming-not-allowed"; "no-suitable-cell-in-la"; "net-fail"; "congestion"; "auth-unacceptable"; "proto-error-unspec"] =
    [2; 3; 11; 12; 13; 15; 17; 22; 23; 111]%Z /\
  map (fun h => (sr_bind (f_srv (get_conf (acts ex_env h conf0))), cl_query (f_cli (get_conf (acts ex_env h conf0)))))
    [[AFile NdMs ["mdns"; "bind"; "127.0.0.1"; "4000"]; AFile NdServer ["mdns"; "bind"; "239.192.23.42"]; AFile NdClient ["mdns"; "bind"; "::1"]]] =
    [(Sa4 [239; 192; 23; 42]%N 4000%N, Sa6 [0; 1]%N 4000%N)].
Proof. split; vm_compute; reflexivity. Qed.
Example C56_lines_case : acts ex_env (ex_h ++ ex_ms) conf0 = Val ex_cm /\ ps_first ex_env ex_cm = Val (ex_ls ++ ex_ms_ls) /\
  exists d, read_file ex_env (ex_ls ++ ex_ms_ls) = Val (Some d) /\ conf_same ex_cm d.
Proof.
  split; [exact ex_run_m|]. assert (W : ps_first ex_env ex_cm = Val (ex_ls ++ ex_ms_ls)) by (vm_compute; reflexivity). split; [exact W|].
  destruct (C56_lines ex_env (ex_h ++ ex_ms) ex_cm ex_hm_ok ex_run_m) as (ls & d & W' & R & S).
  - apply ex_dangling.
  - apply (C56_no_gap ex_env ex_h ex_c ex_keeps ex_run).
  - apply ex_apns.
  - apply ex_addrs.
  - rewrite W in W'. injection W' as <-. exists d. auto.
Qed.
Example C56_mslookup_case : exists ls, write ex_env ex_cm = Val ls /\ In " ps" ls /\ read_file ex_env ls = Val None.
Proof.
  destruct (C56_mslookup_refuted ex_env (ex_h ++ ex_ms) ex_cm ex_hm_ok ex_run_m (proj2 ex_dangling) ex_addrs) as (ls & W & R); [intros (A & _); discriminate|].
  exists ls. split; auto. split; auto. assert (W2 : write ex_env ex_cm = Val (firstn 17 ex_ls ++ ex_ms_ls ++ skipn 17 ex_ls)) by (vm_compute; reflexivity). rewrite W2 in W. injection W as <-.
  vm_compute. tauto.
Qed.

(** *** what is not read back *)
(** a profile after one that was removed *)
Theorem C56_gap_refuted : exists e h c ls d s, Forall act_ok h /\ acts e h conf0 = Val c /\ no_dangling c /\ apns_ok e c /\ no_mslookup c /\ pd_on (f_pdp c) = true /\
  write e c = Val ls /\ read_file e ls = Val (Some d) /\ In s (profiles (f_pdp c)) /\ ~ In s (profiles (f_pdp d)) /\ ~ conf_same c d.
Proof.
  set (h := [AFile NdPs ["pdp-profiles"; "default"]; AFile NdPdps ["profile"; "1"]; AFile NdPdps ["profile"; "2"]; ATyped NdPdps ["no"; "profile"; "1"]]).
  exists ex_env, h. eexists. eexists. eexists. exists (mk_pslot 2 None). split; [unfold h; acts_now|]. split; [vm_compute; reflexivity|]. split; [split; intros ? ? []|].
  split; [intros s a I; repeat (destruct I as [<-|I]; [discriminate|]); destruct I|]. split; [repeat split|]. split; [reflexivity|]. split; [vm_compute; reflexivity|]. split; [vm_compute; reflexivity|].
  split; [vm_compute; auto|]. split; [vm_compute; tauto|]. intros ((_ & _ & _ & _ & _ & _ & _ & _ & _ & _ & _ & H) & _). specialize (H eq_refl). vm_compute in H. discriminate.
Qed.
Print Assumptions C56_gap_refuted.
(** a route to an entity that was removed: the freed entity is read when the file is written *)
Theorem C56_dangling_refuted : exists e h c, Forall act_ok h /\ acts e h conf0 = Val c /\ write e c = Bad.
Proof.
  set (h := [AFile NdHlr ["euse"; "E"]; AFile NdHlr ["ussd"; "route"; "prefix"; "*1"; "external"; "E"]; ATyped NdHlr ["no"; "euse"; "E"]]).
  exists ex_env, h. eexists. split; [unfold h; acts_now|]. split; [vm_compute; reflexivity|vm_compute; reflexivity].
Qed.
Print Assumptions C56_dangling_refuted.
(** what is switched off is not written: the same commands afterwards have another effect on the configuration that was read *)
Theorem C56_disabled_refuted : exists e h c ls d h2 c2 d2, Forall act_ok h /\ acts e h conf0 = Val c /\ write e c = Val ls /\ read_file e ls = Val (Some d) /\
  conf_same c d /\ acts e h2 c = Val c2 /\ acts e h2 d = Val d2 /\ ~ conf_same c2 d2.
Proof.
  set (h := [AFile NdPs ["pdp-profiles"; "default"]; AFile NdPdps ["profile"; "1"]; ATyped NdPs ["no"; "pdp-profiles"; "default"]]).
  exists ex_env, h. eexists. eexists. eexists. exists [ATyped NdPs ["pdp-profiles"; "default"]]. eexists. eexists. split; [unfold h; acts_now|]. split; [vm_compute; reflexivity|].
  split; [vm_compute; reflexivity|]. split; [vm_compute; reflexivity|]. split.
  { split; [|split].
    - do 10 (split; [first [reflexivity | split; [reflexivity|intros H; exfalso; apply H; reflexivity] | split; [reflexivity|split; reflexivity]]|]). split; [reflexivity|discriminate].
    - split; [reflexivity|]. split; [intros; cbn; tauto|discriminate].
    - split; [reflexivity|discriminate]. }
  split; [vm_compute; reflexivity|]. split; [vm_compute; reflexivity|].
  intros ((_ & _ & _ & _ & _ & _ & _ & _ & _ & _ & _ & H) & _). specialize (H eq_refl). vm_compute in H. discriminate.
Qed.
Print Assumptions C56_disabled_refuted.
(** a name of an MSC with a backslash is written with two (even in the order of [C56_lines]) *)
Theorem C56_name_refuted : exists e h c ls d n a, acts e h conf0 = Val c /\ addrs_ok e c /\ ps_first e c = Val ls /\ read_file e ls = Val (Some d) /\ plain_node (Some n) /\
  found (sr_mscs (f_srv c)) (Some n) "sip.voice" F4 a /\ forall b, ~ found (sr_mscs (f_srv d)) (Some n) "sip.voice" F4 b.
Proof.
  set (h := [AFile NdServer ["msc"; "ipa-name"; "a\b"]; AFile (NdMsc "a\b") ["service"; "sip.voice"; "at"; "127.0.0.1"; "5060"]]).
  exists ex_env, h. eexists. eexists. eexists. exists "a\b", (Sa4 [127; 0; 0; 1]%N 5060). split; [vm_compute; reflexivity|]. split.
  { assert (G : forall a, v_addr ex_env (v_show ex_env a) (sa_port a) = a -> wordb (v_show ex_env a) = true -> (sa_port a <=? 65535)%N = true -> addr_text ex_env a).
    { intros a A B C _. split; [apply wordb_iff; auto|]. split; auto. apply N.leb_le; auto. }
    split; [apply G; reflexivity|]. split; [intros []|]. split; [apply G; reflexivity|].
    intros m x I J. cbn in I. destruct I as [<-|[]]; cbn in J; destruct J as [<-|[]]; split; try (apply G; reflexivity); intros []. }
  split; [vm_compute; reflexivity|]. split; [vm_compute; reflexivity|]. split.
  { split; [cbn; lia|]. intros k. do 3 (destruct k as [|k]; [discriminate|]). destruct k; discriminate. }
  split.
  - eexists. eexists. split; [vm_compute; reflexivity|]. split; [vm_compute; reflexivity|]. split; [reflexivity|discriminate].
  - intros b (m & x & E & G & _). vm_compute in E. injection E as <-. vm_compute in G. discriminate.
Qed.
Print Assumptions C56_name_refuted.
(** a path with a blank given with -l *)
Theorem C56_path_refuted : exists e c ls, acts e [APath "my hlr.db"] conf0 = Val c /\ write e c = Val ls /\ In " database my hlr.db" ls /\ read_file e ls = Val None.
Proof. exists ex_env. eexists. eexists. split; [reflexivity|]. split; [vm_compute; reflexivity|]. split; [vm_compute; tauto|vm_compute; reflexivity]. Qed.
Print Assumptions C56_path_refuted.

(** A command leaves alone all settings that it is not about, whether it is carried out or refused. *)
Theorem C56_others : forall e f n ws c d s, (exists ch, exec e f n ws c = XOk d ch) \/ exec e f n ws c = XWarn d -> ~ about n ws s -> keeps s c d.
Proof. intros e f n ws c d s H. apply others with (e := e) (f := f). destruct H as [[ch ->]| ->]; reflexivity. Qed.
Print Assumptions C56_others.
Example C56_others_case : exists d, exec ex_env false NdHlr ["reject-cause"; "no-proxy"; "congestion"] ex_c = XOk d None /\ f_noproxy d = 22%Z /\ f_noproxy ex_c <> 22%Z /\
  (forall s, about NdHlr ["reject-cause"; "no-proxy"; "congestion"] s -> s = SNoproxy).
Proof. eexists. split; [vm_compute; reflexivity|]. split; [reflexivity|]. split; [discriminate|]. intros s H. inversion H; reflexivity. Qed.

(** services are mapped to addresses as the last lines about them say, whatever else is in the file *)
Theorem C56_services : forall e h c, Forall act_ok h -> acts e h conf0 = Val c ->
  exists l, said e h l /\ forall n s f a, plain_node n -> (found (sr_mscs (f_srv c)) n s f a <-> mapped (rev l) n s f a).
Proof. exact services. Qed.
Print Assumptions C56_services.
Definition ex_svc : list act :=
  [ATyped NdServer ["service"; "sip.voice"; "at"; "127.0.0.1"; "5060"]; ATyped NdHlr ["store-imei"]; ATyped NdServer ["service"; "sip.voice"; "at"; "::1"; "0"];
   ATyped NdServer ["msc"; "ipa-name"; "M"]; ATyped (NdMsc "M") ["service"; "smpp.sms"; "at"; "127.0.0.1"; "2775"]; ATyped (NdMsc "M") ["no"; "service"; "sip.voice"];
   ATyped (NdMsc "M") ["no"; "service"; "smpp.sms"]].
Example C56_services_case : exists c, acts ex_env ex_svc conf0 = Val c /\ found (sr_mscs (f_srv c)) None "sip.voice" F4 (Sa4 [127; 0; 0; 1]%N 5060) /\
  (forall f a, ~ found (sr_mscs (f_srv c)) (Some "M") "smpp.sms" f a) /\
  said ex_env ex_svc [VSet None "sip.voice" (Sa4 [127; 0; 0; 1]%N 5060); VMsc "M"; VSet (Some "M") "smpp.sms" (Sa4 [127; 0; 0; 1]%N 2775); VNo (Some "M") "sip.voice"; VNo (Some "M") "smpp.sms"].
Proof.
  eexists. split; [vm_compute; reflexivity|]. split; [do 2 eexists; repeat (split; [vm_compute; reflexivity|]); discriminate|]. split.
  - intros f a (m & x & Nm & G & F & Nz). vm_compute in Nm. injection Nm as <-. vm_compute in G. discriminate.
  - assert (P : forall w p, in_range 1 65535 w = true -> port_arg w = p -> port_text w p) by (intros w p A B; apply port_is; auto).
    apply sd_cmd; [apply (sy_set ex_env NdServer None "sip.voice" "127.0.0.1" "5060" 5060%N); [constructor|apply P; vm_compute; reflexivity]|].
    apply sd_other; [intros x Y; inversion Y; match goal with H : whose _ _ |- _ => inversion H end|].
    apply sd_other; [intros x Y; inversion Y; match goal with H : port_text _ _ |- _ => apply port_is in H as [H _]; vm_compute in H; discriminate end|].
    apply sd_cmd; [apply (sy_msc ex_env ["M"]); discriminate|].
    apply sd_cmd; [apply (sy_set ex_env (NdMsc "M") (Some "M") "smpp.sms" "127.0.0.1" "2775" 2775%N); [constructor|apply P; vm_compute; reflexivity]|].
    do 2 (apply sd_cmd; [apply sy_no; constructor|]). constructor.
Qed.
(** blank lines and comments change nothing, wherever they are; the first line of any other kind enters one of the two nodes *)
Theorem C56_comments : forall e l, no_command l -> forall a b, read_file e (a ++ l :: b) = read_file e (a ++ b).
Proof. intros e l N a b. apply read_skip. exact N. Qed.
Print Assumptions C56_comments.
Theorem C56_first : forall e l b c, read_file e (l :: b) = Val (Some c) -> words l <> [] -> ~ no_command l -> exists ws, words l = "hlr" :: ws \/ words l = "mslookup" :: ws.
Proof. exact read_first. Qed.
Print Assumptions C56_first.
Example C56_comments_case : no_command "  ! hlr" /\ no_command "#" /\ no_command " " /\
  map (fun l => match read_file ex_env [l] with Val (Some _) => true | _ => false end) ["!x"; "#"; ""; " hlr"; "hlr"; "x!"; String "001" ""; """"] =
    [true; true; true; false; true; false; false; false].
Proof.
  repeat (split; [intros w ws E; vm_compute in E; first [discriminate | injection E as <- <-; do 2 eexists; split; [reflexivity|tauto]]|]). vm_compute. reflexivity.
Qed.
(** what an empty file gives, as documented *)
Example C56_defaults : exists c, read_file ex_env [] = Val (Some c) /\ f_db c = "hlr.db" /\ f_name c = "unnamed-HLR" /\ cause_name (f_reject c) = "plmn-not-allowed" /\
  cause_name (f_noproxy c) = "net-fail" /\ f_imei c = false /\ f_cod c = CodOff /\ f_bind c = None /\ f_ncss c = 30%Z /\ profiles (f_pdp c) = [] /\ pd_on (f_pdp c) = false /\
  u_euses (f_ussd c) = [] /\ u_routes (f_ussd c) = [] /\ u_euses (f_smsc c) = [] /\
  f_srv c = mk_srv false false (Sa4 [239; 192; 23; 42]%N 4266) "mdns.osmocom.org" [] /\ f_cli c = mk_cli false SaNone 2000 false (Sa4 [239; 192; 23; 42]%N 4266) "mdns.osmocom.org".
Proof. eexists. split; [reflexivity|]. repeat (split; [reflexivity|]). reflexivity. Qed.

(** ** C57 *)
(** commands about entities and routes: what is refused changes nothing (and ends the reading of a file); the rest is done *)
Theorem C56_entities : forall e f h c ws x, Forall act_ok h -> acts e h conf0 = Val c ->
  (ussd_line ws x -> (accepted (f_ussd c) x /\ exists d ch, exec e f NdHlr ws c = XOk d ch /\ f_ussd d = ucmd_run (f_ussd c) x) \/ (~ accepted (f_ussd c) x /\ exec e f NdHlr ws c = XWarn c)) /\
  (smsc_line ws x -> (accepted (f_smsc c) x /\ exists d ch, exec e f NdHlr ws c = XOk d ch /\ f_smsc d = ucmd_run (f_smsc c) x) \/ (~ accepted (f_smsc c) x /\ exec e f NdHlr ws c = XWarn c)).
Proof. exact entities. Qed.
Print Assumptions C56_entities.
Example C56_entities_case : exists c, acts ex_env [AFile NdHlr ["euse"; "a"]; AFile NdHlr ["ussd"; "default-route"; "external"; "a"]; AFile NdHlr ["ussd"; "route"; "prefix"; "*100"; "internal"; "own-imsi"]] conf0 = Val c /\
  exec ex_env false NdHlr ["no"; "euse"; "a"] c = XWarn c /\ exec ex_env false NdHlr ["ussd"; "route"; "prefix"; "*100"; "external"; "a"] c = XWarn c /\
  exec ex_env false NdHlr ["ussd"; "route"; "prefix"; "*101"; "external"; "b"] c = XWarn c /\ exec ex_env false NdHlr ["smsc"; "default-route"; "a"] c = XWarn c /\
  exists d, exec ex_env false NdHlr ["no"; "ussd"; "route"; "prefix"; "*100"] c = XOk d None /\ u_routes (f_ussd d) = [].
Proof. eexists. split; [vm_compute; reflexivity|]. repeat (split; [vm_compute; reflexivity|]). eexists. split; [vm_compute; reflexivity|reflexivity]. Qed.
(** Full statement: the profiles sent are those configured. Proved unless there is a gap ([C57_gap_refuted]). *)
Theorem C57_sent_partial : forall e h c, Forall act_ok h -> acts e h conf0 = Val c -> packed (f_pdp c) -> pd_on (f_pdp c) = true -> pdp_sent c = Some (profiles (f_pdp c)).
Proof. exact c57_packed. Qed.
Print Assumptions C57_sent_partial.
Example C57_sent_case : pdp_sent ex_c = Some [mk_pslot 3 (Some "internet"); mk_pslot 1 None] /\ profiles (f_pdp ex_c) = [mk_pslot 3 (Some "internet"); mk_pslot 1 None] /\ packed (f_pdp ex_c).
Proof. split; [reflexivity|]. split; [reflexivity|]. apply (C56_no_gap ex_env ex_h ex_c ex_keeps ex_run). Qed.
(** at most ten, each number once; as many are sent as there are (so the message never overflows) *)
Theorem C57_count : forall e h c, Forall act_ok h -> acts e h conf0 = Val c ->
  NoDup (map sl_ctx (profiles (f_pdp c))) /\ (length (profiles (f_pdp c)) <= 10)%nat /\ Forall (fun s => (1 <= sl_ctx s <= 10)%Z) (profiles (f_pdp c)) /\
  forall l, pdp_sent c = Some l -> length l = length (profiles (f_pdp c)).
Proof. exact c57_count. Qed.
Print Assumptions C57_count.
Example C57_count_case : acts ex_env ex_h conf0 = Val ex_c /\ length (profiles (f_pdp ex_c)) = 2%nat.
Proof. split; [exact ex_run|reflexivity]. Qed.
(** a profile can always be created, which keeps the others *)
Theorem C57_create : forall e h c f id, Forall act_ok h -> acts e h conf0 = Val c -> (1 <= id <= 10)%Z ->
  exists d k, exec e f NdPdps ["profile"; show id] c = XOk d (Some (NdProfile k)) /\
    (exists s, nth_error (pd_slots (f_pdp d)) k = Some s /\ sl_ctx s = id) /\
    forall x, In x (profiles (f_pdp c)) -> In x (profiles (f_pdp d)).
Proof. exact c57_enter. Qed.
Print Assumptions C57_create.
Example C57_create_case : exists d, exec ex_env false NdPdps ["profile"; "10"] ex_c = XOk d (Some (NdProfile 2)) /\ map sl_ctx (profiles (f_pdp d)) = [3; 1; 10]%Z.
Proof. eexists. split; [vm_compute; reflexivity|reflexivity]. Qed.
(** after a profile was removed, an empty one is sent in its place and the last one is not *)
Theorem C57_gap_refuted : exists e h c l s z, Forall act_ok h /\ acts e h conf0 = Val c /\ pdp_sent c = Some l /\ In s (profiles (f_pdp c)) /\ ~ In s l /\ In z l /\ sl_ctx z = 0%Z.
Proof.
  set (h := [AFile NdPs ["pdp-profiles"; "default"]; AFile NdPdps ["profile"; "1"]; AFile NdPdps ["profile"; "2"]; ATyped NdPdps ["no"; "profile"; "1"]]).
  exists ex_env, h. eexists. eexists. exists (mk_pslot 2 None), (mk_pslot 0 None). split; [unfold h; acts_now|]. split; [vm_compute; reflexivity|]. split; [vm_compute; reflexivity|].
  split; [vm_compute; auto|]. split; [intros [H|[]]; discriminate|]. split; [now left|reflexivity].
Qed.
Print Assumptions C57_gap_refuted.
