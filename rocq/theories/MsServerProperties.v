(** C37 (answers of the lookup server), C44 (ages) and C48 (service addresses): theorems and cases. *)
From Verif Require Import Base PeerId Router Db DbSpec DbProofs PeerSpec PeerThms MsLookup MsThms Mdns MsSpec MdnsSpec MdnsThms MdnsProperties Proxy MsServer MsServerSpec MsServerThms MsServerThms2.
Local Open Scope string_scope. Local Open Scope list_scope. Local Open Scope Z_scope.

(** ** C44 *)
(** The full statement is: for all pairs of times. Missing here: pairs more than 2^63 seconds apart. *)
Theorem C44_partial : forall now ts, - 2 ^ 63 <= now - ts < 2 ^ 63 -> exists r, timestamp_age now ts = Val r /\
  forall age, r = Some age <-> age = now - ts /\ 0 <= age <= 2 ^ 32 - 1.
Proof. exact c44_iff. Qed.
Print Assumptions C44_partial.
(** the difference overflows, which is undefined: exactly outside of these bounds *)
Theorem C44_overflow_refuted : forall now ts, timestamp_age now ts = Bad <-> now - ts < - 2 ^ 63 \/ 2 ^ 63 <= now - ts.
Proof.
  intros now ts. unfold timestamp_age, int64. cbv zeta. destruct (Z.leb_spec (- 2 ^ 63) (now - ts)), (Z.ltb_spec (now - ts) (2 ^ 63)); cbn [andb negb];
    try (split; [intros _; lia|reflexivity]). destruct (_ || _); split; try discriminate; lia.
Qed.
Print Assumptions C44_overflow_refuted.
Theorem C44_refuted : exists now ts, - 2 ^ 63 <= now < 2 ^ 63 /\ - 2 ^ 63 <= ts < 2 ^ 63 /\ timestamp_age now ts = Bad.
Proof. exists (2 ^ 63 - 1), (-1). vm_compute. repeat split; discriminate. Qed.
Print Assumptions C44_refuted.
Example C44_case : timestamp_age 1800000000 1799999990 = Val (Some 10) /\ timestamp_age 5 5 = Val (Some 0) /\ timestamp_age 5 6 = Val None /\
  timestamp_age 4294967295 0 = Val (Some 4294967295) /\ timestamp_age 4294967296 0 = Val None.
Proof. vm_compute. repeat split. Qed.

(** ** C48 *)
(** The full statement is: for every history of commands. Missing here: names of MSCs with a '%' or more than 127 characters, and the
    outcome reported by "no service NAME at IP PORT". *)
Theorem C48_map_partial : forall l, Forall (fun x => plain_node (node_of x)) l ->
  exists c, vcmds [] l = Val c /\ cfg_ok c /\ forall n s f a, plain_node n -> (found c n s f a <-> mapped (rev l) n s f a).
Proof. exact c48. Qed.
Print Assumptions C48_map_partial.
(** a command to set an address succeeds exactly if service name and address are valid, else it changes nothing *)
Theorem C48_set_partial : forall c n s a, cfg_ok c -> plain_node n -> exists b c', vcmd_run c (VSet n s a) = Val (b, c') /\ (b = true <-> good_entry s a) /\
  (b = false -> forall n' s' f x, plain_node n' -> (found c' n' s' f x <-> found c n' s' f x)).
Proof. exact c48_report_set. Qed.
Print Assumptions C48_set_partial.
Theorem C48_no_partial : forall c n s, cfg_ok c -> plain_node n -> exists b c', vcmd_run c (VNo n s) = Val (b, c') /\ (b = true <-> exists f a, found c n s f a).
Proof. exact c48_report_no. Qed.
Print Assumptions C48_no_partial.
Theorem C48_no_at_partial : forall c n s a, cfg_ok c -> plain_node n -> exists b c', vcmd_run c (VNoAt n s a) = Val (b, c') /\ (b = true -> found c n s (of_fam a) a).
Proof. exact c48_report_no_at. Qed.
Print Assumptions C48_no_at_partial.

Definition sv_a : sa := Sa4 [10; 0; 0; 1]%N 4222%N.
Definition sv_b : sa := Sa4 [10; 0; 0; 2]%N 5060%N.
Definition sv_c : sa := Sa6 [253; 0; 0; 0; 0; 0; 0; 0; 0; 0; 0; 0; 0; 0; 0; 3]%N 5060%N.
Definition ex_cmds : list vcmd :=
  [VSet None "gsup.hlr" sv_a; VMsc "MSC-1"; VSet (Some "MSC-1") "sip.voice" sv_a; VSet (Some "MSC-1") "sip.voice" sv_c; VSet (Some "MSC-1") "sip.voice" sv_b;
   VSet None "sip.voice" sv_a; VSet (Some "MSC-2") "smpp.sms" sv_a; VNo (Some "MSC-2") "smpp.sms"; VSet (Some "MSC-2") "smpp.sms" SaNone; VSet None "" sv_b].
Definition ex_cfg_ms : list msc := match vcmds [] ex_cmds with Val c => c | Bad => [] end.
Lemma plain_short t : forallb (fun c => negb (Ascii.eqb c "%"%char)) (bytes_of t) = true -> plain_text t.
Proof.
  intros H k. revert k. induction t as [|x t IH]; intros k; [destruct k; discriminate|]. cbn in H. apply andb_true_iff in H as [A B].
  destruct k as [|k]; cbn [String.get]; [|apply IH; auto]. intros [= ->]. discriminate A.
Qed.
Example C48_case_plain : Forall (fun x => plain_node (node_of x)) ex_cmds.
Proof. repeat (constructor; [cbn [node_of plain_node]; try exact I; (split; [cbn; lia|apply plain_short; reflexivity])|]). constructor. Qed.
Example C48_case : vcmds [] ex_cmds = Val ex_cfg_ms /\
  map (fun m => (ipa_bytes (m_name m), map (fun e => (sv_name e, sv_v4 e, sv_v6 e)) (m_svcs m))) ex_cfg_ms =
    [([], [("gsup.hlr", sv_a, SaNone); ("sip.voice", sv_a, SaNone)]);
     (bytes_of "MSC-1" ++ [nul], [("sip.voice", sv_b, sv_c)]); (bytes_of "MSC-2" ++ [nul], [])].
Proof. vm_compute. split; reflexivity. Qed.
Example C48_case_mapped : mapped (rev ex_cmds) (Some "MSC-1") "sip.voice" F4 sv_b /\ mapped (rev ex_cmds) (Some "MSC-1") "sip.voice" F6 sv_c /\
  ~ (exists a, mapped (rev ex_cmds) (Some "MSC-2") "smpp.sms" F4 a) /\ ~ mapped (rev ex_cmds) (Some "MSC-1") "sip.voice" F4 sv_a.
Proof.
  destruct (C48_map_partial ex_cmds C48_case_plain) as (c & R & _ & H). assert (c = ex_cfg_ms) by (destruct C48_case as [E _]; congruence). subst c.
  assert (P : forall t, (String.length t <= 127)%nat -> forallb (fun c => negb (Ascii.eqb c "%"%char)) (bytes_of t) = true -> plain_node (Some t)).
  { intros t L F. split; [auto|apply plain_short; auto]. }
  rewrite <- !H by (apply P; [cbn; lia|reflexivity]).
  split; [do 2 eexists; (split; [vm_compute; reflexivity|]); (split; [vm_compute; reflexivity|]); split; [vm_compute; reflexivity|discriminate]|].
  split; [do 2 eexists; (split; [vm_compute; reflexivity|]); (split; [vm_compute; reflexivity|]); split; [vm_compute; reflexivity|discriminate]|]. split.
  - intros (a & M). rewrite <- H in M by (apply P; [cbn; lia|reflexivity]). destruct M as (m & e & N & S & _). vm_compute in N. injection N as <-. vm_compute in S. discriminate.
  - intros (m & e & N & S & F & _). vm_compute in N. injection N as <-. vm_compute in S. injection S as <-. vm_compute in F. discriminate.
Qed.

(** the name given is used as a format *)
Theorem C48_percent_refuted : exists c t, cfg_ok c /\ vcmd_run c (VMsc t) = Bad.
Proof. exists [], "MSC%n". split; [split; [constructor|intros m []]|]. vm_compute. reflexivity. Qed.
Print Assumptions C48_percent_refuted.
(** two MSCs are taken for one if the first 127 characters of their names agree *)
Fixpoint reps (n : nat) (s : string) : string := match n with O => s | S k => String "x" (reps k s) end.
Theorem C48_long_refuted : exists n n' s a c, n <> n' /\ vcmds [] [VSet (Some n) s a] = Val c /\ found c (Some n') s F4 a.
Proof.
  exists (reps 127 "A"), (reps 127 "B"), "sip.voice", sv_a. eexists. split; [vm_compute; discriminate|]. split; [vm_compute; reflexivity|].
  do 2 eexists; (split; [vm_compute; reflexivity|]); (split; [vm_compute; reflexivity|]); split; [vm_compute; reflexivity|discriminate].
Qed.
Print Assumptions C48_long_refuted.
(** an address is deleted by a command that reports a failure *)
Theorem C48_report_refuted : exists l c c' n s a, vcmds [] l = Val c /\ found c n s F4 a /\ vcmd_run c (VNoAt n s a) = Val (false, c') /\ ~ found c' n s F4 a.
Proof.
  exists ex_cmds, ex_cfg_ms. eexists. exists (Some "MSC-1"), "sip.voice", sv_b. split; [vm_compute; reflexivity|].
  split; [do 2 eexists; (split; [vm_compute; reflexivity|]); (split; [vm_compute; reflexivity|]); split; [vm_compute; reflexivity|discriminate]|]. split; [vm_compute; reflexivity|].
  intros (m & e & N & S & F & _). vm_compute in N. injection N as <-. vm_compute in S. injection S as <-. vm_compute in F. discriminate.
Qed.
Print Assumptions C48_report_refuted.

(** ** C37 *)
(** The full statement is: for every database, cache, configuration, query and clock. Missing here: a bind address that was IPv6 before,
    and is IPv4 now. *)
Theorem C37_home_partial : forall y now c q d, lq_service q = "gsup.hlr" -> cfg_ok (y_cfg y) -> no_old_bind y ->
  exists y' a, run (mslookup_server_rx y now c q) [] d = (Fin (y', a), d, []) /\
    no_old_bind y' /\ y_cfg y' = y_cfg y /\ y_bind y' = y_bind y /\
    forall v4 v6 age, a = Found v4 v6 age <->
      (exists r, In r (d_sub d) /\ asks_row q r) /\ local_addr (y_cfg y) (y_bind y) v4 v6 /\ (usable v4 \/ usable v6) /\ age = 0.
Proof. exact c37_home. Qed.
Print Assumptions C37_home_partial.
(** Missing here: VLR names with a '%' or more than 31 characters, and clocks near 1970. *)
Theorem C37_other_partial : forall y now c q d, cfg_ok (y_cfg y) -> identities_unique d -> plain_rows d -> sane_times d c -> names_ok c -> one_cached c q ->
  y_max y <= 2 ^ 32 - 1 -> sane_time now -> sane_time (y_tz y) -> y_max y < now - y_tz y -> lq_service q <> "gsup.hlr" ->
  exists a, run (mslookup_server_rx y now c q) [] d = (Fin (y, a), d, []) /\
    forall v4 v6 age, a = Found v4 v6 age <->
      exists name, name <> [] /\ lu_latest (y_tz y) d c q now (y_max y) age name /\ serves (y_cfg y) name (lq_service q) v4 v6.
Proof. exact c37_other. Qed.
Print Assumptions C37_other_partial.
(** when database operations fail, there may be no answer, but still none that is not true *)
Theorem C37_fault_partial : forall y now c q d, cfg_ok (y_cfg y) -> identities_unique d -> plain_rows d -> sane_times d c -> names_ok c -> one_cached c q ->
  y_max y <= 2 ^ 32 - 1 -> sane_time now -> sane_time (y_tz y) -> y_max y < now - y_tz y ->
  forall s y' v4 v6 age d' s', lq_service q <> "gsup.hlr" -> run (mslookup_server_rx y now c q) s d = (Fin (y', Found v4 v6 age), d', s') ->
  d' = d /\ exists name, name <> [] /\ serves (y_cfg y) name (lq_service q) v4 v6 /\
    (lu_home d q now (y_max y) age name \/ lu_roaming (y_tz y) c q now (y_max y) age name).
Proof. exact c37_fault. Qed.
Print Assumptions C37_fault_partial.
(** the answer is what the client decodes from the packet sent in return to the packet with its question; without one nothing is sent *)
Theorem C37_packet_partial : forall y now c q d id suffix y' a, good_query q -> dns_name (lq_service q) -> dns_name suffix -> (String.length suffix <= 91)%nat -> (id < 65536)%N ->
  run (mslookup_server_rx y now c q) [] d = (Fin (y', a), d, []) ->
  (forall v4 v6 age, a = Found v4 v6 age -> good_result (mk_result (host_of v4) (host_of v6) (Z.to_N age))) ->
  exists p r, mdns_query_encode id q suffix = Val (Some p) /\ run (mdns_server_rx y now c suffix p) [] d = (Fin (y', r), d, []) /\
    match a with
    | NotFound => r = None
    | Found v4 v6 age => exists p', r = Some p' /\ mdns_result_decode p' suffix = Val (Some (id, q, mk_result (host_of v4) (host_of v6) (Z.to_N age)))
    end.
Proof. exact c37_packet. Qed.
Print Assumptions C37_packet_partial.

(** a subscriber of this HLR who was at MSC-1 and is at MSC-2 now through the cache; one who is at MSC-1; one who is behind a proxy; one
    whose update is long ago *)
Definition ms_row (id : Z) (imsi msisdn vlr : string) (lu : Z) (proxy : option string) : sub_row :=
  mk_sub id imsi (Some msisdn) None (Some vlr) None true true false false (Some lu) None proxy None.
Definition ms_now : Z := 1800000000.
Definition ms_db : db := with_sub db_init
  [ms_row 1 "901700000000001" "1001" "MSC-1" (ms_now - 50) None; ms_row 2 "901700000000002" "1002" "MSC-1" (ms_now - 30) None;
   ms_row 3 "901700000000003" "1003" "MSC-1" (ms_now - 30) (Some "HLR-9"); ms_row 4 "901700000000004" "1004" "MSC-1" (ms_now - 4000) None].
Definition ms_name (t : string) : ipa_name := match ipa_set_str ipa_empty (Some t) with Some n => n | None => ipa_empty end.
Definition ms_cache : list pent :=
  [mk_pent (mk_psub "901700000000001" "1001" sv_a (mk_pdom (ms_name "MSC-3") (ms_now - 3600 - 20) ipa_empty ipa_empty) pdom0) (ms_now - 3600 - 20);
   mk_pent (mk_psub "901700000000007" "1007" sv_a pdom0 pdom0) (ms_now - 3600 - 3)].
Definition ms_srv : msrv := mk_msrv ex_cfg_ms (Sa4 [192; 0; 2; 1]%N 4222%N) (SaNone, SaNone) 3600 3000.
Definition ms_ask (y : msrv) (d : db) (s : string) (t : _) (i : string) : option answer :=
  match run (mslookup_server_rx y ms_now ms_cache (mk_query s t i)) [] d with (Fin (_, a), _, _) => Some a | _ => None end.
Example C37_case :
  ms_ask ms_srv ms_db "gsup.hlr" IdImsi "901700000000002" = Some (Found sv_a SaNone 0) /\
  ms_ask ms_srv ms_db "gsup.hlr" IdMsisdn "1007" = Some NotFound /\
  ms_ask ms_srv ms_db "sip.voice" IdMsisdn "1002" = Some (Found sv_b sv_c 30) /\
  ms_ask ms_srv ms_db "sip.voice" IdMsisdn "1001" = Some (Found sv_a SaNone 20) /\
  ms_ask ms_srv ms_db "smpp.sms" IdMsisdn "1002" = Some NotFound /\
  ms_ask ms_srv ms_db "sip.voice" IdMsisdn "1003" = Some NotFound /\
  ms_ask ms_srv ms_db "sip.voice" IdMsisdn "1004" = Some NotFound /\
  ms_ask ms_srv ms_db "sip.voice" IdMsisdn "1007" = Some NotFound.
Proof. vm_compute. repeat split. Qed.
Example C37_case_ok : cfg_ok ex_cfg_ms /\ identities_unique ms_db /\ plain_rows ms_db /\ sane_times ms_db ms_cache /\ names_ok ms_cache /\ (forall t i, one_cached ms_cache (mk_query "sip.voice" t i)).
Proof.
  split; [destruct (c48 ex_cmds C48_case_plain) as (c & R & C & _); assert (c = ex_cfg_ms) by (destruct C48_case as [E _]; congruence); subst c; exact C|].
  split.
  { intros i j r r' A B H. destruct i as [|[|[|[|[|i]]]]]; try discriminate A; destruct j as [|[|[|[|[|j]]]]]; try discriminate B; try reflexivity; exfalso;
      injection A as <-; injection B as <-; cbn in H; destruct H as [H|[H|(m & H1 & H2)]]; try discriminate; congruence. }
  assert (T : forall x, In x (map s_vlr (d_sub ms_db)) -> x = Some "MSC-1"%string) by (cbn; intuition congruence).
  split.
  { intros r I. split; [intros v E; apply (in_map s_vlr), T in I; rewrite E in I; injection I as ->; split; [cbn; lia|apply plain_short; reflexivity]|].
    cbn in I. destruct I as [<-|[<-|[<-|[<-|[]]]]]; cbn; (split; intros v; [intros E|discriminate]); try discriminate; injection E as <-; apply plain_short; reflexivity. }
  split.
  { split; [intros r t [<-|[<-|[<-|[<-|[]]]]]; cbn; intros [= <-]; unfold sane_time, ms_now; lia|intros e [<-|[<-|[]]]; cbn; unfold sane_time, ms_now; lia]. }
  split.
  { assert (W : ipa_wf (ms_name "MSC-3")) by (split; [vm_compute; reflexivity|apply Nat.leb_le; vm_compute; reflexivity]).
    intros e [<-|[<-|[]]]; cbn [pe_sub ps_cs pd_name pd_via pdom0]; auto using ipa_empty_wf. }
  intros t i s s' (e & I & E & A) (e' & I' & E' & A'). subst s s'.
  destruct I as [<-|[<-|[]]], I' as [<-|[<-|[]]]; auto; exfalso; unfold asks_ent in *; cbn in *; destruct t; auto; congruence.
Qed.

(** an IPv6 address is announced that the GSUP server does not listen on any more *)
Theorem C37_bind_refuted : exists y bind d q q' y' y'' a, cfg_ok (y_cfg y) /\ y_static y = (SaNone, SaNone) /\
  run (mslookup_server_rx y 0 [] q) [] d = (Fin (y', a), d, []) /\
  run (mslookup_server_rx (mk_msrv (y_cfg y') bind (y_static y') (y_tz y') (y_max y')) 0 [] q') [] d = (Fin (y'', Found sv_a sv_c 0), d, []) /\
  ~ local_addr (y_cfg y'') (y_bind y'') sv_a sv_c.
Proof.
  exists (mk_msrv [] sv_c (SaNone, SaNone) 0 0), sv_a, ms_db, (mk_query "gsup.hlr" IdImsi "901700000000002"), (mk_query "gsup.hlr" IdImsi "901700000000002").
  do 3 eexists. split; [split; [constructor|intros m []]|]. split; [reflexivity|]. split; [vm_compute; reflexivity|]. split; [vm_compute; reflexivity|].
  cbn. intros [(m & e & [] & _)|(_ & _ & H)]. discriminate.
Qed.
Print Assumptions C37_bind_refuted.
(** an MSC with a name of more than 31 characters is not found again *)
Theorem C37_long_refuted : exists y d q t v4 v6 name, cfg_ok (y_cfg y) /\ (String.length t <= 127)%nat /\ plain_text t /\ name = bytes_of t ++ [nul] /\
  lu_latest (y_tz y) d [] q ms_now (y_max y) 5 name /\ serves (y_cfg y) name (lq_service q) v4 v6 /\ (usable v4 \/ usable v6) /\
  run (mslookup_server_rx y ms_now [] q) [] d = (Fin (y, NotFound), d, []).
Proof.
  pose (t := reps 31 "A"). pose (x := VSet (Some t) "sip.voice" sv_a).
  exists (mk_msrv (match vcmds [] [x] with Val c => c | Bad => [] end) sv_a (SaNone, SaNone) 0 3000), (with_sub db_init [ms_row 1 "901700000000001" "1001" t (ms_now - 5) None]),
    (mk_query "sip.voice" IdMsisdn "1001"), t, sv_a, SaNone. eexists.
  assert (P : plain_text t) by (apply plain_short; reflexivity).
  assert (L : (String.length t <= 127)%nat) by (cbn; lia).
  split. { destruct (c48 [x]) as (c & R & C & _); [constructor; [split; auto|constructor]|]. change (y_cfg (mk_msrv ?a _ _ _ _)) with a. cbn [y_cfg]. rewrite R. exact C. }
  split; [auto|]. split; [auto|]. split; [reflexivity|]. split.
  { left. split; [|intros a n (s & (e & [] & _) & _)]. eexists _, t, _. split; [left; reflexivity|]. repeat split; discriminate. }
  split. { left. do 2 eexists. split; [left; reflexivity|]. split; [vm_compute; reflexivity|]. split; [left; reflexivity|]. repeat split. }
  split; [left; split; [discriminate|]; exists 10%N; split; [left; reflexivity|discriminate]|]. vm_compute. reflexivity.
Qed.
Print Assumptions C37_long_refuted.
(** the name of the VLR is used as a format *)
Theorem C37_percent_refuted : exists y d q, cfg_ok (y_cfg y) /\ identities_unique d /\ fst (fst (run (mslookup_server_rx y ms_now [] q) [] d)) = Ub.
Proof.
  exists (mk_msrv [] sv_a (SaNone, SaNone) 0 3000), (with_sub db_init [ms_row 1 "901700000000001" "1001" "MSC%s" (ms_now - 5) None]), (mk_query "sip.voice" IdMsisdn "1001").
  split; [split; [constructor|intros m []]|]. split; [|vm_compute; reflexivity]. intros [|[|i]] [|[|j]] r r' A B _; try discriminate; reflexivity.
Qed.
Print Assumptions C37_percent_refuted.
(** with a clock near the epoch, a subscriber without any time of a location update is answered for *)
Theorem C37_epoch_refuted : exists y now d q v4 v6 age, cfg_ok (y_cfg y) /\ (forall r, In r (d_sub d) -> s_lu_cs r = None) /\
  run (mslookup_server_rx y now [] q) [] d = (Fin (y, Found v4 v6 age), d, []).
Proof.
  pose (x := VSet None "sip.voice" sv_a).
  exists (mk_msrv (match vcmds [] [x] with Val c => c | Bad => [] end) sv_a (SaNone, SaNone) 0 3000), 100,
    (with_sub db_init [mk_sub 1 "901700000000001" (Some "1001") None (Some "MSC-1") None true true false false None None None None]), (mk_query "sip.voice" IdMsisdn "1001").
  do 3 eexists. split. { destruct (c48 [x]) as (c & R & C & _); [constructor; [exact I|constructor]|]. cbn [y_cfg]. rewrite R. exact C. }
  split; [intros r [<-|[]]; reflexivity|]. vm_compute. reflexivity.
Qed.
Print Assumptions C37_epoch_refuted.
