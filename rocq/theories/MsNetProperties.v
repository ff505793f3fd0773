(** C61 (lookups over the network) and C62 (--send): theorems and cases. *)
From Verif Require Import Base PeerId Router Db DbSpec DbProofs PeerSpec PeerThms Ctrl CtrlSpec MsLookup MsSpec MsThms Mdns MdnsSpec MdnsThms MdnsThms4 Proxy MsServer MsServerSpec MsServerThms MsServerThms2 MsServerProperties MsClient MsClientSpec MsClientThms MsClientThms2 MsNet MsNetSpec MsNetThms MsNetThms2 MsNetThms3.
Local Open Scope string_scope.
Local Open Scope list_scope.
Local Open Scope N_scope.

(** ** C61 *)
(** The full statement is: for every service name, suffix and number of requests. Missing here: service names with empty labels, suffixes of more than 91 characters
    or with empty labels, and more than 2^32 - 1 requests (these are in [net_run]). *)
(** a result that the user is told of was said of what the user asked for, by an HLR that had this answer or by a user of --send *)
Theorem C61_true_partial : forall suffix id l s u x last t, net_run suffix id l s -> In (TCall u RcResult x last t) (c_trace (n_cl s)) ->
  exists q mn tm t0, In (TStart u q mn tm t0) (c_trace (n_cl s)) /\ told l q x.
Proof. exact c61_true. Qed.
Print Assumptions C61_true_partial.
(** packets sent by these programs do no harm to any of them: what can go wrong is what goes wrong without a network (C36, C37) *)
Theorem C61_safe_partial : forall suffix id l s e, net_run suffix id l s -> event_fits e -> nreqs (l ++ [e]) <= 4294967295 -> nstep suffix s e = Bad ->
  (exists ce, e = NClient ce /\ cstep (n_cl s) ce = Bad) \/
  (exists k y now c f d q, e = NServe k y now c f d /\ good_query q /\ run_out (mslookup_server_rx y now c q) f d = Ub).
Proof. exact c61_safe. Qed.
Print Assumptions C61_safe_partial.
(** an HLR that has an answer to an open request has been sent the question, and its answer reaches a request for the same; at once, if the age is 0 *)
Theorem C61_found_partial : forall suffix id l s u q mn tm t0 y now c f d x, net_run suffix id l s -> c_stack (n_cl s) = [] -> open u (n_cl s) -> In (TStart u q mn tm t0) (c_trace (n_cl s)) ->
  server_fits y -> answers y now c f d q x ->
  exists k s1 s2 v, nstep suffix s (NServe k y now c f d) = Val s1 /\ nstep suffix s1 (NRecv (length (n_air s))) = Val s2 /\
    open v (n_cl s) /\ In (TRes v q RcResult x (c_now (n_cl s))) (c_trace (n_cl s2)) /\ (lr_age x = 0 -> In (TCall v RcResult x true (c_now (n_cl s))) (c_trace (n_cl s2))).
Proof. exact c61_found. Qed.
Print Assumptions C61_found_partial.
(** an HLR answers for its subscribers with its own address, and for those who are at one of its MSCs with the address of the service there *)
Theorem C61_home_partial : forall y now c q d v4 v6 r, lq_service q = "gsup.hlr" -> cfg_ok (y_cfg y) -> no_old_bind y -> In r (d_sub d) -> asks_row q r -> local_addr (y_cfg y) (y_bind y) v4 v6 ->
  (usable v4 \/ usable v6) -> answers y now c [] d q (mk_result (host_of v4) (host_of v6) 0).
Proof. exact home_answers. Qed.
Print Assumptions C61_home_partial.
Theorem C61_there_partial : forall y now c q d v4 v6 age name, cfg_ok (y_cfg y) -> identities_unique d -> plain_rows d -> sane_times d c -> names_ok c -> one_cached c q ->
  (y_max y <= 2 ^ 32 - 1)%Z -> sane_time now -> sane_time (y_tz y) -> (y_max y < now - y_tz y)%Z -> lq_service q <> "gsup.hlr" ->
  name <> [] -> lu_latest (y_tz y) d c q now (y_max y) age name -> serves (y_cfg y) name (lq_service q) v4 v6 ->
  answers y now c [] d q (mk_result (host_of v4) (host_of v6) (Z.to_N age)).
Proof. exact there_answers. Qed.
Print Assumptions C61_there_partial.
(** networks with other suffixes do not understand each other. Missing here: suffixes with a label imsi or msisdn. *)
Theorem C61_other_partial : forall suffix suffix' q x id p, good_query q -> dns_name (lq_service q) -> suffix_fits suffix -> plain_suffix suffix -> plain_suffix suffix' -> suffix <> suffix' ->
  id < 65536 -> good_result x ->
  (mdns_query_encode id q suffix = Val (Some p) -> mdns_query_decode p suffix' = Val None) /\ (mdns_result_encode id q x suffix = Val (Some p) -> mdns_result_decode p suffix' = Val None).
Proof. exact c61_other. Qed.
Print Assumptions C61_other_partial.

Definition net_sfx : string := "mdns.osmocom.org".
Definition net_q1 : query := mk_query "sip.voice" IdMsisdn "1002".
Definition net_q2 : query := mk_query "gsup.hlr" IdImsi "901700000000002".
Definition net_pton (s : string) : option (bool * list N) :=
  if (s =? "10.0.0.8")%string then Some (false, [10; 0; 0; 8]) else if (s =? "10.0.0.9")%string then Some (false, [10; 0; 0; 9])
  else if (s =? "fd00::3")%string then Some (true, [253; 0; 0; 0; 0; 0; 0; 0; 0; 0; 0; 0; 0; 0; 0; 3]) else None.
Definition net_serve (k : nat) : nev := NServe k ms_srv ms_now ms_cache [] ms_db.
(** two requests; the client and the HLR hear everything, also what they sent themselves; someone else sends a worse result *)
Definition net_evs : list nev :=
  [NClient (CRequest net_q1 100 900); NClient (CRequest net_q2 0 0); NRecv 0; NRecv 1; NSend net_pton ["SIP.voice.1002.msisdn"; "77"; "10.0.0.9"]; NSend net_pton ["sip.voice.1002.MSISDN"; "77"; "10.0.0.9"];
   net_serve 0; net_serve 1; net_serve 2; NRecv 2; NRecv 3; NRecv 4; NRecv 5; NClient CReturn; NRecv 4; NRecv 5; NClient (CTick 100); NClient (CTimer 0); NClient CReturn].
Definition net_end : nst := match nrun net_sfx (n_init 65535) net_evs with Val s => s | Bad => n_init 0 end.
Definition is_told (n : note) : bool := match n with TCall _ _ _ _ _ => true | _ => false end.
Example C61_case : nrun net_sfx (n_init 65535) net_evs = Val net_end /\ length (n_air net_end) = 6%nat /\ n_id net_end = 1 /\
  filter is_told (rev (c_trace (n_cl net_end))) =
    [TCall 1 RcResult (mk_result (Some ([10; 0; 0; 1], 4222)) None 0) true 0;
     TCall 0 RcResult (mk_result (Some ([10; 0; 0; 2], 5060)) (Some ([253; 0; 0; 0; 0; 0; 0; 0; 0; 0; 0; 0; 0; 0; 0; 3], 5060)) 30) false 100].
Proof. vm_compute. repeat split. Qed.
Lemma dns_check s ls : ls <> [] -> forallb (fun x => (1 <=? length x)%nat && (length x <=? 255)%nat && negb (existsb (N.eqb 46) x) && negb (existsb (N.eqb 0) x)) ls = true -> octets_of s = join ls -> dns_name s.
Proof.
  intros N F E. exists ls. split; [exact N|]. split; [|exact E]. apply Forall_forall. intros x I. rewrite forallb_forall in F. specialize (F x I). rewrite !andb_true_iff, !negb_true_iff in F. destruct F as [[[A B] C] D].
  apply Nat.leb_le in A, B. split; [lia|]. split; intros J; [assert (existsb (N.eqb 46) x = true) by (apply existsb_exists; exists 46; split; [exact J|apply N.eqb_refl])|assert (existsb (N.eqb 0) x = true) by (apply existsb_exists; exists 0; split; [exact J|apply N.eqb_refl])]; congruence.
Qed.
Ltac dns := match goal with |- dns_name ?s => apply (dns_check s (labels (octets_of s))) end; [vm_compute; discriminate|vm_compute; reflexivity|vm_compute; reflexivity].
Example C61_case_fits : Forall event_fits net_evs /\ suffix_fits net_sfx /\ net_run net_sfx 65535 net_evs net_end.
Proof.
  assert (P : reads_addrs net_pton).
  { intros t v a. unfold net_pton. repeat destruct (_ =? _)%string; intros H; try discriminate; injection H as <- <-; (split; [reflexivity|repeat constructor]). }
  assert (S : server_fits ms_srv).
  { assert (G : forall n ip p, length ip = n -> forallb (fun x => x <? 256) ip = true -> 1 <= p <= 65535 -> good_host n (Some (ip, p))).
    { intros n ip p L F R. split; [exact L|]. split; [|exact R]. apply Forall_forall. intros x I. rewrite forallb_forall in F. apply N.ltb_lt, F, I. }
    split; [|split; [left; split; [reflexivity|apply G; [reflexivity|reflexivity|lia]]|split; exact Logic.I]].
    intros m e I J. change (y_cfg ms_srv) with ex_cfg_ms in I.
    assert (F : forallb (fun m => forallb (fun e => match sv_v4 e with Sa6 _ _ => false | Sa4 ip p => (length ip =? 4)%nat && forallb (fun x => x <? 256) ip && (1 <=? p) && (p <=? 65535) | SaNone => true end &&
        match sv_v6 e with Sa4 _ _ => false | Sa6 ip p => (length ip =? 16)%nat && forallb (fun x => x <? 256) ip && (1 <=? p) && (p <=? 65535) | SaNone => true end) (m_svcs m)) ex_cfg_ms = true) by (vm_compute; reflexivity).
    rewrite forallb_forall in F. specialize (F m I). rewrite forallb_forall in F. specialize (F e J). apply andb_true_iff in F as [F4 F6].
    assert (K : forall n ip p, (length ip =? n)%nat && forallb (fun x => x <? 256) ip && (1 <=? p) && (p <=? 65535) = true -> good_host n (Some (ip, p))).
    { intros n ip p H. rewrite !andb_true_iff, !N.leb_le, Nat.eqb_eq in H. destruct H as [[[H1 H2] H3] H4]. apply G; [exact H1|exact H2|lia]. }
    split; [destruct (sv_v4 e)|destruct (sv_v6 e)]; try discriminate; try exact Logic.I; (split; [reflexivity|]); apply K; assumption. }
  assert (F : Forall event_fits net_evs).
  { assert (Ds : forall age r, event_fits (NSend net_pton (["SIP.voice.1002.msisdn"; age] ++ r)) /\ event_fits (NSend net_pton (["sip.voice.1002.MSISDN"; age] ++ r))).
    { intros age r. split; (split; [exact P|]; intros q x (qs & a & E0 & _ & Nq & _); injection E0 as <-; apply init_iff in Nq; vm_compute in Nq; injection Nq as <-; dns). }
    unfold net_evs. repeat (apply Forall_cons; [first [exact Logic.I|exact S|exact (proj1 (Ds _ _))|exact (proj2 (Ds _ _))|split; [dns|vm_compute; repeat constructor]]|]). apply Forall_nil. }
  assert (Sf : suffix_fits net_sfx) by (split; [dns|vm_compute; repeat constructor]).
  split; [exact F|]. split; [exact Sf|]. split; [exact Sf|]. split; [lia|]. split; [exact F|]. split; [vm_compute; discriminate|vm_compute; reflexivity].
Qed.
(** the two suffixes of C61_other: those that are used by default and in the manual *)
Example C61_case_other : mdns_query_encode 7 net_q1 net_sfx <> Val None /\
  (forall p, mdns_query_encode 7 net_q1 net_sfx = Val (Some p) -> mdns_query_decode p "osmocom.org" = Val None /\ mdns_query_decode p net_sfx = Val (Some (7, net_q1))).
Proof. split; [vm_compute; discriminate|]. intros p H. vm_compute in H. injection H as <-. vm_compute. split; reflexivity. Qed.

(** an HLR never hears of a request for a service with an empty label, though it has an answer *)
Theorem C61_empty_refuted : exists q s y x, good_query q /\ nrun net_sfx (n_init 0) [NClient (CRequest q 0 0)] = Val s /\ open 0 (n_cl s) /\ cfg_ok (y_cfg y) /\ answers y ms_now ms_cache [] ms_db q x /\
  forall k p, nth_error (n_air s) k = Some p -> mdns_query_decode p net_sfx = Val None.
Proof.
  exists (mk_query "sip..voice" IdMsisdn "1002"). eexists. exists (mk_msrv (match vcmds [] [VSet None "sip..voice" sv_a] with Val c => c | Bad => [] end) sv_a (SaNone, SaNone) 3600 3000), (mk_result (Some ([10; 0; 0; 1], 4222)) None 30).
  split; [assert (N : names_query "sip..voice.1002.msisdn" (mk_query "sip..voice" IdMsisdn "1002")) by (apply init_iff; vm_compute; reflexivity); exact (proj1 N)|].
  split; [vm_compute; reflexivity|]. split; [eexists; split; [left; reflexivity|reflexivity]|]. split.
  { destruct (c48 [VSet None "sip..voice" sv_a]) as (c & R & C & _); [constructor; [exact Logic.I|constructor]|]. cbn [y_cfg]. rewrite R. exact C. }
  split; [do 4 eexists; split; [vm_compute; reflexivity|vm_compute; reflexivity]|].
  intros [|[|k]] p H; cbn in H; try discriminate. injection H as <-. vm_compute. reflexivity.
Qed.
Print Assumptions C61_empty_refuted.
(** with a suffix that has such a label, an HLR of another network takes the question for one about someone else, and the client takes its answer *)
Theorem C61_suffix_refuted : exists suffix suffix' q q' x p p', suffix_fits suffix /\ suffix_fits suffix' /\ suffix <> suffix' /\ q <> q' /\ good_result x /\
  mdns_query_encode 0 q suffix = Val (Some p) /\ mdns_query_decode p suffix' = Val (Some (0, q')) /\
  mdns_result_encode 0 q' x suffix' = Val (Some p') /\ mdns_result_decode p' suffix = Val (Some (0, q, x)).
Proof.
  exists "262420.imsi.lab", "lab", (mk_query "sip.voice" IdMsisdn "1002"), (mk_query "sip.voice.1002.msisdn" IdImsi "262420"), (mk_result (Some ([10; 0; 0; 1], 4222)) None 30). do 2 eexists.
  split; [split; [dns|vm_compute; repeat constructor]|]. split; [split; [dns|vm_compute; repeat constructor]|]. split; [discriminate|]. split; [discriminate|].
  split; [split; [split; [reflexivity|split; [repeat constructor|lia]]|split; [exact Logic.I|split; [intros [? _]; discriminate|cbn; lia]]]|].
  split; [vm_compute; reflexivity|]. split; [vm_compute; reflexivity|]. split; [vm_compute; reflexivity|vm_compute; reflexivity].
Qed.
Print Assumptions C61_suffix_refuted.

(** ** C62 *)
(** The full statement is: for all arguments. Missing here: no address, two addresses of the same family, services with empty labels (and suffixes as in C61). *)
(** a client reads from the packet what the arguments say *)
Theorem C62_sent_partial : forall pton suffix argv q x, reads_addrs pton -> suffix_fits suffix -> given pton argv q x -> dns_name (lq_service q) -> addrs_valid pton argv -> ~ (lr_v4 x = None /\ lr_v6 x = None) ->
  exists p, do_send pton suffix argv = Val (0%Z, Some p) /\ mdns_result_decode p suffix = Val (Some (0, q, x)).
Proof. exact c62_sent. Qed.
Print Assumptions C62_sent_partial.
(** a packet is sent exactly if success is reported, and only for arguments that are valid *)
Theorem C62_only : forall pton suffix argv rc o, do_send pton suffix argv = Val (rc, o) ->
  (rc = 0%Z /\ exists p q x, o = Some p /\ given pton argv q x /\ addrs_valid pton argv /\ mdns_result_encode 0 q x suffix = Val (Some p)) \/ (rc = 1%Z /\ o = None).
Proof. exact c62_only. Qed.
Print Assumptions C62_only.
(** the arguments say one thing only *)
Theorem C62_unique : forall pton argv q x q' x', given pton argv q x -> given pton argv q' x' -> q' = q /\ x' = x.
Proof. exact given_unique. Qed.
Print Assumptions C62_unique.
(** without an address, success is reported for a packet that no client understands *)
Theorem C62_bare_refuted : forall pton suffix argv q x, reads_addrs pton -> suffix_fits suffix -> given pton argv q x -> dns_name (lq_service q) -> (length argv <= 2)%nat ->
  exists p, do_send pton suffix argv = Val (0%Z, Some p) /\ mdns_result_decode p suffix = Val None.
Proof. exact c62_bare. Qed.
Print Assumptions C62_bare_refuted.
(** of two addresses of the same family, the first is not sent *)
Theorem C62_two_refuted : exists pton argv p q x, reads_addrs pton /\ do_send pton net_sfx argv = Val (0%Z, Some p) /\ addr_arg pton argv 2 false [10; 0; 0; 8] 2342 /\
  mdns_result_decode p net_sfx = Val (Some (0, q, x)) /\ lr_v4 x = Some ([10; 0; 0; 9], 4222) /\ lr_v6 x = None.
Proof.
  exists net_pton, ["sip.voice.1002.msisdn"; "5"; "10.0.0.8"; "2342"; "10.0.0.9"; "4222"]. do 3 eexists.
  split; [intros t v a; unfold net_pton; repeat destruct (_ =? _)%string; intros H; try discriminate; injection H as <- <-; (split; [reflexivity|repeat constructor])|].
  split; [vm_compute; reflexivity|]. split; [exists "10.0.0.8"; split; [reflexivity|]; split; [reflexivity|]; split; [lia|]; cbn [nth_error]; apply strtoll_writes; reflexivity|].
  split; [vm_compute; reflexivity|]. split; reflexivity.
Qed.
Print Assumptions C62_two_refuted.
(** a service whose name starts with two dots is accepted, and the packet leads everybody who listens out of a buffer *)
Theorem C62_dots_refuted : forall pton suffix argv q x s p, given pton argv q x -> lq_service q = (".." ++ s)%string -> do_send pton suffix argv = Val (0%Z, Some p) ->
  forall suffix', mdns_result_decode p suffix' = Bad.
Proof.
  intros pton suffix argv q x s p Gv E D suffix'. destruct (c62_only _ _ _ _ _ D) as [(_ & p' & q' & x' & Ep & Gv' & _ & R)|[Z _]]; [|discriminate]. injection Ep as <-. destruct (given_unique _ _ _ _ _ _ Gv Gv') as [-> ->]. exact (answer_dots _ _ _ _ _ _ E R suffix').
Qed.
Print Assumptions C62_dots_refuted.
Example C62_dots_case : exists p q, query_init "..voice.1002.msisdn" = inl q /\ lq_service q = "..voice"%string /\ do_send net_pton net_sfx ["..voice.1002.msisdn"; "5"; "10.0.0.9"; "4222"] = Val (0%Z, Some p) /\ mdns_result_decode p net_sfx = Bad.
Proof. do 2 eexists. repeat split; vm_compute; reflexivity. Qed.
Definition send_args : list string := ["sip.voice.1002.Msisdn"; " +5"; "fd00::3"; "5060"; "10.0.0.9"].
Example C62_case : exists p q x, do_send net_pton net_sfx send_args = Val (0%Z, Some p) /\ mdns_result_decode p net_sfx = Val (Some (0, q, x)) /\
  q = net_q1 /\ x = mk_result (Some ([10; 0; 0; 9], 2342)) (Some ([253; 0; 0; 0; 0; 0; 0; 0; 0; 0; 0; 0; 0; 0; 0; 3], 5060)) 5 /\ given net_pton send_args q x /\ addrs_valid net_pton send_args.
Proof.
  do 3 eexists. split; [vm_compute; reflexivity|]. split; [vm_compute; reflexivity|]. split; [reflexivity|]. split; [reflexivity|].
  destruct (c62_only net_pton net_sfx send_args 0%Z _ ltac:(vm_compute; reflexivity)) as [(_ & p & q & x & E & G & V & Ep)|[? _]]; [|discriminate]. split; [|exact V].
  assert (X : mdns_result_decode p net_sfx = Val (Some (0, q, x)) -> given net_pton send_args net_q1 (mk_result (Some ([10; 0; 0; 9], 2342)) (Some ([253; 0; 0; 0; 0; 0; 0; 0; 0; 0; 0; 0; 0; 0; 0; 3], 5060)) 5)).
  { intros H. injection E as <-. vm_compute in H. injection H as <- <-. exact G. }
  apply X. assert (P : reads_addrs net_pton). { intros t v a. unfold net_pton. repeat destruct (_ =? _)%string; intros H; try discriminate; injection H as <- <-; (split; [reflexivity|repeat constructor]). }
  assert (Sf : suffix_fits net_sfx) by (split; [dns|vm_compute; repeat constructor]).
  assert (Dn : dns_name (lq_service q)). { destruct G as (qs & age & E0 & _ & Nq & _). injection E0 as <-. apply init_iff in Nq. vm_compute in Nq. injection Nq as <-. dns. }
  assert (Ne : ~ (lr_v4 x = None /\ lr_v6 x = None)).
  { intros [_ N6]. destruct G as (_ & _ & _ & _ & _ & _ & _ & _ & A6). rewrite N6 in A6. destruct (V 2%nat (or_introl eq_refl) ltac:(discriminate)) as (v & a & r & A).
    assert (v = true) by (destruct A as (ip & Ei & Et & _); injection Ei as <-; vm_compute in Et; congruence). subst. exact (A6 2%nat a r (or_introl eq_refl) A). }
  destruct (c62_sent net_pton net_sfx send_args q x P Sf G Dn V Ne) as (p' & S & D). destruct (send_cases net_pton net_sfx send_args) as [(q2 & x2 & G2 & _ & S2)|[S2 _]]; [|vm_compute in S2; discriminate].
  destruct (given_unique _ _ _ _ _ _ G G2) as [-> ->]. rewrite Ep in S2. cbn [mbind] in S2. rewrite S2 in S. injection S as <-. exact D.
Qed.
(** arguments that are refused *)
Example C62_case_refused : map (do_send net_pton net_sfx) [[]; ["sip.voice"; "5"]; ["sip.voice.1002.msisdn"]; ["sip.voice.1002.msisdn"; "4294967296"]; ["sip.voice.1002.msisdn"; "-1"];
    ["sip.voice.1002.msisdn"; "5"; "10.0.0.9"; "0"]; ["sip.voice.1002.msisdn"; "5"; "10.0.0.9"; "65536"]; ["sip.voice.1002.msisdn"; "5"; "nowhere"]] = repeat (Val (1%Z, None)) 8.
Proof. vm_compute. reflexivity. Qed.
