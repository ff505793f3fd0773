(** C68 the demonstration external USSD entity: theorems and cases. *)
From Verif Require Import Base PeerId Db DbSpec DbProofs DbThms DbProperties AuthSpec AuthThms2 AuthProperties PeerSpec PeerThms Auth Gsup Router Hlr HlrSpec RouterThms HlrThms HlrThms2 HlrThms5 HlrStep UssdSpec UssdThms
  HlrExamples HlrProperties Euse EuseSpec EuseThms.

(** ** The entity by itself *)
(** Every request or result of a USSD session gets exactly one answer, which ends that session: a reject if it cannot be parsed or
    does not begin the session, otherwise the text of the request in quotes, as far as there is room. *)
Theorem C68_answers : forall l g, g_type g = MSGT_PROC_SS_REQUEST \/ g_type g = MSGT_PROC_SS_RESULT ->
  exists m pl, euse_read l (Some g) = ([m], true) /\ last_answer g m /\ x_ss (g_x m) = PlRaw pl /\ g_class m = 0 /\ g_mr m = None /\
    ((exists o, x_ss (g_x g) = PlRaw o /\ o <> [] /\ f_parse l o = None /\ pl = f_reject l (-1) 128 2) \/
     (exists invoke text, (x_ss (g_x g) = PlRaw [] \/ (forall o, x_ss (g_x g) <> PlRaw o) -> invoke = 0 /\ text = ""%string) /\
        (forall o, x_ss (g_x g) = PlRaw o -> o <> [] -> f_parse l o = Some (invoke, text)) /\
        ((g_ss g = SS_BEGIN /\ exists s, said_back text s /\ pl = f_text l (invoke mod 256) s) \/
         (g_ss g <> SS_BEGIN /\ pl = f_reject l invoke 128 0)))).
Proof. exact c68_answer. Qed.
Print Assumptions C68_answers.

Theorem C68_silent : forall l g, g_type g <> MSGT_PROC_SS_REQUEST -> g_type g <> MSGT_PROC_SS_RESULT -> euse_read l (Some g) = ([], true).
Proof. exact c68_silent. Qed.
Print Assumptions C68_silent.

(** A message that cannot be decoded stays in memory: osmo-euse-demo.c:167-171 returns without msgb_free(). *)
Theorem C68_buffer_refuted : forall l, euse_read l None = ([], false).
Proof. reflexivity. Qed.
Print Assumptions C68_buffer_refuted.

(** ** The HLR and the entity *)
(** As long as nobody else does anything, the HLR sends nothing to the entity: they do not keep each other busy. *)
Theorem C68_quiet : forall k l d acts n o acts2 n2 o2, db_ok d -> keys_wellformed d -> Forall proper acts -> net_run k l 0 (net0 d) acts = Some (n, o) ->
  Forall alone acts2 -> net_run k l 0 n acts2 = Some (n2, o2) ->
  sent_on 0 o2 = [] /\ n_down n2 = skipn (reads acts2) (n_down n) /\ (length (n_up n2) + length (n_down n2) <= length (n_up n) + length (n_down n))%nat.
Proof. exact c68_quiet. Qed.
Print Assumptions C68_quiet.

(** When the entity has read what is under way to it and the HLR what is under way to it then, nothing is under way. *)
Theorem C68_comes_to_rest : forall k l d acts n o a ws n2 o2, db_ok d -> keys_wellformed d -> Forall proper acts -> net_run k l 0 (net0 d) acts = Some (n, o) ->
  (length (n_down n) <= a)%nat -> (length (n_up n) + length (n_down n) <= length ws)%nat -> net_run k l 0 n (repeat ARead a ++ ups ws) = Some (n2, o2) ->
  n_down n2 = [] /\ n_up n2 = [].
Proof. exact c68_rest. Qed.
Print Assumptions C68_comes_to_rest.

(** A request with a code that is routed to the entity: the HLR passes it on, the entity answers, and the HLR hands the answer to
    the node that asked, in the session of the request, and forgets the session. [x] is the connection of the entity; what it makes
    with libosmocore is a facility that libosmocore parses as USSD again. *)
Theorem C68_answered : forall k l s d w c g r f s1 d1 o1 e x invoke text, reached k s d -> opens_ussd k s c g r -> no_crash f -> chosen k r (Some (TExt "foobar")) ->
  leads (t_srv s) demo_name e -> In x (v_conns (t_srv s)) -> c_id x = e -> ipa_bytes (c_name x) = demo_name ->
  (forall p, x_ss (g_x g) = PlRaw p -> f_parse l p = Some (invoke, text)) ->
  (forall i t, f_text l i t <> [] /\ exists r', k_facility k (f_text l i t) = Some r' /\ ussd_op (r_op r')) ->
  step k (s, d) (w, ERx c g, f) = Some (s1, d1, o1) ->
  sent_on e o1 = [g] /\ d1 = d /\ exists m, euse_read l (Some g) = ([m], true) /\
  forall w2 f2, exists s2 r2 co, step k (s1, d1) (w2, ERx e m, f2) = Some (s2, d, [ORx (t_nr s1) e m; OResp (t_nr s) r2 false co; OFree (t_nr s); OFree (t_nr s1)]) /\
    g_type r2 = MSGT_PROC_SS_RESULT /\ g_imsi r2 = g_imsi g /\ g_sid r2 = g_sid g /\ g_ss r2 = SS_END /\ g_dst r2 = g_src g /\
    (exists t, said_back text t /\ x_ss (g_x r2) = PlRaw (f_text l (invoke mod 256) t)) /\
    (forall a c', sends_as (t_srv s) c g a -> leads (t_srv s) a c' -> k_enc k r2 = true -> co = Some c') /\
    t_ss s2 = t_ss s.
Proof. exact c68_answered. Qed.
Print Assumptions C68_answered.

(** ** Cases *)
Definition ex_lib : euse_lib := mk_lib
  (fun l => match l with op :: inv :: dcs :: data => Some (Z.of_N inv, ex_7bit data) | _ => None end)
  (fun i t => 59%N :: Z.to_N i :: 15%N :: map N_of_ascii (bytes_of t))
  (fun i t c => [0%N; 1%N; 15%N]).
Definition ex_demo_cfg : cfg := mk_cfg 2 CodOff 3 true None "HLR" 0 [("*2", TExt "foobar")]%string ["foobar"]%string None 30
  [] [] None (fun _ => true) (fun _ => true) ex_facility ex_7bit.
Definition ah (e : event) : nact := AHlr ex_world e [].
Definition ex_demo_up : list nact := [ah EAccept; ah (EIdent 1 (Some (nm "MSC-1")))].
Definition ex_demo (acts : list nact) := net_run ex_demo_cfg ex_lib 0 (net0 ex_db2) (ex_demo_up ++ acts).
Definition ex_demo_short (acts : list nact) :=
  match ex_demo acts with
  | Some (n, o) => Some (map short o, map (fun y => match y with OResp _ r _ _ => match x_ss (g_x r) with PlRaw b => ex_7bit b | _ => "" end | _ => "" end)%string o,
                         length (n_down n), length (n_up n), length (t_ss (n_hlr n)))
  | None => None
  end.
Definition ex_ask_demo := ah (ERx 1 (ex_ussd MSGT_PROC_SS_REQUEST 7 SS_BEGIN "*21#")).
Example C68_case_dialog :
  ex_demo_short [ex_ask_demo] = Some ([BRx 0 1 32; BTx 0 32], [""; ""]%string, 1%nat, 0%nat, 1%nat) /\
  ex_demo_short [ex_ask_demo; ARead] = Some ([BRx 0 1 32; BTx 0 32], [""; ""]%string, 0%nat, 1%nat, 1%nat) /\
  ex_demo_short [ex_ask_demo; ARead; AUp ex_world []] = Some
    ([BRx 0 1 32; BTx 0 32; BRx 1 0 34; BResp 0 34 0 false (Some 1%nat); BFree 0; BFree 1],
     [""; ""; ""; String ";" (String (ascii_of_nat 1) (String (ascii_of_nat 15) ("You sent " ++ quote ++ "*21#" ++ quote))); ""; ""]%string, 0%nat, 0%nat, 0%nat).
Proof. vm_compute. auto. Qed.
Example C68_case_rejects :
  map (fun m => x_ss (g_x m)) (fst (euse_read ex_lib (Some (ex_ussd MSGT_PROC_SS_REQUEST 7 SS_CONTINUE "*21#")))) = [PlRaw [0%N; 1%N; 15%N]] /\
  fst (euse_read ex_lib (Some (ex_msg MSGT_PROC_SS_ERROR ex_imsi))) = [].
Proof. split; reflexivity. Qed.
(** a text that does not fit is cut *)
Fixpoint as_long (n : nat) : string := match n with O => "" | S n' => String "x" (as_long n') end.
Example C68_case_long : fst (euse_read (mk_lib (fun _ => Some (300, as_long 200)) (fun i t => [Z.to_N i; N.of_nat (String.length t)]) (fun _ _ _ => [])) (Some (ex_ussd MSGT_PROC_SS_REQUEST 7 SS_BEGIN "*21#"))) =
  [mk_gsup MSGT_PROC_SS_RESULT ex_imsi 0 0 [] [] None 7 SS_END 0 (mk_ext None None 0 0 [] None false None [] (PlRaw [44%N; 183%N]) None None None [])].
Proof. vm_compute. reflexivity. Qed.
Example C68_case_premise : exists r s d e x, reached ex_demo_cfg s d /\ opens_ussd ex_demo_cfg s 1 (ex_ussd MSGT_PROC_SS_REQUEST 7 SS_BEGIN "*21#") r /\ chosen ex_demo_cfg r (Some (TExt "foobar")) /\
  leads (t_srv s) demo_name e /\ In x (v_conns (t_srv s)) /\ c_id x = e /\ ipa_bytes (c_name x) = demo_name /\
  (forall i t, f_text ex_lib i t <> [] /\ exists r', k_facility ex_demo_cfg (f_text ex_lib i t) = Some r' /\ ussd_op (r_op r')).
Proof.
  set (es := ex_peer_up 0 "EUSE-foobar" ++ ex_peer_up 1 "MSC-1"). exists (mk_ss_req 59 1 15 (map N_of_ascii (bytes_of "*21#"))).
  destruct (hist ex_demo_cfg (hst0, ex_db2) es) as [[[s d] o]|] eqn:E; [|vm_compute in E; discriminate]. exists s, d, 0%nat.
  assert (Re : reached ex_demo_cfg s d) by (exists ex_db2, es, o; pose proof ex_db2_ok as [? ?]; auto).
  assert (Es : s = match hist ex_demo_cfg (hst0, ex_db2) es with Some (s, _, _) => s | None => hst0 end) by (rewrite E; auto).
  vm_compute in Es. subst s. eexists. split; [exact Re|]. split.
  - split; try (vm_compute; reflexivity).
    + split; try (vm_compute; auto; fail).
      * vm_compute. eexists. split; [right; left; reflexivity|reflexivity].
      * apply imsi_valid_spec. vm_compute. reflexivity.
      * intros X. destruct (X eq_refl).
    + intros a [[N _]|[_ (x & I & Ec & ->)]]; [vm_compute in N; tauto|]. vm_compute in I. destruct I as [<-|[<-|[]]]; try discriminate.
      intros (ch & l & X). vm_compute in X. discriminate.
    + vm_compute. intros z [].
    + eexists. split; [reflexivity|]. split; [discriminate|reflexivity].
    + vm_compute. discriminate.
    + right; left. reflexivity.
  - split; [|split; [|split; [left; reflexivity|split; [reflexivity|split; [reflexivity|]]]]].
    + pose proof (lookup_spec ex_demo_cfg (mk_ss_req 59 1 15 (map N_of_ascii (bytes_of "*21#")))) as L. vm_compute in L. vm_compute. apply L. discriminate.
    + vm_compute. auto.
    + intros i t. split; [discriminate|]. eexists. split; [reflexivity|]. right; left. reflexivity.
Qed.

(** A message that ends the session is answered, too, although nobody waits for it: the mobile ends the session, the HLR passes
    this on and forgets the session, and the entity answers. *)
Theorem C68_after_end_refuted : exists k l d acts n o g m, db_ok d /\ keys_wellformed d /\ Forall proper acts /\ net_run k l 0 (net0 d) acts = Some (n, o) /\
  n_down n = [g] /\ g_ss g = SS_END /\ t_ss (n_hlr n) = [] /\ euse_read l (Some g) = ([m], true).
Proof.
  exists ex_demo_cfg, ex_lib, ex_db2, (ex_demo_up ++ [ex_ask_demo; ARead; ah (ERx 1 (ex_ussd MSGT_PROC_SS_REQUEST 7 SS_END "*21#"))]). do 4 eexists.
  split; [apply ex_db2_ok|]. split; [apply ex_db2_ok|]. split.
  - assert (Ne : forall a, hd_error a = Some "M"%char \/ a = [] -> ~ entity_name a) by (intros a [Y|Y] (ch & l & X); rewrite X in Y; discriminate).
    unfold ex_demo_up, ex_ask_demo, ah. cbn [app]. repeat apply Forall_cons; try apply Forall_nil; cbn [proper somebody_else]; auto.
    + split; [discriminate|]. intros a [= <-]. apply Ne. left. reflexivity.
  - split; [vm_compute; reflexivity|]. repeat split; vm_compute; reflexivity.
Qed.
Print Assumptions C68_after_end_refuted.
(** which types of messages are sent at all *)
Example C68_types_case : flat_map (fun t => map g_type (euse_tx_ss "901700000000001" 7 t true [])) [0; 4; 6; 28; 31; 32; 33; 34; 35; 36] = [32; 33; 34].
Proof. vm_compute. reflexivity. Qed.
