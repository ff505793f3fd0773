(** C29 choice of USSD services, C30 USSD sessions: theorems and cases. *)
From Verif Require Import Base PeerId Db DbSpec DbProofs DbThms DbThms2 DbThms3 DbProperties AuthProperties Auth AuthSpec Gsup Router Hlr UssdCfg HlrSpec UssdSpec RouterThms HlrThms8 UssdThms UssdThms2 HlrExamples HlrProperties NotifyProperties.

(** ** C29 *)
(** a request of a mobile is handled by the first matching route, else the default entity, else refused *)
Theorem C29_first_match_partial : forall k s d w c g r f s' d' o,
  reached k s d -> opens_ussd k s c g r -> no_crash f -> step k (s, d) (w, ERx c g, f) = Some (s', d', o) ->
  d' = d /\ exists t o', chosen k r t /\ o = ORx (t_nr s) c g :: o' /\ ussd_outcome k (t_srv s') d (In EvFail f) (t_nr s) g r t o'.
Proof. exact c29_open. Qed.
Print Assumptions C29_first_match_partial.
Theorem C29_choice_unique : forall k r t t', chosen k r t -> chosen k r t' -> t = t'.
Proof. exact chosen_unique. Qed.
Print Assumptions C29_choice_unique.
(** a request for any other supplementary service is refused: facility not supported *)
Theorem C29_other_services : forall k s d w c g r l f s' d' o, reached k s d -> for_us k (t_srv s) c g -> g_type g = MSGT_PROC_SS_REQUEST -> g_ss g = SS_BEGIN ->
  (forall a, sends_as (t_srv s) c g a -> ~ entity_name a) -> (forall z, In z (t_ss s) -> ~ (z_imsi z = g_imsi g /\ z_sid z = g_sid g)) ->
  x_ss (g_x g) = PlRaw l -> l <> [] -> k_facility k l = Some r -> ~ ussd_op (r_op r) -> no_crash f ->
  step k (s, d) (w, ERx c g, f) = Some (s', d', o) ->
  d' = d /\ exists y, o = [ORx (t_nr s) c g; y] /\ ss_answer (t_nr s) g SS_END (PlErr (r_invoke r) 21) y.
Proof. exact c29_other. Qed.
Print Assumptions C29_other_services.
(** after every history of commands: prefixes are unique, the entries are those of the commands that made them, in the order of
    these commands, and nothing asked for and not taken away is missing *)
Theorem C29_table : forall h, NoDup (map fst (u_routes (ucmds_run ucfg0 h))) /\
  exists is, increasing is /\ Forall2 (fun i r => made_by h i (fst r) (snd r)) is (u_routes (ucmds_run ucfg0 h)).
Proof. exact c29_table. Qed.
Print Assumptions C29_table.
Theorem C29_table_complete : forall h i p,
  (exists x, nth_error h i = Some (CRouteInt p x)) \/
  (exists n e, nth_error h i = Some (CRouteExt p n) /\ In e (u_euses (ucmds_run ucfg0 (firstn i h))) /\ e_name e = n) ->
  (forall j, (i < j)%nat -> nth_error h j <> Some (CNoRoute p)) -> In p (map fst (u_routes (ucmds_run ucfg0 h))).
Proof. exact c29_complete. Qed.
Print Assumptions C29_table_complete.
(** the default entity always exists; a routed entity does unless entities are removed *)
Theorem C29_default_exists : forall h nr, u_default (ucmds_run ucfg0 h) = Some nr -> euse_name (ucmds_run ucfg0 h) nr <> None.
Proof. exact c29_default. Qed.
Print Assumptions C29_default_exists.
(** Full statement of the choice: the same for every history of configuration commands. Missing, and refuted next: after "no euse"
    for an entity that a route names, the route points to freed memory. *)
Theorem C29_entities_partial : forall h, (forall n, ~ In (CNoEuse n) h) -> forall p nr, In (p, AExt nr) (u_routes (ucmds_run ucfg0 h)) ->
  euse_name (ucmds_run ucfg0 h) nr <> None.
Proof. exact c29_pointers. Qed.
Print Assumptions C29_entities_partial.
Theorem C29_removed_entity_refuted : exists h p nr, In (p, AExt nr) (u_routes (ucmds_run ucfg0 h)) /\ euse_name (ucmds_run ucfg0 h) nr = None /\
  route_table (ucmds_run ucfg0 h) = None.
Proof. exists [CEuse "app"; CRouteExt "*2" "app"; CNoEuse "app"], "*2"%string, 0%nat. split; [left; reflexivity|]. split; reflexivity. Qed.
Print Assumptions C29_removed_entity_refuted.

Example C29_case_table :
  let h := [CEuse "app"; CEuse "bank"; CRouteInt "*#100#" OwnMsisdn; CRouteInt "*#1" OwnMsisdn; CRouteInt "*#1" TestIdle; CRouteExt "*3" "nobody"; CRouteExt "*2" "app";
            CDefault "bank"; CNoEuse "bank"; CNoRoute "*#1"; CNoRoute "*7"; CRouteInt "*#1" OwnImsi; CNoRoute "*2"; CRouteExt "*2" "app"] in
  route_table (ucmds_run ucfg0 h) = Some [("*#100#", TInt OwnMsisdn); ("*#1", TInt OwnImsi); ("*2", TExt "app")]%string /\
  u_default (ucmds_run ucfg0 h) = Some 1%nat.
Proof. split; reflexivity. Qed.

Definition ex_ussd_up := ex_peer_up 0 "MSC-1" ++ ex_peer_up 1 "EUSE-app" ++ ex_peer_up 2 "EUSE-bank".
Definition ex_text (o : option (list out)) : option (list (brief * ss_payload)) :=
  option_map (map (fun y => (short y, match y with OResp _ r _ _ => x_ss (g_x r) | _ => PlNone end))) o.
Definition ex_ask (code : string) : option (list (brief * ss_payload)) :=
  option_map (skipn 1) (ex_text (ex_log (ex_ussd_up ++ [ev (ERx 0 (ex_ussd MSGT_PROC_SS_REQUEST 7 SS_BEGIN code))]))).
(** the first of two matching prefixes; the shorter one; an external service; the default *)
Example C29_case_open :
  ex_ask "*#100#" = Some [(BResp 0 34 0 false (Some 0%nat), PlText 1 "Your extension is 1002"); (BFree 0, PlNone)] /\
  ex_ask "*#123#" = Some [(BResp 0 34 0 false (Some 0%nat), PlText 1 "Your IMSI is 901700000002"); (BFree 0, PlNone)] /\
  ex_ask "*21#" = Some [(BTx 1 32, PlNone)] /\
  ex_ask "*9#" = Some [(BTx 2 32, PlNone)].
Proof. vm_compute. auto. Qed.
(** interrogation of a call forwarding *)
Example C29_case_other : option_map (skipn 1) (ex_text (ex_log (ex_ussd_up ++ [ev (ERx 0 (mk_gsup MSGT_PROC_SS_REQUEST ex_imsi 0 0 [] [] None 7 SS_BEGIN 0
    (mk_ext None None 0 0 [] None false None [] (PlRaw [14; 3; 15]%N) None None None [])))]))) = Some [(BResp 0 34 0 false (Some 0%nat), PlErr 3 21)].
Proof. vm_compute. reflexivity. Qed.
Example C29_case_premise : exists r s d, reached ex_cfg s d /\ opens_ussd ex_cfg s 0 (ex_ussd MSGT_PROC_SS_REQUEST 7 SS_BEGIN "*#123#") r.
Proof.
  eexists (mk_ss_req 59 1 15 (map N_of_ascii (bytes_of "*#123#"))). set (es := ex_ussd_up).
  destruct (ex_run es) as [[[s d] o]|] eqn:E; [|vm_compute in E; discriminate]. exists s, d. split; [eapply ex_reached; exact E|].
  assert (Es : s = match ex_run es with Some (s, _, _) => s | None => hst0 end) by (rewrite E; auto). clear E. subst s.
  split; try (vm_compute; reflexivity).
  - split; try (vm_compute; auto; fail).
    + vm_compute. eexists. split; [left; reflexivity|reflexivity].
    + apply imsi_valid_spec. vm_compute. reflexivity.
    + intros X. destruct (X eq_refl).
  - intros a [[N _]|[_ (x & I & Ec & ->)]]; [vm_compute in N; tauto|]. vm_compute in I. destruct I as [<-|[<-|[<-|[]]]]; try discriminate.
    intros (ch & l & X). vm_compute in X. discriminate.
  - vm_compute. intros z [].
  - eexists. split; [reflexivity|]. split; [discriminate|reflexivity].
  - vm_compute. discriminate.
  - right; left. reflexivity.
Qed.

(** ** C30 *)
(** at any time at most one session per IMSI and session id *)
Theorem C30_one_session : forall k s d, reached k s d -> one_session_per_id s.
Proof. exact c30_one. Qed.
Print Assumptions C30_one_session.
(** a session keeps its parties for life, and only a message of supplementary services opens one, with the parties it says *)
Theorem C30_parties : forall k s d w e f s' d' o, reached k s d -> step k (s, d) (w, e, f) = Some (s', d', o) -> forall z', In z' (t_ss s') ->
  (exists z, In z (t_ss s) /\ same_parties z z') \/
  (exists c g a, e = ERx c g /\ ss_type (g_type g) /\ sends_as (t_srv s) c g a /\ new_session k (t_nr s) g a z').
Proof. exact c30_parties. Qed.
Print Assumptions C30_parties.
(** what is sent for a message goes back to its sender or to a party of the one session with its IMSI and id; the last message ends
    the session *)
Theorem C30_delivery : forall k s d w c g f s' d' o, reached k s d -> ss_type (g_type g) -> addressed_here k g -> step k (s, d) (w, ERx c g, f) = Some (s', d', o) ->
  (forall y, In y o -> y = ORx (t_nr s) c g \/ about (t_nr s) y \/
    exists z a, sends_as (t_srv s) c g a /\ (In z (t_ss s) \/ new_session k (t_nr s) g a z) /\ z_imsi z = g_imsi g /\ z_sid z = g_sid g /\ to_party (t_srv s') d z g y) /\
  (for_us k (t_srv s) c g -> g_ss g = SS_END -> ss_decodable k g -> forall z, In z (t_ss s') -> ~ (z_imsi z = g_imsi g /\ z_sid z = g_sid g)).
Proof. exact c30_delivery. Qed.
Print Assumptions C30_delivery.
(** the timer ends its session and no other; nothing is sent *)
Theorem C30_timer : forall k s d w imsi sid f s' d' o, step k (s, d) (w, ESsTimer imsi sid, f) = Some (s', d', o) ->
  (forall z, In z (t_ss s') <-> In z (t_ss s) /\ ~ (z_imsi z = imsi /\ z_sid z = sid)) /\
  forall y, In y o -> exists z q, In z (t_ss s) /\ z_imsi z = imsi /\ z_sid z = sid /\ (z_ms z = Some q \/ z_euse z = Some q) /\ y = OFree (q_nr q).
Proof. exact c30_timer. Qed.
Print Assumptions C30_timer.
(** Full statement: no message of supplementary services in any reachable state has undefined behaviour. Missing, and refuted next:
    a mobile's message in a session opened by an entity, an entity name without NUL, a percent sign in the name of a serving node
    (for the last see C08). *)
Theorem C30_defined_partial : forall k s d w c g f, reached k s d -> ss_type (g_type g) -> g_dst g = [] -> plain_nodes d (g_imsi g) ->
  (forall a, sends_as (t_srv s) c g a -> entity_name a -> In nul a) ->
  (forall z n a, In z (t_ss s) -> z_imsi z = g_imsi g -> z_sid z = g_sid g -> z_hdl z = HOrig n -> sends_as (t_srv s) c g a -> entity_name a) ->
  step k (s, d) (w, ERx c g, f) <> None.
Proof. exact c30_defined. Qed.
Print Assumptions C30_defined_partial.

Lemma ex_end_reached es : ex_run es <> None -> reached ex_cfg (fst (ex_end es)) (snd (ex_end es)).
Proof. unfold ex_end. destruct (ex_run es) as [[[s d] o]|] eqn:E; [|tauto]. intros _. eapply ex_reached. exact E. Qed.
(** an entity opens a session, the mobile's node answers in it: the entity record is used as an internal service *)
Theorem C30_wrong_handler_refuted : exists k s d w c g z n, reached k s d /\ for_us k (t_srv s) c g /\ ss_type (g_type g) /\
  In z (t_ss s) /\ z_imsi z = g_imsi g /\ z_sid z = g_sid g /\ z_hdl z = HOrig n /\ step k (s, d) (w, ERx c g, []) = None.
Proof.
  set (es := ex_served ++ ex_peer_up 2 "EUSE-app" ++ [ev (ERx 2 (ex_ussd MSGT_PROC_SS_REQUEST 9 SS_BEGIN "hello"))]).
  exists ex_cfg, (fst (ex_end es)), (snd (ex_end es)), ex_world, 0%nat, (ex_ussd MSGT_PROC_SS_REQUEST 9 SS_CONTINUE "yes"), (nth 0 (t_ss (fst (ex_end es))) (mk_ss "" 0 0 HNone ipa_empty None None)), "app"%string.
  split; [apply ex_end_reached; vm_compute; discriminate|]. split.
  { split; [vm_compute; eexists; split; [left; reflexivity|reflexivity]|apply imsi_valid_spec; vm_compute; reflexivity|vm_compute; auto|intros X; destruct (X eq_refl)]. }
  split; [left; reflexivity|]. split; [vm_compute; left; reflexivity|]. do 3 (split; [vm_compute; reflexivity|]). vm_compute. reflexivity.
Qed.
Print Assumptions C30_wrong_handler_refuted.
(** an entity with a name of 128 octets without NUL opens a session: the name is read past its end *)
Theorem C30_unterminated_entity_refuted : exists k s d w c g, reached k s d /\ ss_type (g_type g) /\ g_dst g = [] /\ t_ss s = [] /\ step k (s, d) (w, ERx c g, []) = None.
Proof.
  set (es := [ev EAccept; ev (EIdent 0 (Some (bytes_of "EUSE-" ++ repeat "x"%char 123)))]).
  exists ex_cfg, (fst (ex_end es)), (snd (ex_end es)), ex_world, 0%nat, (ex_ussd MSGT_PROC_SS_REQUEST 9 SS_BEGIN "hello").
  split; [apply ex_end_reached; vm_compute; discriminate|]. split; [left; reflexivity|]. split; [reflexivity|]. split; vm_compute; reflexivity.
Qed.
Print Assumptions C30_unterminated_entity_refuted.
(** anyone can speak in a session: another entity's text is given to the mobile *)
Theorem C30_foreign_sender_refuted : exists k s d w c g z n s' d' o q r co, reached k s d /\ for_us k (t_srv s) c g /\ sends_as (t_srv s) c g (nm "EUSE-bank") /\
  In z (t_ss s) /\ z_imsi z = g_imsi g /\ z_sid z = g_sid g /\ z_hdl z = HExt n /\ entity_addr n <> nm "EUSE-bank" /\ z_ms z = Some q /\
  step k (s, d) (w, ERx c g, []) = Some (s', d', o) /\ In (OResp (q_nr q) r false co) o /\ x_ss (g_x r) = x_ss (g_x g).
Proof.
  set (es := ex_ussd_up ++ [ev (ERx 0 (ex_ussd MSGT_PROC_SS_REQUEST 7 SS_BEGIN "*21#"))]).
  set (z := nth 0 (t_ss (fst (ex_end es))) (mk_ss "" 0 0 HNone ipa_empty None None)).
  exists ex_cfg, (fst (ex_end es)), (snd (ex_end es)), ex_world, 2%nat, (ex_ussd MSGT_PROC_SS_RESULT 7 SS_CONTINUE "you owe us"), z, "app"%string.
  do 3 eexists. exists (match z_ms z with Some q => q | None => mk_req 0 0 peer_zero peer_zero (msg0 0) end). do 2 eexists.
  split; [apply ex_end_reached; vm_compute; discriminate|]. split.
  { split; [vm_compute; eexists; split; [right; right; left; reflexivity|reflexivity]|apply imsi_valid_spec; vm_compute; reflexivity|vm_compute; auto|intros X; destruct (X eq_refl)]. }
  split. { right. split; [reflexivity|]. vm_compute. eexists. split; [right; right; left; reflexivity|split; reflexivity]. }
  split; [vm_compute; left; reflexivity|]. do 3 (split; [vm_compute; reflexivity|]). split; [vm_compute; discriminate|]. split; [vm_compute; reflexivity|].
  split; [vm_compute; reflexivity|]. split; [right; left; reflexivity|]. vm_compute. reflexivity.
Qed.
Print Assumptions C30_foreign_sender_refuted.

(** a session with an external entity from the first message to the last *)
Definition ex_dialog := ex_ussd_up ++
  [ev (ERx 0 (ex_ussd MSGT_PROC_SS_REQUEST 7 SS_BEGIN "*21#")); ev (ERx 1 (ex_ussd MSGT_PROC_SS_RESULT 7 SS_CONTINUE "how much?"));
   ev (ERx 0 (ex_ussd MSGT_PROC_SS_REQUEST 7 SS_CONTINUE "ten")); ev (ERx 1 (ex_ussd MSGT_PROC_SS_RESULT 7 SS_END "done"))].
Example C30_case_dialog : ex_short ex_dialog = Some
  [BRx 0 0 32; BTx 1 32; BRx 1 1 34; BResp 0 34 0 false (Some 0%nat); BFree 1; BRx 2 0 32; BTx 1 32; BFree 2;
   BRx 3 1 34; BResp 0 34 0 false (Some 0%nat); BFree 0; BFree 3] /\ t_ss (fst (ex_end ex_dialog)) = [].
Proof. split; vm_compute; reflexivity. Qed.
(** an entity opens a session: the request goes to the node serving the subscriber *)
Example C30_case_entity : ex_short (ex_served ++ ex_peer_up 2 "EUSE-app" ++ [ev (ERx 2 (ex_ussd MSGT_PROC_SS_REQUEST 9 SS_BEGIN "hello")); ev (ESsTimer ex_imsi 9)]) =
  option_map (fun l => l ++ [BRx 4 2 32; BTx 0 32; BFree 4]) (ex_short ex_served).
Proof. vm_compute. reflexivity. Qed.
Example C30_case_sessions : map (fun z => (z_sid z, z_hdl z)) (t_ss (fst (ex_end (ex_ussd_up ++ [ev (ERx 0 (ex_ussd MSGT_PROC_SS_REQUEST 7 SS_BEGIN "*21#"));
   ev (ERx 0 (ex_ussd MSGT_PROC_SS_REQUEST 7 SS_BEGIN "*22#")); ev (ERx 0 (ex_ussd MSGT_PROC_SS_REQUEST 8 SS_BEGIN "*22#"));
   ev (ERx 0 (ex_ussd MSGT_PROC_SS_REQUEST 9 SS_BEGIN "*#100#"))])))) = [(7, HExt "app"); (8, HExt "app")]%string.
Proof. vm_compute. reflexivity. Qed.
