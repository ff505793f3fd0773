(** C64 messages carry nothing but what their kind is for: theorems and cases. *)
From Verif Require Import Base PeerId Db DbSpec DbProperties AuthProperties Auth Gsup Router Hlr HlrSpec HlrExamples HlrProperties UssdProperties SmsProperties Mdns Proxy Dgsm DgsmSpec ContentSpec ContentThms ContentThms2.
From Verif Require DgsmProperties.
Local Open Scope string_scope. Local Open Scope list_scope. Local Open Scope Z_scope.

(** every message sent is the message just received, passed on, or carries what its kind is for *)
Theorem C64_contents : forall k s d w e f s' d' o y m, step k (s, d) (w, e, f) = Some (s', d', o) -> In y o -> message y = Some m ->
  (exists c g, e = ERx c g /\ passed_on g m) \/ own_contents m.
Proof. exact c64_contents. Qed.
Print Assumptions C64_contents.
(** authentication vectors: in the answer to the Send Auth Info Request (8) just received, for the subscriber named there *)
Theorem C64_vectors : forall k s d w e f s' d' o y m, step k (s, d) (w, e, f) = Some (s', d', o) -> In y o -> message y = Some m -> x_vecs (g_x m) <> [] ->
  exists c g, e = ERx c g /\ g_imsi m = g_imsi g /\ (passed_on g m \/ g_type g = 8 /\ exists co, y = OResp (t_nr s) m true co).
Proof. exact c64_vectors. Qed.
Print Assumptions C64_vectors.
(** MSISDNs: while the Update Location Request (4) just received is handled, for the subscriber named there, or when the MSISDN is changed on the VTY *)
Theorem C64_number : forall k s d w e f s' d' o y m, step k (s, d) (w, e, f) = Some (s', d', o) -> In y o -> message y = Some m -> x_msisdn (g_x m) <> None ->
  (exists c g, e = ERx c g /\ g_imsi m = g_imsi g /\ (passed_on g m \/ g_type g = 4 /\ exists co, y = OResp (t_nr s) m false co)) \/
  (exists x v c, e = EVtyMsisdn x v /\ y = OTx c m).
Proof. exact c64_number. Qed.
Print Assumptions C64_number.
(** USSD texts: while a Process SS message (32, 34) of this subscriber is handled *)
Theorem C64_ussd : forall k s d w e f s' d' o y m, step k (s, d) (w, e, f) = Some (s', d', o) -> In y o -> message y = Some m -> x_ss (g_x m) <> PlNone ->
  exists c g, e = ERx c g /\ g_imsi m = g_imsi g /\ (passed_on g m \/ g_type g = 32 \/ g_type g = 34).
Proof. exact c64_ussd. Qed.
Print Assumptions C64_ussd.
(** the same with D-GSM: the proxy adds nothing, and passes on what was received *)
Theorem C64_dgsm : forall k s z d l x e c s' z' d' o, dstep k (s, z, d, l) (x, e, c) = Some (s', z', d', l ++ o) ->
  (forall y m, In (DLoc y) o -> message y = Some m -> (exists c g, e = DHlr (ERx c g) /\ passed_on g m) \/ own_contents m) /\
  (forall y m, In (DLoc y) o -> message y = Some m -> x_vecs (g_x m) <> [] ->
     exists c g, e = DHlr (ERx c g) /\ g_imsi m = g_imsi g /\ (passed_on g m \/ g_type g = 8 /\ exists co, y = OResp (t_nr s) m true co)) /\
  (forall y m, In (DAns y) o -> message y = Some m -> own_contents m /\ x_vecs (g_x m) = [] /\ x_msisdn (g_x m) = None /\ x_ss (g_x m) = PlNone) /\
  (forall a n m, In (DTx a n m) o -> e = DRx a m) /\
  (forall a m, In (DErr a m) o -> own_contents m /\ x_vecs (g_x m) = [] /\ x_msisdn (g_x m) = None /\ x_ss (g_x m) = PlNone).
Proof. exact c64_dgsm. Qed.
Print Assumptions C64_dgsm.
Theorem C64_forwarded : forall k s z d l x e c s' z' d' o nr a m, dreached k (s, z, d, l) -> dstep k (s, z, d, l) (x, e, c) = Some (s', z', d', l ++ o) -> In (DFwd nr a m) o ->
  exists q, In (DTake q) (l ++ o) /\ q_nr q = nr /\ passed_on (q_gsup q) m.
Proof. exact c64_forwarded. Qed.
Print Assumptions C64_forwarded.

(** the messages of a log and what they carry: number of vectors, MSISDN, PDP contexts, IMEI result, USSD, cause of SMS *)
Definition carried (x : gext) := (length (x_vecs x), x_msisdn x, x_pdp x, x_imei_ack x, x_ss x, x_sm_cause x).
Definition ex_carried (es : list (world * event * sched)) : option (list (Z * (nat * option string * list Z * bool * ss_payload * option Z))) :=
  option_map (flat_map (fun y => match message y with Some m => [(g_type m, carried (g_x m))] | None => [] end)) (ex_log es).
Example C64_case :
  ex_carried (ex_up ++ [ev (ERx 0 (ex_sai 2)); ev (ERx 0 (ex_lu_req ex_imsi CN_CS)); ev (ERx 0 (ex_lu_req ex_imsi CN_PS)); ev (ERx 0 (ex_check ex_imsi ex_e));
     ev (ERx 0 (ex_ussd MSGT_PROC_SS_REQUEST 7 SS_BEGIN "*#100#")); ev (ERx 0 (ex_sm 36 (Some (3, [17; 33; 67]%N)))); ev (ERx 0 (ex_purge CN_CS));
     ev (ERx 0 (ex_lu_req "901700000099" CN_CS)); ev (EVtyMsisdn (ByImsi ex_imsi) (Some "4321")); ev (EVtyNam (ByImsi ex_imsi) false false)]) = Some
  [(10, (2%nat, None, [], false, PlNone, None)); (16, (0%nat, Some "1002", [], false, PlNone, None)); (16, (0%nat, Some "1002", [-1], false, PlNone, None));
   (50, (0%nat, None, [], true, PlNone, None)); (34, (0%nat, None, [], false, PlText 1 "Your extension is 1002", None));
   (37, (0%nat, None, [], false, PlNone, Some 95)); (14, (0%nat, None, [], false, PlNone, None)); (5, (0%nat, None, [], false, PlNone, None));
   (16, (0%nat, Some "4321", [-1], false, PlNone, None)); (20, (0%nat, None, [], false, PlNone, None)); (20, (0%nat, None, [], false, PlNone, None));
   (20, (0%nat, None, [], false, PlNone, None)); (20, (0%nat, None, [], false, PlNone, None))].
Proof. vm_compute. reflexivity. Qed.
(** with D-GSM: the MSC of a roamer asks, gets the vectors of the home HLR, and nothing else *)
Example C64_dgsm_case :
  let v := mk_gsup 10 DgsmProperties.roamer 0 0 [] (nm "MSC-1") None 0 SS_NONE 0 (mk_ext None None 1 0 [mk_vec [1%N] [] [] [] [] [2%N] [3%N] true false None] None false None [] PlNone None None None []) in
  flat_map (fun o => match o with DTx a c m => [(c, g_type m, length (x_vecs (g_x m)))] | DAns y => match message y with Some m => [(0%nat, g_type m, 9%nat)] | None => [] end | _ => [] end)
    (DgsmProperties.dg_l (DgsmProperties.dg_end (DgsmProperties.dg_peer 0 "MSC-1" ++ [DgsmProperties.dg_on; DgsmProperties.dev 10 (DHlr (ERx 0 (ex_msg 8 DgsmProperties.roamer)));
      DgsmProperties.dev 11 (DLook DgsmProperties.roamer (Some (DgsmProperties.dg_a, SaNone))); DgsmProperties.dev 12 (DUp DgsmProperties.dg_a); DgsmProperties.dev 13 (DRx DgsmProperties.dg_a v)]))) = [(0%nat, 10, 1%nat)].
Proof. vm_compute. reflexivity. Qed.
