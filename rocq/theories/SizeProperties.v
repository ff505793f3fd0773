(** Property C67: the messages that the HLR makes fit into the buffers it makes for them. *)
From Verif Require Import Base PeerId Db Auth Gsup Router Hlr HlrSpec HlrExamples AuthProperties HlrProperties ContentSpec SizeSpec SizeThms SizeThms2.
From Verif Require UssdCfg SmsCfg MsLookup Mdns Proxy MsServer Ctrl Config ConfigSpec ConfigProperties.

(** Full statement: every message of the HLR fits into its buffer (else libosmocore ends the process). Proved for messages that are not copies of what
    was received, if the PDP profiles take at most 676 octets; as it is, profiles can take more than the whole buffer ([C67_pdp_refuted]), and copies can
    be too long ([C66_long_forward_refuted]). [ml], [pl], [sl]: octets of an MSISDN (its buffer has 43, gsup_server.c:458), of the PDP contexts and of a
    USSD component (it has one octet of length). A name has one octet of length. *)
Theorem C67_fits_partial : forall k s d w e f s' d' o y m ml pl sl, step k (s, d) (w, e, f) = Some (s', d', o) -> In y o -> message y = Some m ->
  (forall c g, e = ERx c g -> ~ passed_on g m) -> (length (g_src m) <= 255)%nat -> (length (g_dst m) <= 255)%nat ->
  Forall (fun v => length (v_res v) <= 16)%nat (x_vecs (g_x m)) -> (forall t, ml t <= 43)%nat -> (forall p, sl p <= 255)%nat ->
  (pl [-1]%Z <= 676)%nat -> (forall l, k_pdp k = Some l -> pl l <= 676)%nat ->
  (octets ml pl sl m <= room)%nat.
Proof.
  intros k s d w e f s' d' o y m ml pl sl E I M N Ls Ld Lv Hm Hs Hw Hp. destruct (step_s _ _ _ _ _ _ _ _ _ _ _ E I M) as [(c & g & Ee & P)|S]; [exfalso; exact (N c g Ee P)|].
  apply (small_fits k); auto. intros Np. destruct (sm_pdp _ _ S) as [Z|[_ ->]]; [congruence|]. destruct (k_pdp k); auto.
Qed.
Print Assumptions C67_fits_partial.

(** profiles with names of at most 59 characters take no more than this, however many there are *)
Theorem C67_pdp_partial : forall e h c l, Forall ConfigSpec.act_ok h -> Config.acts e h Config.conf0 = Mdns.Val c -> Config.pdp_sent c = Some l ->
  (forall x a, In x l -> Config.sl_apn x = Some a -> (String.length a <= 59)%nat) -> (slots_octets l <= 676)%nat.
Proof. exact c67_pdp. Qed.
Print Assumptions C67_pdp_partial.

(** ** A configuration that takes more *)
Fixpoint chars (n : nat) : string := match n with O => "" | S n => String "a" (chars n) end.
Definition ex_apn : string := chars 49 ++ "." ++ chars 49.
Definition ex_ids : list string := ["1"; "2"; "3"; "4"; "5"; "6"; "7"; "8"; "9"; "10"].
Definition ex_big : list Config.act :=
  Config.AFile Config.NdPs ["pdp-profiles"; "default"] ::
  flat_map (fun x => [Config.AFile Config.NdPdps ["profile"; snd x]; Config.AFile (Config.NdProfile (fst x)) ["apn"; ex_apn]]) (combine (seq 0 10) ex_ids).
(** ten profiles with names of 99 characters are accepted; every message with them is too long *)
Theorem C67_pdp_refuted : exists e h c l, Forall ConfigSpec.act_ok h /\ Config.acts e h Config.conf0 = Mdns.Val c /\ Config.pdp_sent c = Some l /\
  forall ml pl sl m, x_pdp (g_x m) = map Config.sl_ctx l -> pl (x_pdp (g_x m)) = slots_octets l -> (room < octets ml pl sl m)%nat.
Proof.
  exists ConfigProperties.ex_env, ex_big. eexists. eexists. split; [unfold ex_big; cbn [flat_map combine seq ex_ids fst snd app]; ConfigProperties.acts_now|].
  split; [vm_compute; reflexivity|]. split; [vm_compute; reflexivity|]. intros ml pl sl m X P. apply pdp_over; [rewrite X; discriminate|].
  rewrite P. apply Nat.leb_le. vm_compute. reflexivity.
Qed.
Print Assumptions C67_pdp_refuted.

(** ** Cases *)
Definition ex_pdp_cfg : cfg := mk_cfg 2 CodOff 3 true (Some [1; 2; 3; 4; 5; 6; 7; 8; 9; 10]%Z) "HLR" 0 [] [] None 30 [] [] None (fun _ => true) (fun _ => true) ex_facility ex_7bit.
Definition ex_sizes (k : cfg) (n : nat) (es : list (world * event * sched)) : option (list (Z * nat)) :=
  match hist k (hst0, ex_db2) es with
  | Some (_, _, o) => Some (flat_map (fun y => match message y with Some m => [(g_type m, octets (fun t => String.length t) (fun l => length l * n) (fun _ => 30) m)]%nat | None => [] end) o)
  | None => None
  end.
(** a subscriber attaches for packet service: 10 profiles with names of 59 and of 99 characters *)
Example C67_case : ex_sizes ex_pdp_cfg 67 (ex_peer_up 0 "SGSN-1" ++ [ev (ERx 0 (ex_lu_req ex_imsi CN_PS))]) = Some [(16, 695%nat)]
  /\ ex_sizes ex_pdp_cfg 107 (ex_peer_up 0 "SGSN-1" ++ [ev (ERx 0 (ex_lu_req ex_imsi CN_PS))]) = Some [(16, 1095%nat)] /\ room = 1024%nat.
Proof. repeat split; vm_compute; reflexivity. Qed.
Example C67_case_auth : ex_sizes ex_cfg 9 (ex_peer_up 0 "MSC-1" ++ [ev (ERx 0 (ex_from_to (nm "MSC-1") [] (ex_msg MSGT_SEND_AUTH_INFO_REQUEST ex_imsi)))]) = Some [(10, 487%nat)].
Proof. vm_compute. reflexivity. Qed.
