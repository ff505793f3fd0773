(** C31 short messages: theorems and cases. *)
From Verif Require Import Base PeerId Db DbSpec DbProofs DbThms DbThms2 DbThms3 DbProperties AuthProperties Auth AuthSpec Gsup Router Hlr UssdCfg SmsCfg HlrSpec UssdSpec SmsSpec RouterThms HlrThms8 UssdThms UssdThms2 SmsThms HlrExamples HlrProperties NotifyProperties UssdProperties.

(** ** C31 *)
(** a mobile originated message goes to the service centre for exactly its address, else to the default, else is refused;
    one message is passed on or one error returned, and nothing else *)
Theorem C31_mo_partial : forall k s d w c g f s' d' o, reached k s d -> for_us k (t_srv s) c g -> no_crash f -> step k (s, d) (w, ERx c g, f) = Some (s', d', o) ->
  g_type g = 36 -> octets g ->
  exists a o', sends_as (t_srv s) c g a /\ o = ORx (t_nr s) c g :: o' /\ d' = d /\ mo_outcome k (t_srv s') (t_nr s) g a o'.
Proof. intros k s d w c g f s' d' o R. destruct (reached_fine _ _ _ R) as (H & _ & _). intros. eapply mo_step; eauto. Qed.
Print Assumptions C31_mo_partial.
(** a mobile terminated message goes to the MSC serving the subscriber *)
Theorem C31_mt : forall k s d w c g f s' d' o, reached k s d -> for_us k (t_srv s) c g -> no_crash f -> step k (s, d) (w, ERx c g, f) = Some (s', d', o) ->
  g_type g = 40 ->
  exists a o', sends_as (t_srv s) c g a /\ o = ORx (t_nr s) c g :: o' /\ d' = d /\ mt_outcome k (t_srv s') d (In EvFail f) (t_nr s) g a o'.
Proof. intros k s d w c g f s' d' o R. destruct (reached_fine _ _ _ R) as (H & _ & _). intros. eapply mt_step; eauto. Qed.
Print Assumptions C31_mt.
(** a subscriber who can take messages again is made known to every connected service centre, and the request answered once *)
Theorem C31_ready : forall k s d w c g f s' d' o, reached k s d -> for_us k (t_srv s) c g -> no_crash f -> step k (s, d) (w, ERx c g, f) = Some (s', d', o) ->
  g_type g = 44 ->
  exists ls r co, o = ORx (t_nr s) c g :: concat ls ++ [OResp (t_nr s) r true co] /\ d' = d /\ Forall2 (copy_for k (t_srv s') g) (k_smscs k) ls /\ g_type r = 46 /\ g_cause r = 0.
Proof. intros k s d w c g f s' d' o R. destruct (reached_fine _ _ _ R) as (H & _ & _). intros. eapply ready_step; eauto. Qed.
Print Assumptions C31_ready.
(** the address and the choice are unique *)
Theorem C31_address_unique : forall g a b, octets g -> smsc_address g a -> smsc_address g b -> a = b.
Proof.
  intros g a b O (t & da & X & _ & _ & R) (t' & da' & X' & _ & _ & R'). rewrite X in X'. injection X' as <- <-. apply O in X. inversion X as [|? ? _ F]. subst.
  apply reads_iff in R, R'; auto. congruence.
Qed.
Print Assumptions C31_address_unique.
Theorem C31_choice_unique : forall k a t t', centre k a t -> centre k a t' -> t = t'.
Proof. exact centre_unique. Qed.
Print Assumptions C31_choice_unique.
(** the routes are those asked for by commands, one per address *)
Theorem C31_table : forall h, NoDup (map fst (u_routes (scmds_run h))) /\ exists is, increasing is /\ Forall2 (entry_of h) is (u_routes (scmds_run h)).
Proof. exact c31_table. Qed.
Print Assumptions C31_table.
Theorem C31_table_complete : forall h i a n e, nth_error h i = Some (SRoute a n) -> In e (u_euses (scmds_run (firstn i h))) -> e_name e = n ->
  (forall j, (i < j)%nat -> nth_error h j <> Some (SNoRoute a)) -> In a (map fst (u_routes (scmds_run h))).
Proof. exact c31_complete. Qed.
Print Assumptions C31_table_complete.
(** Full statement: the service centre of every route exists, for every history of commands. Missing, and refuted next: "no smsc entity". *)
Theorem C31_entities_partial : forall h, (forall n, ~ In (SNoEntity n) h) ->
  exists l, smsc_table (scmds_run h) = Some l /\ map fst l = map fst (u_routes (scmds_run h)).
Proof. exact c31_pointers. Qed.
Print Assumptions C31_entities_partial.
Theorem C31_removed_centre_refuted : exists h a nr, In (a, AExt nr) (u_routes (scmds_run h)) /\ euse_name (scmds_run h) nr = None /\ smsc_table (scmds_run h) = None.
Proof. exists [SEntity "SMSC-1"; SRoute "1234" "SMSC-1"; SNoEntity "SMSC-1"], "1234"%string, 0%nat. split; [left; reflexivity|]. split; reflexivity. Qed.
Print Assumptions C31_removed_centre_refuted.
(** Full statement: the same without [short_names]. Missing, and refuted next: a name of a service centre that does not fit into a peer id. ([plain_nodes]: see C08.) *)
Theorem C31_defined_partial : forall k s d w c g f, reached k s d -> sms_type (g_type g) -> g_dst g = [] -> short_names k -> plain_nodes d (g_imsi g) ->
  step k (s, d) (w, ERx c g, f) <> None.
Proof. exact c31_defined. Qed.
Print Assumptions C31_defined_partial.

Definition ex_sm (t : Z) (da : option (Z * list N)) : gsup := mk_gsup t ex_imsi 0 5 [] [] (Some 9) 0 SS_NONE 0
  (mk_ext None None 0 0 [] None false None [] PlNone da None None []).
Fixpoint xs (n : nat) : string := match n with O => "" | S m => String "x" (xs m) end.
Definition ex_long_cfg : cfg := mk_cfg 2 CodOff 3 true None "HLR" 0 [] [] None 30 [xs 128] [("1234"%string, xs 128)] None (fun _ => true) (fun _ => true) ex_facility ex_7bit.
Definition ex_long_end : hst * db := match hist ex_long_cfg (hst0, ex_db2) (ex_peer_up 0 "MSC-1") with Some (s, d, _) => (s, d) | None => (hst0, ex_db2) end.
Theorem C31_long_name_refuted : exists k s d w c g ad n, reached k s d /\ for_us k (t_srv s) c g /\ sms_type (g_type g) /\
  smsc_address g ad /\ centre k ad (Some n) /\ step k (s, d) (w, ERx c g, []) = None.
Proof.
  exists ex_long_cfg, (fst ex_long_end), (snd ex_long_end), ex_world, 0%nat, (ex_sm 36 (Some (3, [145; 33; 67]%N))), "1234"%string, (xs 128).
  split; [|split; [|split; [left; reflexivity|split; [|split]]]].
  - assert (X : exists o, hist ex_long_cfg (hst0, ex_db2) (ex_peer_up 0 "MSC-1") = Some (fst ex_long_end, snd ex_long_end, o)).
    { unfold ex_long_end. destruct (hist _ _ _) as [[[s d] o]|] eqn:E; [eauto|]. exfalso. revert E. vm_compute. discriminate. }
    destruct X as [o X]. exists ex_db2, (ex_peer_up 0 "MSC-1"), o. split; [apply ex_db2_ok|]. split; [apply ex_db2_ok|exact X].
  - split; [vm_compute; eexists; split; [left; reflexivity|reflexivity]|apply imsi_valid_spec; vm_compute; reflexivity|vm_compute; auto|intros X; destruct (X eq_refl)].
  - exists 145%N, [33; 67]%N. split; [reflexivity|]. split; [cbn; lia|]. split; [lia|]. apply reads_iff; [repeat constructor|reflexivity].
  - exact (ce_route ex_long_cfg "1234" (xs 128) [] [] eq_refl (fun _ x => x)).
  - vm_compute. reflexivity.
Qed.
Print Assumptions C31_long_name_refuted.

(** to the routed service centre, to the default, refused for the wrong kind of address, too short, and with no source connected *)
Definition ex_sms_up := ex_peer_up 0 "MSC-1" ++ ex_peer_up 1 "SMSC-1" ++ ex_peer_up 2 "SMSC-2".
Definition ex_sms (es : list (world * event * sched)) (t : Z) (da : option (Z * list N)) : option (list brief) :=
  option_map (fun l => skipn (length l - 2) l) (ex_short (es ++ [ev (ERx 0 (ex_sm t da))])).
Example C31_case_mo :
  ex_sms ex_sms_up 36 (Some (3, [145; 33; 67]%N)) = Some [BTx 1 36; BFree 0] /\
  ex_sms ex_sms_up 36 (Some (3, [145; 33; 67; 245]%N)) = Some [BTx 2 36; BFree 0] /\
  ex_sms ex_sms_up 36 (Some (3, [145; 33; 243]%N)) = Some [BTx 2 36; BFree 0] /\
  ex_sms ex_sms_up 36 (Some (2, [145; 33; 67]%N)) = Some [BRx 0 0 36; BResp 0 37 CAUSE_INV_MAND_INFO true (Some 0%nat)] /\
  ex_sms ex_sms_up 36 (Some (3, [17; 33; 67]%N)) = Some [BRx 0 0 36; BResp 0 37 0 true (Some 0%nat)] /\
  ex_sms (ex_peer_up 0 "MSC-1") 36 (Some (3, [145; 33; 67]%N)) = Some [BRx 0 0 36; BResp 0 MSGT_ROUTING_ERROR 0 true (Some 0%nat)].
Proof. vm_compute. repeat split. Qed.
Example C31_case_mt :
  ex_sms (ex_served ++ ex_peer_up 2 "SMSC-1") 40 None = Some [BTx 0 40; BFree 4] /\
  ex_sms ex_sms_up 40 None = Some [BRx 0 0 40; BResp 0 41 CAUSE_IMPL_DETACHED true (Some 0%nat)].
Proof. vm_compute. repeat split. Qed.
Example C31_case_ready :
  option_map (skipn 0) (ex_short (ex_sms_up ++ [ev (ERx 0 (ex_sm 44 None))])) = Some [BRx 0 0 44; BTx 1 44; BTx 2 44; BResp 0 46 0 true (Some 0%nat)].
Proof. vm_compute. reflexivity. Qed.
Example C31_case_premise : reached ex_cfg (fst (ex_end ex_sms_up)) (snd (ex_end ex_sms_up)) /\
  for_us ex_cfg (t_srv (fst (ex_end ex_sms_up))) 0 (ex_sm 36 (Some (3, [145; 33; 67]%N))) /\
  smsc_address (ex_sm 36 (Some (3, [145; 33; 67]%N))) "1234" /\ centre ex_cfg "1234" (Some "SMSC-1"%string) /\ centre ex_cfg "12345" (Some "SMSC-2"%string) /\ short_names ex_cfg.
Proof.
  split; [apply ex_end_reached; vm_compute; discriminate|]. split; [|split; [|split; [|split]]].
  - split; [vm_compute; eexists; split; [left; reflexivity|reflexivity]|apply imsi_valid_spec; vm_compute; reflexivity|vm_compute; auto|intros X; destruct (X eq_refl)].
  - exists 145%N, [33; 67]%N. split; [reflexivity|]. split; [cbn; lia|]. split; [lia|]. apply reads_iff; [repeat constructor|reflexivity].
  - exact (ce_route ex_cfg "1234" "SMSC-1" [] [] eq_refl (fun _ x => x)).
  - apply (ce_default ex_cfg "12345"). intros m [[=]|[]].
  - repeat split; cbn; intros; repeat match goal with H : _ \/ _ |- _ => destruct H | H : _ = _ |- _ => first [discriminate H|injection H as <-|injection H as <- <-] | H : False |- _ => destruct H end; subst; cbn; lia.
Qed.
Example C31_case_table :
  let h := [SEntity "SMSC-1"; SRoute "1" "SMSC-1"; SRoute "1" "SMSC-1"; SRoute "2" "nobody"; SEntity "SMSC-2"; SRoute "12" "SMSC-2"; SNoRoute "1"; SDefault "SMSC-2"; SNoEntity "SMSC-2"; SRoute "3" "SMSC-2"] in
  smsc_table (scmds_run h) = Some [("12", "SMSC-2"); ("3", "SMSC-2")]%string /\ smsc_names (scmds_run h) = ["SMSC-1"; "SMSC-2"]%string.
Proof. split; reflexivity. Qed.
