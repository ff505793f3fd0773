(** C65 (networks of HLRs): theorems and cases. *)
From Verif Require Import Base PeerId PeerSpec Db DbSpec DbProofs DbThms AuthSpec AuthThms HlrStep AuthProperties Gsup Router Hlr HlrSpec HlrExamples Mdns Proxy Dgsm ContentSpec NetSpec NetThms3 DgsmProperties.
Local Open Scope string_scope. Local Open Scope list_scope. Local Open Scope Z_scope.

(** ** Concrete runs: without faults *)
Definition one_said (o : dout) : list gsup :=
  match o with
  | DLoc (OResp _ r _ (Some _)) | DAns (OResp _ r _ (Some _)) => [r]
  | DLoc (OTx _ r) | DAns (OTx _ r) | DTx _ _ r => [r]
  | _ => []
  end.
Definition outs (en : entry) : list dout := skipn (length (log_of (en_pre en))) (log_of (en_post en)).
(** what HLR [j] said last, and forwarded last *)
Definition said_by (tr : list entry) (j : nat) : list gsup := flat_map (fun en => if (en_node en =? j)%nat then rev (flat_map one_said (outs en)) else []) tr.
Definition forwarded_by (tr : list entry) (j : nat) : list gsup :=
  flat_map (fun en => if (en_node en =? j)%nat then rev (flat_map (fun o => match o with DFwd _ _ g => [g] | _ => [] end) (outs en)) else []) tr.
Inductive nev := NEv (i : nat) (e : devent) | NHear (i j : nat) | NPass (i c j : nat).
Section Run.
Context (ks : nat -> cfg) (addr : nat -> sa).
Definition nstep (y : list entry * (nat -> dstate)) (i : nat) (e : devent) : option (list entry * (nat -> dstate)) :=
  match dstep (ks i) (snd y i) (dgx 10, e, []) with
  | Some p => Some (mk_entry i (dgx 10) e (snd y i) p :: fst y, fun j => if (j =? i)%nat then p else snd y j)
  | None => None
  end.
Fixpoint nrun (es : list nev) (y : list entry * (nat -> dstate)) : option (list entry * (nat -> dstate)) :=
  match es with
  | [] => Some y
  | n :: es =>
      match (match n with
             | NEv i (DRx _ _) => None
             | NEv i e => nstep y i e
             | NHear i j => match said_by (fst y) j with m :: _ => nstep y i (DRx (addr j) m) | [] => None end
             | NPass i c j => match forwarded_by (fst y) j with m :: _ => nstep y i (DHlr (ERx c m)) | [] => None end
             end) with
      | Some y => nrun es y
      | None => None
      end
  end.
Lemma dstep_log k s z d l x e y : dstep k (s, z, d, l) (x, e, []) = Some y -> exists o, log_of y = l ++ o.
Proof.
  unfold dstep. destruct (run _ _ _) as [[[[[s2 z2] o2]| |] d2] c2] eqn:R; [intros [= <-]; cbn; eauto| |discriminate]. apply run_crash in R. destruct R.
Qed.
Lemma nstep_net y y' i e : network ks addr (fst y) (snd y) -> heard addr (fst y) e -> nstep y i e = Some y' -> network ks addr (fst y') (snd y').
Proof. intros N H E. unfold nstep in E. destruct (dstep _ _ _) as [p|] eqn:D; [|discriminate]. injection E as <-. cbn [fst snd]. eapply net_step; eauto. Qed.
Definition plain_logs (tr : list entry) : Prop := Forall (fun en => exists l, log_of (en_post en) = log_of (en_pre en) ++ l) tr.
Lemma nstep_logs y y' i e : plain_logs (fst y) -> nstep y i e = Some y' -> plain_logs (fst y').
Proof.
  intros P E. unfold nstep in E. destruct (dstep _ _ _) as [p|] eqn:D; [|discriminate]. injection E as <-. cbn [fst]. constructor; auto. cbn. destruct (snd y i) as [[[s z] d] l]. apply dstep_log in D. exact D.
Qed.
Lemma said_heard tr i m : plain_logs tr -> In m (said_by tr i) -> heard addr tr (DRx (addr i) m).
Proof.
  intros P H. unfold said_by in H. apply in_flat_map in H as (en & I & H). destruct (Nat.eqb_spec (en_node en) i) as [<-|]; [|destruct H]. apply in_rev in H.
  apply in_flat_map in H as (o & Io & H). unfold plain_logs in P. rewrite Forall_forall in P. destruct (P _ I) as (l & El).
  assert (X : exists c, on_conn o c m). { destruct o as [y|q|nr a g|y|a nr g|a g|i]; try destruct y as [? ? ?|? ? ? [?|]|?|? ?]; cbn in *; try tauto; destruct H as [<-|[]]; eauto. }
  destruct X as (c & X). exists en, c. split; auto. split; auto. exists o. split; auto. exists l. split; auto. unfold outs in Io. rewrite El, skipn_app, skipn_all, Nat.sub_diag in Io. exact Io.
Qed.
Lemma nrun_net es : forall y y', network ks addr (fst y) (snd y) -> plain_logs (fst y) -> nrun es y = Some y' -> network ks addr (fst y') (snd y') /\ plain_logs (fst y').
Proof.
  induction es as [|n es IH]; intros y y' N P; cbn [nrun]; [intros [= <-]; auto|].
  assert (G : forall i e, heard addr (fst y) e -> match nstep y i e with Some y => nrun es y | None => None end = Some y' -> network ks addr (fst y') (snd y') /\ plain_logs (fst y')).
  { intros i e H. destruct (nstep y i e) as [y1|] eqn:E; [|discriminate]. apply IH; [eapply nstep_net; eauto|eapply nstep_logs; eauto]. }
  destruct n as [i e|i j|i c j].
  - destruct e; try discriminate; apply G; exact Logic.I.
  - destruct (said_by (fst y) j) as [|m l] eqn:E; [discriminate|]. apply G. apply said_heard; auto. rewrite E. left. auto.
  - destruct (forwarded_by (fst y) j) as [|m l]; [discriminate|]. apply G. exact Logic.I.
Qed.
End Run.

(** HLR 0 is visited and has no subscribers, HLR 1 is at home *)
Definition ncfg (i : nat) : cfg :=
  match i with
  | O => mk_cfg (k_reject ex_cfg) (k_cod ex_cfg) (k_cod_flags ex_cfg) (k_store_imei ex_cfg) (k_pdp ex_cfg) "HLR-A" (k_tz ex_cfg) (k_ussd ex_cfg) (k_euses ex_cfg) (k_euse_default ex_cfg)
           (k_guard ex_cfg) (k_smscs ex_cfg) (k_smsc_routes ex_cfg) (k_smsc_default ex_cfg) (k_enc ex_cfg) (k_msisdn_enc ex_cfg) (k_facility ex_cfg) (k_7bit ex_cfg)
  | S _ => ex_cfg
  end.
Definition naddr (i : nat) : sa := match i with O => dg_b | S _ => dg_a end.
Definition ndb (i : nat) : db := match i with O => db_init | S _ => ex_db2 end.
Definition nstart : list entry * (nat -> dstate) := ([], fun i => (hst0, dgst0, ndb i, [])).
Definition nrx (i c : nat) (g : gsup) : nev := NEv i (DHlr (ERx c g)).
Definition n_attach : list nev :=
  [NEv 0 (DHlr EAccept); NEv 0 (DHlr (EIdent 0 (Some (nm "MSC-1")))); NEv 0 (DSet true SaNone CAUSE_NET_FAIL); NEv 1 (DHlr EAccept); NEv 1 (DHlr (EIdent 0 (Some (nm "HLR-A"))));
   nrx 0 0 (ex_lu_req ex_imsi CN_CS); NEv 0 (DLook ex_imsi (Some (dg_a, SaNone))); NEv 0 (DUp dg_a);
   NPass 1 0 0; NHear 0 1; nrx 0 0 (ex_msg MSGT_INSERT_DATA_RESULT ex_imsi); NPass 1 0 0; NHear 0 1].
Definition n_short (y : option (list entry * (nat -> dstate))) : list (nat * list dbrief) :=
  match y with Some (tr, _) => rev (map (fun en => (en_node en, map dshort (outs en))) tr) | None => [] end.
Lemma nrun_ok es y : nrun ncfg naddr es nstart = Some y -> network ncfg naddr (fst y) (snd y) /\ plain_logs (fst y).
Proof.
  intros E. eapply nrun_net; [| |exact E].
  - apply net_start. intros [|i]; [split; [apply db_ok_inv, db_inv_init|apply keys_init]|exact ex_db2_ok].
  - constructor.
Qed.
(** the messages said last in a run *)
Definition n_said (y : option (list entry * (nat -> dstate))) : list gsup := match y with Some (en :: _, _) => flat_map one_said (outs en) | _ => [] end.
Lemma n_says es en tr st m : nrun ncfg naddr es nstart = Some (en :: tr, st) -> In m (n_said (Some (en :: tr, st))) -> network ncfg naddr (en :: tr) st /\ exists c, says en c m.
Proof.
  intros E I. destruct (nrun_ok _ _ E) as [N P]. split; [exact N|]. cbn in I. inversion P as [|? ? (l & El) _]; subst. apply in_flat_map in I as (o & Io & H).
  assert (X : exists c, on_conn o c m). { destruct o as [y|q|nr a g|y|a nr g|a g|i]; try destruct y as [? ? ?|? ? ? [?|]|?|? ?]; cbn in *; try tauto; destruct H as [<-|[]]; eauto. }
  destruct X as (c & X). exists c, o. split; auto. exists l. split; auto. unfold outs in Io. rewrite El, skipn_app, skipn_all, Nat.sub_diag in Io. exact Io.
Qed.

(** ** C65 *)
(** An HLR tells a client that a location update has succeeded only if some HLR that has the subscriber has taken up this update for this node, now or before,
    or if some client of an HLR has sent this message itself. *)
Theorem C65_confirmed_partial : forall ks addr en tr st c m, network ks addr (en :: tr) st -> says en c m -> g_type m = 6 ->
  exists en', In en' (en :: tr) /\ (made_up en' m \/ taken_up en' (g_imsi m) (g_dst m)).
Proof. exact c65_confirmed. Qed.
Print Assumptions C65_confirmed_partial.
(** Authentication vectors come from an HLR that has the subscriber and was asked for them. *)
Theorem C65_vectors_partial : forall ks addr en tr st c m, network ks addr (en :: tr) st -> says en c m -> x_vecs (g_x m) <> [] ->
  exists en', In en' (en :: tr) /\ (made_up en' m \/ auth_asked en' (g_imsi m)).
Proof. exact c65_vectors. Qed.
Print Assumptions C65_vectors_partial.
(** Numbers come from an HLR that has the subscriber with this number. *)
Theorem C65_number_partial : forall ks addr en tr st c m n, network ks addr (en :: tr) st -> says en c m -> x_msisdn (g_x m) = Some n ->
  exists en', In en' (en :: tr) /\ (made_up en' m \/ number_told en' (g_imsi m) n).
Proof. exact c65_number. Qed.
Print Assumptions C65_number_partial.

(** A subscriber of HLR 1 attaches at MSC-1 of HLR 0: lookup, link, request, subscriber data, confirmation. *)
Example C65_case : n_short (nrun ncfg naddr n_attach nstart) =
  [(0%nat, []); (0%nat, []); (0%nat, []); (1%nat, []); (1%nat, []);
   (0%nat, [HLoc (BRx 0 0 4); HTake 0 ex_imsi]); (0%nat, []); (0%nat, [HFwd 0 dg_a (nm "MSC-1")]);
   (1%nat, [HLoc (BRx 0 0 4); HLoc (BResp 0 16 0 false (Some 0%nat))]); (0%nat, [HTx dg_a 0 16]);
   (0%nat, [HLoc (BRx 1 0 18); HTake 1 ex_imsi; HFwd 1 dg_a (nm "MSC-1")]);
   (1%nat, [HLoc (BRx 1 0 18); HLoc (BFree 1); HLoc (BResp 0 6 0 true (Some 0%nat))]); (0%nat, [HTx dg_a 0 6])].
Proof. vm_compute. reflexivity. Qed.
(** the confirmation is said at HLR 0, the update is taken up at HLR 1 *)
Example C65_case_confirmed : exists en tr st c m en', network ncfg naddr (en :: tr) st /\ says en c m /\ g_type m = 6 /\ en_node en = 0%nat /\
  In en' (en :: tr) /\ en_node en' = 1%nat /\ taken_up en' (g_imsi m) (g_dst m) /\ g_imsi m = ex_imsi /\ g_dst m = nm "MSC-1".
Proof.
  destruct (nrun ncfg naddr n_attach nstart) as [[[|en tr] st]|] eqn:E; [vm_compute in E; discriminate| |vm_compute in E; discriminate].
  assert (S : n_said (nrun ncfg naddr n_attach nstart) <> [] /\ Forall (fun m => g_type m = 6 /\ g_imsi m = ex_imsi /\ g_dst m = nm "MSC-1") (n_said (nrun ncfg naddr n_attach nstart))).
  { split; [vm_compute; discriminate|vm_compute; repeat constructor]. }
  assert (MU : match nrun ncfg naddr n_attach nstart with Some (tr, _) => forallb (fun e => match en_ev e with DHlr (ERx _ g) => negb (g_type g =? 6) | _ => true end) tr | None => false end = true) by (vm_compute; reflexivity).
  assert (ND : match nrun ncfg naddr n_attach nstart with Some (tr, _) => forallb (fun e => (en_node e =? 1)%nat || match d_sub (db_of (en_post e)) with [] => true | _ => false end) tr | None => false end = true) by (vm_compute; reflexivity).
  assert (N0 : match nrun ncfg naddr n_attach nstart with Some (e :: _, _) => en_node e | _ => 9%nat end = 0%nat) by (vm_compute; reflexivity).
  rewrite E in S, MU, ND, N0. destruct S as [S1 S2]. destruct (n_said (Some (en :: tr, st))) as [|m l] eqn:Em; [congruence|]. inversion S2 as [|? ? (T & Im & Ds) _]; subst.
  destruct (n_says _ _ _ _ m E) as [N [c Sy]]; [rewrite Em; left; auto|].
  destruct (c65_confirmed _ _ _ _ _ _ _ N Sy T) as (en' & I' & [(c1 & g & C & P)|P]).
  - rewrite forallb_forall in MU. specialize (MU _ I'). unfold comes in C. rewrite C in MU. destruct P as (P & _). rewrite <- P, T in MU. discriminate.
  - exists en, tr, st, c, m, en'. repeat (split; [assumption|]). split; auto. rewrite forallb_forall in ND. specialize (ND _ I'). destruct (Nat.eqb_spec (en_node en') 1); auto.
    destruct P as (? & ? & ? & r & _ & _ & _ & _ & _ & Ir & _). destruct (d_sub (db_of (en_post en'))); [destruct Ir|discriminate].
Qed.
(** Refuted: that only the home HLR can confirm an update. A client of HLR 1 sends an Update Location Result for somebody nobody knows; it is passed to MSC-1 of
    HLR 0. *)
Definition n_forged : list nev :=
  [NEv 0 (DHlr EAccept); NEv 0 (DHlr (EIdent 0 (Some (nm "MSC-1")))); NEv 0 (DSet true SaNone CAUSE_NET_FAIL); NEv 1 (DHlr EAccept); NEv 1 (DHlr (EIdent 0 (Some (nm "HLR-A"))));
   NEv 1 (DHlr EAccept); NEv 1 (DHlr (EIdent 1 (Some (nm "MSC-9"))));
   nrx 0 0 (ex_lu_req roamer CN_CS); NEv 0 (DLook roamer (Some (dg_a, SaNone))); NEv 0 (DUp dg_a);
   NPass 1 0 0; nrx 1 1 (ex_from_to (nm "MSC-9") (nm "MSC-1") (ex_msg MSGT_UPDATE_LOCATION_RESULT roamer)); NHear 0 1].
Example C65_forged_case : skipn 10 (n_short (nrun ncfg naddr n_forged nstart)) =
  [(1%nat, [HLoc (BRx 0 0 4); HLoc (BResp 0 5 2 true (Some 0%nat))]); (1%nat, [HLoc (BRx 1 1 6); HLoc (BTx 0 6); HLoc (BFree 1)]); (0%nat, [HTx dg_a 0 6])].
Proof. vm_compute. reflexivity. Qed.
Theorem C65_forged_refuted : ~ (forall ks addr en tr st c m, network ks addr (en :: tr) st -> says en c m -> g_type m = 6 -> exists en', In en' (en :: tr) /\ taken_up en' (g_imsi m) (g_dst m)).
Proof.
  intros H. destruct (nrun ncfg naddr n_forged nstart) as [[[|en tr] st]|] eqn:E; [vm_compute in E; discriminate| |vm_compute in E; discriminate].
  assert (S : n_said (nrun ncfg naddr n_forged nstart) <> [] /\ Forall (fun m => g_type m = 6 /\ g_imsi m = roamer) (n_said (nrun ncfg naddr n_forged nstart))).
  { split; [vm_compute; discriminate|vm_compute; repeat constructor]. }
  assert (ND : match nrun ncfg naddr n_forged nstart with Some (tr, _) => forallb (fun e => forallb (fun r => negb (s_imsi r =? roamer)%string) (d_sub (db_of (en_post e)))) tr | None => false end = true) by (vm_compute; reflexivity).
  rewrite E in S, ND. destruct S as [S1 S2]. destruct (n_said (Some (en :: tr, st))) as [|m l] eqn:Em; [congruence|]. inversion S2 as [|? ? (T & Im) _]; subst.
  destruct (n_says _ _ _ _ m E) as [N [c Sy]]; [rewrite Em; left; auto|]. destruct (H _ _ _ _ _ _ _ N Sy T) as (en' & I' & (? & ? & ? & r & _ & _ & _ & _ & _ & Ir & Er & _)).
  rewrite forallb_forall in ND. specialize (ND _ I'). rewrite forallb_forall in ND. specialize (ND _ Ir). rewrite Er, Im, String.eqb_refl in ND. discriminate.
Qed.
Print Assumptions C65_forged_refuted.
(** vectors and number of the subscriber, told at HLR 0 *)
Definition n_auth : list nev := firstn 5 n_attach ++
  [nrx 0 0 (ex_msg MSGT_SEND_AUTH_INFO_REQUEST ex_imsi); NEv 0 (DLook ex_imsi (Some (dg_a, SaNone))); NEv 0 (DUp dg_a); NPass 1 0 0; NHear 0 1].
Example C65_case_vectors : map (fun m => (g_type m, length (x_vecs (g_x m)))) (n_said (nrun ncfg naddr n_auth nstart)) = [(10, 5%nat)].
Proof. vm_compute. reflexivity. Qed.
Example C65_case_number : map (fun m => x_msisdn (g_x m)) (n_said (nrun ncfg naddr (firstn 10 n_attach) nstart)) = [Some "1002"].
Proof. vm_compute. reflexivity. Qed.
