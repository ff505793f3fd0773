(** Proofs about the lookup tool (C58): the lookup client as the tool sees it. *)
From Verif Require Import Base PeerId DbProofs Db Auth Gsup Router Ctrl MsLookup Mdns MsClient MsClientSpec MsClientThms MsClientThms2 MsTool MsToolSpec.
Local Open Scope N_scope.

Definition key (r : req) : N * N * query := (q_uid r, q_handle r, q_query r).
Definition keys (c : cst) : list (N * N * query) := map key (c_reqs c).

Lemma calls_skip u n tr : (forall v rc x l t, n <> TCall v rc x l t) -> calls u (n :: tr) = calls u tr.
Proof. destruct n; auto. intros H. exfalso. eapply H. reflexivity. Qed.

(** what an event of the main loop does to the lookup client *)
Inductive moved (c c1 : cst) : Prop :=
| mv_quiet : c_stack c1 = [] -> keys c1 = keys c -> (forall v, calls v (c_trace c1) = calls v (c_trace c)) -> moved c c1
| mv_call : forall u h q f rc x t tl, In (u, h, q) (keys c) -> c_stack c1 = [f] -> f_handle f = h -> c_trace c1 = TCall u rc x (f_finish f) t :: tl ->
    (forall v, calls v tl = calls v (c_trace c)) -> keys c1 = keys c -> moved c c1.

Lemma swap_keys c r0 r st : cinv c -> In r0 (c_reqs c) -> key r0 = key r -> keys (c_with_stack (put_req c r) st) = keys c.
Proof.
  intros I Ir E. unfold keys. cbn. apply (swap_map key r0); auto; [exact (i_uid _ I)|]. unfold key in E. congruence.
Qed.
Lemma rx_moved c h rc x : cinv c -> c_stack c = [] -> moved c (rx_result c h rc x).
Proof.
  intros I St. unfold rx_result. destruct (get_request c h) as [r|] eqn:G; [|apply mv_quiet; auto]. apply get_request_in in G as [Ir Eh].
  assert (Q : moved c (c_note c (TRes (q_uid r) (q_query r) rc x (c_now c)))) by (apply mv_quiet; auto).
  destruct rc; auto. destruct (match q_rc r with RcResult => _ | _ => false end); auto.
  set (r1 := q_with_result r RcResult x). assert (K : keys (put_req c r1) = keys c) by (apply (swap_keys c r r1 []); auto).
  assert (Sd : forall fin, moved c (send_result (put_req (c_note c (TRes (q_uid r) (q_query r) RcResult x (c_now c))) r1) r1 fin ADone)).
  { intros fin. eapply mv_call with (u := q_uid r) (h := h) (q := q_query r); [unfold keys; apply in_map_iff; exists r; split; [unfold key; rewrite Eh|]; auto| | | | |]; cbn.
    - rewrite St. reflexivity.
    - auto.
    - reflexivity.
    - auto.
    - exact K. }
  destruct (lr_age x =? 0); [apply Sd|]. destruct (q_waiting r1); [|apply Sd]. apply mv_quiet; auto.
Qed.
Lemma timeout_moved c r : cinv c -> c_stack c = [] -> In r (c_reqs c) -> moved c (timeout c r).
Proof.
  intros I St Ir.
  assert (Sd : forall r1 fin a, key r = key r1 -> moved c (send_result (put_req c r1) r1 fin a)).
  { intros r1 fin a E. pose proof (swap_keys c r r1 [] I Ir E) as K. unfold key in E. injection E as E1 E2 E3. eapply mv_call with (u := q_uid r1) (h := q_handle r1) (q := q_query r1).
    - unfold keys. apply in_map_iff. exists r. split; auto. unfold key. congruence.
    - cbn. rewrite St. reflexivity.
    - auto.
    - cbn. reflexivity.
    - auto.
    - exact K. }
  assert (Pt : forall r1, key r = key r1 -> moved c (put_req c r1)) by (intros r1 E; apply mv_quiet; auto; exact (swap_keys c r r1 [] I Ir E)).
  unfold timeout. cbn [q_waiting q_with_timer]. destruct (q_waiting r).
  - cbn [q_tmo q_min q_with_waiting q_with_timer]. destruct (q_tmo r <=? q_min r); cbn [q_rc q_with_waiting q_with_timer].
    + destruct (q_rc r); apply Sd; reflexivity.
    + destruct (q_rc r); [apply Pt; reflexivity|apply Sd; reflexivity|apply Pt; reflexivity].
  - apply Sd. destruct (q_rc _); reflexivity.
Qed.
Definition plain_ev (e : cev) : Prop := match e with CAnswer _ _ | CTimer _ | CTick _ => True | _ => False end.
Lemma step_moved c e c1 : cinv c -> c_stack c = [] -> plain_ev e -> cstep c e = Val c1 -> moved c c1.
Proof.
  intros I St P E. destruct e; try contradiction; cbn [cstep] in E; rewrite St in E.
  - injection E as <-. unfold rx_answer. destruct (find _ _) as [[h q']|]; [apply rx_moved; auto|apply mv_quiet; auto].
  - destruct (find _ _) as [r|] eqn:F; [|injection E as <-; apply mv_quiet; auto]. apply find_uid in F as [Ir _].
    destruct (q_timer r); [|injection E as <-; apply mv_quiet; auto]. destruct (_ <=? _); injection E as <-; [apply timeout_moved; auto|apply mv_quiet; auto].
  - injection E as <-. apply mv_quiet; auto.
Qed.
Lemma step_plain c e : c_stack c = [] -> plain_ev e -> exists c1, cstep c e = Val c1.
Proof.
  intros St P. destruct e; try contradiction; cbn [cstep]; rewrite St; eauto. destruct (find _ _) as [r|]; eauto. destruct (q_timer r) as [t|]; eauto. destruct (t <=? _); eauto.
Qed.
(** the callback returns; nobody has cancelled the request *)
Lemma no_cancel_step c e c1 u : creach c -> (forall h, e <> CCancel h) -> cstep c e = Val c1 -> cancelled u (c_trace c1) -> cancelled u (c_trace c).
Proof.
  intros R N E (t & Ic). exists t.
  assert (Q : forall n tr, (forall u t, n <> TCancel u t) -> In (TCancel u t) (n :: tr) -> In (TCancel u t) tr) by (intros n tr D [H|H]; [exfalso; eapply D; eauto|auto]).
  destruct e as [q mn tm|h| |h rc x|q x|w|ms]; cbn [cstep] in E.
  - injection E as <-. unfold request in Ic. destruct (negb _ || negb _); auto. cbv zeta in Ic. destruct (find _ _); cbn in Ic.
    + destruct Ic as [H|[H|H]]; try discriminate; auto.
    + destruct Ic as [H|H]; try discriminate; auto.
  - exfalso. eapply N. reflexivity.
  - destruct (c_stack c) as [|f st]; [injection E as <-; auto|]. unfold return_cb in E.
    assert (T0 : c_trace (if f_finish f then cancel (c_with_stack c st) (f_handle f) else c_with_stack c st) = c_trace c) by (destruct (f_finish f); [unfold cancel; destruct (get_request _ _)|]; reflexivity).
    destruct (f_after f); [injection E as <-; rewrite T0 in Ic; auto| |injection E as <-; cbn in Ic; rewrite T0 in Ic; auto].
    destruct (find _ _); [|discriminate]. injection E as <-. cbn in Ic. rewrite T0 in Ic. auto.
  - destruct (c_stack c); injection E as <-; auto. unfold rx_result in Ic. destruct (get_request c h) as [r|]; auto. destruct rc; cbn in Ic; try (destruct Ic as [H|H]; [discriminate|auto]; fail).
    destruct (match q_rc r with RcResult => _ | _ => false end); [destruct Ic as [H|H]; [discriminate|auto]|]. destruct (lr_age x =? 0); [|destruct (q_waiting r)]; cbn in Ic; repeat (destruct Ic as [H|Ic]; [discriminate|]); auto.
  - destruct (c_stack c); injection E as <-; auto. unfold rx_answer in Ic. destruct (find _ _) as [[h q']|]; auto. unfold rx_result in Ic. destruct (get_request c h) as [r|]; auto.
    destruct (match q_rc r with RcResult => _ | _ => false end); [destruct Ic as [H|H]; [discriminate|auto]|]. destruct (lr_age x =? 0); [|cbn in Ic; destruct (q_waiting r)]; cbn in Ic; repeat (destruct Ic as [H|Ic]; [discriminate|]); auto.
  - destruct (c_stack c); [|injection E as <-; auto]. destruct (find _ _) as [r|]; [|injection E as <-; auto]. destruct (q_timer r); [|injection E as <-; auto]. destruct (_ <=? _); injection E as <-; auto.
    unfold timeout in Ic. cbn [q_waiting q_with_timer] in Ic. destruct (q_waiting r); [|cbn in Ic; destruct Ic as [H|H]; [discriminate|auto]].
    cbn [q_tmo q_min q_with_waiting q_with_timer] in Ic. destruct (q_tmo r <=? q_min r); cbn [q_rc q_with_waiting q_with_timer] in Ic; destruct (q_rc r); cbn in Ic; repeat (destruct Ic as [H|Ic]; [discriminate|]); auto.
  - destruct (c_stack c); injection E as <-; auto.
Qed.
Definition uncancelled (c : cst) : Prop := forall u, ~ cancelled u (c_trace c).
Lemma get_request_key c u h q : cinv c -> In (u, h, q) (keys c) -> exists r, get_request c h = Some r /\ key r = (u, h, q) /\ In r (c_reqs c).
Proof.
  intros I K. unfold keys in K. apply in_map_iff in K as (r & E & Ir). exists r. split; auto. unfold key in E. injection E as E1 E2 E3.
  apply get_request_spec; auto; [exact (i_hnd _ I)|]. rewrite <- E2. exact (i_hnd0 _ I _ Ir).
Qed.
Lemma return_moved c1 u h q f : creach c1 -> uncancelled c1 -> In (u, h, q) (keys c1) -> c_stack c1 = [f] -> f_handle f = h ->
  exists c2, cstep c1 CReturn = Val c2 /\ c_stack c2 = [] /\ c_trace c2 = c_trace c1 /\
    keys c2 = if f_finish f then filter (fun k => negb (fst (fst k) =? u)) (keys c1) else keys c1.
Proof.
  intros R Uc K St Eh. pose proof (creach_inv _ R) as I.
  destruct (cstep c1 CReturn) as [c2|] eqn:E.
  2:{ exfalso. destruct (c36_bad _ _ R E) as (_ & h' & u' & ms & q' & mn & tm & t0 & _ & _ & _ & _ & X). exact (Uc _ X). }
  exists c2. split; auto. cbn [cstep] in E. rewrite St in E. unfold return_cb in E.
  pose proof (i_frame _ I) as Fi. unfold frame_inv in Fi. rewrite St in Fi. destruct Fi as [_ Fi].
  destruct (f_finish f) eqn:Ff.
  - destruct (f_after f) eqn:Fa; [|destruct Fi as [Fi _]; discriminate|contradiction]. injection E as <-.
    destruct (get_request_key c1 u h q I K) as (r & G & Ek & Ir). unfold cancel. rewrite Eh. change (get_request (c_with_stack c1 []) h) with (get_request c1 h). rewrite G. cbn.
    split; auto. split; auto. unfold keys. cbn. unfold key in Ek. injection Ek as E1 E2 E3. rewrite E1.
    generalize (c_reqs c1) as l. induction l as [|a l IH]; cbn; auto. destruct (q_uid a =? u); cbn; rewrite IH; auto.
  - destruct (f_after f) eqn:Fa; [injection E as <-; auto| |contradiction]. destruct (find _ _) as [r|] eqn:Fd; [|discriminate]. injection E as <-.
    apply find_uid in Fd as [Ir _]. split; [reflexivity|]. split; [reflexivity|].
    unfold keys. cbn. apply (swap_map key r (q_with_timer r (Some (c_now c1 + ms)))); auto. exact (i_uid _ I).
Qed.
Lemma return_quiet c : c_stack c = [] -> cstep c CReturn = Val c.
Proof. intros E. cbn [cstep]. rewrite E. reflexivity. Qed.
(** a request with a valid query *)
Lemma request_moved c q mn tm : cinv c -> handle_free c -> c_stack c = [] -> service_valid (lq_service q) = true -> id_valid (lq_type q) (lq_id q) = true ->
  let h := if c_next c =? 0 then 1 else c_next c in
  c_stack (request c q mn tm) = [] /\ keys (request c q mn tm) = keys c ++ [(c_uid c, h, q)] /\ c_uid (request c q mn tm) = c_uid c + 1 /\
  (forall v, calls v (c_trace (request c q mn tm)) = calls v (c_trace c)) /\
  exists tm', In (TStart (c_uid c) q mn tm' (c_now c)) (c_trace (request c q mn tm)).
Proof.
  intros I [Fr _] St V1 V2 h. unfold request. rewrite V1, V2. cbn [negb orb]. cbv zeta. fold h. cbn [c_reqs]. destruct (find _ _) as [o|] eqn:Fd.
  { exfalso. apply find_some in Fd as [Io Eo]. apply N.eqb_eq in Eo. exact (Fr _ Io Eo). }
  cbn. split; auto. split; [unfold keys; cbn; rewrite map_app; reflexivity|]. split; auto. split; auto. eexists. left. reflexivity.
Qed.
(** texts that are a query make a valid request *)
Lemma str_len l : String.length (str_of l) = length l.
Proof. induction l; cbn; auto. Qed.
Lemma query_init_valid d q : query_init d = inl q -> service_valid (lq_service q) = true /\ id_valid (lq_type q) (lq_id q) = true.
Proof.
  unfold query_init. destruct (rindex _) as [last|]; [|discriminate]. destruct (last =? 0)%nat; [discriminate|]. set (p := back _ _).
  destruct (Nat.eqb_spec p 0) as [|P0]; [discriminate|]. cbn [orb]. destruct (nth p (bytes_of d) "000"%char =? dot)%char eqn:Nd; [|discriminate]. cbn [negb].
  destruct (length _ <=? _)%nat; [discriminate|]. apply Ascii.eqb_eq in Nd.
  assert (Lp : (p < length (bytes_of d))%nat). { destruct (Nat.lt_ge_cases p (length (bytes_of d))) as [|G]; auto. rewrite nth_overflow in Nd; auto. discriminate. }
  assert (Tk : forall s, token 65 (bytes_of d) 0 p = inl s -> service_valid s = true).
  { intros s. unfold token. destruct (p <=? 0)%nat; [discriminate|]. destruct (65 <=? _)%nat; [discriminate|]. intros H'. injection H' as <-. unfold service_valid. apply Nat.ltb_lt. rewrite str_len. cbn [skipn].
    rewrite firstn_length. lia. }
  destruct (id_type_of _) as [[| |]|]; try discriminate.
  - destruct (token 16 _ _ _) as [i|]; [|discriminate]. destruct (imsi_valid i) eqn:V; [|discriminate]. cbn [negb]. destruct (token 65 _ _ _) as [s|] eqn:T; [|discriminate]. intros H. injection H as <-. cbn. split; [apply Tk|]; auto.
  - destruct (token 16 _ _ _) as [i|]; [|discriminate]. destruct (msisdn_valid i) eqn:V; [|discriminate]. cbn [negb]. destruct (token 65 _ _ _) as [s|] eqn:T; [|discriminate]. intros H. injection H as <-. cbn. split; [apply Tk|]; auto.
Qed.
