(** Central lemmas about one message handled by the HLR. *)
From Coq Require Import Permutation.
From Verif Require Import Base PeerId Db DbSpec DbProofs DbThms DbThms2 DbThms3 Auth AuthThms3 Gsup Router Hlr PeerSpec PeerThms HlrSpec HlrThms RouterThms HlrThms2 HlrThms3.

(** * Runs *)
Lemma fin_bind {A B} (p : prog A) (f : A -> prog B) c d b d2 c2 :
  run (bind p f) c d = (Fin b, d2, c2) -> exists a d1 c1, run p c d = (Fin a, d1, c1) /\ run (f a) c1 d1 = (Fin b, d2, c2).
Proof. rewrite run_bind. destruct (run p c d) as [[[a| |] d1] c1]; intros E; try discriminate. exists a, d1, c1. auto. Qed.
Lemma fin_ret {A} (a : A) c d b d2 c2 : run (Ret a) c d = (Fin b, d2, c2) -> b = a /\ d2 = d /\ c2 = c.
Proof. cbn. intros E. injection E as <- <- <-. auto. Qed.
Lemma fin_exec {A} s (f : res -> prog A) c d b d2 c2 : run (Exec s f) c d = (Fin b, d2, c2) ->
  (exists c1, (forall x, In x c1 -> In x c) /\ run (f (fst (exec s d))) c1 (snd (exec s d)) = (Fin b, d2, c2)) \/
  (exists c1, (forall x, In x c1 -> In x c) /\ In EvFail c /\ run (f RErr) c1 d = (Fin b, d2, c2)).
Proof.
  cbn [run]. destruct c as [|[] c']; try discriminate.
  - destruct (exec s d) as [r d1]. left. exists []. auto.
  - destruct (exec s d) as [r d1]. left. exists c'. cbn. auto.
  - right. exists c'. cbn. auto.
Qed.
(** the rest of a schedule is part of it *)
Lemma run_rest {A} (p : prog A) : forall c d o d2 c2, run p c d = (o, d2, c2) -> forall x, In x c2 -> In x c.
Proof.
  induction p as [a|s f IH|]; intros c d o d2 c2; cbn [run].
  - intros [= <- <- <-]. auto.
  - destruct c as [|[] c'].
    + destruct (exec s d). intros E x I. apply (IH _ _ _ _ _ _ E) in I. auto.
    + destruct (exec s d). intros E x I. apply (IH _ _ _ _ _ _ E) in I. right; auto.
    + intros E x I. apply (IH _ _ _ _ _ _ E) in I. right; auto.
    + intros [= <- <- <-] x I. right; auto.
  - intros [= <- <- <-]. auto.
Qed.
Lemma run_crash {A} (p : prog A) : forall c d d2 c2, run p c d = (Crashed, d2, c2) -> In EvCrash c.
Proof.
  induction p as [a|s f IH|]; intros c d d2 c2; cbn [run]; try discriminate.
  destruct c as [|[] c']; try (destruct (exec s d)); intros E; try (apply IH in E); cbn in *; auto.
Qed.

(** * Responses *)
(** a message that says nothing about the procedure it belongs to *)
Definition plain (m : gsup) : Prop := g_imsi m = "" /\ g_class m = 0 /\ g_mr m = None /\ g_sid m = 0 /\ g_dst m = [].
Lemma respond_plain tx q m e f : plain m -> exists r, respond tx q m e f = (0, [OResp (q_nr q) r f (tx q r)]) /\
  g_type r = (if g_type m =? 0 then (if e then to_error (g_type (q_gsup q)) else to_result (g_type (q_gsup q))) else g_type m) /\
  g_cause r = g_cause m /\ g_x r = g_x m.
Proof.
  intros (I & C & M & D & Ds). unfold respond. destruct (make_response m (q_gsup q) e f) as [rc r] eqn:E.
  assert (R : rc = 0).
  { unfold make_response in E. injection E as <- _. rewrite I, C, M, D. cbn. rewrite String.eqb_refl, !Z.eqb_refl.
    destruct (g_mr (q_gsup q)); cbn; auto. rewrite Z.eqb_refl. reflexivity. }
  subst rc. cbn. exists r. split; auto. unfold make_response in E. injection E as _ <-. cbn [g_type g_cause g_x]. auto.
Qed.
Lemma respond_plain_out tx q m e f t : plain m -> g_type m = t -> t <> 0 ->
  exists r, snd (respond tx q m e f) = [OResp (q_nr q) r f (tx q r)] /\ g_type r = t /\ g_cause r = g_cause m /\ g_x r = g_x m.
Proof.
  intros P T N. destruct (respond_plain tx q m e f P) as (r & -> & Ty & C & X). exists r. repeat split; auto.
  rewrite Ty, T. apply Z.eqb_neq in N. rewrite N. auto.
Qed.
Lemma respond_err_out tx q c : is_request (g_type (q_gsup q)) = true ->
  exists r, respond_err tx q c = [OResp (q_nr q) r true (tx q r)] /\ g_type r = to_error (g_type (q_gsup q)) /\ g_cause r = c /\ g_x r = ext0.
Proof.
  intros R. unfold respond_err. rewrite R. cbn [negb].
  destruct (respond_plain tx q (with_cause (msg0 0) c) true true) as (r & -> & Ty & C & X); [repeat split|]. exists r. auto.
Qed.

(** * Reception *)
Record rx_req (k : cfg) (s : hst) (c : nat) (g : gsup) (s1 : hst) (q : req) : Prop := {
  rr_nr : q_nr q = t_nr s;
  rr_conn : q_conn q = c;
  rr_gsup : q_gsup q = g;
  rr_ipa : p_type (q_src q) = PT_IPA;
  rr_wf : ipa_wf (p_ipa (q_src q));
  rr_name : sends_as (t_srv s) c g (ipa_bytes (p_ipa (q_src q)));
  rr_via : peer_is_empty (q_via q) = true \/
           (p_type (q_via q) = PT_IPA /\ ipa_wf (p_ipa (q_via q)) /\ g_src g <> [] /\
            exists x, In x (v_conns (t_srv s)) /\ c_id x = c /\ ipa_bytes (p_ipa (q_via q)) = ipa_bytes (c_name x));
  rr_lus : t_lus s1 = t_lus s;
  rr_ss : t_ss s1 = t_ss s;
  rr_next : t_nr s1 = S (t_nr s);
  rr_conns : v_conns (t_srv s1) = v_conns (t_srv s);
  rr_sinv : sinv (t_srv s1);
  rr_routes : incl (v_routes (t_srv s)) (v_routes (t_srv s1));
  rr_new : forall r, In r (v_routes (t_srv s1)) -> In r (v_routes (t_srv s)) \/ rt_conn r = c }.

Lemma nonempty {A} (l : list A) : l <> [] -> exists x l', l = x :: l'.
Proof. destruct l; [tauto|eauto]. Qed.

Lemma read_msg_us k w s c g : inv s -> for_us k (t_srv s) c g ->
  exists s1 q, rx_req k s c g s1 q /\ (read_msg k w s c g = dispatch k w s1 q \/ (g_dst g <> [] /\ read_msg k w s c g = Undef)).
Proof.
  intros [_ SV] [(x & Ix & Cx) Im Ds Sr].
  assert (F : find_conn (t_srv s) c = Some x).
  { unfold find_conn. destruct (find _ _) as [y|] eqn:E.
    - apply find_some in E. destruct E as [Iy Ey]. apply Nat.eqb_eq in Ey. f_equal.
      eapply NoDup_key_inj; [apply (si_ids _ SV)| | |]; eauto. congruence.
    - pose proof (find_none _ _ E x Ix) as N. cbn in N. apply Nat.eqb_neq in N. tauto. }
  apply imsi_valid_spec in Im.
  assert (W : ipa_wf (c_name x)) by (apply (si_wf _ SV), in_map; auto).
  unfold read_msg, conn_rx. rewrite F. unfold req_new. rewrite Im. cbn [negb].
  assert (D : forall s1 q, (match g_dst g with
      | [] => dispatch k w s1 q
      | d => match ipa_set_str ipa_empty (Some (k_serno k)) with
          | None => Undef
          | Some my_name => let '(rc, dest) := ipa_set ipa_empty (Some d) in
              if (rc =? 0) && negb (ipa_cmp dest my_name =? 0) then same s1 (read_cb_forward k s1 dest q) else dispatch k w s1 q
          end end) = dispatch k w s1 q \/ (g_dst g <> [] /\ (match g_dst g with
      | [] => dispatch k w s1 q
      | d => match ipa_set_str ipa_empty (Some (k_serno k)) with
          | None => Undef
          | Some my_name => let '(rc, dest) := ipa_set ipa_empty (Some d) in
              if (rc =? 0) && negb (ipa_cmp dest my_name =? 0) then same s1 (read_cb_forward k s1 dest q) else dispatch k w s1 q
          end end) = Undef)).
  { intros s1 q. destruct (g_dst g) as [|y l] eqn:Ed; auto. destruct Ds as [Ds|Ds]; [discriminate|].
    destruct (ipa_set_str ipa_empty (Some (k_serno k))) as [my|] eqn:Em; [|right; split; [discriminate|auto]]. left.
    destruct (ipa_set_str_bytes _ _ _ ipa_empty_wf Em) as (Wm & Bm).
    destruct (ipa_set ipa_empty (Some (y :: l))) as [rc dest] eqn:Es.
    destruct (ipa_set_bytes _ _ _ _ ipa_empty_wf Es) as (W2 & [(-> & B)|(-> & _ & B)]); [|reflexivity].
    replace (ipa_cmp dest my =? 0) with true; auto. symmetry. apply Z.eqb_eq. apply c27_spec; auto.
    rewrite B, Ds. symmetry. exact Bm. }
  destruct (g_src g) as [|y l] eqn:Eg.
  - cbn [q_via]. change (peer_is_empty peer_zero) with true. cbn [negb].
    eexists; eexists. split; [|apply D]. split; cbn; auto; try apply incl_refl.
    + right. split; auto. exists x. auto.
  - unfold peer_set. destruct (ipa_set _ _) as [rc src] eqn:E. cbn [p_ipa] in E.
    assert (Sr' := Sr ltac:(discriminate)). destruct Sr' as [L U].
    destruct (ipa_set_bytes _ _ _ _ W E) as (W2 & [(-> & B)|(-> & -> & B)]); [|unfold IPA_MAX in B; lia].
    cbn [negb Z.eqb]. assert (NE : g_src g <> []) by congruence.
    destruct (peer_cmp _ _ =? 0) eqn:C; cbn [negb q_via].
    + change (peer_is_empty peer_zero) with true. cbn [negb]. 
      eexists; eexists. split; [|apply D]. split; cbn; auto; try apply incl_refl. left. split; congruence.
    + destruct (peer_is_empty (mk_peer PT_IPA (c_name x))) eqn:V; cbn [negb].
      * eexists; eexists. split; [|apply D]. split; cbn; auto; try apply incl_refl. left. split; congruence.
      * cbn [q_src p_ipa]. rewrite B. destruct (route_add (t_srv s) c (y :: l)) as [rc v] eqn:A.
        assert (Ic : In c (map c_id (v_conns (t_srv s)))) by (rewrite <- Cx; apply in_map; auto).
        destruct (route_add_ok _ _ _ _ _ A SV Ic) as (S2 & C2 & N2 & I2 & N3 & _ & L1).
        destruct (Z.eq_dec rc 0) as [->|N]; [|destruct (L1 N) as (_ & c' & Nc & Lc); destruct (Nc (U _ Lc))].
        cbn [negb Z.eqb]. eexists; eexists. split; [|apply D]. split; cbn; auto.
        -- left. split; congruence.
        -- right. repeat split; auto; try apply W. exists x. auto.
        -- intros r Hr. apply N3 in Hr. destruct Hr as [Hr| ->]; auto.
Qed.

Lemma rx_step k s d w c g f s' d' o : inv s -> for_us k (t_srv s) c g -> step k (s, d) (w, ERx c g, f) = Some (s', d', o) ->
  exists s1 q, rx_req k s c g s1 q /\
    ((exists o' f', o = ORx (t_nr s) c g :: o' /\ run (dispatch k w s1 q) f d = (Fin (s', o'), d', f')) \/
     (s' = restart s /\ o = [] /\ In EvCrash f /\ exists f', run (dispatch k w s1 q) f d = (Crashed, d', f'))).
Proof.
  intros H U E. destruct (read_msg_us k w s c g H U) as (s1 & q & R & D). exists s1, q. split; auto.
  unfold step in E. cbn [fst snd handle] in E.
  destruct (find_conn (t_srv s) c) as [x|] eqn:F.
  2:{ exfalso. destruct U as [(x & Ix & Cx) _ _ _]. apply (proj2 (find_conn_iff (t_srv s) c)); auto. rewrite <- Cx. apply in_map; auto. }
  unfold read_cb in E. rewrite run_bind in E. destruct D as [D|(_ & D)]; rewrite D in E; [|cbn in E; discriminate].
  destruct (run (dispatch k w s1 q) f d) as [[[[s2 o2]| |] d2] f2] eqn:Rn; [| |discriminate].
  - cbn in E. injection E as <- <- <-. left. exists o2, f2. auto.
  - injection E as <- <- <-. right. repeat split; auto; [eapply run_crash; eauto|]. eauto.
Qed.

(** without faults the process does not die *)
Lemma no_fault_no_crash f : no_fault f -> no_crash f.
Proof. unfold no_fault, no_crash. intros H I. rewrite Forall_forall in H. specialize (H _ I). discriminate. Qed.
Lemma no_fault_no_fail f : no_fault f -> ~ In EvFail f.
Proof. unfold no_fault. intros H I. rewrite Forall_forall in H. specialize (H _ I). discriminate. Qed.
