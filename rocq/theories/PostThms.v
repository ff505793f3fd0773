(** C72: proofs. *)
From Verif Require Import Base Upgrade UpgradeSpec UpgradeThms2 UpgradeThms4 UpgradeThms5 UpgradeThms6 Main Post PostSpec.
Local Open Scope string_scope. Local Open Scope list_scope. Local Open Scope Z_scope.

(** ** Rules *)
(** [Q] of all commands, [P] before, [R] if the script goes on, [X] if it ends *)
Definition rule (P : pw -> Prop) (a : piece) (Q : step -> Prop) (R : pw -> Prop) (X : Z -> pw -> Prop) : Prop :=
  forall w t w' x, P w -> a w = (t, w', x) -> Forall Q t /\ match x with None => R w' | Some rc => X rc w' end.
Lemma rule_seq P a Q R X b R' : rule P a Q R X -> rule R b Q R' X -> rule P (p_seq a b) Q R' X.
Proof.
  intros A B w t w' x Pw E. unfold p_seq in E. destruct (a w) as [[ta wa] xa] eqn:Ea. destruct (A _ _ _ _ Pw Ea) as [Fa Ha].
  destruct xa as [rc|]; [injection E as <- <- <-; auto|]. destruct (b wa) as [[tb wb] xb] eqn:Eb. injection E as <- <- <-.
  destruct (B _ _ _ _ Ha Eb) as [Fb Hb]. split; [apply Forall_app; auto|exact Hb].
Qed.
Lemma rule_run (P : pw -> Prop) c r k Q (M : Z -> pw -> Prop) R X :
  (forall w w' rc, P w -> r w = (w', rc) -> Q (mk_step c w w' rc) /\ M rc w') -> (forall rc, rule (M rc) (k rc) Q R X) -> rule P (p_run c r k) Q R X.
Proof.
  intros A B w t w' x Pw E. unfold p_run in E. destruct (r w) as [w1 rc] eqn:Er. destruct (A _ _ _ Pw Er) as [Q1 M1].
  destruct (k rc w1) as [[t2 w2] x2] eqn:Ek. injection E as <- <- <-. destruct (B rc _ _ _ _ M1 Ek) as [F H]. split; [constructor; assumption|exact H].
Qed.
Lemma rule_skip (P : pw -> Prop) Q (R : pw -> Prop) X : (forall w, P w -> R w) -> rule P p_skip Q R X.
Proof. intros H w t w' x Pw [= <- <- <-]. split; [constructor|auto]. Qed.
Lemma rule_exit (P : pw -> Prop) rc Q R (X : Z -> pw -> Prop) : (forall w, P w -> X rc w) -> rule P (p_exit rc) Q R X.
Proof. intros H w t w' x Pw [= <- <- <-]. split; [constructor|auto]. Qed.
Lemma rule_must (P : pw -> Prop) c r Q (M : Z -> pw -> Prop) (R : pw -> Prop) (X : Z -> pw -> Prop) :
  (forall w w' rc, P w -> r w = (w', rc) -> Q (mk_step c w w' rc) /\ M rc w') -> (forall w, M 0 w -> R w) -> (forall rc w, rc <> 0 -> M rc w -> X rc w) ->
  rule P (p_must c r) Q R X.
Proof.
  intros A B C. unfold p_must. apply rule_run with (M := M); [exact A|]. intros rc. destruct (Z.eqb_spec rc 0) as [->|N]; [apply rule_skip; exact B|apply rule_exit; auto].
Qed.
Lemma rule_if (b : pw -> bool) (P : pw -> Prop) (a a' : piece) Q R X :
  rule (fun w => P w /\ b w = true) a Q R X -> rule (fun w => P w /\ b w = false) a' Q R X -> rule P (fun w => if b w then a w else a' w) Q R X.
Proof. intros A B w t w' x Pw E. destruct (b w) eqn:Eb; [apply (A w t w' x); auto|apply (B w t w' x); auto]. Qed.
Lemma rule_weaken (P P' : pw -> Prop) a Q R X : (forall w, P' w -> P w) -> rule P a Q R X -> rule P' a Q R X.
Proof. intros H A w t w' x Pw E. apply (A w t w' x); auto. Qed.

(** ** One run of the tool *)
Lemma tool_args_mean u : tool_handle_options (tool_args u) = inl (mk_topts DB u None).
Proof. destruct u; vm_compute; reflexivity. Qed.
Lemma run_tool_is e i u w f : w_files w DB = Some f ->
  (v_rand e i < 0 /\ run_tool e i u w = (set_file w DB (Some f), 1))
  \/ (0 <= v_rand e i /\ run_tool e i u w = (set_file w DB (Some (op_file (db_open u (v_fates e i) f))),
      match db_open u (v_fates e i) f with Opened _ => 0 | Refused _ => 1 | Died _ => 137 end)).
Proof.
  intros E. unfold run_tool, tool_main. rewrite tool_args_mean. cbv iota. cbn [p_db p_upgrade p_import]. rewrite E. cbn [opt_default].
  destruct (Z.ltb_spec (v_rand e i) 0) as [L|L]; [left|right]; (split; [exact L|]).
  - cbn [status]. rewrite E. reflexivity.
  - destruct (db_open u (v_fates e i) f) as [g|g|g]; unfold disk_set; rewrite String.eqb_refl; reflexivity.
Qed.
Lemma run_tool_case e i u w f w' rc : w_files w DB = Some f -> run_tool e i u w = (w', rc) -> exists f', w' = set_file w DB (Some f') /\
  (f' = f /\ rc <> 0 \/ f' = op_file (db_open u (v_fates e i) f) /\ (rc = 0 -> is_open (db_open u (v_fates e i) f) = true)).
Proof.
  intros E H. destruct (run_tool_is e i u w f E) as [[_ R]|[_ R]]; rewrite R in H; injection H as <- <-; eexists; (split; [reflexivity|]).
  - left. split; [reflexivity|discriminate].
  - right. split; [reflexivity|]. destruct (db_open u (v_fates e i) f); [reflexivity|discriminate|discriminate].
Qed.
Lemma set_file_same w n f : w_files (set_file w n f) n = f.
Proof. unfold set_file. cbn. rewrite String.eqb_refl. reflexivity. Qed.
Lemma set_file_other w n m f : m <> n -> w_files (set_file w n f) m = w_files w m.
Proof. intros H. unfold set_file. cbn. apply String.eqb_neq in H. rewrite H. reflexivity. Qed.
Lemma length_str_app a b : String.length (a ++ b) = (String.length a + String.length b)%nat.
Proof. induction a as [|c a IH]; [reflexivity|]. cbn. rewrite IH. reflexivity. Qed.
Lemma backup_DB e : backup e <> DB.
Proof. intros H. apply (f_equal String.length) in H. unfold backup in H. rewrite length_str_app in H. cbn [append String.length] in H. lia. Qed.
Lemma same_contents_refl f : same_contents f f.
Proof. repeat split. Qed.
Lemma same_contents_trans f g h : same_contents f g -> same_contents g h -> same_contents f h.
Proof. intros (A & B & C) (A' & B' & C'). split; [congruence|]. split; congruence. Qed.

(** ** The whole script *)
(** What the script needs to keep at each command: [I] everywhere, [B] once there is a backup. *)
Definition all_rule (w0 : pw) (e : penv) (Q : step -> Prop) (R : pw -> Prop) (X : Z -> pw -> Prop) : Prop :=
  rule (fun w => w = set_flag w0 false) (p_seq (check_upgrade_required e) (p_seq (stop_service e) (p_seq (create_backup e) (p_seq (upgrade_db e) (start_service e))))) Q R X.
Lemma all_rule_post w0 e Q R X : all_rule w0 e Q R X -> forall t w' rc, post_upgrade e w0 = (t, w', rc) -> Forall Q t /\ ((X rc w') \/ (rc = 0 /\ R w')).
Proof.
  intros A t w' rc E. unfold post_upgrade in E.
  destruct (p_seq _ _ (set_flag w0 false)) as [[t1 w1] x] eqn:E1. injection E as <- <- <-. destruct (A _ _ _ _ eq_refl E1) as [F H]. split; [exact F|]. destruct x; cbn; auto.
Qed.

(** An invariant under all that is done *)
Section Inv.
Variables (w0 : pw) (e : penv) (I : pw -> Prop).
Hypothesis (I0 : forall b, I (set_flag w0 b)) (Ib : forall w b, I w -> I (set_flag w b))
  (It : forall w f i u, I w -> w_files w DB = Some f -> I (set_file w DB (Some (op_file (db_open u (v_fates e i) f)))))
  (Is : forall w f, I w -> w_files w DB = Some f -> I (set_file w DB (Some f)))
  (Ia : forall w b, I w -> w_active w0 = true -> I (set_active w b))
  (Ic : forall w g, I w -> w_files w (backup e) = None -> I (set_file w (backup e) g)).
Definition IN (w : pw) : Prop := I w /\ (w_active w0 = false -> w_active w = false /\ w_flag w = false) /\ exists f, w_files w DB = Some f.
Lemma in_tool i u w w' rc : IN w -> run_tool e i u w = (w', rc) -> IN w'.
Proof.
  intros (H & A & f & E) R. destruct (run_tool_case e i u w f w' rc E R) as (f' & -> & C). split; [|split; [exact A|exists f'; apply set_file_same]].
  destruct C as [[-> _]|[-> _]]; auto.
Qed.
Lemma inv_all : (exists f, w_files w0 DB = Some f) -> all_rule w0 e (fun s => IN (s_after s)) IN (fun _ => IN).
Proof.
  intros (f0 & E0). apply rule_seq with (R := IN).
  { unfold check_upgrade_required. intros w t w' x -> H. change (w_files (set_flag w0 false) DB) with (w_files w0 DB) in H. rewrite E0 in H.
    revert H. apply rule_run with (M := fun _ => IN) (P := IN).
    - intros w1 w2 rc J R. split; cbn [s_after]; eapply in_tool; eauto.
    - intros rc. destruct (rc =? 0); [apply rule_exit|apply rule_skip]; auto.
    - split; [apply I0|]. split; [|exists f0; exact E0]. intros A. split; [exact A|reflexivity]. }
  apply rule_seq with (R := IN).
  { unfold stop_service. apply rule_if; [|apply rule_skip; tauto]. intros w t w' x ((J & A & D) & Act) H.
    assert (A0 : w_active w0 = true) by (destruct (w_active w0); [reflexivity|destruct (A eq_refl); congruence]).
    revert H. apply rule_seq with (P := IN) (R := IN).
    - apply rule_must with (M := fun _ => IN); auto. intros w1 w2 rc (J1 & A1 & D1) [= <- <-]. assert (IN (if v_stop e =? 0 then w1 else set_active w1 (v_left e))).
      { destruct (v_stop e =? 0); [split; auto|]. split; [auto|]. split; [congruence|exact D1]. } split; assumption.
    - generalize 0%nat 100%nat. intros i0 n0. revert i0. induction n0 as [|n IH]; intros i; [apply rule_exit; auto|]. cbn [wait_stopped]. apply rule_run with (M := fun _ => IN).
      + intros w1 w2 rc (J1 & A1 & D1) [= <- <-]. assert (IN (set_active w1 (v_polls e i))) by (split; [auto|]; split; [congruence|exact D1]). split; assumption.
      + intros rc. destruct (rc =? 0); [apply rule_skip; auto|apply IH].
    - split; [auto|]. split; [congruence|exact D]. }
  apply rule_seq with (R := IN).
  { unfold create_backup. intros w t w' x J H. destruct (w_files w (backup e)) as [g|] eqn:Eb; [injection H as <- <- <-; split; [constructor|exact J]|].
    revert H. apply rule_must with (M := fun _ => IN) (P := fun w => IN w /\ w_files w (backup e) = None); auto.
    intros w1 w2 rc ((J1 & A1 & f & D1) & Eb1) [= <- <-]. assert (IN (set_file w1 (backup e) (if v_cp e =? 0 then w_files w1 DB else v_torn e))).
    { split; [auto|]. split; [exact A1|]. exists f. rewrite set_file_other; [exact D1|]. intros C. symmetry in C. exact (backup_DB e C). } split; assumption. }
  apply rule_seq with (R := IN).
  { unfold upgrade_db. apply rule_seq with (R := IN).
    - apply rule_must with (M := fun _ => IN); auto. intros w1 w2 rc J R. split; cbn [s_after]; eapply in_tool; eauto.
    - apply rule_run with (M := fun _ => IN); [intros w1 w2 rc J R; split; cbn [s_after]; eapply in_tool; eauto|]. intros rc. destruct (rc =? 0); [apply rule_skip; auto|].
      apply rule_must with (M := fun _ => IN); auto. intros w1 w2 rc' J R. split; cbn [s_after]; eapply in_tool; eauto. }
  unfold start_service. apply rule_if; [|apply rule_skip; tauto]. apply rule_must with (M := fun _ => IN); auto.
  intros w w' rc ((J & A & D) & Fl) [= <- <-]. assert (A0 : w_active w0 = true) by (destruct (w_active w0); [reflexivity|destruct (A eq_refl); congruence]).
  assert (IN (if v_start e =? 0 then set_active w true else w)) by (destruct (v_start e =? 0); [|split; auto]; split; [auto|]; split; [congruence|exact D]). split; assumption.
Qed.
End Inv.

(** Each moment and the end *)
Lemma inv_moments w0 e (P : pw -> Prop) t w' rc : post_upgrade e w0 = (t, w', rc) -> P w0 ->
  all_rule w0 e (fun s => P (s_after s)) P (fun _ => P) -> Forall P (moments w0 t) /\ P w'.
Proof.
  intros E P0 A. destruct (all_rule_post _ _ _ _ _ A _ _ _ E) as [F H]. split; [|tauto]. constructor; [exact P0|]. apply Forall_map. exact F.
Qed.
