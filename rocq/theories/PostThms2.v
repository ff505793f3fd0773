(** C72: proofs, continued. *)
From Verif Require Import Base Upgrade UpgradeSpec UpgradeThms2 UpgradeThms4 UpgradeThms5 UpgradeThms6 Main Post PostSpec PostThms.
Local Open Scope string_scope. Local Open Scope list_scope. Local Open Scope Z_scope.

Lemma post_absent e w : w_files w DB = None -> post_upgrade e w = ([], set_flag w false, 0).
Proof. intros E. unfold post_upgrade, p_seq, check_upgrade_required. change (w_files (set_flag w false) DB) with (w_files w DB). rewrite E. reflexivity. Qed.

(** ** Other files *)
Lemma DB_backup e : DB <> backup e.
Proof. intros C. symmetry in C. exact (backup_DB e C). Qed.
Lemma post_files e w t w' rc : post_upgrade e w = (t, w', rc) -> forall m, In m (w' :: moments w t) -> forall n, n <> DB ->
  (n <> backup e -> w_files m n = w_files w n) /\ (forall g, w_files w n = Some g -> w_files m n = Some g).
Proof.
  intros E m Im. destruct (w_files w DB) as [f|] eqn:Ef.
  - set (I := fun m => forall n, n <> DB -> (n <> backup e -> w_files m n = w_files w n) /\ (forall g, w_files w n = Some g -> w_files m n = Some g)).
    assert (A : all_rule w e (fun s => IN w I (s_after s)) (IN w I) (fun _ => IN w I)).
    { apply inv_all.
      - intros b n N. split; auto.
      - intros w1 b J n N. exact (J n N).
      - intros w1 f1 i u J E1 n N. rewrite set_file_other by exact N. exact (J n N).
      - intros w1 f1 J E1 n N. rewrite set_file_other by exact N. exact (J n N).
      - intros w1 b J _ n N. exact (J n N).
      - intros w1 g J E1 n N. split; [intros N2; rewrite set_file_other by exact N2; apply J; assumption|].
        intros h Eh. destruct (String.eqb_spec n (backup e)) as [->|N2]; [|rewrite set_file_other by exact N2; apply J; assumption].
        pose proof (proj2 (J _ N) h Eh). congruence.
      - exists f. exact Ef. }
    destruct (all_rule_post _ _ _ _ _ A _ _ _ E) as [F H]. assert (Iw : I w) by (intros n N; split; auto).
    destruct Im as [<-|[<-|Im]]; [destruct H as [[H _]|[_ [H _]]]; exact H|exact Iw|]. apply in_map_iff in Im. destruct Im as (s & <- & Is). rewrite Forall_forall in F. apply (F s Is).
  - rewrite (post_absent e w Ef) in E. injection E as <- <- <-. intros n N. destruct Im as [<-|[<-|[]]]; split; auto.
Qed.

(** ** Nothing lost, the service not touched unless it was active *)
Lemma post_kept e w t w' rc f : post_upgrade e w = (t, w', rc) -> contents w f -> forall m, In m (w' :: moments w t) ->
  (exists f', contents m f' /\ kept f f') /\ (w_active w = false -> w_active m = false).
Proof.
  intros E Ef m Im. set (I := fun m => exists f', contents m f' /\ kept f f').
  assert (A : all_rule w e (fun s => IN w I (s_after s)) (IN w I) (fun _ => IN w I)).
  { unfold I, contents in *. apply inv_all.
    - intros b. exists f. split; [exact Ef|apply kept_refl].
    - intros w1 b J. exact J.
    - intros w1 f1 i u (f2 & E2 & K2) E1. eexists. split; [apply set_file_same|]. assert (f2 = f1) by congruence. subst f2.
      eapply kept_trans; [exact K2|apply db_open_kept].
    - intros w1 f1 (f2 & E2 & K2) E1. exists f1. split; [apply set_file_same|]. congruence.
    - intros w1 b J _. exact J.
    - intros w1 g (f2 & E2 & K2) E1. exists f2. rewrite set_file_other by apply DB_backup. auto.
    - exists f. exact Ef. }
  destruct (all_rule_post _ _ _ _ _ A _ _ _ E) as [F H].
  assert (IM : forall x, IN w I x -> I x /\ (w_active w = false -> w_active x = false)) by (intros x (H1 & H2 & _); split; [exact H1|intros W; apply (H2 W)]).
  destruct Im as [<-|[<-|Im]].
  - apply IM. tauto.
  - split; [exists f; split; [exact Ef|apply kept_refl]|auto].
  - apply in_map_iff in Im. destruct Im as (s & <- & Is). rewrite Forall_forall in F. apply IM, (F s Is).
Qed.

(** ** Backup and service *)
Lemma usable_same f g : same_contents f g -> usable f -> usable g.
Proof.
  intros (V & T & I) [O U]. split; [|congruence]. revert O. unfold usable, is_open, db_open. cbn [hd List.tl]. unfold with_wal. cbn [f_version f_tabs f_idx]. rewrite V, T, I. auto.
Qed.
Lemma prepare_all_nil ns f : forallb (prepare f) ns = true -> prepare_all ns [] f = Opened f.
Proof. induction ns as [|n ns IH]; [reflexivity|]. cbn [forallb prepare_all hd List.tl]. rewrite andb_true_iff. intros [-> H]. auto. Qed.
Lemma open_usable u l f : is_open (db_open u l f) = true -> usable (op_file (db_open u l f)).
Proof.
  intros O. destruct (c43_version u l f O) as [V P]. set (g := op_file (db_open u l f)) in *. clearbody g. split; [|exact V].
  unfold db_open. cbn [hd List.tl]. unfold with_wal. cbn [f_version]. rewrite V. cbn [Z.ltb Z.eqb Z.compare]. cbn [Z.compare Pos.compare Pos.compare_cont]. unfold db_open_version. cbn [andb negb].
  change (7 =? CURRENT) with true. cbv iota beta. cbn [durable conn_open]. rewrite prepare_all_nil; [reflexivity|]. rewrite <- P. reflexivity.
Qed.
Section Phases.
Variables (w0 : pw) (e : penv) (S : file -> Prop).
Hypothesis Sopen : forall f l, S f -> S (op_file (db_open false l f)).
(** the database as before, or a backup of it *)
Definition safe (w : pw) : Prop := exists f', w_files w DB = Some f' /\ (S f' \/ exists g, w_files w (backup e) = Some g /\ S g).
Definition ok_step (s : step) : Prop :=
  safe (s_after s)
  /\ (s_cmd s = PTool true \/ (exists n, s_cmd s = PCopy n) -> w_active (s_before s) = false /\ w_active (s_after s) = false)
  /\ (s_cmd s = PStart -> w_active w0 = true /\ exists f', w_files (s_before s) DB = Some f' /\ usable f').
Definition P1 (w : pw) : Prop := (exists f, w_files w DB = Some f /\ S f) /\ w_active w = w_active w0 /\ w_flag w = false.
Definition P2 (w : pw) : Prop := (exists f, w_files w DB = Some f /\ S f) /\ w_active w = false /\ w_flag w = w_active w0.
Definition P3 (w : pw) : Prop := (exists f, w_files w DB = Some f) /\ (exists g, w_files w (backup e) = Some g /\ S g) /\ w_active w = false /\ w_flag w = w_active w0.
Definition P4 (w : pw) : Prop := P3 w /\ exists f, w_files w DB = Some f /\ usable f.
Definition PX (rc : Z) (w : pw) : Prop := safe w /\ (rc = 0 -> w_active w = w_active w0 /\ exists f, w_files w DB = Some f /\ usable f).
Lemma safe1 w : (exists f, w_files w DB = Some f /\ S f) -> safe w.
Proof. intros (f & E & H). exists f. auto. Qed.
Lemma safe3 w : P3 w -> safe w.
Proof. intros ((f & E) & G & _). exists f. auto. Qed.
Lemma phases : (exists f, w_files w0 DB = Some f /\ S f) -> all_rule w0 e ok_step (fun w => PX 0 w /\ P3 (set_active w false)) PX.
Proof.
  intros (f0 & E0 & S0). apply rule_seq with (R := P1).
  { unfold check_upgrade_required. intros w t w' x -> H. change (w_files (set_flag w0 false) DB) with (w_files w0 DB) in H. rewrite E0 in H. revert H.
    apply rule_run with (P := P1) (M := fun rc w => P1 w /\ (rc = 0 -> exists f, w_files w DB = Some f /\ usable f)).
    - intros w1 w2 rc ((f1 & E1 & S1) & A1 & Fl) R. destruct (run_tool_case e 0 false w1 f1 w2 rc E1 R) as (f' & -> & C).
      assert (D : exists f, w_files (set_file w1 DB (Some f')) DB = Some f /\ S f).
      { exists f'. rewrite set_file_same. split; [reflexivity|]. destruct C as [[-> _]|[-> _]]; auto. }
      split; [split; [apply safe1; exact D|]; split; cbn; [intros [C1|[n C1]]; discriminate|discriminate]|]. split; [split; [exact D|split; assumption]|].
      intros ->. destruct C as [[_ C]|[-> C]]; [congruence|]. eexists. rewrite set_file_same. split; [reflexivity|]. apply open_usable. auto.
    - intros rc. destruct (Z.eqb_spec rc 0) as [->|N]; [apply rule_exit|apply rule_skip; tauto]. intros w1 ((D & A & _) & U). split; [apply safe1; exact D|]. intros _. split; [exact A|auto].
    - split; [exists f0; auto|]. split; reflexivity. }
  apply rule_seq with (R := P2).
  { unfold stop_service. apply rule_if; [|apply rule_skip; intros w ((D & A & Fl) & B); split; [exact D|]; split; congruence]. intros w t w' x ((D & A & Fl) & B) H. revert H.
    set (J := fun w => (exists f, w_files w DB = Some f /\ S f) /\ w_active w0 = true /\ w_flag w = true).
    apply rule_seq with (P := J) (R := J).
    - apply rule_must with (M := fun _ => J); [|tauto|intros rc w1 N (D1 & _); split; [apply safe1; exact D1|congruence]].
      intros w1 w2 rc (D1 & A1 & F1) [= <- <-]. assert (J (if v_stop e =? 0 then w1 else set_active w1 (v_left e))) by (destruct (v_stop e =? 0); (split; [exact D1|split; assumption])).
      split; [|assumption]. split; [apply safe1; apply H|]. split; cbn; [intros [C|[n C]]; discriminate|discriminate].
    - generalize 0%nat 100%nat. intros i n. revert i. induction n as [|n IH]; intros i; [apply rule_exit; intros w1 (D1 & _); split; [apply safe1; exact D1|discriminate]|].
      cbn [wait_stopped]. apply rule_run with (M := fun rc w => J w /\ (rc = 0 -> w_active w = false)).
      + intros w1 w2 rc (D1 & A1 & F1) [= <- <-]. split; [split; [apply safe1; exact D1|]; split; cbn; [intros [C|[m C]]; discriminate|discriminate]|].
        split; [split; [exact D1|split; assumption]|]. cbn. destruct (v_polls e i); [discriminate|reflexivity].
      + intros rc. destruct (Z.eqb_spec rc 0) as [->|N]; [apply rule_skip|apply (rule_weaken J); [tauto|apply IH]].
        intros w1 ((D1 & A1 & F1) & B1). split; [exact D1|]. split; [auto|congruence].
    - split; [exact D|]. split; [congruence|reflexivity]. }
  apply rule_seq with (R := P3).
  { unfold create_backup. intros w t w' x J H. destruct (w_files w (backup e)) as [g|] eqn:Eb.
    { injection H as <- <- <-. split; [constructor|]. split; [apply safe1; apply J|discriminate]. }
    revert H. apply rule_must with (P := P2) (M := fun rc w => P2 w /\ (rc = 0 -> P3 w)); [|tauto|intros rc w1 N ((D1 & _) & _); split; [apply safe1; exact D1|congruence]|exact J].
    intros w1 w2 rc ((f1 & E1 & S1) & A1 & F1) [= <- <-]. set (w2 := set_file w1 (backup e) (if v_cp e =? 0 then w_files w1 DB else v_torn e)).
    assert (E2 : w_files w2 DB = Some f1) by (unfold w2; rewrite set_file_other by apply DB_backup; exact E1).
    split; [split; [apply safe1; exists f1; auto|]; split; cbn; [auto|discriminate]|]. split; [split; [exists f1; auto|split; assumption]|].
    intros C. split; [exists f1; exact E2|]. split; [|split; assumption]. exists f1. split; [|exact S1]. unfold w2. rewrite set_file_same, C. exact E1. }
  assert (T : forall i u w1 w2 rc, P3 w1 -> run_tool e i u w1 = (w2, rc) -> ok_step (mk_step (PTool u) w1 w2 rc) /\ P3 w2 /\ (rc = 0 -> P4 w2)).
  { intros i u w1 w2 rc ((f1 & E1) & (g & Eg & Sg) & A1 & F1) R. destruct (run_tool_case e i u w1 f1 w2 rc E1 R) as (f' & -> & C).
    assert (K : P3 (set_file w1 DB (Some f'))).
    { split; [exists f'; apply set_file_same|]. split; [exists g; rewrite set_file_other by apply backup_DB; auto|]. split; assumption. }
    split; [split; [apply safe3; exact K|]; split; cbn; [auto|discriminate]|]. split; [exact K|]. intros ->. split; [exact K|]. destruct C as [[_ C]|[-> C]]; [congruence|].
    eexists. rewrite set_file_same. split; [reflexivity|]. apply open_usable. auto. }
  assert (X3 : forall rc w1, rc <> 0 -> P3 w1 /\ (rc = 0 -> P4 w1) -> PX rc w1) by (intros rc w1 N (K & _); split; [apply safe3; exact K|congruence]).
  apply rule_seq with (R := P4).
  { unfold upgrade_db. apply rule_seq with (R := P3).
    - apply rule_must with (M := fun rc w => P3 w /\ (rc = 0 -> P4 w)); [apply T|tauto|exact X3].
    - apply rule_run with (M := fun rc w => P3 w /\ (rc = 0 -> P4 w)); [apply T|]. intros rc. destruct (Z.eqb_spec rc 0) as [->|N]; [apply rule_skip; tauto|].
      apply (rule_weaken P3); [tauto|]. apply rule_must with (M := fun rc w => P3 w /\ (rc = 0 -> P4 w)); [apply T|intros w1 [_ H]; auto|exact X3]. }
  unfold start_service. apply rule_if; [|apply rule_skip; intros w ((K & U) & B)].
  - apply rule_must with (M := fun rc w => P4 (set_active w false) /\ w_active w0 = true /\ (rc = 0 -> w_active w = true)).
    + intros w1 w2 rc ((K & U) & B) [= <- <-]. pose proof K as ((f1 & E1) & G & A1 & F1).
      set (w2 := if v_start e =? 0 then set_active w1 true else w1). assert (E2 : w_files w2 = w_files w1 /\ w_flag w2 = w_flag w1) by (unfold w2; destruct (v_start e =? 0); split; reflexivity).
      destruct E2 as [E2 F2]. split; [split|].
      * exists f1. cbn. rewrite E2. auto.
      * split; cbn; [intros [C|[n C]]; discriminate|]. intros _. split; [congruence|exact U].
      * split; [split; [split|]|split; [congruence|]].
        -- exists f1. cbn. rewrite E2. exact E1.
        -- cbn. rewrite E2. split; [exact G|]. split; [reflexivity|congruence].
        -- cbn. rewrite E2. exact U.
        -- intros C. unfold w2. rewrite C. reflexivity.
    + intros w1 ((K & U) & A & B). split; [|exact K]. split; [exact (safe3 _ K)|]. intros _. split; [rewrite A; auto|exact U].
    + intros rc w1 N ((K & U) & A & B). split; [exact (safe3 _ K)|congruence].
  - pose proof K as (Kf & G & A1 & F1). split; [split; [apply safe3; exact K|]|].
    + intros _. split; [congruence|exact U].
    + split; [exact Kf|]. split; [exact G|]. split; [reflexivity|exact F1].
Qed.
End Phases.
