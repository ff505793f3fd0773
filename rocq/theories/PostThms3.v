(** C72: proofs of what happens if all goes well but for the database. *)
From Verif Require Import Base Upgrade UpgradeSpec UpgradeThms2 UpgradeThms4 UpgradeThms5 UpgradeThms6 Main Post PostSpec PostThms PostThms2.
Local Open Scope string_scope. Local Open Scope list_scope. Local Open Scope Z_scope.

Lemma wait_smooth e n : forall k w, (exists i, (k <= i < k + n)%nat /\ v_polls e i = false) -> exists t, wait_stopped e n k w = (t, set_active w false, None).
Proof.
  induction n as [|n IH]; intros k w (i & L & P); [lia|]. cbn [wait_stopped]. unfold p_run. destruct (v_polls e k) eqn:Ek; cbn [Z.eqb].
  - destruct (IH (S k) (set_active w true)) as (t & E).
    { exists i. split; [|exact P]. assert (i <> k) by congruence. lia. }
    cbv iota. rewrite E. eexists. reflexivity.
  - cbv iota. unfold p_skip. eexists. reflexivity.
Qed.
(** the state in which the upgrade is begun *)
Definition begun (e : penv) (w : pw) (f : file) : pw := mk_pw (w_files (set_file (set_file w DB (Some f)) (backup e) (Some f))) false (w_active w).
Lemma begun_DB e w f : w_files (begun e w f) DB = Some f.
Proof. unfold begun. cbn [w_files]. rewrite set_file_other by apply DB_backup. apply set_file_same. Qed.
Lemma begun_backup e w f : w_files (begun e w f) (backup e) = Some f.
Proof. unfold begun. cbn [w_files]. apply set_file_same. Qed.
Lemma smooth_mid e w f1 rc : smooth e -> w_files w DB <> None -> w_files w (backup e) = None -> run_tool e 0 false (set_flag w false) = (set_file (set_flag w false) DB (Some f1), rc) -> rc <> 0 ->
  exists t0, post_upgrade e w = let '(t, w', x) := p_seq (upgrade_db e) (start_service e) (begun e w f1) in (t0 ++ t, w', opt_default 0 x).
Proof.
  intros [St Po Cp _] Ex Eb R N. unfold post_upgrade. unfold p_seq at 1. unfold check_upgrade_required. change (w_files (set_flag w false) DB) with (w_files w DB).
  destruct (w_files w DB) as [f|] eqn:Ef; [clear Ex|congruence]. unfold p_run at 1. rewrite R. apply Z.eqb_neq in N. rewrite N. cbv beta iota. unfold p_skip at 1. cbv beta iota.
  unfold p_seq at 1.
  assert (Hs : exists t1, stop_service e (set_file (set_flag w false) DB (Some f1)) = (t1, mk_pw (w_files (set_file w DB (Some f1))) false (w_active w), None)).
  { unfold stop_service. cbn [w_active set_file set_flag]. destruct (w_active w) eqn:A.
    - unfold p_seq, p_must, p_run. rewrite St. cbn [Z.eqb]. cbv iota. unfold p_skip. cbv iota. cbn [w_files w_active w_flag].
      match goal with |- context [wait_stopped e 100 0 ?x] => destruct (wait_smooth e 100 0 x) as (t & E) end.
      { destruct Po as (i & L & P). exists i. split; [lia|exact P]. }
      rewrite E. eexists. reflexivity.
    - unfold p_skip. eexists. unfold set_file, set_flag. cbn. rewrite A. reflexivity. }
  destruct Hs as (t1 & Es). rewrite Es. cbv beta iota. unfold p_seq at 1. unfold create_backup at 1. cbn [w_files set_file].
  assert (Nb : (backup e =? DB)%string = false) by (apply String.eqb_neq; apply backup_DB). rewrite Nb, Eb. unfold p_must, p_run. rewrite Cp. cbn [Z.eqb]. cbv iota. unfold p_skip. cbv iota.
  cbn [w_files]. change (DB =? DB)%string with true. cbv iota.
  match goal with |- context [p_seq (upgrade_db e) (start_service e) ?w3] => change w3 with (begun e w f1) end.
  destruct (p_seq (upgrade_db e) (start_service e) (begun e w f1)) as [[t w'] x]. eexists. rewrite !app_assoc. reflexivity.
Qed.
(** the upgrade, if it fails *)
Lemma mid_fails e w w1 rc : run_tool e 1 true w = (w1, rc) -> rc <> 0 -> p_seq (upgrade_db e) (start_service e) w = ([mk_step (PTool true) w w1 rc], w1, Some rc).
Proof.
  intros R N. unfold p_seq at 1, upgrade_db. unfold p_seq at 1, p_must at 1. unfold p_run at 1. rewrite R. apply Z.eqb_neq in N. rewrite N. reflexivity.
Qed.
Lemma mid_works e w w1 w2 : run_tool e 1 true w = (w1, 0) -> run_tool e 2 false w1 = (w2, 0) -> v_start e = 0 ->
  exists t, p_seq (upgrade_db e) (start_service e) w = (t, if w_flag w2 then set_active w2 true else w2, None).
Proof.
  intros R R2 St. unfold p_seq at 1, upgrade_db. unfold p_seq at 1, p_must at 1. unfold p_run at 1. rewrite R. change (0 =? 0) with true. cbv iota. unfold p_skip at 1. cbv iota.
  unfold p_run at 1. rewrite R2. change (0 =? 0) with true. cbv iota. unfold p_skip at 1. cbv iota. unfold start_service. destruct (w_flag w2).
  - unfold p_must, p_run. rewrite St. change (0 =? 0) with true. cbv iota. unfold p_skip. eexists. reflexivity.
  - unfold p_skip. eexists. reflexivity.
Qed.
Lemma run_tool_calm e i u w f : w_files w DB = Some f -> 0 <= v_rand e i ->
  run_tool e i u w = (set_file w DB (Some (op_file (db_open u (v_fates e i) f))), match db_open u (v_fates e i) f with Opened _ => 0 | Refused _ => 1 | Died _ => 137 end).
Proof. intros E R. destruct (run_tool_is e i u w f E) as [[C _]|[_ H]]; [lia|exact H]. Qed.
Lemma run_tool_fails e i u w f : w_files w DB = Some f -> is_open (db_open u (v_fates e i) f) = false ->
  exists f' rc, run_tool e i u w = (set_file w DB (Some f'), rc) /\ rc <> 0 /\ (f' = f \/ f' = op_file (db_open u (v_fates e i) f)).
Proof.
  intros E O. destruct (run_tool_is e i u w f E) as [[_ H]|[_ H]]; rewrite H; eexists _, _; (split; [reflexivity|]); (split; [|auto]); [discriminate|].
  destruct (db_open u (v_fates e i) f); [discriminate O|discriminate|discriminate].
Qed.

Lemma same_database v f g : same_contents f g -> database v f -> database v g.
Proof.
  intros (V & T & I) [D1 D2 D3 D4 D5 D6 D7]. unfold free in D7. constructor; unfold free; rewrite <- ?V, <- ?T, <- ?I; assumption.
Qed.
Lemma ready v f : database v f -> f_version f = 0 -> get_tab (f_tabs f) "subscriber" <> None.
Proof. intros D _. destruct (db_sub _ _ D) as (t & -> & _). discriminate. Qed.

(** an upgrade without trouble *)
Lemma post_upgrades e w f v : smooth e -> calm e -> contents w f -> (v < 7)%nat -> database v f -> w_files w (backup e) = None ->
  exists t w' f' g, post_upgrade e w = (t, w', 0) /\ contents w' f' /\ database 7 f' /\ kept f f' /\ w_files w' (backup e) = Some g /\ same_contents f g /\ w_active w' = w_active w.
Proof.
  intros Sm Ca Ef L D Eb. destruct (c43_untouched false (v_fates e 0) f (or_introl eq_refl) (ready v f D)) as [Sf Of].
  specialize (Of ltac:(rewrite (db_version _ _ D); lia)).
  pose proof (run_tool_calm e 0 false (set_flag w false) f Ef (proj1 (Ca 0%nat))) as R0. set (f1 := op_file (db_open false (v_fates e 0) f)) in *.
  assert (Ex : w_files w DB <> None) by (unfold contents in Ef; congruence). edestruct (smooth_mid e w f1 _ Sm Ex Eb R0) as (t0 & E).
  { destruct (db_open false (v_fates e 0) f); [discriminate Of|discriminate|discriminate]. }
  pose proof (same_database _ _ _ Sf D) as D1. destruct (open_calm v f1 ltac:(lia) D1) as (f2 & _ & D2 & O2).
  pose proof (run_tool_calm e 1 true (begun e w f1) f1 (begun_DB e w f1) (proj1 (Ca 1%nat))) as R1. rewrite (proj2 (Ca 1%nat)), O2 in R1. cbn [op_file] in R1.
  pose proof (run_tool_calm e 2 false (set_file (begun e w f1) DB (Some f2)) f2 (set_file_same _ _ _) (proj1 (Ca 2%nat))) as R2.
  rewrite (proj2 (Ca 2%nat)), (open_current false f2 D2) in R2. cbn [op_file] in R2.
  destruct (mid_works e _ _ _ R1 R2 (sm_start e Sm)) as (t & Em). rewrite Em in E.
  set (w2 := set_file (set_file (begun e w f1) DB (Some f2)) DB (Some (with_wal f2))) in *.
  eexists _, _, (with_wal f2), f1. split; [exact E|].
  assert (Fi : forall b : bool, w_files (if b then set_active w2 true else w2) = w_files w2) by (intros []; reflexivity).
  unfold contents. rewrite !Fi. split; [apply set_file_same|]. split; [apply database_wal; exact D2|]. split.
  { eapply kept_trans; [apply (db_open_kept false (v_fates e 0) f)|]. fold f1. pose proof (db_open_kept true [] f1) as K. rewrite O2 in K. eapply kept_trans; [exact K|].
    pose proof (db_open_kept false [] f2) as K2. rewrite (open_current false f2 D2) in K2. exact K2. }
  split; [unfold w2; rewrite !set_file_other by apply backup_DB; apply begun_backup|]. split; [exact Sf|].
  change (w_flag w2) with (w_active w). destruct (w_active w) eqn:A; reflexivity.
Qed.
(** a database that the upgrade cannot open *)
Lemma post_fails e w f (T : file -> Prop) : smooth e -> contents w f -> w_files w (backup e) = None ->
  (forall l, is_open (db_open false l f) = false /\ T (op_file (db_open false l f))) -> T f ->
  (forall g l, T g -> is_open (db_open true l g) = false /\ T (op_file (db_open true l g))) ->
  exists t w' rc f' g, post_upgrade e w = (t, w', rc) /\ rc <> 0 /\ w_active w' = false /\ contents w' f' /\ T f' /\ w_files w' (backup e) = Some g /\ T g.
Proof.
  intros Sm Ef Eb O0 Tf O1. destruct (run_tool_fails e 0 false (set_flag w false) f Ef (proj1 (O0 _))) as (f1 & rc1 & R0 & N0 & C0).
  assert (T1 : T f1) by (destruct C0 as [->| ->]; [exact Tf|apply O0]).
  destruct (smooth_mid e w f1 rc1 Sm ltac:(unfold contents in Ef; congruence) Eb R0 N0) as (t0 & E).
  destruct (run_tool_fails e 1 true (begun e w f1) f1 (begun_DB e w f1) (proj1 (O1 _ _ T1))) as (f2 & rc2 & R1 & N1 & C1).
  rewrite (mid_fails _ _ _ _ R1 N1) in E. eexists _, _, rc2, f2, f1. split; [exact E|]. split; [exact N1|]. split; [reflexivity|]. split; [apply set_file_same|].
  split; [destruct C1 as [->| ->]; [exact T1|apply O1; exact T1]|]. split; [rewrite set_file_other by apply backup_DB; apply begun_backup|exact T1].
Qed.
(** the upgrade dies *)
Lemma post_dies e w f v l f1 f2 : smooth e -> contents w f -> w_files w (backup e) = None -> (v < 7)%nat -> database v f ->
  0 <= v_rand e 0 -> v_fates e 0 = [] -> 0 <= v_rand e 1 -> v_fates e 1 = l -> f1 = op_file (db_open false [] f) -> db_open true l f1 = Died f2 ->
  exists t w' rc, post_upgrade e w = (t, w', rc) /\ rc <> 0 /\ w_active w' = false /\ contents w' f2 /\ w_files w' (backup e) = Some f1.
Proof.
  intros Sm Ef Eb L D R0 F0 R1 F1 E1 Di. destruct (c43_untouched false [] f (or_introl eq_refl) (ready v f D)) as [Sf Of].
  specialize (Of ltac:(rewrite (db_version _ _ D); lia)).
  pose proof (run_tool_calm e 0 false (set_flag w false) f Ef R0) as T0. rewrite F0, <- E1 in T0.
  assert (Ex : w_files w DB <> None) by (unfold contents in Ef; congruence). edestruct (smooth_mid e w f1 _ Sm Ex Eb T0) as (t0 & E).
  { destruct (db_open false [] f); [discriminate Of|discriminate|discriminate]. }
  pose proof (run_tool_calm e 1 true (begun e w f1) f1 (begun_DB e w f1) R1) as T1. rewrite F1, Di in T1. cbn [op_file] in T1.
  rewrite (mid_fails _ _ _ _ T1) in E by discriminate. eexists _, _, _. split; [exact E|]. split; [discriminate|]. split; [reflexivity|]. split; [apply set_file_same|].
  rewrite set_file_other by apply backup_DB. apply begun_backup.
Qed.
