(** C72 (osmo-hlr-post-upgrade.sh): theorems and cases. *)
From Verif Require Import Base Upgrade UpgradeSpec UpgradeThms2 UpgradeThms4 UpgradeThms5 UpgradeThms6 UpgradeProperties Main Post PostSpec PostThms PostThms2 PostThms3.
Local Open Scope string_scope. Local Open Scope list_scope. Local Open Scope Z_scope.

(** ** At any moment *)
(** Whatever fails and wherever the script or its commands are interrupted, the database is there and nothing of the subscribers is lost; a service that is not active is not started. *)
Theorem C72_kept e w t w' rc f m : post_upgrade e w = (t, w', rc) -> contents w f -> In m (w' :: moments w t) ->
  (exists f', contents m f' /\ kept f f') /\ (w_active w = false -> w_active m = false).
Proof. intros E Ef Im. exact (post_kept e w t w' rc f E Ef m Im). Qed.
Print Assumptions C72_kept.
(** No other file is changed: at most one new name appears, that of the backup, and one that exists is not overwritten. *)
Theorem C72_files e w t w' rc m n : post_upgrade e w = (t, w', rc) -> In m (w' :: moments w t) -> n <> DB ->
  (n <> (DB ++ "." ++ v_date e ++ ".bak")%string -> w_files m n = w_files w n) /\ (forall g, w_files w n = Some g -> w_files m n = Some g).
Proof. intros E Im N. exact (post_files e w t w' rc E m Im n N). Qed.
Print Assumptions C72_files.
(** The contents of the database are as they were, or there is a whole copy of what they were: for a file that is a database of the HLR.
    Missing: files of version 0 without a table of subscribers, see C72_backup_refuted. *)
Theorem C72_backup_partial e w t w' rc f m : post_upgrade e w = (t, w', rc) -> contents w f -> (f_version f = 0 -> get_tab (f_tabs f) "subscriber" <> None) -> In m (w' :: moments w t) ->
  exists f', contents m f' /\ (same_contents f f' \/ exists g, w_files m (DB ++ "." ++ v_date e ++ ".bak")%string = Some g /\ same_contents f g).
Proof.
  intros E Ef Rf Im. assert (So : forall g l, same_contents f g -> same_contents f (op_file (db_open false l g))).
  { intros g l C. eapply same_contents_trans; [exact C|]. apply (c43_untouched false l g); [left; reflexivity|]. destruct C as (V & T & _). rewrite <- V, <- T. exact Rf. }
  assert (X : exists f1, w_files w DB = Some f1 /\ same_contents f f1) by (exists f; split; [exact Ef|apply same_contents_refl]).
  destruct (all_rule_post _ _ _ _ _ (phases w e (same_contents f) So X) _ _ _ E) as [F H]. destruct Im as [<-|[<-|Im]].
  - destruct H as [[H _]|[_ [[H _] _]]]; exact H.
  - exists f. split; [exact Ef|left; apply same_contents_refl].
  - apply in_map_iff in Im. destruct Im as (s & <- & Is). rewrite Forall_forall in F. apply (F s Is).
Qed.
Print Assumptions C72_backup_partial.
(** The database is copied and upgraded only while the service is not active; the service is started only if it was active, and with a database that it can open. *)
Theorem C72_offline e w t w' rc f s : post_upgrade e w = (t, w', rc) -> contents w f -> In s t ->
  (s_cmd s = PTool true \/ (exists n, s_cmd s = PCopy n) -> w_active (s_before s) = false /\ w_active (s_after s) = false)
  /\ (s_cmd s = PStart -> w_active w = true /\ exists f', contents (s_before s) f' /\ usable f').
Proof.
  intros E Ef Is. assert (X : exists f1, w_files w DB = Some f1 /\ True) by (exists f; split; [exact Ef|exact I]).
  destruct (all_rule_post _ _ _ _ _ (phases w e (fun _ => True) (fun _ _ _ => I) X) _ _ _ E) as [F _]. rewrite Forall_forall in F. apply (F s Is).
Qed.
Print Assumptions C72_offline.

(** ** At the end *)
(** If the script reports success, then there is no database, or one that osmo-hlr can open; and the service is active if and only if it was. *)
Theorem C72_success e w t w' : post_upgrade e w = (t, w', 0) ->
  w_active w' = w_active w /\ (w_files w DB = None /\ w_files w' DB = None \/ exists f', contents w' f' /\ usable f').
Proof.
  intros E. destruct (w_files w DB) as [f|] eqn:Ef.
  - assert (X : exists f1, w_files w DB = Some f1 /\ True) by (exists f; auto). destruct (all_rule_post _ _ _ _ _ (phases w e (fun _ => True) (fun _ _ _ => I) X) _ _ _ E) as [_ H].
    assert (P : PX w e (fun _ => True) 0 w') by (destruct H as [H|[_ [H _]]]; exact H). destruct P as [_ P]. destruct (P eq_refl) as [A U]. auto.
  - rewrite (post_absent e w Ef) in E. injection E as <- <-. auto.
Qed.
Print Assumptions C72_success.
(** An older database is upgraded, a copy of what it was is kept, and the service is as before, provided that the service can be stopped and started, the file copied, and nothing fails. *)
Theorem C72_upgrades e w f v : smooth e -> calm e -> contents w f -> (v < 7)%nat -> database v f -> w_files w (DB ++ "." ++ v_date e ++ ".bak")%string = None ->
  exists t w' f' g, post_upgrade e w = (t, w', 0) /\ contents w' f' /\ database 7 f' /\ kept f f'
  /\ w_files w' (DB ++ "." ++ v_date e ++ ".bak")%string = Some g /\ same_contents f g /\ w_active w' = w_active w.
Proof. exact (post_upgrades e w f v). Qed.
Print Assumptions C72_upgrades.
(** Without a database nothing is done; with a current one nothing but opening it, if that does not fail (see C72_current_refuted). *)
Theorem C72_absent e w : w_files w DB = None -> post_upgrade e w = ([], set_flag w false, 0).
Proof. exact (post_absent e w). Qed.
Print Assumptions C72_absent.
Theorem C72_current_partial e w f : contents w f -> database 7 f -> 0 <= v_rand e 0 -> v_fates e 0 = [] ->
  exists s w', post_upgrade e w = ([s], w', 0) /\ s_cmd s = PTool false /\ w_active w' = w_active w /\ (forall n, n <> DB -> w_files w' n = w_files w n) /\ contents w' (with_wal f).
Proof.
  intros Ef D R F. unfold post_upgrade, p_seq, check_upgrade_required. change (w_files (set_flag w false) DB) with (w_files w DB). unfold contents in *. rewrite Ef. unfold p_run.
  rewrite (run_tool_calm e 0 false (set_flag w false) f Ef R), F, (open_current false f D). cbn [op_file]. change (0 =? 0) with true. cbv iota. unfold p_exit. cbv iota.
  eexists _, _. split; [reflexivity|]. split; [reflexivity|]. split; [reflexivity|]. split; [intros n N; rewrite (set_file_other _ _ _ _ N); reflexivity|apply set_file_same].
Qed.
Print Assumptions C72_current_partial.

(** ** Where it fails *)
(** Any failure to open the database is taken for the need to upgrade it.  So with a newer database, which cannot be upgraded, the service is stopped and not started again. *)
Theorem C72_newer_refuted e w f : smooth e -> contents w f -> 7 < f_version f -> w_files w (DB ++ "." ++ v_date e ++ ".bak")%string = None ->
  exists t w' rc f', post_upgrade e w = (t, w', rc) /\ rc <> 0 /\ w_active w' = false /\ contents w' f' /\ same_contents f f'.
Proof.
  intros Sm Ef V Eb. destruct (post_fails e w f (same_contents f) Sm Ef Eb) as (t & w' & rc & f' & g & E & N & A & E' & C & _).
  - intros l. destruct (C43_newer false l f V). auto.
  - apply same_contents_refl.
  - intros g l C. pose proof C as (Vg & _). destruct (C43_newer true l g) as [Sg Og]; [lia|]. split; [exact Og|]. eapply same_contents_trans; eauto.
  - exists t, w', rc, f'. auto.
Qed.
Print Assumptions C72_newer_refuted.
(** So it is with a database that an interrupted upgrade has left (C41): the service remains stopped and the database useless. *)
Theorem C72_stuck_refuted e w f : smooth e -> contents w f -> stuck f -> w_files w (DB ++ "." ++ v_date e ++ ".bak")%string = None ->
  exists t w' rc f', post_upgrade e w = (t, w', rc) /\ rc <> 0 /\ w_active w' = false /\ contents w' f' /\ forall allow s, is_open (db_open allow s f') = false.
Proof.
  intros Sm Ef St Eb. destruct (post_fails e w f stuck Sm Ef Eb) as (t & w' & rc & f' & g & E & N & A & E' & C & _).
  - intros l. destruct (stuck_start false l f St) as [X Y]. split; [exact Y|exact (stuck_same _ _ X St)].
  - exact St.
  - intros g l C. destruct (stuck_start true l g C) as [X Y]. split; [exact Y|exact (stuck_same _ _ X C)].
  - exists t, w', rc, f'. split; [exact E|]. split; [exact N|]. split; [exact A|]. split; [exact E'|]. intros allow s. apply (stuck_forever [] f' C).
Qed.
Print Assumptions C72_stuck_refuted.
(** The upgrade of this very script may be interrupted such that the database cannot be opened any more; but then the copy is as good as the database was, and could be upgraded. *)
Theorem C72_interrupted_refuted v f : (v < 6)%nat -> database v f -> exists l, forall e w, smooth e -> contents w f -> w_files w (DB ++ "." ++ v_date e ++ ".bak")%string = None ->
  0 <= v_rand e 0 -> v_fates e 0 = [] -> 0 <= v_rand e 1 -> v_fates e 1 = l ->
  exists t w' rc f' g, post_upgrade e w = (t, w', rc) /\ rc <> 0 /\ w_active w' = false /\ contents w' f' /\ (forall l' allow s, is_open (db_open allow s (starts l' f')) = false)
  /\ w_files w' (DB ++ "." ++ v_date e ++ ".bak")%string = Some g /\ same_contents f g /\ exists f2, db_open true [] g = Opened f2 /\ database 7 f2 /\ kept f f2.
Proof.
  intros L D. set (f1 := op_file (db_open false [] f)). destruct (c43_untouched false [] f (or_introl eq_refl) (ready v f D)) as [Sf _]. fold f1 in Sf.
  pose proof (same_database _ _ _ Sf D) as D1. destruct (upgrade_dies v f1 L D1) as (l & f' & Ed & St). exists l. intros e w Sm Ef Eb R0 F0 R1 F1.
  destruct (post_dies e w f v l f1 f' Sm Ef Eb ltac:(lia) D R0 F0 R1 F1 eq_refl Ed) as (t & w' & rc & E & N & A & Ef' & Eg). exists t, w', rc, f', f1.
  split; [exact E|]. split; [exact N|]. split; [exact A|]. split; [exact Ef'|]. split; [intros l' allow s; apply (stuck_forever l' f' St)|]. split; [exact Eg|]. split; [exact Sf|].
  destruct (open_calm v f1 ltac:(lia) D1) as (f2 & _ & D2 & O2). exists f2. split; [exact O2|]. split; [exact D2|].
  eapply kept_trans; [apply (db_open_kept false [] f)|]. pose proof (db_open_kept true [] f1) as K. rewrite O2 in K. exact K.
Qed.
Print Assumptions C72_interrupted_refuted.

(** ** Cases *)
Definition env0 : penv := mk_penv (fun _ => 0) (fun _ => []) (fun _ f => (0, f)) 0 true (fun i => Nat.ltb i 3) "20260101120000" 0 None 0.
Definition with_rand (r : nat -> Z) (e : penv) : penv := mk_penv r (v_fates e) (v_import e) (v_stop e) (v_left e) (v_polls e) (v_date e) (v_cp e) (v_torn e) (v_start e).
Definition with_fates (l : nat -> list fate) (e : penv) : penv := mk_penv (v_rand e) l (v_import e) (v_stop e) (v_left e) (v_polls e) (v_date e) (v_cp e) (v_torn e) (v_start e).
Definition with_cp (r : Z) (e : penv) : penv := mk_penv (v_rand e) (v_fates e) (v_import e) (v_stop e) (v_left e) (v_polls e) (v_date e) r (v_torn e) (v_start e).
Definition with_stop (r : Z) (p : nat -> bool) (e : penv) : penv := mk_penv (v_rand e) (v_fates e) (v_import e) r (v_left e) p (v_date e) (v_cp e) (v_torn e) (v_start e).
Definition box (f : file) (active : bool) : pw := mk_pw (fun n => if (n =? DB)%string then Some f else None) active false.
Definition bak0 : string := "/var/lib/osmocom/hlr.db.20260101120000.bak".
Definition ran (e : penv) (w : pw) : list pcmd * Z * bool * option Z * option Z :=
  let '(t, w', rc) := post_upgrade e w in (map s_cmd t, rc, w_active w', option_map f_version (w_files w' DB), option_map f_version (w_files w' bak0)).
Lemma env0_fine : smooth env0 /\ calm env0.
Proof. split; [split; try reflexivity; exists 3%nat; split; [lia|reflexivity]|]. intros i. split; [cbn; lia|reflexivity]. Qed.
Example run_v0 : ran env0 (box v0_file true) =
  ([PTool false; PStop; PAsk; PAsk; PAsk; PAsk; PCopy bak0; PTool true; PTool false; PStart], 0, true, Some 7, Some 0).
Proof. vm_compute. reflexivity. Qed.
Example run_v0_off : ran env0 (box v0_file false) = ([PTool false; PCopy bak0; PTool true; PTool false], 0, false, Some 7, Some 0).
Proof. vm_compute. reflexivity. Qed.
Example run_fresh : ran env0 (box fresh true) = ([PTool false], 0, true, Some 7, None).
Proof. vm_compute. reflexivity. Qed.
Example run_newer : ran env0 (box (mk_file 8 false [] []) true) = ([PTool false; PStop; PAsk; PAsk; PAsk; PAsk; PCopy bak0; PTool true], 1, false, Some 8, Some 8).
Proof. vm_compute. reflexivity. Qed.
(** no room for the copy: nothing upgraded, but the service is left stopped *)
Example run_full : ran (with_cp 1 env0) (box v0_file true) = ([PTool false; PStop; PAsk; PAsk; PAsk; PAsk; PCopy bak0], 1, false, Some 0, None).
Proof. vm_compute. reflexivity. Qed.
(** a copy of that name is there already, of version 3 *)
Example run_copied : ran env0 (set_file (box v0_file true) bak0 (Some (mk_file 3 false [] []))) = ([PTool false; PStop; PAsk; PAsk; PAsk; PAsk], 1, false, Some 0, Some 3).
Proof. vm_compute. reflexivity. Qed.
(** a service that does not stop *)
Example run_on : let '(c, rc, a, v, b) := ran (with_stop 0 (fun _ => true) env0) (box v0_file true) in (length c, rc, a, v, b) = (102%nat, 1, true, Some 0, None).
Proof. vm_compute. reflexivity. Qed.
Example run_stop_fails : ran (with_stop 5 (fun _ => true) env0) (box v0_file true) = ([PTool false; PStop], 5, true, Some 0, None).
Proof. vm_compute. reflexivity. Qed.

(** A current database that cannot be opened for a moment is "upgraded": the service is stopped and a copy made without need. *)
Theorem C72_current_refuted : exists e w f, smooth e /\ contents w f /\ database 7 f /\ ran e w =
  ([PTool false; PStop; PAsk; PAsk; PAsk; PAsk; PCopy bak0; PTool true; PTool false; PStart], 0, true, Some 7, Some 7).
Proof.
  exists (with_fates (fun i => match i with O => [FErr] | _ => [] end) env0), (box fresh true), fresh. split; [split; try reflexivity; exists 3%nat; split; [lia|reflexivity]|].
  split; [reflexivity|]. split; [|vm_compute; reflexivity]. destruct (create_calm false file_empty ltac:(repeat split)) as (f' & E & D). unfold fresh. rewrite E. exact D.
Qed.
Print Assumptions C72_current_refuted.
(** A file of something else is changed without a copy: the first attempt to open it creates the tables in it. *)
Theorem C72_backup_refuted : exists f t w', post_upgrade env0 (box f true) = (t, w', 0) /\ (forall n, n <> DB -> w_files w' n = None) /\ exists f', contents w' f' /\ ~ same_contents f f'.
Proof.
  destruct C43_other_refuted as (f' & E & N). exists other_db. unfold post_upgrade, p_seq, check_upgrade_required. change (w_files (set_flag (box other_db true) false) DB) with (Some other_db).
  unfold p_run. rewrite (run_tool_calm env0 0 false (set_flag (box other_db true) false) other_db eq_refl) by (cbn; lia). change (v_fates env0 0) with (@nil fate). rewrite E. change (0 =? 0) with true. cbv iota.
  unfold p_exit. cbv iota. eexists _, _. split; [reflexivity|]. split; [intros n Hn; rewrite (set_file_other _ _ _ _ Hn); cbn; apply String.eqb_neq in Hn; rewrite Hn; reflexivity|].
  exists f'. split; [apply set_file_same|exact N].
Qed.
Print Assumptions C72_backup_refuted.
