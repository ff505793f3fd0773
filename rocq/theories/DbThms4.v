(** C03 under any faults. *)
From Verif Require Import Base PeerId Db DbSpec DbProofs DbThms DbThms2.
Local Open Scope Z_scope.

Lemma del_keeps {A} (f : A -> Z) id (l : list A) x : f x <> id -> (In x (filter (fun y => negb (f y =? id)) l) <-> In x l).
Proof. intros H. rewrite filter_In, negb_true_iff, Z.eqb_neq. tauto. Qed.
Lemma del_gone {A} (f : A -> Z) id (l : list A) x : In x (filter (fun y => negb (f y =? id)) l) -> f x <> id.
Proof. rewrite filter_In, negb_true_iff, Z.eqb_neq. tauto. Qed.

(** a table of which the rows of an id may have been deleted *)
Definition maybe_deleted {A} (f : A -> Z) (id : Z) (l l' : list A) : Prop := l' = l \/ l' = filter (fun y => negb (f y =? id)) l.
Lemma maybe_again {A} (f : A -> Z) id (l l' : list A) : maybe_deleted f id l l' -> maybe_deleted f id l (filter (fun y => negb (f y =? id)) l').
Proof.
  intros [->| ->]; [right; reflexivity|]. right. induction l as [|x l IH]; [reflexivity|]. cbn. destruct (negb (f x =? id)) eqn:E; cbn; [rewrite E; f_equal; exact IH|exact IH].
Qed.
Definition maybe_all (id : Z) (d d' : db) : Prop :=
  maybe_deleted s_id id (d_sub d) (d_sub d') /\ maybe_deleted a2_id id (d_auc2 d) (d_auc2 d') /\ maybe_deleted a3_id id (d_auc3 d) (d_auc3 d') /\ d_ind d' = d_ind d.
Lemma maybe_refl id d : maybe_all id d d. Proof. repeat split; left; reflexivity. Qed.
Definition deletes (id : Z) (s : stmt) : Prop := match s with AUC_2G_DELETE j | AUC_3G_DELETE j | DEL_BY_ID j => j = id | _ => False end.
Lemma exec_maybe id d s x : deletes id s -> maybe_all id d x -> maybe_all id d (snd (exec s x)).
Proof.
  intros H (A & B & C & D). destruct s; try contradiction; cbn in H; subst; cbn [exec snd]; unfold maybe_all; cbn; (split; [|split; [|split; [|exact D]]]); first [assumption|apply maybe_again; assumption].
Qed.
Lemma none_stmts id (three : bool) : all_stmts (deletes id) (db_subscr_update_aud_by_id id (if three then AudUmts ALG_NONE "" "" false 0 else AudGsm ALG_NONE "")).
Proof. destruct three; cbn; (split; [reflexivity|]; intros q; destruct (negb _ && negb _); exact I). Qed.
Lemma delete_maybe id c d : maybe_all id d (run_db (db_subscr_delete_by_id id) c d).
Proof.
  apply (run_inv (maybe_all id d) (deletes id)); [intros; apply exec_maybe; auto| |apply maybe_refl].
  unfold db_subscr_delete_by_id. split; [reflexivity|]. intros q. destruct q; try exact I.
  apply all_stmts_bind; [apply (none_stmts id false)|]. intros rc2. apply all_stmts_bind; [apply (none_stmts id true)|intros; exact I].
Qed.
Lemma rest_stmts id n : all_stmts (deletes id) (let ret := match n with O => - ENOENT | S O => 0 | _ => - EIO end in
  do rc2 <- db_subscr_update_aud_by_id id (AudGsm ALG_NONE "");;
  let ret := if (ret =? - ENOENT) && (rc2 =? 0) then 0 else ret in
  do rc3 <- db_subscr_update_aud_by_id id (AudUmts ALG_NONE "" "" false 0);;
  Ret (if (ret =? - ENOENT) && (rc3 =? 0) then 0 else ret)).
Proof. cbv zeta. apply all_stmts_bind; [apply (none_stmts id false)|]. intros rc2. apply all_stmts_bind; [apply (none_stmts id true)|intros; exact I]. Qed.
Lemma keep_gone {A} id (p : prog A) c d : all_stmts (deletes id) p -> ~ has_id d id -> ~ has_id (run_db p c d) id.
Proof.
  intros H N. refine (run_inv (fun x => ~ has_id x id) (deletes id) _ p H c d N). intros s x D G. destruct s; try contradiction; cbn in D; subst; cbn; auto.
  intros (r & I & E). apply del_gone in I. contradiction.
Qed.
Lemma delete_done id c d : run_out (db_subscr_delete_by_id id) c d = Fin 0 -> ~ has_id (run_db (db_subscr_delete_by_id id) c d) id.
Proof.
  assert (G : ~ has_id (snd (exec (DEL_BY_ID id) d)) id) by (cbn; intros (r & I & E); apply del_gone in I; contradiction).
  intros H. unfold db_subscr_delete_by_id in *. destruct c as [|[] c].
  - unfold run_db. cbn [run]. cbn [exec]. apply (keep_gone id _ []); [apply rest_stmts|exact G].
  - unfold run_db. cbn [run]. cbn [exec]. apply (keep_gone id _ c); [apply rest_stmts|exact G].
  - discriminate.
  - discriminate.
Qed.
Lemma c03_any d id c :
  let d' := run_db (db_subscr_delete_by_id id) c d in
  (forall r, s_id r <> id -> (In r (d_sub d') <-> In r (d_sub d))) /\
  (forall a, a2_id a <> id -> (In a (d_auc2 d') <-> In a (d_auc2 d))) /\
  (forall a, a3_id a <> id -> (In a (d_auc3 d') <-> In a (d_auc3 d))) /\ d_ind d' = d_ind d /\
  (forall r, In r (d_sub d') -> In r (d_sub d)) /\
  (d_auc2 d' = d_auc2 d \/ ~ has_auc2 d' id) /\ (d_auc3 d' = d_auc3 d \/ ~ has_auc3 d' id) /\
  (run_out (db_subscr_delete_by_id id) c d = Fin 0 -> ~ has_id d' id).
Proof.
  intros d'. destruct (delete_maybe id c d) as (A & B & C & D). fold d' in A, B, C, D. split; [|split; [|split; [|split; [exact D|split; [|split; [|split; [|apply delete_done]]]]]]].
  - intros r N. destruct A as [->| ->]; [tauto|apply del_keeps, N].
  - intros r N. destruct B as [->| ->]; [tauto|apply del_keeps, N].
  - intros r N. destruct C as [->| ->]; [tauto|apply del_keeps, N].
  - intros r I. destruct A as [E|E]; rewrite E in I; [exact I|]. apply filter_In in I. tauto.
  - destruct B as [E|E]; [left; exact E|right]. intros (r & I & Q). rewrite E in I. apply del_gone in I. contradiction.
  - destruct C as [E|E]; [left; exact E|right]. intros (r & I & Q). rewrite E in I. apply del_gone in I. contradiction.
Qed.
