(** Lemmas: tables of a file, statements run up to a point, how far db_open gets. *)
From Verif Require Import Base Upgrade UpgradeSpec.
From Coq Require Import Permutation Lia Bool.
Local Open Scope string_scope. Local Open Scope list_scope. Local Open Scope Z_scope.

(** ** Tables *)
Lemma get_cons n t l m : get_tab ((n, t) :: l) m = if String.eqb n m then Some t else get_tab l m.
Proof. unfold get_tab. cbn. destruct (String.eqb n m); reflexivity. Qed.
Lemma get_set l n t m : get_tab (set_tab l n t) m = if String.eqb n m then option_map (fun _ => t) (get_tab l m) else get_tab l m.
Proof.
  induction l as [|[a b] l IH].
  - cbn. destruct (String.eqb n m); reflexivity.
  - cbn [set_tab map fst]. destruct (String.eqb_spec a n) as [->|H].
    + rewrite !get_cons. destruct (String.eqb_spec n m) as [->|H']; [reflexivity|]. apply IH.
    + rewrite !get_cons. change (map _ l) with (set_tab l n t). rewrite IH. destruct (String.eqb_spec n m) as [->|H'].
      * destruct (String.eqb_spec a m); [congruence|reflexivity].
      * destruct (String.eqb a m); reflexivity.
Qed.
Lemma get_del l n m : get_tab (del_tab l n) m = if String.eqb n m then None else get_tab l m.
Proof.
  induction l as [|[a b] l IH]; [cbn; destruct (String.eqb n m); reflexivity|].
  cbn [del_tab filter fst]. destruct (String.eqb_spec a n) as [->|H]; cbn [negb].
  - change (filter _ l) with (del_tab l n). rewrite IH, get_cons. destruct (String.eqb n m); reflexivity.
  - rewrite !get_cons. change (filter _ l) with (del_tab l n). rewrite IH. destruct (String.eqb_spec n m) as [->|H'].
    + destruct (String.eqb_spec a m); [congruence|reflexivity].
    + destruct (String.eqb a m); reflexivity.
Qed.
Lemma get_idx_free f n : free f n -> get_idx (f_idx f) n = false.
Proof.
  unfold free, get_idx. intros H. destruct (existsb _ _) eqn:E; [|reflexivity]. apply existsb_exists in E. destruct E as (p & I & E).
  apply String.eqb_eq in E. subst n. contradict H. apply in_map. exact I.
Qed.
Lemma get_idx_incl n l l' : (forall p, In p l' -> exists q, In q l /\ fst q = fst p) -> get_idx l n = false -> get_idx l' n = false.
Proof.
  intros H E. destruct (get_idx l' n) eqn:E'; [|reflexivity]. unfold get_idx in *. apply existsb_exists in E'. destruct E' as (p & I & E').
  destruct (H p I) as (q & I' & F). assert (existsb (fun p => String.eqb (fst p) n) l = true); [|congruence].
  apply existsb_exists. exists q. rewrite F. auto.
Qed.

(** ** Statements *)
Fixpoint exec_all (ss : list stmt) (c : conn) : option conn :=
  match ss with
  | [] => Some c
  | s :: ss => match exec s c with Some c' => exec_all ss c' | None => None end
  end.
Lemma exec_all_app a b c : exec_all (a ++ b) c = match exec_all a c with Some c' => exec_all b c' | None => None end.
Proof. revert c. induction a as [|s a IH]; intros c; [reflexivity|]. cbn. destruct (exec s c); [apply IH|reflexivity]. Qed.
Lemma run_prefix ss : forall l c,
  match run_statements ss l c with
  | Done c' _ => exec_all ss c = Some c'
  | Err c' _ | Dead c' => exists k, (k < length ss)%nat /\ exec_all (firstn k ss) c = Some c'
  end.
Proof.
  induction ss as [|s ss IH]; intros l c; [reflexivity|]. cbn [run_statements].
  destruct (hd FOk l).
  - destruct (exec s c) as [c'|] eqn:E.
    + specialize (IH (List.tl l) c'). destruct (run_statements ss (List.tl l) c') as [c2 l2|c2 l2|c2].
      * cbn. rewrite E. exact IH.
      * destruct IH as (k & L & H). exists (S k). cbn. rewrite E. split; [lia|exact H].
      * destruct IH as (k & L & H). exists (S k). cbn. rewrite E. split; [lia|exact H].
    + exists 0%nat. cbn. split; [lia|reflexivity].
  - exists 0%nat. cbn. split; [lia|reflexivity].
  - exists 0%nat. cbn. split; [lia|reflexivity].
Qed.
Lemma run_app a b : forall l c,
  run_statements (a ++ b) l c = match run_statements a l c with Done c' l' => run_statements b l' c' | r => r end.
Proof.
  induction a as [|s a IH]; intros l c; [reflexivity|]. cbn [app run_statements].
  destruct (hd FOk l); try reflexivity. destruct (exec s c); [apply IH|reflexivity].
Qed.
Lemma run_path_concat p : forall l c, run_path p l c = run_statements (concat p) l c.
Proof.
  induction p as [|ss p IH]; intros l c; [reflexivity|]. cbn [concat run_path]. rewrite run_app.
  destruct (run_statements ss l c); try reflexivity. apply IH.
Qed.
(** without interruption all statements run, unless one fails by itself *)
Lemma run_fine ss : forall c c', exec_all ss c = Some c' -> forall l, run_statements ss (repeat FOk (length ss) ++ l) c = Done c' l.
Proof.
  induction ss as [|s ss IH]; intros c c' H l; cbn in H.
  - injection H as <-. reflexivity.
  - cbn [length repeat app run_statements hd List.tl]. destruct (exec s c) as [c2|]; [|discriminate]. apply IH. exact H.
Qed.
Lemma run_fine_nil ss : forall c c', exec_all ss c = Some c' -> run_statements ss [] c = Done c' [].
Proof.
  induction ss as [|s ss IH]; intros c c' H; cbn in H.
  - injection H as <-. reflexivity.
  - cbn [run_statements hd List.tl]. destruct (exec s c) as [c2|]; [|discriminate]. apply IH. exact H.
Qed.
(** death before statement k *)
Lemma run_dies ss : forall k c c', (k < length ss)%nat -> exec_all (firstn k ss) c = Some c' -> run_statements ss (repeat FOk k ++ [FCrash]) c = Dead c'.
Proof.
  induction ss as [|s ss IH]; intros k c c' L H; [cbn in L; lia|]. destruct k as [|k].
  - cbn in *. congruence.
  - cbn [firstn exec_all] in H. cbn [repeat app run_statements hd List.tl]. destruct (exec s c) as [c2|]; [|discriminate].
    apply IH; [cbn in L; lia|exact H].
Qed.

(** ** Transactions *)
Definition plain (s : stmt) : bool := match s with SBegin | SCommit => false | _ => true end.
Lemma exec_plain s c c' : plain s = true -> exec s c = Some c' -> n_saved c' = n_saved c.
Proof.
  intros P E. unfold exec in E. destruct s as [ | |v|n k|tmp n k|n names src|n|n n'|i n k]; try discriminate P.
  - injection E as <-. reflexivity.
  - destruct (lookup c n) as [t|]; [|discriminate]. destruct (has_col _ _); [discriminate|]. injection E as <-.
    unfold store_tab. destruct (get_tab (n_temp c) n); reflexivity.
  - destruct tmp.
    + destruct (get_tab _ _); [discriminate|]. injection E as <-. reflexivity.
    + destruct (get_tab _ _); [discriminate|]. destruct (get_idx _ _); [discriminate|]. injection E as <-. reflexivity.
  - destruct (lookup c n) as [d|]; [|discriminate]. destruct (lookup c src) as [t|]; [|discriminate].
    destruct (negb _); [discriminate|]. destruct (negb _); [discriminate|]. destruct (cols_ok _ _ _); [|discriminate]. injection E as <-.
    unfold store_tab. destruct (get_tab (n_temp c) n); reflexivity.
  - destruct (get_tab (n_temp c) n).
    + injection E as <-. reflexivity.
    + destruct (get_tab _ _); [|discriminate]. injection E as <-. reflexivity.
  - destruct (get_tab _ n); [|discriminate]. destruct (get_tab _ n'); [discriminate|]. destruct (get_idx _ _); [discriminate|]. injection E as <-. reflexivity.
  - destruct (get_tab _ n); [|discriminate]. destruct (_ || _); [discriminate|]. destruct (negb _); [discriminate|].
    destruct (vals_distinct _); [|discriminate]. injection E as <-. reflexivity.
Qed.
Lemma exec_all_plain ss : forall c c', forallb plain ss = true -> exec_all ss c = Some c' -> n_saved c' = n_saved c.
Proof.
  induction ss as [|s ss IH]; intros c c' P E; cbn in *.
  - congruence.
  - apply andb_true_iff in P. destruct P as [P1 P2]. destruct (exec s c) as [c2|] eqn:E2; [|discriminate].
    rewrite (IH _ _ P2 E). eapply exec_plain; eauto.
Qed.
Lemma forallb_firstn {A} (p : A -> bool) l : forall k, forallb p l = true -> forallb p (firstn k l) = true.
Proof.
  induction l as [|a l IH]; intros [|k] H; try reflexivity. cbn in *. apply andb_true_iff in H. destruct H as [H1 H2]. rewrite H1. cbn. auto.
Qed.
(** inside a transaction the file stays as it was *)
Lemma prefix_txn f body k c : forallb plain body = true -> (k <= S (length body))%nat ->
  exec_all (firstn k (SBegin :: body)) (conn_open f) = Some c -> durable c = f.
Proof.
  intros P L E. destruct k as [|k].
  - cbn in E. injection E as <-. reflexivity.
  - cbn [firstn exec_all exec conn_open n_saved n_main n_temp] in E.
    pose proof (exec_all_plain _ _ _ (forallb_firstn plain body k P) E) as S. unfold durable. rewrite S. reflexivity.
Qed.

(** ** How far db_open gets *)
Definition chain (v : nat) : list stmt := concat (skipn v upgrade_path).
(** the statements that db_open runs on a file *)
Inductive attempt (allow : bool) (g : file) : list stmt -> Prop :=
| at_none : attempt allow g []
| at_boot : f_version g = 0 -> attempt allow g bootstrap_sql
| at_up : allow = true -> 0 <= f_version g < 7 -> attempt allow g (chain (Z.to_nat (f_version g))).

Lemma prepare_all_file ns : forall l f, op_file (prepare_all ns l f) = f.
Proof.
  induction ns as [|n ns IH]; intros l f; [reflexivity|]. cbn. destruct (hd FOk l); try reflexivity. destruct (prepare f n); [apply IH|reflexivity].
Qed.
Lemma prepare_all_open ns : forall l f, is_open (prepare_all ns l f) = true -> forallb (prepare f) ns = true.
Proof.
  induction ns as [|n ns IH]; intros l f H; [reflexivity|]. cbn in *. destruct (hd FOk l); try discriminate. destruct (prepare f n); [|discriminate].
  cbn. eapply IH. exact H.
Qed.
Lemma prepare_all_fine ns : forall f, forallb (prepare f) ns = true -> prepare_all ns [] f = Opened f.
Proof.
  induction ns as [|n ns IH]; intros f H; [reflexivity|]. cbn in *. apply andb_true_iff in H. destruct H as [H1 H2]. rewrite H1. apply IH. exact H2.
Qed.

Definition journal (f g : file) : Prop := g = f \/ g = with_wal f.
(** the outcome of running part of one of the attempts *)
Definition reached_by (allow : bool) (g : file) (o : opened) : Prop :=
  exists ss k c, attempt allow g ss /\ (k <= length ss)%nat /\ exec_all (firstn k ss) (conn_open g) = Some c /\ op_file o = durable c
  /\ (is_open o = true -> k = length ss /\ (ss = [] -> f_version g = 7) /\ forallb (prepare (durable c)) stmt_sql = true).
Lemma reached_idle allow g o : is_open o = false -> op_file o = g -> reached_by allow g o.
Proof. intros H E. exists [], 0%nat, (conn_open g). split; [constructor|]. split; [reflexivity|]. split; [reflexivity|]. split; [exact E|]. congruence. Qed.
Lemma db_open_version_reached allow version boot l g :
  version = f_version g -> 0 <= version -> (boot = true -> version = 0) -> reached_by allow g (db_open_version allow version boot l (conn_open g)).
Proof.
  intros -> V B. unfold db_open_version. destruct boot.
  - specialize (B eq_refl). pose proof (run_prefix bootstrap_sql l (conn_open g)) as R.
    destruct (run_statements bootstrap_sql l (conn_open g)) as [c l'|c l'|c].
    + change (CURRENT <? Z.of_nat (length upgrade_path)) with false. rewrite andb_false_r. change (negb (CURRENT =? CURRENT)) with false. cbv iota.
      exists bootstrap_sql, (length bootstrap_sql), c. split; [constructor; exact B|]. split; [reflexivity|]. rewrite firstn_all. split; [exact R|].
      split; [apply prepare_all_file|]. intros O. split; [reflexivity|]. split; [discriminate|]. eapply prepare_all_open. exact O.
    + destruct R as (k & L & R). exists bootstrap_sql, k, c. split; [constructor; exact B|]. split; [lia|]. split; [exact R|]. split; [reflexivity|]. discriminate.
    + destruct R as (k & L & R). exists bootstrap_sql, k, c. split; [constructor; exact B|]. split; [lia|]. split; [exact R|]. split; [reflexivity|]. discriminate.
  - cbv iota. change (Z.of_nat (length upgrade_path)) with 7. destruct (allow && (f_version g <? 7)) eqn:U.
    + apply andb_true_iff in U. destruct U as [-> U]. apply Z.ltb_lt in U. rewrite run_path_concat. fold (chain (Z.to_nat (f_version g))).
      assert (A : attempt true g (chain (Z.to_nat (f_version g)))) by (constructor; [reflexivity|lia]).
      pose proof (run_prefix (chain (Z.to_nat (f_version g))) l (conn_open g)) as R.
      destruct (run_statements _ l (conn_open g)) as [c l'|c l'|c].
      * change (negb (7 =? CURRENT)) with false. cbv iota. exists (chain (Z.to_nat (f_version g))), (length (chain (Z.to_nat (f_version g)))), c.
        split; [exact A|]. split; [reflexivity|]. rewrite firstn_all. split; [exact R|]. split; [apply prepare_all_file|]. intros O. split; [reflexivity|]. split.
        -- intros E. exfalso. assert (D : forall n, (n < 7)%nat -> chain n <> []); [|apply (D (Z.to_nat (f_version g))); [lia|exact E]].
           intros n Hn. do 7 (destruct n as [|n]; [discriminate|]). lia.
        -- eapply prepare_all_open. exact O.
      * destruct R as (k & L & R). eexists _, k, c. split; [exact A|]. split; [lia|]. split; [exact R|]. split; [reflexivity|]. discriminate.
      * destruct R as (k & L & R). eexists _, k, c. split; [exact A|]. split; [lia|]. split; [exact R|]. split; [reflexivity|]. discriminate.
    + destruct (negb (f_version g =? CURRENT)) eqn:C.
      * apply reached_idle; reflexivity.
      * exists [], 0%nat, (conn_open g). split; [constructor|]. split; [reflexivity|]. split; [reflexivity|]. split; [apply prepare_all_file|].
        intros O. split; [reflexivity|]. split; [|eapply prepare_all_open; exact O]. intros _. apply negb_false_iff, Z.eqb_eq in C. exact C.
Qed.
Lemma db_open_reached allow l f : exists g, journal f g /\ reached_by allow g (db_open allow l f).
Proof.
  unfold db_open. destruct (hd FOk l).
  2,3: exists f; split; [left; reflexivity|apply reached_idle; reflexivity].
  cbv zeta. set (wal := hd FOk (List.tl l)).
  assert (G : wal = FCrash \/ exists g, journal f g /\ g = match wal with FOk => with_wal f | _ => f end).
  { destruct wal; [right|right|left; reflexivity].
    - exists (with_wal f). split; [right; reflexivity|reflexivity].
    - exists f. split; [left; reflexivity|reflexivity]. }
  destruct G as [->|(g & J & G)].
  { exists f. split; [left; reflexivity|apply reached_idle; reflexivity]. }
  destruct wal; [| |exists f; split; [left; reflexivity|apply reached_idle; reflexivity]]; exists g; (split; [exact J|]); rewrite <- G.
  all: match goal with |- context [match hd FOk ?x with _ => _ end] => destruct (hd FOk x) end; [|apply reached_idle; reflexivity|apply reached_idle; reflexivity].
  all: destruct (f_version g <? 0) eqn:N; [apply reached_idle; reflexivity|]; apply Z.ltb_ge in N.
  all: destruct (f_version g =? 0) eqn:Z; [apply Z.eqb_eq in Z; match goal with |- context [match hd FOk ?x with _ => _ end] => destruct (hd FOk x) end|apply Z.eqb_neq in Z].
  all: try (apply reached_idle; reflexivity).
  all: apply db_open_version_reached; auto; discriminate.
Qed.
