(** Lemmas for C43: the version that is reached, and what is left alone. *)
From Verif Require Import Base Upgrade UpgradeSpec UpgradeThms.
From Coq Require Import Permutation Lia Bool.
Local Open Scope string_scope. Local Open Scope list_scope. Local Open Scope Z_scope.

Definition step_version (s : stmt) (v : Z) : Z := match s with SVersion v => v | _ => v end.
Lemma exec_version s c c' : exec s c = Some c' -> f_version (n_main c') = step_version s (f_version (n_main c)).
Proof.
  intros E. unfold exec in E. destruct s as [ | |v|n k|tmp n k|n names src|n|n n'|i n k]; cbn [step_version].
  - destruct (n_saved c); [discriminate|]. injection E as <-. reflexivity.
  - destruct (n_saved c); [|discriminate]. injection E as <-. reflexivity.
  - injection E as <-. reflexivity.
  - destruct (lookup c n) as [t|]; [|discriminate]. destruct (has_col _ _); [discriminate|]. injection E as <-.
    unfold store_tab. destruct (get_tab (n_temp c) n); reflexivity.
  - destruct tmp.
    + destruct (get_tab _ _); [discriminate|]. injection E as <-. reflexivity.
    + destruct (get_tab _ _); [discriminate|]. destruct (get_idx _ _); [discriminate|]. injection E as <-. reflexivity.
  - destruct (lookup c n) as [d|]; [|discriminate]. destruct (lookup c src) as [t|]; [|discriminate].
    destruct (negb _); [discriminate|]. destruct (negb _); [discriminate|]. destruct (cols_ok _ _ _); [|discriminate]. injection E as <-.
    unfold store_tab. destruct (get_tab (n_temp c) n); reflexivity.
  - destruct (get_tab (n_temp c) n).
    + injection E as <-. reflexivity.
    + destruct (get_tab _ _); [|discriminate]. injection E as <-. reflexivity.
  - destruct (get_tab _ n); [|discriminate]. destruct (get_tab _ n'); [discriminate|]. destruct (get_idx _ _); [discriminate|]. injection E as <-. reflexivity.
  - destruct (get_tab _ n); [|discriminate]. destruct (_ || _); [discriminate|]. destruct (negb _); [discriminate|].
    destruct (vals_distinct _); [|discriminate]. injection E as <-. reflexivity.
Qed.
Lemma exec_all_version ss : forall c c', exec_all ss c = Some c' -> f_version (n_main c') = fold_left (fun v s => step_version s v) ss (f_version (n_main c)).
Proof.
  induction ss as [|s ss IH]; intros c c' E; cbn in *; [congruence|].
  destruct (exec s c) as [c2|] eqn:E2; [|discriminate]. rewrite (IH _ _ E). f_equal. apply exec_version. exact E2.
Qed.
Definition txn (c : conn) : bool := match n_saved c with Some _ => true | None => false end.
Definition step_txn (s : stmt) (b : bool) : bool := match s with SBegin => true | SCommit => false | _ => b end.
Lemma exec_txn s c c' : exec s c = Some c' -> txn c' = step_txn s (txn c).
Proof.
  intros E. destruct (plain s) eqn:P.
  - unfold txn. rewrite (exec_plain s c c' P E). destruct s; try discriminate P; reflexivity.
  - destruct s; try discriminate P; cbn in E; unfold txn in *; destruct (n_saved c); try discriminate E; injection E as <-; reflexivity.
Qed.
Lemma exec_all_txn ss : forall c c', exec_all ss c = Some c' -> txn c' = fold_left (fun v s => step_txn s v) ss (txn c).
Proof.
  induction ss as [|s ss IH]; intros c c' E; cbn in *; [congruence|].
  destruct (exec s c) as [c2|] eqn:E2; [|discriminate]. rewrite (IH _ _ E). f_equal. apply exec_txn. exact E2.
Qed.
Lemma durable_main c : txn c = false -> durable c = n_main c.
Proof. unfold txn, durable. destruct (n_saved c); [discriminate|reflexivity]. Qed.

Lemma attempt_done allow g ss c : attempt allow g ss -> ss <> [] -> exec_all ss (conn_open g) = Some c -> f_version (durable c) = 7.
Proof.
  intros A N E. pose proof (exec_all_version _ _ _ E) as V. pose proof (exec_all_txn _ _ _ E) as T. inversion A as [H|B H|U B H]; subst ss.
  - congruence.
  - cbn in V, T. rewrite (durable_main c T). exact V.
  - revert V T. generalize (f_version (n_main (conn_open g))). intros v0 V T.
    assert (L : (Z.to_nat (f_version g) < 7)%nat) by lia. revert V T L. generalize (Z.to_nat (f_version g)). intros n V T L.
    do 7 (destruct n as [|n]; [cbn in V, T; rewrite (durable_main c T); exact V|]). lia.
Qed.
Lemma c43_version allow l f : is_open (db_open allow l f) = true ->
  f_version (op_file (db_open allow l f)) = 7 /\ forallb (prepare (op_file (db_open allow l f))) stmt_sql = true.
Proof.
  intros O. destruct (db_open_reached allow l f) as (g & J & ss & k & c & A & L & E & F & H). destruct (H O) as (-> & V & P). rewrite firstn_all in E.
  rewrite F. split; [|exact P]. destruct ss as [|s ss].
  - cbn in E. injection E as <-. apply V. reflexivity.
  - eapply attempt_done; [exact A|discriminate|exact E].
Qed.

Lemma journal_same f g : journal f g -> same_contents f g.
Proof. intros [->| ->]; repeat split. Qed.
Lemma boot_blocked g t k c : get_tab (f_tabs g) "subscriber" = Some t -> exec_all (firstn k bootstrap_sql) (conn_open g) = Some c -> k = 0%nat.
Proof. intros T E. destruct k as [|k]; [reflexivity|]. exfalso. cbn [firstn bootstrap_sql exec_all exec conn_open n_main] in E. rewrite T in E. discriminate. Qed.
Lemma c43_untouched allow l f :
  (allow = false \/ ~ 0 <= f_version f < 7) -> (f_version f = 0 -> get_tab (f_tabs f) "subscriber" <> None) ->
  same_contents f (op_file (db_open allow l f)) /\ (f_version f <> 7 -> is_open (db_open allow l f) = false).
Proof.
  intros U B. destruct (db_open_reached allow l f) as (g & J & ss & k & c & A & L & E & F & H).
  destruct (journal_same f g J) as (V & T & I).
  assert (X : durable c = g).
  { inversion A as [N|Z N|Y R N]; subst ss.
    - destruct k; cbn in E; injection E as <-; reflexivity.
    - rewrite <- V in Z. specialize (B Z). destruct (get_tab (f_tabs f) "subscriber") as [t|] eqn:G; [|congruence]. rewrite T in G.
      pose proof (boot_blocked _ _ _ _ G E). subst k. cbn in E. injection E as <-. reflexivity.
    - exfalso. rewrite V in U. destruct U as [U|U]; [congruence|]. lia. }
  rewrite F, X. split; [split; [exact V|split; [exact T|exact I]]|].
  intros N. destruct (is_open _) eqn:O; [|reflexivity]. exfalso. pose proof (proj1 (c43_version _ _ _ O)) as W. rewrite F, X in W. congruence.
Qed.
