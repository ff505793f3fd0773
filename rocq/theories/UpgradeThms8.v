(** Proofs for C43: the columns of a database that is opened. *)
From Verif Require Import Base Upgrade UpgradeSpec.
Local Open Scope string_scope. Local Open Scope list_scope.

Lemma prepared ns : forall l f f', prepare_all ns l f = Opened f' -> f' = f /\ forall n, In n ns -> prepare f n = true.
Proof.
  induction ns as [|n ns IH]; intros l f f'; cbn [prepare_all].
  - intros [= <-]. split; [auto|]. intros n [].
  - destruct (hd FOk l); try discriminate. destruct (prepare f n) eqn:P; [|discriminate]. intros H. destruct (IH _ _ _ H) as [-> A]. split; auto. intros m [<-|J]; auto.
Qed.
Lemma version_prepared allow v b l c f' : db_open_version allow v b l c = Opened f' -> forall n, In n stmt_sql -> prepare f' n = true.
Proof.
  unfold db_open_version. destruct (if b then _ else _) as [c1 l1|c1 l1|c1]; try discriminate. cbv zeta. destruct (if allow && _ then _ else _) as [c2 l2|c2 l2|c2]; try discriminate.
  destruct (negb _); [discriminate|]. intros H. apply prepared in H as [-> A]. exact A.
Qed.
Lemma open_prepared allow l f f' : db_open allow l f = Opened f' -> forall n, In n stmt_sql -> prepare f' n = true.
Proof.
  unfold db_open. destruct (hd FOk l); try discriminate. cbv zeta. set (l1 := List.tl l). clearbody l1.
  assert (X : forall g, match hd FOk (List.tl l1) with
      | FOk => if (f_version g <? 0)%Z then Refused g else if (f_version g =? 0)%Z then
          match hd FOk (List.tl (List.tl l1)) with
          | FOk => db_open_version allow (f_version g) (negb (if get_tab (f_tabs g) "subscriber" then true else false)) (List.tl (List.tl (List.tl l1))) (conn_open g)
          | FErr => db_open_version allow (f_version g) true (List.tl (List.tl (List.tl l1))) (conn_open g)
          | FCrash => Died g end
        else db_open_version allow (f_version g) false (List.tl (List.tl l1)) (conn_open g)
      | FErr => Refused g | FCrash => Died g end = Opened f' -> forall n, In n stmt_sql -> prepare f' n = true).
  { intros g. destruct (hd FOk (List.tl l1)); try discriminate. destruct (_ <? 0)%Z; [discriminate|]. destruct (_ =? 0)%Z; [|apply version_prepared].
    destruct (hd FOk (List.tl (List.tl l1))); try discriminate; apply version_prepared. }
  destruct (hd FOk l1); try discriminate; [exact (X (with_wal f))|exact (X f)].
Qed.
Lemma pos_in cs n : forall i, col_pos cs n = Some i -> exists c, In c cs /\ c_name c = n.
Proof.
  induction cs as [|c cs IH]; cbn [col_pos]; [discriminate|]. intros i. destruct (String.eqb_spec (c_name c) n) as [E|E].
  - intros _. exists c. split; [left; auto|auto].
  - destruct (col_pos cs n) as [j|]; [|discriminate]. intros _. destruct (IH j eq_refl) as (c' & J & X). exists c'. split; [right; auto|auto].
Qed.
Definition names_it (q : string * string) (n : need) : bool :=
  match d_tabs n with [t] => (t =? fst q)%string && existsb (String.eqb (snd q)) (d_cols n) | _ => false end.
Lemma used_named : forall q, In q columns_used -> exists n, In n stmt_sql /\ names_it q n = true.
Proof.
  assert (H : forallb (fun q => existsb (names_it q) stmt_sql) columns_used = true) by (vm_compute; reflexivity).
  intros q J. apply (proj1 (forallb_forall _ _) H) in J. apply existsb_exists in J. exact J.
Qed.
Lemma opened_columns allow l f f' : db_open allow l f = Opened f' -> forall t n, In (t, n) columns_used ->
  exists x, get_tab (f_tabs f') t = Some x /\ exists c, In c (t_cols x) /\ c_name c = n.
Proof.
  intros O t n J. destruct (used_named _ J) as (m & M & Q). pose proof (open_prepared _ _ _ _ O m M) as P. unfold names_it in Q. cbn [fst snd] in Q.
  unfold prepare in P. apply andb_true_iff in P as [P _]. apply andb_true_iff in P as [_ P]. destruct (d_tabs m) as [|t' [|]]; try discriminate.
  apply andb_true_iff in Q as [E Q]. apply String.eqb_eq in E. subst t'. apply existsb_exists in Q as (n' & Q & E). apply String.eqb_eq in E. subst n'.
  apply (proj1 (forallb_forall _ _) P) in Q. unfold count_col in Q. cbn [filter] in Q. destruct (get_tab (f_tabs f') t) as [x|]; [|discriminate]. exists x. split; auto.
  destruct (has_col (t_cols x) n) eqn:H; [|discriminate]. unfold has_col in H. destruct (col_pos (t_cols x) n) as [i|] eqn:C; [|discriminate]. exact (pos_in _ _ _ C).
Qed.
