(** The invariant for C75. *)
From Verif Require Import Base Gsup Client CtrlSpec TestClient TestSpec TestThms.
Local Open Scope Z_scope.

Definition asked (n : nat) : list string := map (fun k => imsi_at (N.of_nat k)) (seq 0 n).
Lemma asked_S n : asked (S n) = asked n ++ [imsi_at (N.of_nat n)].
Proof. unfold asked. rewrite seq_S, map_app. reflexivity. Qed.
Lemma asked_len n : length (asked n) = n.
Proof. unfold asked. now rewrite map_length, seq_length. Qed.
Lemma asked_in n x : In x (asked n) <-> exists k, (k < n)%nat /\ x = imsi_at (N.of_nat k).
Proof.
  unfold asked. rewrite in_map_iff. split.
  - intros (k & <- & M). apply in_seq in M. exists k. split; auto. lia.
  - intros (k & L & ->). exists k. split; auto. apply in_seq. lia.
Qed.

Definition open_ops (t : op_type) (l : list op) : nat := length (filter (fun o => op_eqb (p_type o) t) l).
Definition gc_ok (s : tc) : Prop := match t_gc s with Some c => conn_ok c | None => True end.
Definition stats_are (x : stats) (a r s e : nat) : Prop :=
  counts (n_alloc x) a /\ counts (n_released x) r /\ counts (n_success x) s /\ counts (n_error x) e /\ n_timeout x = 0%N.
Record tinv (enc : Z -> string -> bool) (s : tc) (tr : ttrace) : Prop := mk_tinv {
  v_gc : gc_ok s;
  v_max : (t_i s <= 10000)%N;
  v_asked : tried 8 tr = asked (N.to_nat (t_i s));
  v_once : NoDup (tried 4 tr);
  v_sub : incl (tried 4 tr) (tried 8 tr);
  v_ops : NoDup (t_ops s);
  v_sai : forall x, In (mk_op x OpSai) (t_ops s) <-> awaits_info x tr;
  v_lu : forall x, In (mk_op x OpLu) (t_ops s) <-> awaits_update x tr;
  v_isd : forall x, In (mk_op x OpIsd) (t_ops s) <-> stuck_insert enc x tr;
  v_ssai : stats_are (t_sai s) (length (tried 8 tr)) (handled [9; 10] tr) (handled [10] tr) (handled [9] tr);
  v_slu : stats_are (t_lu s) (length (tried 4 tr)) (handled [5; 6] tr) (handled [6] tr) (handled [5] tr);
  v_sisd : stats_are (t_isd s) (handled [16] tr) (length (given 18 tr)) (handled [16] tr) 0;
  v_osai : length (tried 8 tr) = (handled [9; 10]%Z tr + open_ops OpSai (t_ops s))%nat;
  v_olu : length (tried 4 tr) = (handled [5; 6]%Z tr + open_ops OpLu (t_ops s))%nat;
  v_oisd : handled [16]%Z tr = (length (given 18 tr) + open_ops OpIsd (t_ops s))%nat;
  v_each : length (tried 4 tr) = handled [9; 10] tr }.

(** an event of which nothing comes but outputs without messages *)
Lemma tinv_quiet enc s s' tr e o : tinv enc s tr -> gc_ok s' -> t_ops s' = t_ops s -> t_sai s' = t_sai s -> t_lu s' = t_lu s -> t_isd s' = t_isd s -> t_i s' = t_i s ->
  tried_out 8 o = [] -> tried_out 4 o = [] -> sent_out 18 o = [] -> existsb (fun o => match o with TFreed => true | _ => false end) o = false ->
  (forall x, lu_answer x e -> ~ awaits_update x tr) -> (forall x, e = TRx (Some (x, 16)) -> x <> ""%string -> stuck_insert enc x tr) -> tinv enc s' (tr ++ [(e, o)]).
Proof.
  intros V G E1 E2 E3 E4 E5 T8 T4 S18 NF NL NI.
  assert (H : forall ts, took ts (e, o) = false).
  { intros ts. unfold took. cbn [fst snd]. rewrite NF. destruct e as [| |[[x t]|]]; auto. apply andb_false_r. }
  destruct V. constructor; rewrite ?E1, ?E2, ?E3, ?E4, ?E5, ?tried_snoc, ?given_snoc, ?handled_snoc, ?H, ?T8, ?T4, ?S18, ?app_nil_r, ?Nat.add_0_r; auto.
  - intros x. unfold awaits_info. rewrite !tried_snoc, T8, T4, !app_nil_r. apply v_sai0.
  - intros x. rewrite awaits_none by auto. rewrite v_lu0. split; [intros A; split; auto; intros L; now apply (NL x L)|tauto].
  - intros x. rewrite v_isd0. unfold stuck_insert. rewrite map_app, in_app_iff. cbn [map fst In]. split; [tauto|]. intros (A & B & [C|[C|[]]]); auto.
    apply NI; auto.
Qed.

Lemma send_shape t x s : exists s' n, send t x s = (match t_gc s with Some c => c_conn c | None => false end, s', [TSend n t x (match t_gc s with Some c => c_conn c | None => false end)]) /\
  t_ops s' = t_ops s /\ t_sai s' = t_sai s /\ t_lu s' = t_lu s /\ t_isd s' = t_isd s /\ t_i s' = t_i s /\ (gc_ok s -> gc_ok s').
Proof.
  unfold send. destruct s as [[c|] ops a b d i n]; cbn [t_gc with_nr t_nr].
  - destruct (osmo_gsup_client_send n c) as [c' o] eqn:E. eexists _, n. split; [reflexivity|]. cbn. repeat (split; [reflexivity|]). intros K.
    assert (X : cstep 0 (env 0) (CSend n) c = Some (c', o)) by (cbn [cstep]; now rewrite E). unfold gc_ok in *. cbn in *. exact (cstep_conn 0 (env 0) (CSend n) _ _ _ K X).
  - eexists _, n. split; [reflexivity|]. cbn. auto 10.
Qed.
Definition is_up (s : tc) : bool := match t_gc s with Some c => c_conn c | None => false end.
Lemma encode_shape enc t x s : exists b s' o, encode_send enc t x s = (b, s', o) /\ one_try enc t x (is_up s) o /\
  t_ops s' = t_ops s /\ t_sai s' = t_sai s /\ t_lu s' = t_lu s /\ t_isd s' = t_isd s /\ t_i s' = t_i s /\ (gc_ok s -> gc_ok s').
Proof.
  unfold encode_send, one_try. destruct (enc t x).
  - destruct (send_shape t x s) as (s' & n & -> & R). eexists _, s', _. split; [reflexivity|]. split; auto. now exists n.
  - eexists _, s, _. split; [reflexivity|]. split; auto 10.
Qed.
Lemma one_tried enc t x u o t' : one_try enc t x u o -> tried_out t' o = if t =? t' then [x] else [].
Proof. unfold one_try. destruct (enc t x); [intros [n ->]|intros ->]; cbn; destruct (t =? t'); reflexivity. Qed.
Lemma one_given enc t x u o t' : one_try enc t x u o -> t <> t' -> sent_out t' o = [].
Proof. unfold one_try. intros H N. apply Z.eqb_neq in N. destruct (enc t x); [destruct H as [n ->]|subst o]; cbn; rewrite ?N; reflexivity. Qed.
Lemma open_drop x t l : NoDup l -> In (mk_op x t) l -> forall t', (open_ops t' (drop_op (is_op x t) l) + if op_eqb t t' then 1 else 0)%nat = open_ops t' l.
Proof.
  intros D M t'. unfold open_ops. induction l as [|a l IH]; [destruct M|]. cbn [drop_op]. destruct (is_op x t a) eqn:E.
  - apply is_op_iff in E. subst a. cbn [filter p_type]. destruct (op_eqb t t'); cbn [length]; lia.
  - inversion D; subst. assert (In (mk_op x t) l) as M'. { destruct M as [->|M]; auto. rewrite (proj2 (is_op_iff x t _) eq_refl) in E. discriminate. }
    cbn [filter]. destruct (op_eqb (p_type a) t'); cbn [length]; rewrite <- IH; auto; lia.
Qed.
Lemma tried_free t o : tried_out t (o ++ [TFreed]) = tried_out t o.
Proof. unfold tried_out. rewrite flat_map_app. cbn. now rewrite app_nil_r. Qed.
Lemma sent_free t o : sent_out t (o ++ [TFreed]) = sent_out t o.
Proof. unfold sent_out. rewrite flat_map_app. cbn. now rewrite app_nil_r. Qed.
Lemma took_free ts x t o : took ts (TRx (Some (x, t)), o ++ [TFreed]) = existsb (Z.eqb t) ts.
Proof. unfold took. cbn [fst snd]. rewrite existsb_app. cbn [existsb]. rewrite orb_true_r. apply andb_true_r. Qed.
Lemma counts_if n k (b : bool) : counts n k -> counts (if b then inc n else n) (k + if b then 1 else 0).
Proof. destruct b; [apply counts_inc|apply counts_same]. Qed.
