(** Proofs about the lookup tool, continued: answers, and what holds in every state (C58). *)
From Verif Require Import Base PeerId DbProofs Db Auth Gsup Router Ctrl MsLookup Mdns MsClient MsClientSpec MsClientThms MsClientThms2 MsTool MsToolSpec MsToolThms.
Local Open Scope N_scope.

Fixpoint out_ok (l : list tout) : Prop :=
  match l with
  | [] => True
  | OMsg i _ :: r | OClose i :: r => ~ In (OClose i) r /\ out_ok r
  | OLine _ :: r => out_ok r
  end.
(** ** Sending an answer to the socket clients *)
Record responded (l : list tclient) (q text : string) (fin : bool) (s s' : tst) : Prop := mk_responded {
  p_cl : t_cl s' = t_cl s; p_qs : t_qs s' = t_qs s; p_next : t_next s' = t_next s;
  p_cls : forall k, In k (t_cls s') <-> In k (t_cls s) /\ ~ (fin = true /\ k_str k = q /\ In k l);
  p_nd : NoDup (map k_id (t_cls s'));
  p_hit : forall k, In k l -> k_str k = q -> sent (k_id k) (t_out s') = text :: sent (k_id k) (t_out s);
  p_miss : forall i, ~ In (mk_tclient i q) l -> sent i (t_out s') = sent i (t_out s);
  p_closed : forall i, In (OClose i) (t_out s') <-> In (OClose i) (t_out s) \/ (fin = true /\ In (mk_tclient i q) l);
  p_msg : forall i t, In (OMsg i t) (t_out s') -> In (OMsg i t) (t_out s) \/ (t = text /\ In (mk_tclient i q) l);
  p_out : out_ok (t_out s) -> (forall k, In k l -> ~ In (OClose (k_id k)) (t_out s)) -> out_ok (t_out s') }.
Lemma filter_nodup {A B} (f : A -> B) g (l : list A) : NoDup (map f l) -> NoDup (map f (filter g l)).
Proof.
  induction l as [|a l IH]; cbn; auto. intros N. inversion N as [|? ? Ni Nd]; subst. destruct (g a); cbn; auto. constructor; auto.
  intros H. apply Ni. apply in_map_iff in H as (x & E & H). apply filter_In in H as [H _]. apply in_map_iff. exists x. auto.
Qed.
Lemma client_eta k q : k_str k = q -> k = mk_tclient (k_id k) q.
Proof. destruct k. cbn. intros ->. reflexivity. Qed.
Lemma respond_clients_spec q text fin l : forall s, NoDup (map k_id l) -> NoDup (map k_id (t_cls s)) -> (forall k, In k l -> In k (t_cls s)) -> responded l q text fin s (respond_clients l q text fin s).
Proof.
  induction l as [|k l IH]; intros s Nl Ns Sub; cbn [respond_clients].
  { constructor; auto; cbn; intros; tauto. }
  cbn in Nl. inversion Nl as [|? ? Ni Nd]; subst.
  assert (Other : forall k', In k' l -> k_id k' <> k_id k) by (intros k' I' E; apply Ni; rewrite <- E; apply in_map; auto).
  destruct (String.eqb_spec q (k_str k)) as [Q|Q].
  2:{ destruct (IH s Nd Ns) as [A B C D E F G H M O]; [intros; apply Sub; right; auto|]. constructor; auto.
      - intros k'. rewrite D. split; intros [X Y]; split; auto; intros (Z1 & Z2 & Z3); apply Y; split; auto; split; auto; [destruct Z3 as [<-|Z3]; [congruence|auto]|right; auto].
      - intros k' [<-|I'] E'; [congruence|auto].
      - intros i X. apply G. intros Y. apply X. right. auto.
      - intros i. rewrite H. split; intros [X|[X Y]]; auto; right; split; auto; [right; auto|]. destruct Y as [Y|Y]; auto. subst k. cbn in Q. congruence.
      - intros i t X. destruct (M _ _ X) as [Y|[Y Z]]; auto. right. split; auto. right. auto.
      - intros O1 O2. apply O; auto. intros k' I'. apply O2. right. auto. }
  pose proof (client_eta k q (eq_sym Q)) as Ek. set (i := k_id k) in *.
  assert (Ki : forall j, In (mk_tclient j q) (k :: l) <-> j = i \/ In (mk_tclient j q) l).
  { intros j. cbn. rewrite Ek. split; intros [X|X]; auto; [injection X as ->; auto|subst j; auto]. }
  destruct fin.
  - set (s1 := close_client (t_put s (OMsg i text)) i).
    assert (Cl1 : forall k', In k' (t_cls s1) <-> In k' (t_cls s) /\ k_id k' <> i).
    { intros k'. cbn. rewrite filter_In. rewrite negb_true_iff, N.eqb_neq. tauto. }
    destruct (IH s1 Nd) as [A B C D E F G H M O].
    { cbn. apply filter_nodup. auto. }
    { intros k' I'. apply Cl1. split; [apply Sub; right; auto|apply Other; auto]. }
    constructor; auto.
    + intros k'. rewrite D, Cl1. split.
      * intros [[X X'] Y]. split; auto. intros (_ & Z2 & [<-|Z3]); [contradiction|]. apply Y. auto.
      * intros [X Y]. split; [split; auto|].
        -- intros Z. apply Y. split; auto.
           assert (k' = k). { apply (nodup_inj k_id (t_cls s)); auto. apply Sub. left. auto. } subst k'. split; auto. left. auto.
        -- intros (_ & Z2 & Z3). apply Y. split; auto. split; auto. right. auto.
    + intros k' [<-|I'] E'.
      * fold i. rewrite G. { cbn. rewrite N.eqb_refl. reflexivity. } intros X. apply (Other _ X). reflexivity.
      * rewrite F; auto. f_equal. cbn. destruct (N.eqb_spec i (k_id k')) as [Z|]; auto. exfalso. apply (Other _ I'). auto.
    + intros j X. rewrite G. { cbn. destruct (N.eqb_spec i j) as [Z|]; auto. exfalso. apply X, Ki. auto. } intros Y. apply X. right. auto.
    + intros j. rewrite H, Ki. cbn. split; [intros [[X|[X|X]]|[X Y]]; auto; [injection X as <-; auto|discriminate]|intros [X|[X [Y|Y]]]; auto; subst; auto].
    + intros j t X. rewrite Ki. destruct (M _ _ X) as [[Y|[Y|Y]]|[Y Z]]; auto; [discriminate|]. injection Y as <- <-. auto.
    + intros O1 O2. assert (Nc : ~ In (OClose i) (t_out s)) by (apply (O2 k); left; auto). apply O.
      * cbn. split; [intros [X|X]; [discriminate|auto]|]. split; auto.
      * intros k' I' X. cbn in X. destruct X as [X|[X|X]]; [injection X as X; apply (Other _ I'); auto|discriminate|]. apply (O2 k'); [right|]; auto.
  - set (s1 := t_put s (OMsg i text)). destruct (IH s1 Nd) as [A B C D E F G H M O]; auto; [intros k' I'; apply Sub; right; auto|].
    constructor; auto.
    + intros k'. rewrite D. cbn. split; intros [X Y]; split; auto; intros (Z & _); discriminate.
    + intros k' [<-|I'] E'.
      * fold i. rewrite G. { cbn. rewrite N.eqb_refl. reflexivity. } intros X. apply (Other _ X). reflexivity.
      * rewrite F; auto. f_equal. cbn. destruct (N.eqb_spec i (k_id k')) as [Z|]; auto. exfalso. apply (Other _ I'). auto.
    + intros j X. rewrite G. { cbn. destruct (N.eqb_spec i j) as [Z|]; auto. exfalso. apply X, Ki. auto. } intros Y. apply X. right. auto.
    + intros j. rewrite H. cbn. split; [intros [[X|X]|[X Y]]; auto; discriminate|intros [X|[X Y]]; auto; discriminate].
    + intros j t X. rewrite Ki. destruct (M _ _ X) as [[Y|Y]|[Y Z]]; auto. injection Y as <- <-. auto.
    + intros O1 O2. assert (Nc : ~ In (OClose i) (t_out s)) by (apply (O2 k); left; auto). apply O.
      * cbn. split; auto.
      * intros k' I' X. cbn in X. destruct X as [X|X]; [discriminate|]. apply (O2 k'); [right|]; auto.
Qed.
Lemma respond_spec o s q r : NoDup (map k_id (t_cls s)) -> responded (t_cls s) q (format o q r) (is_final r) s (respond o s q r).
Proof.
  intros Nd. unfold respond. set (s1 := t_put s (OLine (format o q r))).
  destruct (respond_clients_spec q (format o q r) (is_final r) (t_cls s1) s1) as [A B C D E F G H M O]; auto.
  set (s2 := respond_clients _ _ _ _ _) in *. cbn [t_cls s1 t_put] in D, F, G, H, M, O.
  assert (T : forall s3, t_cl s3 = t_cl s2 -> t_qs s3 = t_qs s2 -> t_next s3 = t_next s2 -> t_cls s3 = t_cls s2 -> t_out s3 = t_out s2 -> responded (t_cls s) q (format o q r) (is_final r) s s3).
  { intros s3 E1 E2 E3 E4 E5. constructor; rewrite ?E1, ?E2, ?E3, ?E4, ?E5; auto.
    - intros i. rewrite H. cbn. split; intros [X|X]; auto. destruct X as [X|X]; [discriminate|auto].
    - intros i t X. destruct (M _ _ X) as [[Y|Y]|Y]; auto. discriminate.
    - intros O1 O2. apply O; auto. intros k I [X|X]; [discriminate|]. exact (O2 _ I X). }
  destruct (is_final r); apply T; reflexivity.
Qed.

(** ** What holds between events *)
Record binv (s : tst) : Prop := mk_binv {
  v_reach : creach (t_cl s); v_short : short (t_cl s); v_unc : uncancelled (t_cl s); v_stack : c_stack (t_cl s) = []; v_uid : c_uid (t_cl s) <= 4294967295;
  v_qs : forall h d, In (h, d) (t_qs s) -> exists u q, In (u, h, q) (keys (t_cl s)) /\ query_init d = inl q;
  v_keys : forall u h q, In (u, h, q) (keys (t_cl s)) -> exists d, In (h, d) (t_qs s);
  v_nd : NoDup (map fst (t_qs s));
  v_ids : NoDup (map k_id (t_cls s));
  v_lt : forall k, In k (t_cls s) -> k_id k < t_next s;
  v_msg : forall i t, In (OMsg i t) (t_out s) -> i < t_next s;
  v_gone : forall i, closed i s -> i < t_next s /\ forall d, ~ connected s i d;
  v_live : forall i, i < t_next s -> closed i s \/ exists d, connected s i d;
  v_out : out_ok (t_out s) }.
(** every client that has asked something other than [d0] waits for an answer that will come *)
Definition waits (s : tst) (d0 : string) : Prop := forall k, In k (t_cls s) -> k_str k <> "" -> k_str k <> d0 -> exists h, In (h, k_str k) (t_qs s).
Definition tinv (s : tst) : Prop := binv s /\ waits s "".

Lemma init_tinv o : tinv (match o_fmt o with Csv => if o_head o then t_put t_init (OLine CSV_HEADERS) else t_init | Json => t_init end).
Proof.
  assert (B : binv t_init).
  { constructor; cbn; try tauto; try constructor; try lia; try (intros ? []).
    - left. auto.
    - split; intros ? [].
    - destruct H. }
  assert (T : tinv t_init) by (split; [auto|intros k []]).
  destruct (o_fmt o); auto. destruct (o_head o); auto. destruct B. split; [constructor; auto|intros k []].
  - intros i t [H|[]]. discriminate.
  - intros i [H|[]]. discriminate.
  - cbn. intros. lia.
Qed.
Lemma respond_binv o s q r : binv s -> binv (respond o s q r).
Proof.
  intros B. pose proof (respond_spec o s q r (v_ids _ B)) as [A1 A2 A3 A4 A5 A6 A7 A8 A9 A10]. destruct B. constructor; rewrite ?A1, ?A2, ?A3; auto.
  - intros k I. apply A4 in I as [I _]. auto.
  - intros i t I. apply A9 in I as [I|[_ I]]; [eauto|]. apply (v_lt0 _ I).
  - intros i C. unfold closed in C. apply A8 in C as [C|[Fn C]].
    + destruct (v_gone0 _ C) as [X Y]. split; auto. intros d Z. apply A4 in Z as [Z _]. exact (Y _ Z).
    + split; [apply (v_lt0 _ C)|]. intros d Z. apply A4 in Z as [Z1 Z2].
      assert (E : mk_tclient i d = mk_tclient i q) by (apply (nodup_inj k_id (t_cls s)); auto). injection E as ->. apply Z2. auto.
  - intros i L. unfold closed. destruct (v_live0 _ L) as [C|[d C]]; [left; apply A8; auto|].
    destruct (is_final r) eqn:Fn.
    + destruct (string_dec d q) as [->|D]; [left; apply A8; auto|]. right. exists d. apply A4. split; auto. intros (_ & Z & _). cbn in Z. contradiction.
    + right. exists d. apply A4. split; auto. intros (Z & _). discriminate.
  - apply A10; auto. intros k I C. destruct (v_gone0 _ C) as [_ X]. apply (X (k_str k)). unfold connected. rewrite <- (client_eta k (k_str k) eq_refl). auto.
Qed.
Lemma keys_handle c u h q u' q' : cinv c -> In (u, h, q) (keys c) -> In (u', h, q') (keys c) -> u' = u /\ q' = q.
Proof.
  intros I K K'. unfold keys in *. apply in_map_iff in K as (r & E & Ir). apply in_map_iff in K' as (r' & E' & Ir'). unfold key in *. injection E as <- <- <-. injection E' as <- E2 <-.
  assert (r' = r) by (apply (nodup_inj q_handle (c_reqs c)); auto; exact (i_hnd _ I)). subst. auto.
Qed.
Lemma keys_uid c u h q h' q' : cinv c -> In (u, h, q) (keys c) -> In (u, h', q') (keys c) -> h' = h /\ q' = q.
Proof.
  intros I K K'. unfold keys in *. apply in_map_iff in K as (r & E & Ir). apply in_map_iff in K' as (r' & E' & Ir'). unfold key in *. injection E as <- <- <-. injection E' as E2 <- <-.
  assert (r' = r) by (apply (nodup_inj q_uid (c_reqs c)); auto; exact (i_uid _ I)). subst. auto.
Qed.
Lemma find_query l h d : NoDup (map fst l) -> In (h, d) l -> find (fun e => fst e =? h) l = Some (h, (d : string)).
Proof.
  intros N I. destruct (find _ l) as [[h' d']|] eqn:F.
  - apply find_some in F as [I' E]. apply N.eqb_eq in E. cbn in E. subst h'. f_equal. apply (nodup_inj fst l); auto.
  - exfalso. apply (find_none _ _ F) in I. cbn in I. rewrite N.eqb_refl in I. discriminate.
Qed.
Lemma query_del_in h l : NoDup (map fst l) -> forall e, In e (query_del h l) <-> In e l /\ fst e <> h.
Proof.
  induction l as [|[h' q] l IH]; cbn; [tauto|]. intros N e. inversion N as [|? ? Ni Nd]; subst. destruct (N.eqb_spec h' h) as [->|D].
  - split; [intros H; split; auto; intros E; apply Ni; rewrite <- E; apply in_map; auto|]. intros [[<-|H] E]; auto. contradiction.
  - cbn. rewrite IH by auto. split; [intros [<-|[H E]]; auto|]. intros [[<-|H] E]; auto.
Qed.
Lemma query_del_nd h l : NoDup (map fst l) -> NoDup (map fst (query_del h l)).
Proof.
  induction l as [|[h' q] l IH]; cbn; auto. intros N. inversion N as [|? ? Ni Nd]; subst. destruct (N.eqb_spec h' h); auto. cbn. constructor; auto.
  intros H. apply in_map_iff in H as ([h2 q2] & E & H). apply query_del_in in H as [H _]; auto. apply Ni. apply in_map_iff. exists (h2, q2). auto.
Qed.
