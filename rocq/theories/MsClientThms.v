(** Proofs about the lookup client (C35, C36). *)
From Verif Require Import Base MsLookup Mdns MsClient MsClientSpec.
Local Open Scope N_scope.

Definition got (u : N) (h : list note) (x : lresult) : Prop := exists q t, In (TRes u q RcResult x t) h.
Definition best (u : N) (h : list note) (rc : rcode) (x : lresult) : Prop :=
  (rc = RcNone /\ forall y, ~ got u h y) \/ (rc = RcResult /\ 0 < lr_age x /\ got u h x /\ forall y, got u h y -> lr_age x <= lr_age y).
Definition told (u : N) (h : list note) (rc : rcode) (x : lresult) : Prop :=
  (forall rc' y l t, In (TCall u rc' y l t) h -> rc' = RcResult /\ rc = RcResult /\ lr_age x <= lr_age y) /\
  (rc = RcResult -> exists t, In (TCall u RcResult x false t) h).
Definition rinv (h : list note) (now : N) (st : list frame) (r : req) : Prop :=
  let u := q_uid r in
  exists t0, In (TStart u (q_query r) (q_min r) (q_tmo r) t0) h /\ ~ cancelled u h /\ q_tmo r <> 0 /\
  ((exists f, st = [f] /\ f_finish f = true /\ f_handle f = q_handle r) \/
   (~ final_call u h /\ best u h (q_rc r) (q_res r) /\
    ((q_waiting r = true /\ q_min r <> 0 /\ q_timer r = Some (t0 + q_min r) /\ forall rc y l t, ~ In (TCall u rc y l t) h) \/
     (q_waiting r = false /\ t0 + q_min r <= now /\ (q_min r = 0 \/ q_min r < q_tmo r) /\ told u h (q_rc r) (q_res r) /\
      ((exists d, q_timer r = Some d /\ t0 + q_tmo r <= d) \/ st = [mk_frame (q_handle r) false (ATimer u (q_tmo r - q_min r))]))))).

Definition legal (n : note) (b : list note) : Prop :=
  match b with TRes u q RcResult x t :: _ => lr_age x = 0 -> n = TCall u RcResult x true t | _ => True end /\
  match n with
  | TStart u _ _ tmo _ => (forall m, In m b -> note_uid m <> u) /\ tmo <> 0
  | TRes u q _ _ _ => ~ final_call u b /\ ~ cancelled u b /\ exists mn tm t0, In (TStart u q mn tm t0) b
  | TCancel u _ => ~ cancelled u b /\ exists q mn tm t0, In (TStart u q mn tm t0) b
  | TCall u rc x last t => ~ final_call u b /\ ~ cancelled u b /\
      exists q mn tm t0, In (TStart u q mn tm t0) b /\
      match rc with
      | RcResult => got u b x /\ (forall rc' y l t', In (TCall u rc' y l t') b -> rc' = RcResult /\ lr_age x < lr_age y) /\ (lr_age x = 0 \/ t0 + mn <= t) /\
                    (last = true <-> lr_age x = 0 \/ tm <= mn)
      | RcNotFound => last = true /\ (forall y, ~ got u b y) /\ t0 + mn <= t /\ t0 + tm <= t
      | RcNone => last = true /\ (exists y t', In (TCall u RcResult y false t') b) /\ t0 + mn <= t /\ t0 + tm <= t
      end /\
      (last = true -> forall y, got u b y -> exists x' l t', In (TCall u RcResult x' l t') (n :: b) /\ lr_age x' <= lr_age y)
  end.
Fixpoint tr_ok (tr : list note) : Prop := match tr with [] => True | n :: b => legal n b /\ tr_ok b end.
Definition settled (tr : list note) : Prop := match tr with TRes u q RcResult x t :: _ => lr_age x <> 0 | _ => True end.

Definition of (u : N) (tr : list note) : list note := filter (fun n => note_uid n =? u) tr.
Lemma in_of u tr n : In n (of u tr) <-> In n tr /\ note_uid n = u.
Proof. unfold of. rewrite filter_In, N.eqb_eq. tauto. Qed.
Lemma of_cons_other u n tr : note_uid n <> u -> of u (n :: tr) = of u tr.
Proof. intros N. cbn. destruct (N.eqb_spec (note_uid n) u); [contradiction|auto]. Qed.
Lemma of_cons u n tr : note_uid n = u -> of u (n :: tr) = n :: of u tr.
Proof. intros N. cbn. destruct (N.eqb_spec (note_uid n) u); [auto|contradiction]. Qed.

Definition frame_inv (s : cst) : Prop :=
  match c_stack s with
  | [] => True
  | [f] => (f_finish f = true -> forall r, In r (c_reqs s) -> q_handle r = f_handle f -> final_call (q_uid r) (c_trace s)) /\
           match f_after f with
           | ADone => True
           | ATimer u ms => f_finish f = false /\ u < c_uid s /\ forall r, In r (c_reqs s) -> q_uid r = u -> ms = q_tmo r - q_min r /\ q_handle r = f_handle f /\ q_waiting r = false
           | ARequest _ => False
           end
  | _ => False
  end.
Record cinv (s : cst) : Prop := mk_cinv {
  i_uid : NoDup (map q_uid (c_reqs s));
  i_uid_lt : forall r, In r (c_reqs s) -> q_uid r < c_uid s;
  i_note_lt : forall n, In n (c_trace s) -> note_uid n < c_uid s;
  i_hnd : NoDup (map q_handle (c_reqs s));
  i_hnd0 : forall r, In r (c_reqs s) -> q_handle r <> 0;
  i_req : forall r, In r (c_reqs s) -> rinv (of (q_uid r) (c_trace s)) (c_now s) (c_stack s) r;
  i_frame : frame_inv s;
  i_ok : tr_ok (c_trace s);
  i_set : settled (c_trace s);
  i_dead : forall u q mn tm t0, In (TStart u q mn tm t0) (c_trace s) -> open u s \/ final_call u (c_trace s) \/ cancelled u (c_trace s);
  i_mdns : c_mdns s = rev (map (fun r => (q_handle r, q_query r)) (c_reqs s)) }.

(** ** Lists of requests *)
Lemma nodup_inj {A B} (f : A -> B) l x y : NoDup (map f l) -> In x l -> In y l -> f x = f y -> x = y.
Proof.
  induction l as [|a l IH]; cbn; [tauto|]. intros N X Y E. inversion N as [|? ? Ni Nd]; subst. destruct X as [->|X], Y as [->|Y]; auto.
  - exfalso. apply Ni. rewrite E. apply in_map. auto.
  - exfalso. apply Ni. rewrite <- E. apply in_map. auto.
Qed.
Definition swap (r : req) (l : list req) : list req := map (fun r' => if q_uid r' =? q_uid r then r else r') l.
Lemma swap_in r0 r l r' : NoDup (map q_uid l) -> In r0 l -> q_uid r0 = q_uid r -> In r' (swap r l) <-> r' = r \/ (In r' l /\ q_uid r' <> q_uid r).
Proof.
  intros N I E. unfold swap. rewrite in_map_iff. split.
  - intros (x & Ex & Ix). destruct (N.eqb_spec (q_uid x) (q_uid r)); subst; auto.
  - intros [-> |[I' D]].
    + exists r0. rewrite E, N.eqb_refl. auto.
    + exists r'. destruct (N.eqb_spec (q_uid r') (q_uid r)); [contradiction|auto].
Qed.
Lemma swap_map {B} (f : req -> B) r0 r l : NoDup (map q_uid l) -> In r0 l -> q_uid r0 = q_uid r -> f r0 = f r -> map f (swap r l) = map f l.
Proof.
  intros N I E F. unfold swap. rewrite map_map. apply map_ext_in. intros a Ia. destruct (N.eqb_spec (q_uid a) (q_uid r)) as [Q|]; [|auto].
  rewrite <- F. f_equal. apply (nodup_inj q_uid l); auto. congruence.
Qed.
Lemma find_uid l u r : find (fun r => q_uid r =? u) l = Some r -> In r l /\ q_uid r = u.
Proof. intros E. apply find_some in E as [I E]. apply N.eqb_eq in E. auto. Qed.
Lemma get_request_in s h r : get_request s h = Some r -> In r (c_reqs s) /\ q_handle r = h.
Proof. unfold get_request. destruct (h =? 0); [discriminate|]. intros E. apply find_some in E as [I E]. apply N.eqb_eq in E. auto. Qed.

(** ** Notes about others *)
Lemma rinv_stack h now st r : rinv h now [] r -> rinv h now st r.
Proof.
  intros (t0 & A & B & C & [(f & E & _)|(D & F & G)]); [discriminate|]. exists t0. do 3 (split; auto). right. split; auto. split; auto.
  destruct G as [G|(G1 & G2 & G3 & G4 & [G5|G5])]; [auto| |discriminate]. right. do 4 (split; auto).
Qed.
Lemma rinv_now h now now' r : now <= now' -> rinv h now [] r -> rinv h now' [] r.
Proof.
  intros L (t0 & A & B & C & [D|(D & F & G)]); exists t0; do 3 (split; auto). right. split; auto. split; auto.
  destruct G as [G|(G1 & G2 & G)]; [auto|]. right. split; auto. split; [lia|auto].
Qed.
Lemma legal_plain n b : settled b -> match n with
  | TStart u _ _ tmo _ => (forall m, In m b -> note_uid m <> u) /\ tmo <> 0
  | TRes u q _ _ _ => ~ final_call u b /\ ~ cancelled u b /\ exists mn tm t0, In (TStart u q mn tm t0) b
  | TCancel u _ => ~ cancelled u b /\ exists q mn tm t0, In (TStart u q mn tm t0) b
  | TCall u rc x last t => ~ final_call u b /\ ~ cancelled u b /\
      exists q mn tm t0, In (TStart u q mn tm t0) b /\
      match rc with
      | RcResult => got u b x /\ (forall rc' y l t', In (TCall u rc' y l t') b -> rc' = RcResult /\ lr_age x < lr_age y) /\ (lr_age x = 0 \/ t0 + mn <= t) /\
                    (last = true <-> lr_age x = 0 \/ tm <= mn)
      | RcNotFound => last = true /\ (forall y, ~ got u b y) /\ t0 + mn <= t /\ t0 + tm <= t
      | RcNone => last = true /\ (exists y t', In (TCall u RcResult y false t') b) /\ t0 + mn <= t /\ t0 + tm <= t
      end /\
      (last = true -> forall y, got u b y -> exists x' l t', In (TCall u RcResult x' l t') (n :: b) /\ lr_age x' <= lr_age y)
  end -> legal n b.
Proof.
  intros Se X. split; [|exact X]. destruct b as [|m b]; [auto|]. destruct m as [| ? ? rc ? ?| |]; auto. destruct rc; auto. intros Z. cbn in Se. contradiction.
Qed.
Lemma final_of u tr : final_call u (of u tr) <-> final_call u tr.
Proof. unfold final_call. split; intros (rc & x & t & I); exists rc, x, t; [apply in_of in I; tauto|apply in_of; auto]. Qed.
Lemma cancelled_of u tr : cancelled u (of u tr) <-> cancelled u tr.
Proof. unfold cancelled. split; intros (t & I); exists t; [apply in_of in I; tauto|apply in_of; auto]. Qed.
Lemma got_of u tr x : got u (of u tr) x <-> got u tr x.
Proof. unfold got. split; intros (q & t & I); exists q, t; [apply in_of in I; tauto|apply in_of; auto]. Qed.
Lemma final_cons u n tr : final_call u (n :: tr) <-> (exists rc x t, n = TCall u rc x true t) \/ final_call u tr.
Proof. unfold final_call. split; [intros (rc & x & t & [->|I]); eauto 6|intros [(rc & x & t & ->)|(rc & x & t & I)]; exists rc, x, t; cbn; auto]. Qed.
Lemma cancelled_cons u n tr : cancelled u (n :: tr) <-> (exists t, n = TCancel u t) \/ cancelled u tr.
Proof. unfold cancelled. split; [intros (t & [->|I]); eauto|intros [(t & ->)|(t & I)]; exists t; cbn; auto]. Qed.
Lemma got_cons u n tr x : got u (n :: tr) x <-> (exists q t, n = TRes u q RcResult x t) \/ got u tr x.
Proof. unfold got. split; [intros (q & t & [->|I]); eauto 6|intros [(q & t & ->)|(q & t & I)]; exists q, t; cbn; auto]. Qed.

(** ** One request changes, notes about it are added, and perhaps its callback is called *)
Lemma cinv_swap s r0 r tr st : cinv s -> c_stack s = [] -> In r0 (c_reqs s) -> q_uid r0 = q_uid r -> q_handle r0 = q_handle r -> q_query r0 = q_query r ->
  (forall u, u <> q_uid r -> of u tr = of u (c_trace s)) -> (forall n, In n tr -> In n (c_trace s) \/ note_uid n = q_uid r) ->
  (forall n, In n (c_trace s) -> In n tr) -> (forall u q mn tm t0, In (TStart u q mn tm t0) tr -> In (TStart u q mn tm t0) (c_trace s)) ->
  rinv (of (q_uid r) tr) (c_now s) st r -> tr_ok tr -> settled tr ->
  (st = [] \/ exists f, st = [f] /\ f_handle f = q_handle r /\ (f_finish f = true -> final_call (q_uid r) tr) /\
     match f_after f with ADone => True | ATimer u ms => f_finish f = false /\ u = q_uid r /\ ms = q_tmo r - q_min r /\ q_waiting r = false | ARequest _ => False end) ->
  cinv (mk_cst (swap r (c_reqs s)) (c_next s) (c_uid s) (c_mdns s) (c_now s) st tr).
Proof.
  intros I St Ir Eu Eh Eq Ho Hn Hk Hs Hr Hok Hset Hst. destruct I as [Iu Iul Inl Ih Ih0 Irq Ifr Iok Iset Idd Imd].
  pose proof (swap_in r0 r (c_reqs s)) as SI. assert (SI' : forall r', In r' (swap r (c_reqs s)) <-> r' = r \/ (In r' (c_reqs s) /\ q_uid r' <> q_uid r)) by (intros r'; apply (SI r'); auto). clear SI.
  constructor; cbn [c_reqs c_next c_uid c_mdns c_now c_stack c_trace].
  - rewrite (swap_map q_uid r0); auto.
  - intros r' H. apply SI' in H as [-> |[H _]]; auto. rewrite <- Eu. auto.
  - intros n H. apply Hn in H as [H| ->]; auto. rewrite <- Eu. auto.
  - rewrite (swap_map q_handle r0); auto.
  - intros r' H. apply SI' in H as [-> |[H _]]; auto. rewrite <- Eh. auto.
  - intros r' H. apply SI' in H as [-> |[H D]]; auto. rewrite Ho by auto. apply rinv_stack. rewrite <- St. auto.
  - unfold frame_inv. cbn [c_stack c_reqs c_trace]. destruct Hst as [-> |(f & -> & F1 & F2 & F3)]; [auto|]. split.
    + intros Ff r' H E. apply SI' in H as [-> |[H D]]; auto. exfalso. apply D. rewrite <- Eu. f_equal. apply (nodup_inj q_handle (c_reqs s)); auto. congruence.
    + destruct (f_after f); auto. destruct F3 as (F3 & -> & F4 & F5). split; auto. split; [cbn; rewrite <- Eu; auto|]. intros r' H E. apply SI' in H as [-> |[H D]]; auto. contradiction.
  - auto.
  - auto.
  - intros u q mn tm t0 H. apply Hs in H. apply Idd in H as [(r' & H & E)|[(rc & x & t & H)|(t & H)]].
    + left. destruct (N.eq_dec u (q_uid r)) as [->|D]; [exists r|exists r']; cbn; (split; [apply SI'|]); auto. right. split; auto. congruence.
    + right. left. exists rc, x, t. auto.
    + right. right. exists t. auto.
  - rewrite Imd. f_equal. symmetry. apply (swap_map (fun r => (q_handle r, q_query r)) r0); auto. congruence.
Qed.

Ltac live I Ir := let X := fresh "X" in pose proof (i_req _ I _ Ir) as X.

Lemma rx_inv s h rc x : cinv s -> c_stack s = [] -> cinv (rx_result s h rc x).
Proof.
  intros I St. unfold rx_result. destruct (get_request s h) as [r|] eqn:G; [|auto]. apply get_request_in in G as [Ir Eh].
  pose proof (i_req _ I _ Ir) as (t0 & A & B & C & [(f & E & _)|(D & F & W)]); [rewrite St in E; discriminate|].
  set (u := q_uid r) in *. set (n := TRes u (q_query r) rc x (c_now s)). set (tr := c_trace s) in *.
  rewrite cancelled_of in B. rewrite final_of in D. apply in_of in A as [A _].
  assert (On : forall m, note_uid m = u -> forall u', u' <> u -> of u' (m :: tr) = of u' tr) by (intros m Em u' Du; apply of_cons_other; congruence).
  assert (Oku : of u (n :: tr) = n :: of u tr) by (apply of_cons; auto).
  assert (Lr : legal n tr) by (apply legal_plain; [exact (i_set _ I)|]; split; auto; split; eauto).
  (* a result that changes nothing *)
  assert (Keep : (rc <> RcResult \/ (q_rc r = RcResult /\ lr_age (q_res r) <= lr_age x)) -> cinv (c_note s n)).
  { intros K. assert (P : cinv (mk_cst (swap r (c_reqs s)) (c_next s) (c_uid s) (c_mdns s) (c_now s) [] (n :: tr))).
    { apply (cinv_swap s r r); auto.
      - intros m [<-|H]; auto.
      - intros m H. right. auto.
      - intros ? ? ? ? ? [H|H]; [discriminate|auto].
      - fold u. rewrite Oku. assert (B' : best u (n :: of u tr) (q_rc r) (q_res r)).
        { destruct F as [(F1 & F2)|(F1 & F2 & F3 & F4)].
          - left. split; auto. intros y Gy. apply got_cons in Gy as [(q & t & E)|Gy]; [|exact (F2 _ Gy)]. assert (rc = RcResult) by (subst n; congruence). destruct K as [K|[K _]]; [contradiction|congruence].
          - right. do 2 (split; auto). split; [apply got_cons; auto|]. intros y Gy. apply got_cons in Gy as [(q & t & E)|Gy]; auto. assert (rc = RcResult /\ x = y) as [E1 E2] by (subst n; split; congruence). destruct K as [K|[_ K]]; [contradiction|]. rewrite <- E2. auto. }
        exists t0. split; [right; apply in_of; auto|]. split; [intros H; apply cancelled_cons in H as [(t & H)|H]; [discriminate|apply (proj1 (cancelled_of _ _)) in H; contradiction]|]. split; auto. right.
        split; [intros H; apply final_cons in H as [(? & ? & ? & H)|H]; [discriminate|apply (proj1 (final_of _ _)) in H; contradiction]|]. split; auto.
        rewrite St in W. destruct W as [(W1 & W2 & W3 & W4)|(W1 & W2 & W3 & (W4 & W5) & W6)].
        + left. do 3 (split; auto). intros rc' y l t [H|H]; [discriminate|exact (W4 _ _ _ _ H)].
        + right. do 3 (split; auto). split; auto. split; [intros rc' y l t [H|H]; [discriminate|exact (W4 _ _ _ _ H)]|]. intros Er. destruct (W5 Er) as (t & H). exists t. right. auto.
      - split; [auto|exact (i_ok _ I)].
      - cbn. destruct rc; auto. intros Z. destruct K as [K|[K1 K2]]; [congruence|]. destruct F as [(F1 & _)|(_ & F2 & _)]; [congruence|]. lia. }
    assert (Sw : swap r (c_reqs s) = c_reqs s).
    { unfold swap. rewrite <- (map_id (c_reqs s)) at 2. apply map_ext_in. intros a Ia. destruct (N.eqb_spec (q_uid a) (q_uid r)) as [Q|]; auto. apply (nodup_inj q_uid (c_reqs s)); auto. exact (i_uid _ I). }
    rewrite Sw in P. unfold c_note. rewrite St. exact P. }
  destruct rc; [apply Keep; left; discriminate| |apply Keep; left; discriminate].
  destruct (match q_rc r with RcResult => lr_age (q_res r) <=? lr_age x | _ => false end) eqn:Old.
  { apply Keep. right. destruct (q_rc r); try discriminate. apply N.leb_le in Old. auto. }
  assert (Better : forall y, got u (of u tr) y -> lr_age x < lr_age y).
  { intros y Gy. destruct F as [(F1 & F2)|(F1 & _ & _ & F4)]; [exfalso; exact (F2 _ Gy)|]. rewrite F1 in Old. apply N.leb_gt in Old. specialize (F4 _ Gy). lia. }
  assert (CallsOld : forall rc' y l t', In (TCall u rc' y l t') tr -> rc' = RcResult /\ lr_age x < lr_age y).
  { intros rc' y l t' H. assert (H' : In (TCall u rc' y l t') (of u tr)) by (apply in_of; auto). destruct W as [(_ & _ & _ & W4)|(_ & _ & _ & (W4 & _) & _)]; [exfalso; exact (W4 _ _ _ _ H')|].
    destruct (W4 _ _ _ _ H') as (R1 & R2 & R3). split; auto. rewrite R2 in Old. apply N.leb_gt in Old. lia. }
  set (r1 := q_with_result r RcResult x).
  assert (Best1 : best u (n :: of u tr) RcResult x -> True) by auto. clear Best1.
  assert (GotX : got u (n :: tr) x) by (apply got_cons; left; subst n; eauto).
  assert (Min : forall y, got u (n :: tr) y -> lr_age x <= lr_age y).
  { intros y Gy. apply got_cons in Gy as [(q & t & E)|Gy]; [assert (x = y) as -> by (subst n; congruence); lia|]. apply (proj2 (got_of _ _ _)) in Gy. specialize (Better _ Gy). lia. }
  assert (NF1 : ~ final_call u (n :: tr)) by (intros H; apply final_cons in H as [(? & ? & ? & H)|H]; [discriminate|contradiction]).
  assert (NC1 : ~ cancelled u (n :: tr)) by (intros H; apply cancelled_cons in H as [(? & H)|H]; [discriminate|contradiction]).
  (* the legal call *)
  assert (LC : forall last, (last = true <-> lr_age x = 0 \/ q_tmo r <= q_min r) -> (lr_age x = 0 \/ t0 + q_min r <= c_now s) -> (lr_age x = 0 -> last = true) -> legal (TCall u RcResult x last (c_now s)) (n :: tr)).
  { intros last La Mi Ze. split. { cbn. intros Z. rewrite (Ze Z). reflexivity. }
    split; auto. split; auto. exists (q_query r), (q_min r), (q_tmo r), t0. split; [right; auto|]. split.
    - split; auto. split; [|auto]. intros rc' y l t' [H|H]; [discriminate|eauto].
    - intros _ y Gy. exists x, last, (c_now s). split; [left; auto|auto]. }
  destruct (N.eqb_spec (lr_age x) 0) as [Z|Z].
  - (* age 0 *)
    change (cinv (mk_cst (swap r1 (c_reqs s)) (c_next s) (c_uid s) (c_mdns s) (c_now s) (mk_frame (q_handle r) true ADone :: c_stack s) (TCall u RcResult x true (c_now s) :: n :: tr))).
    rewrite St. set (m := TCall u RcResult x true (c_now s)).
    apply (cinv_swap s r r1); auto.
    + intros u' Du. change (q_uid r1) with u in Du. rewrite !of_cons_other by (subst m n; cbn; congruence). auto.
    + intros k [<-|[<-|H]]; auto.
    + intros k H. right. right. auto.
    + intros ? ? ? ? ? [H|[H|H]]; [discriminate|discriminate|auto].
    + change (q_uid r1) with u. rewrite (of_cons u m), Oku by auto. exists t0. split; [right; right; apply in_of; auto|]. split.
      { intros H. apply cancelled_cons in H as [(? & H)|H]; [discriminate|]. apply cancelled_cons in H as [(? & H)|H]; [discriminate|]. apply (proj1 (cancelled_of _ _)) in H. contradiction. }
      split; auto. left. eexists. split; [reflexivity|]. auto.
    + split; [|split; [auto|exact (i_ok _ I)]]. apply LC; auto. tauto.
    + cbn. auto.
    + right. eexists. split; [reflexivity|]. cbn. split; auto. split; auto. intros _. exists RcResult, x, (c_now s). left. auto.
  - change (q_waiting r1) with (q_waiting r). destruct (q_waiting r) eqn:Wt.
    + (* stored *)
      change (cinv (mk_cst (swap r1 (c_reqs s)) (c_next s) (c_uid s) (c_mdns s) (c_now s) (c_stack s) (n :: tr))). rewrite St.
      apply (cinv_swap s r r1); auto.
      * intros m [<-|H]; auto.
      * intros m H. right. auto.
      * intros ? ? ? ? ? [H|H]; [discriminate|auto].
      * change (q_uid r1) with u. rewrite Oku. exists t0. split; [right; apply in_of; auto|]. split; [intros H; apply cancelled_cons in H as [(t & H)|H]; [discriminate|apply (proj1 (cancelled_of _ _)) in H; contradiction]|]. split; auto. right.
        split; [intros H; apply final_cons in H as [(? & ? & ? & H)|H]; [discriminate|apply (proj1 (final_of _ _)) in H; contradiction]|]. split.
        { right. split; auto. split; [cbn; lia|]. change (q_uid r1) with u. rewrite <- Oku. split; [apply got_of; auto|]. intros y Gy. apply (proj1 (got_of _ _ _)) in Gy. apply Min. auto. }
        left. destruct W as [(W1 & W2 & W3 & W4)|(W1 & _)]; [|congruence]. split; auto. split; auto. split; auto. intros rc' y l t [H|H]; [discriminate|exact (W4 _ _ _ _ H)].
      * split; [auto|exact (i_ok _ I)].
    + (* delivered *)
      change (cinv (mk_cst (swap r1 (c_reqs s)) (c_next s) (c_uid s) (c_mdns s) (c_now s) (mk_frame (q_handle r) false ADone :: c_stack s) (TCall u RcResult x false (c_now s) :: n :: tr))). rewrite St. set (m := TCall u RcResult x false (c_now s)).
      destruct W as [(W1 & _)|(W1 & W2 & W3 & (W4 & W5) & W6)]; [congruence|].
      apply (cinv_swap s r r1); auto.
      * intros u' Du. change (q_uid r1) with u in Du. rewrite !of_cons_other by (subst m n; cbn; congruence). auto.
      * intros k [<-|[<-|H]]; auto.
      * intros k H. right. right. auto.
      * intros ? ? ? ? ? [H|[H|H]]; [discriminate|discriminate|auto].
      * change (q_uid r1) with u. rewrite (of_cons u m), Oku by auto. exists t0. split; [right; right; apply in_of; auto|]. split.
        { intros H. apply cancelled_cons in H as [(? & H)|H]; [discriminate|]. apply cancelled_cons in H as [(? & H)|H]; [discriminate|]. apply (proj1 (cancelled_of _ _)) in H. contradiction. }
        split; auto. right. split.
        { intros H. apply final_cons in H as [(? & ? & ? & H)|H]; [discriminate|]. apply final_cons in H as [(? & ? & ? & H)|H]; [discriminate|]. apply (proj1 (final_of _ _)) in H. contradiction. }
        split. { right. split; auto. split; [cbn; lia|]. change (q_uid r1) with u. change (q_res r1) with x. rewrite <- Oku, <- (of_cons u m) by auto. split; [apply got_of, got_cons; auto|].
          intros y Gy. apply (proj1 (got_of _ _ _)) in Gy; apply got_cons in Gy as [(? & ? & H)|Gy]; [discriminate|auto]. }
        right. do 3 (split; auto). split.
        { split; [|intros _; exists (c_now s); left; auto]. intros rc' y l t [H|[H|H]].
          - injection H as <- <- <- <-. split; [auto|]. split; [auto|]. cbn. lia.
          - discriminate.
          - apply in_of in H as [H _]. apply CallsOld in H as [H1 H2]. split; auto. split; auto. cbn. lia. }
        destruct W6 as [W6|W6]; [left; exact W6|rewrite St in W6; discriminate].
      * split; [|split; [auto|exact (i_ok _ I)]]. apply LC; [|auto|intros H; contradiction]. split; [discriminate|]. intros [H|H]; [contradiction|]. destruct W3 as [W3|W3]; lia.
      * cbn. auto.
      * right. eexists. split; [reflexivity|]. cbn. split; auto. split; auto. discriminate.
Qed.

Lemma answer_inv s q x : cinv s -> c_stack s = [] -> cinv (rx_answer s q x).
Proof. intros I St. unfold rx_answer. destruct (find _ _) as [[h q']|]; [apply rx_inv; auto|auto]. Qed.

Lemma timeout_inv s r d : cinv s -> c_stack s = [] -> In r (c_reqs s) -> q_timer r = Some d -> d <= c_now s -> cinv (timeout s r).
Proof.
  intros I St Ir Td Ld.
  pose proof (i_req _ I _ Ir) as (t0 & A & B & C & [(f & E & _)|(D & F & W)]); [rewrite St in E; discriminate|].
  set (u := q_uid r) in *. set (tr := c_trace s) in *. rewrite cancelled_of in B. rewrite final_of in D. apply in_of in A as [A _]. rewrite St in W.
  assert (NR : q_rc r = RcNone \/ q_rc r = RcResult) by (destruct F as [[F _]|[F _]]; auto).
  (* a final call *)
  assert (Fin : forall r1 rc, q_uid r1 = u -> q_handle r1 = q_handle r -> q_query r1 = q_query r -> q_min r1 = q_min r -> q_tmo r1 = q_tmo r -> q_rc r1 = rc -> q_res r1 = q_res r ->
    legal (TCall u rc (q_res r) true (c_now s)) tr -> cinv (send_result (put_req s r1) r1 true ADone)).
  { intros r1 rc E1 E2 E3 E4 E5 E6 E7 L. set (m := TCall u rc (q_res r) true (c_now s)) in *.
    assert (Q : send_result (put_req s r1) r1 true ADone = mk_cst (swap r1 (c_reqs s)) (c_next s) (c_uid s) (c_mdns s) (c_now s) [mk_frame (q_handle r) true ADone] (m :: tr)).
    { unfold send_result, put_req, c_note, c_with_reqs, c_with_stack, swap, m, tr. cbn. rewrite St, E1, E2, E6, E7. auto. }
    rewrite Q. apply (cinv_swap s r r1); auto.
    - intros u' Du. rewrite of_cons_other; auto. cbn. congruence.
    - intros k [<-|H]; auto.
    - intros k H. right. auto.
    - intros ? ? ? ? ? [H|H]; [discriminate|auto].
    - rewrite E1. rewrite of_cons by auto. exists t0. rewrite E1, E3, E4, E5. split; [right; apply in_of; auto|]. split.
      { intros H. apply cancelled_cons in H as [(? & H)|H]; [discriminate|]. apply (proj1 (cancelled_of _ _)) in H. contradiction. }
      split; auto. left. eexists. split; [reflexivity|]. cbn. auto.
    - split; [auto|exact (i_ok _ I)].
    - exact Logic.I.
    - right. eexists. split; [reflexivity|]. cbn. split; auto. split; auto. intros _. exists rc, (q_res r), (c_now s). left. rewrite E1. auto. }
  unfold timeout. cbn [q_waiting q_with_timer]. destruct (q_waiting r) eqn:Wt.
  - destruct W as [(_ & W2 & W3 & W4)|(W1 & _)]; [|congruence]. rewrite W3 in Td. injection Td as <-.
    assert (W4' : forall rc y l t, ~ In (TCall u rc y l t) tr) by (intros rc y l t H; apply (W4 rc y l t); apply in_of; auto).
    cbn [q_tmo q_min q_with_waiting q_with_timer]. destruct (N.leb_spec (q_tmo r) (q_min r)) as [Lt|Lt].
    + cbn [q_rc q_with_waiting q_with_timer]. destruct NR as [NR|NR]; rewrite NR.
      * eapply Fin; try reflexivity. apply legal_plain; [exact (i_set _ I)|]. split; auto. split; auto. exists (q_query r), (q_min r), (q_tmo r), t0. split; auto.
        assert (NG : forall y, ~ got u tr y). { destruct F as [(_ & F2)|(F1 & _)]; [|congruence]. intros y Gy. apply (F2 y). apply got_of. auto. }
        split; [split; [auto|split; [auto|lia]]|]. intros _ y Gy. exfalso. exact (NG _ Gy).
      * eapply Fin; try reflexivity. cbn [q_rc q_with_waiting q_with_timer]. rewrite NR. apply legal_plain; [exact (i_set _ I)|]. split; auto. split; auto. exists (q_query r), (q_min r), (q_tmo r), t0. split; auto.
        destruct F as [(F1 & _)|(_ & F2 & F3 & F4)]; [congruence|]. apply (proj1 (got_of _ _ _)) in F3. split.
        { split; auto. split; [intros rc' y l t' H; exfalso; exact (W4' _ _ _ _ H)|]. split; [lia|]. split; auto. }
        intros _ y Gy. exists (q_res r), true, (c_now s). split; [left; auto|]. apply F4. apply got_of. auto.
    + cbn [q_rc q_with_waiting q_with_timer]. destruct NR as [NR|NR]; rewrite NR.
      * set (r1 := q_with_timer (q_with_waiting (q_with_timer r None) false) (Some (c_now s + (q_tmo r - q_min r)))).
        change (cinv (mk_cst (swap r1 (c_reqs s)) (c_next s) (c_uid s) (c_mdns s) (c_now s) (c_stack s) tr)). rewrite St.
        apply (cinv_swap s r r1); auto.
        -- unfold rinv; cbv zeta; change (q_uid r1) with u; exists t0. split; [apply in_of; auto|]. split; [rewrite cancelled_of; auto|]. split; auto. right. rewrite final_of. split; auto. split; auto. right.
           split; auto. split; auto. split; [cbn; lia|]. split; [split|left].
           ++ intros rc y l t H. exfalso. exact (W4 _ _ _ _ H).
           ++ intros H. change (q_rc r1) with (q_rc r) in H. congruence.
           ++ eexists. split; [reflexivity|]. cbn. lia.
        -- exact (i_ok _ I).
        -- exact (i_set _ I).
      * set (r1 := q_with_waiting (q_with_timer r None) false). set (m := TCall u RcResult (q_res r) false (c_now s)).
        assert (Q : send_result (put_req s r1) r1 false (ATimer (q_uid r1) (q_tmo r - q_min r)) = mk_cst (swap r1 (c_reqs s)) (c_next s) (c_uid s) (c_mdns s) (c_now s) [mk_frame (q_handle r) false (ATimer u (q_tmo r - q_min r))] (m :: tr)).
        { unfold send_result, put_req, c_note, c_with_reqs, c_with_stack, swap, m, tr. cbn. rewrite St, NR. auto. }
        rewrite Q. destruct F as [(F1 & _)|(_ & F2 & F3 & F4)]; [congruence|]. apply (cinv_swap s r r1); auto.
        -- intros u' Du. change (q_uid r1) with u in Du. apply of_cons_other. cbn. congruence.
        -- intros k [<-|H]; auto.
        -- intros k H. right. auto.
        -- intros ? ? ? ? ? [H|H]; [discriminate|auto].
        -- change (q_uid r1) with u. rewrite of_cons by auto. exists t0. split; [right; apply in_of; auto|]. split.
           { intros H. apply cancelled_cons in H as [(? & H)|H]; [discriminate|]. apply (proj1 (cancelled_of _ _)) in H. contradiction. }
           split; auto. right. split. { intros H. apply final_cons in H as [(? & ? & ? & H)|H]; [discriminate|]. apply (proj1 (final_of _ _)) in H. contradiction. }
           split. { right. split; auto. split; auto. split; [apply got_cons; auto|]. intros y Gy. apply got_cons in Gy as [(? & ? & H)|Gy]; [discriminate|auto]. }
           right. split; auto. split; [cbn; lia|]. split; [cbn; lia|]. split; [|right; reflexivity].
           split; [|intros _; exists (c_now s); left; auto]. intros rc' y l t [H|H]; [|exfalso; exact (W4 _ _ _ _ H)]. injection H as <- <- <- <-. split; [auto|]. split; [auto|]. cbn. lia.
        -- split; [|exact (i_ok _ I)]. apply legal_plain; [exact (i_set _ I)|]. split; auto. split; auto. exists (q_query r), (q_min r), (q_tmo r), t0. split; auto. split; [|discriminate].
           apply (proj1 (got_of _ _ _)) in F3. split; auto. split; [intros rc' y l t' H; exfalso; exact (W4' _ _ _ _ H)|]. split; [lia|]. split; [discriminate|]. intros [H|H]; lia.
        -- exact Logic.I.
        -- right. eexists. split; [reflexivity|]. cbn. repeat split. discriminate.
  - destruct W as [(W1 & _)|(_ & W2 & W3 & (W4 & W5) & [(d' & W6 & W7)|W6])]; [congruence| |discriminate]. rewrite Td in W6. injection W6 as <-.
    cbn [q_rc q_with_timer]. destruct NR as [NR|NR]; rewrite NR.
    + eapply Fin; try reflexivity. cbn [q_rc q_with_result]. apply legal_plain; [exact (i_set _ I)|]. split; auto. split; auto. exists (q_query r), (q_min r), (q_tmo r), t0. split; auto.
      assert (NG : forall y, ~ got u tr y). { destruct F as [(_ & F2)|(F1 & _)]; [|congruence]. intros y Gy. apply (F2 y). apply got_of. auto. }
      split; [split; [auto|split; [auto|lia]]|]. intros _ y Gy. exfalso. exact (NG _ Gy).
    + eapply Fin; try reflexivity. cbn [q_rc q_with_result]. apply legal_plain; [exact (i_set _ I)|]. split; auto. split; auto. exists (q_query r), (q_min r), (q_tmo r), t0. split; auto.
      destruct (W5 NR) as (t & Hc). apply in_of in Hc as [Hc _]. split; [split; [auto|split; [eauto|lia]]|].
      intros _ y Gy. exists (q_res r), false, t. split; [right; auto|]. destruct F as [(F1 & _)|(_ & _ & _ & F4)]; [congruence|]. apply F4. apply got_of. auto.
Qed.

Lemma tick_inv s ms : cinv s -> c_stack s = [] -> cinv (mk_cst (c_reqs s) (c_next s) (c_uid s) (c_mdns s) (c_now s + ms) [] (c_trace s)).
Proof.
  intros I St. destruct I as [Iu Iul Inl Ih Ih0 Irq Ifr Iok Iset Idd Imd]. constructor; cbn [c_reqs c_next c_uid c_mdns c_now c_stack c_trace]; auto.
  - intros r Ir. apply (rinv_now _ (c_now s)); [lia|]. rewrite <- St. auto.
  - exact Logic.I.
Qed.

Lemma nodup_snoc {A} (l : list A) x : NoDup l -> ~ In x l -> NoDup (l ++ [x]).
Proof.
  induction l as [|a l IH]; cbn; intros N Ni; [constructor; auto|]. inversion N as [|? ? Na Nd]; subst. constructor; [|apply IH; auto].
  rewrite in_app_iff. cbn. intros [H|[H|[]]]; [contradiction|]. apply Ni. auto.
Qed.
Lemma request_inv s q mn tm : cinv s -> handle_free s -> cinv (request s q mn tm).
Proof.
  intros I [Fr Ff]. unfold request. destruct (negb _ || negb _); [auto|]. set (h := if c_next s =? 0 then 1 else c_next s) in *.
  set (tm' := if (if tm =? 0 then mn else tm) =? 0 then 1000 else (if tm =? 0 then mn else tm)).
  assert (T0 : tm' <> 0) by (unfold tm'; destruct (N.eqb_spec (if tm =? 0 then mn else tm) 0); [discriminate|auto]). clearbody tm'.
  assert (H0 : h <> 0) by (unfold h; destruct (N.eqb_spec (c_next s) 0); [discriminate|auto]).
  cbv zeta. cbn [c_reqs]. destruct (find (fun r' => q_handle r' =? h) (c_reqs s)) as [o|] eqn:E.
  { exfalso. apply find_some in E as [Io Eo]. apply N.eqb_eq in Eo. exact (Fr _ Io Eo). }
  destruct I as [Iu Iul Inl Ih Ih0 Irq Ifr Iok Iset Idd Imd]. set (u := c_uid s) in *. set (n := TStart u q mn tm' (c_now s)).
  assert (Fu : forall r, In r (c_reqs s) -> q_uid r <> u) by (intros r Ir H; specialize (Iul _ Ir); lia).
  assert (Fn : forall m, In m (c_trace s) -> note_uid m <> u) by (intros m Im H; specialize (Inl _ Im); lia).
  unfold request_add. cbn [q_min q_tmo q_with_waiting q_with_timer q_handle q_query c_reqs c_next c_uid c_mdns c_now c_stack c_trace].
  set (w := negb (mn =? 0)). set (r := q_with_timer _ _).
  assert (Or : forall r', In r' (c_reqs s ++ [r]) -> In r' (c_reqs s) \/ r' = r) by (intros r' H; apply in_app_iff in H as [H|[H|[]]]; auto).
  assert (On : of u (c_trace s) = []).
  { unfold of. destruct (filter (fun m => note_uid m =? u) (c_trace s)) as [|m l] eqn:Q; auto. exfalso.
    assert (Im : In m (filter (fun m => note_uid m =? u) (c_trace s))) by (rewrite Q; left; auto). apply filter_In in Im as [Im Em]. apply N.eqb_eq in Em. exact (Fn _ Im Em). }
  constructor; cbn [c_reqs c_next c_uid c_mdns c_now c_stack c_trace c_with_reqs c_with_mdns].
  - rewrite map_app. cbn. apply nodup_snoc; auto. intros H. apply in_map_iff in H as (r' & H & Ir). exact (Fu _ Ir H).
  - intros r' H. apply Or in H as [H| ->]; [specialize (Iul _ H); lia|cbn; lia].
  - intros m [<-|H]; [cbn; lia|specialize (Inl _ H); lia].
  - rewrite map_app. cbn. apply nodup_snoc; auto. intros H. apply in_map_iff in H as (r' & H & Ir). exact (Fr _ Ir H).
  - intros r' H. apply Or in H as [H| ->]; auto.
  - intros r' H. apply Or in H as [H| ->].
    + rewrite of_cons_other by (cbn; apply not_eq_sym; auto). auto.
    + change (q_uid r) with u. rewrite of_cons by auto. rewrite On. exists (c_now s). split; [left; reflexivity|]. split; [intros (t & [H|[]]); discriminate|]. split; auto. right.
      split; [intros (? & ? & ? & [H|[]]); discriminate|]. split; [left; split; [reflexivity|intros y (? & ? & [H|[]]); discriminate]|].
      change (q_waiting r) with w. change (q_min r) with mn. change (q_tmo r) with tm'. change (q_timer r) with (Some (c_now s + (if w then mn else tm'))). unfold w. destruct (N.eqb_spec mn 0) as [->|M]; cbn [negb].
      * right. split; auto. split; [lia|]. split; auto. split; [split; [intros ? ? ? ? [H|[]]; discriminate|discriminate]|]. left. eexists. split; [reflexivity|lia].
      * left. split; auto. split; auto. split; auto. intros ? ? ? ? [H|[]]; discriminate.
  - unfold frame_inv in *. cbn [c_stack c_reqs c_trace c_uid]. destruct (c_stack s) as [|f [|]]; auto. destruct Ifr as [F1 F2]. split.
    + intros Hf r' H Eh. apply Or in H as [H| ->]; [apply final_cons; right; auto|]. exfalso. apply (Ff f); [left; auto|]. symmetry. exact Eh.
    + destruct (f_after f) as [|u' ms|]; auto. destruct F2 as (F2 & F3 & F4). split; auto. split; [apply (N.lt_trans _ u); [exact F3|cbn; lia]|]. intros r' H Eu. apply Or in H as [H| ->]; auto. exfalso. change (q_uid r) with u in Eu. subst u'. revert F3. apply N.lt_irrefl.
  - split; auto. apply legal_plain; [auto|]. subst n. split; auto.
  - exact Logic.I.
  - intros u' q' mn' tm0 t0 [H|H].
    + injection H as <- <- <- <- <-. left. exists r. split; [cbn; apply in_app_iff; right; left; auto|reflexivity].
    + apply Idd in H as [(r' & H & E')|[H|H]]; [left; exists r'; cbn; rewrite in_app_iff; auto|right; left; apply final_cons; auto|right; right; apply cancelled_cons; auto].
  - rewrite map_app, rev_app_distr. cbn. f_equal. auto.
Qed.

(** ** Removal of a request *)
Lemma mdns_cleanup_app h l q l' : (forall e, In e l -> fst e <> h) -> mdns_cleanup h (l ++ (h, q) :: l') = l ++ l'.
Proof.
  induction l as [|[h' q'] l IH]; cbn; intros D; [rewrite N.eqb_refl; auto|]. destruct (N.eqb_spec h' h) as [E|]; [exfalso; exact (D _ (or_introl eq_refl) E)|]. f_equal. auto.
Qed.
Lemma filter_id {A} (f : A -> bool) l : (forall x, In x l -> f x = true) -> filter f l = l.
Proof. induction l as [|a l IH]; cbn; intros H; auto. rewrite H by auto. f_equal. auto. Qed.
Lemma cleanup_inv s r tr st : cinv s -> In r (c_reqs s) ->
  (forall u, u <> q_uid r -> of u tr = of u (c_trace s)) -> (forall n, In n tr -> In n (c_trace s) \/ note_uid n = q_uid r) ->
  (forall n, In n (c_trace s) -> In n tr) -> (forall u q mn tm t0, In (TStart u q mn tm t0) tr -> In (TStart u q mn tm t0) (c_trace s)) ->
  tr_ok tr -> settled tr -> final_call (q_uid r) tr \/ cancelled (q_uid r) tr ->
  st = c_stack s \/ (st = [] /\ forall r', In r' (c_reqs s) -> q_uid r' <> q_uid r -> rinv (of (q_uid r') (c_trace s)) (c_now s) [] r') ->
  cinv (mk_cst (filter (fun r' => negb (q_uid r' =? q_uid r)) (c_reqs s)) (c_next s) (c_uid s) (mdns_cleanup (q_handle r) (c_mdns s)) (c_now s) st tr).
Proof.
  intros I Ir Ho Hn Hk Hs Hok Hset Hend Hst. destruct I as [Iu Iul Inl Ih Ih0 Irq Ifr Iok Iset Idd Imd].
  assert (Fi : forall r', In r' (filter (fun r' => negb (q_uid r' =? q_uid r)) (c_reqs s)) <-> In r' (c_reqs s) /\ q_uid r' <> q_uid r).
  { intros r'. rewrite filter_In, negb_true_iff, N.eqb_neq. tauto. }
  destruct (in_split _ _ Ir) as (l1 & l2 & Sp).
  assert (Fl : filter (fun r' => negb (q_uid r' =? q_uid r)) (c_reqs s) = l1 ++ l2).
  { rewrite Sp, filter_app. cbn. rewrite N.eqb_refl. cbn. rewrite Sp, map_app in Iu. cbn in Iu. apply NoDup_remove_2 in Iu.
    assert (D : forall a, In a (l1 ++ l2) -> negb (q_uid a =? q_uid r) = true).
    { intros a Ia. apply negb_true_iff, N.eqb_neq. intros E. apply Iu. rewrite <- E, <- map_app. apply in_map. auto. }
    rewrite !filter_id; auto; intros x Hx; apply D, in_app_iff; auto. }
  constructor; cbn [c_reqs c_next c_uid c_mdns c_now c_stack c_trace].
  - rewrite Fl. rewrite Sp, map_app in Iu. cbn in Iu. apply NoDup_remove_1 in Iu. rewrite map_app. auto.
  - intros r' H. apply Fi in H as [H _]. auto.
  - intros n H. apply Hn in H as [H| ->]; auto.
  - rewrite Fl. rewrite Sp, map_app in Ih. cbn in Ih. apply NoDup_remove_1 in Ih. rewrite map_app. auto.
  - intros r' H. apply Fi in H as [H _]. auto.
  - intros r' H. apply Fi in H as [H D]. rewrite Ho by auto. destruct Hst as [->|[-> Hst]]; auto.
  - unfold frame_inv in *. cbn [c_stack c_reqs c_trace c_uid]. destruct Hst as [->|[-> _]]; [|exact Logic.I]. destruct (c_stack s) as [|f [|]]; auto. destruct Ifr as [F1 F2]. split.
    + intros Hf r' H Eh. apply Fi in H as [H _]. destruct (F1 Hf _ H Eh) as (rc & x & t & Hc). exists rc, x, t. auto.
    + destruct (f_after f) as [|u' ms|]; auto. destruct F2 as (F2 & F3 & F4). split; auto. split; auto. intros r' H Eu. apply Fi in H as [H _]. auto.
  - auto.
  - auto.
  - intros u q mn tm t0 H. apply Hs in H. destruct (N.eq_dec u (q_uid r)) as [->|D]; [right; auto|].
    apply Idd in H as [(r' & H & E)|[(rc & x & t & H)|(t & H)]].
    + left. exists r'. split; auto. cbn. apply Fi. split; auto. congruence.
    + right. left. exists rc, x, t. auto.
    + right. right. exists t. auto.
  - rewrite Fl, Imd, Sp, !map_app. cbn [map]. rewrite !rev_app_distr. cbn [rev]. rewrite <- app_assoc. cbn [app]. apply mdns_cleanup_app.
    intros e H. rewrite <- in_rev in H. apply in_map_iff in H as (a & <- & Ia). cbn. rewrite Sp, map_app in Ih. cbn in Ih. apply NoDup_remove_2 in Ih. intros E. apply Ih. rewrite <- E, <- map_app. apply in_map, in_app_iff. auto.
Qed.

Lemma cancel_inv s r : cinv s -> In r (c_reqs s) -> cinv (c_note (cleanup s r) (TCancel (q_uid r) (c_now s))).
Proof.
  intros I Ir. change (cinv (mk_cst (filter (fun r' => negb (q_uid r' =? q_uid r)) (c_reqs s)) (c_next s) (c_uid s) (mdns_cleanup (q_handle r) (c_mdns s)) (c_now s) (c_stack s) (TCancel (q_uid r) (c_now s) :: c_trace s))).
  pose proof (i_req _ I _ Ir) as (t0 & A & B & _). apply in_of in A as [A _]. rewrite cancelled_of in B.
  apply cleanup_inv; auto.
  - intros u D. apply of_cons_other. cbn. auto.
  - intros n [<-|H]; auto.
  - intros n H. right. auto.
  - intros u q mn tm t [H|H]; [discriminate|auto].
  - split; [|exact (i_ok _ I)]. apply legal_plain; [exact (i_set _ I)|]. split; eauto 6.
  - exact Logic.I.
  - right. exists (c_now s). left. auto.
Qed.

Lemma get_request_spec s h r : NoDup (map q_handle (c_reqs s)) -> In r (c_reqs s) -> q_handle r = h -> h <> 0 -> get_request s h = Some r.
Proof.
  intros Nd Ir E Z. unfold get_request. destruct (N.eqb_spec h 0); [contradiction|]. destruct (find _ _) as [r'|] eqn:F.
  - apply find_some in F as [I' E']. apply N.eqb_eq in E'. f_equal. apply (nodup_inj q_handle (c_reqs s)); auto. congruence.
  - exfalso. apply (find_none _ _ F) in Ir. apply N.eqb_neq in Ir. contradiction.
Qed.

Lemma return_inv s f st s' : cinv s -> c_stack s = f :: st -> return_cb (c_with_stack s st) f = Val s' -> cinv s'.
Proof.
  intros I St R. pose proof (i_frame _ I) as Fi. unfold frame_inv in Fi. rewrite St in Fi. destruct st as [|]; [|contradiction]. destruct Fi as [F1 F2].
  unfold return_cb in R. destruct (f_finish f) eqn:Ff.
  - (* the request ends *)
    assert (X : cinv (cancel (c_with_stack s []) (f_handle f))).
    { unfold cancel. destruct (get_request (c_with_stack s []) (f_handle f)) as [r|] eqn:G.
      - apply get_request_in in G as [Ir Eh]. change (c_reqs (c_with_stack s [])) with (c_reqs s) in Ir.
        change (cinv (mk_cst (filter (fun r' => negb (q_uid r' =? q_uid r)) (c_reqs s)) (c_next s) (c_uid s) (mdns_cleanup (q_handle r) (c_mdns s)) (c_now s) [] (c_trace s))).
        apply cleanup_inv; auto; try exact (i_ok _ I); try exact (i_set _ I). right. split; auto. intros r' Ir' D.
        destruct (i_req _ I _ Ir') as (t0 & A & B & C & [(f' & E & _ & Eh')|(D' & F & W)]).
        { exfalso. apply D. f_equal. apply (nodup_inj q_handle (c_reqs s)); auto; [exact (i_hnd _ I)|]. rewrite St in E. congruence. }
        exists t0. do 3 (split; auto). right. split; auto. split; auto. destruct W as [W|(W1 & W2 & W3 & W4 & [W5|W5])]; auto; [right; do 4 (split; auto)|]. exfalso. rewrite St in W5. injection W5 as ->. discriminate.
      - unfold get_request in G. change (c_reqs (c_with_stack s [])) with (c_reqs s) in G.
        assert (Nr : forall r, In r (c_reqs s) -> q_handle r <> f_handle f).
        { intros r Ir E. destruct (N.eqb_spec (f_handle f) 0) as [Z|Z]; [apply (i_hnd0 _ I _ Ir); congruence|]. apply (find_none _ _ G) in Ir. apply N.eqb_neq in Ir. contradiction. }
        destruct I as [Iu Iul Inl Ih Ih0 Irq Ifr Iok Iset Idd Imd]. unfold c_with_stack. constructor; cbn [c_reqs c_next c_uid c_mdns c_now c_stack c_trace]; auto; [|exact Logic.I].
        intros r Ir. destruct (Irq _ Ir) as (t0 & A & B & C & [(f' & E & _ & Eh')|(D' & F & W)]).
        { exfalso. apply (Nr _ Ir). rewrite St in E. congruence. }
        exists t0. do 3 (split; auto). right. split; auto. split; auto. destruct W as [W|(W1 & W2 & W3 & W4 & [W5|W5])]; auto; [right; do 4 (split; auto)|]. exfalso. rewrite St in W5. injection W5 as ->. discriminate. }
    destruct (f_after f); [injection R as <-; auto| |contradiction]. destruct F2 as [F2 _]. congruence.
  - assert (Y : (forall r, In r (c_reqs s) -> rinv (of (q_uid r) (c_trace s)) (c_now s) [] r) -> cinv (c_with_stack s [])).
    { intros H. destruct I as [Iu Iul Inl Ih Ih0 Irq Ifr Iok Iset Idd Imd]. unfold c_with_stack. constructor; cbn [c_reqs c_next c_uid c_mdns c_now c_stack c_trace]; auto. exact Logic.I. }
    destruct (f_after f) as [|u ms|] eqn:Fa; [| |contradiction].
    + injection R as <-. apply Y. intros r Ir. destruct (i_req _ I _ Ir) as (t0 & A & B & C & [(f' & E & Ef & _)|(D' & F & W)]); [exfalso; rewrite St in E; congruence|].
      exists t0. do 3 (split; auto). right. split; auto. split; auto. destruct W as [W|(W1 & W2 & W3 & W4 & [W5|W5])]; auto; [right; do 4 (split; auto)|]. exfalso. rewrite St in W5. injection W5 as ->. discriminate.
    + destruct F2 as (_ & F3 & F4). change (c_reqs (c_with_stack s [])) with (c_reqs s) in R. destruct (find (fun r => q_uid r =? u) (c_reqs s)) as [r|] eqn:Fd; [|discriminate]. apply find_uid in Fd as [Ir Eu].
      destruct (F4 _ Ir Eu) as (Ems & Eh & Ew). set (r1 := q_with_timer r (Some (c_now s + ms))). assert (Es : s' = mk_cst (swap r1 (c_reqs s)) (c_next s) (c_uid s) (c_mdns s) (c_now s) [] (c_trace s)) by (injection R as <-; reflexivity). clear R. subst s'.
      pose proof (i_req _ I _ Ir) as Rr.
      destruct I as [Iu Iul Inl Ih Ih0 Irq Ifr Iok Iset Idd Imd].
      assert (SI : forall r', In r' (swap r1 (c_reqs s)) <-> r' = r1 \/ (In r' (c_reqs s) /\ q_uid r' <> q_uid r1)) by (intros r'; apply (swap_in r); auto).
      constructor; cbn [c_reqs c_next c_uid c_mdns c_now c_stack c_trace]; auto.
      * rewrite (swap_map q_uid r); auto.
      * intros r' H. apply SI in H as [-> |[H _]]; auto. exact (Iul _ Ir).
      * rewrite (swap_map q_handle r); auto.
      * intros r' H. apply SI in H as [-> |[H _]]; auto. exact (Ih0 _ Ir).
      * intros r' H. apply SI in H as [-> |[H D]].
        -- destruct Rr as (t0 & A & B & C & [(f' & E & Ef & _)|(D' & F & W)]); [exfalso; rewrite St in E; congruence|].
           exists t0. split; [exact A|]. split; [exact B|]. split; [exact C|]. right. split; [exact D'|]. split; [exact F|].
           destruct W as [(W1 & W2 & W3 & W4)|(W1 & W2 & W3 & W4 & W5)].
           ++ congruence.
           ++ right. do 4 (split; auto). left. exists (c_now s + ms). split; auto. cbn. lia.
        -- destruct (Irq _ H) as (t0 & A & B & C & [(f' & E & Ef & _)|(D' & F & W)]); [exfalso; rewrite St in E; congruence|].
           exists t0. do 3 (split; auto). right. split; auto. split; auto. destruct W as [W|(W1 & W2 & W3 & W4 & [W5|W5])]; auto; [right; do 4 (split; auto)|].
           exfalso. apply D. rewrite St in W5. injection W5 as W5. rewrite W5 in Fa. cbn in Fa. injection Fa as Fa _. cbn. congruence.
      * exact Logic.I.
      * intros u' q mn tm t0 H. apply Idd in H as [(r' & H & E)|H]; auto. left. destruct (N.eq_dec u' (q_uid r1)) as [->|D]; [exists r1|exists r']; cbn; (split; [apply SI|]); auto. right. split; auto. congruence.
      * rewrite Imd. f_equal. symmetry. apply (swap_map (fun r => (q_handle r, q_query r)) r); auto.
Qed.
