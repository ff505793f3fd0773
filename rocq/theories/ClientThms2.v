(** Lemmas behind C50: histories of the client. *)
From Verif Require Import Base Client ClientSpec ClientThms.
Local Open Scope Z_scope.

Definition tinv (P : cenv -> Prop) (now : Z) (c : client) (tr : trace) : Prop :=
  cinv c /\ (exists last, last <= now /\ cdue last now c /\ attempt_times tr <> [] /\ List.last (attempt_times tr) 0 = last) /\
  spaced 1 (attempt_times tr) /\ wires (all_outs tr) /\ sockets 0 (all_outs tr) = Some (open_now c) /\
  answered tr = c_pong c /\ ((forall v, P v -> willing v) -> calive c).

Lemma sockets_app a : forall n b, sockets n (a ++ b) = match sockets n a with Some m => sockets m b | None => None end.
Proof.
  induction a as [|x a IH]; intros n b; [reflexivity|]. destruct x; cbn [app sockets]; auto; destruct n; auto.
Qed.

Lemma spaced_snoc d l x : spaced d l -> (l <> [] -> List.last l 0 + d <= x) -> spaced d (l ++ [x]).
Proof.
  induction l as [|y l IH]; intros S H; [exact Logic.I|]. destruct l as [|z l].
  - cbn. split; [|exact Logic.I]. apply H. discriminate.
  - cbn [app] in *. split; [apply S|]. apply IH; [apply S|]. intros _. apply H. discriminate.
Qed.

Lemma last_snoc {A} (l : list A) x d : List.last (l ++ [x]) d = x.
Proof. induction l as [|y l IH]; [reflexivity|]. cbn [app List.last]. destruct (l ++ [x]) eqn:E; [destruct l; discriminate|exact IH]. Qed.

Lemma times_snoc tr now e o :
  attempt_times (tr ++ [(now, e, o)]) = attempt_times tr ++ map (fun _ => now) (filter attemptb o).
Proof. unfold attempt_times. rewrite flat_map_app. cbn [flat_map fst snd]. rewrite app_nil_r. reflexivity. Qed.

Lemma filter_none o : existsb attemptb o = false -> filter attemptb o = [].
Proof. induction o as [|x o IH]; [reflexivity|]. cbn. destruct (attemptb x); [discriminate|exact IH]. Qed.

Lemma tinv_step (P : cenv -> Prop) now now' v e c c' o tr :
  tinv P now c tr -> now <= now' -> P v -> cstep now' v e c = Some (c', o) -> tinv P now' c' (tr ++ [(now', Some e, o)]).
Proof.
  intros (I & (last & L & D & NE & EL) & S & W & K & A & V) T Pv H.
  assert (D' : cdue last now' c).
  { destruct D as [D1 D2]. split; intros t Ht; [specialize (D1 t Ht)|specialize (D2 t Ht)]; lia. }
  assert (L' : last <= now') by lia.
  destruct (step_ok last now' v e c c' o I L' D' H) as [F1 F2 F3 F4 F5 F6 F7].
  split; [exact F1|]. rewrite times_snoc.
  destruct (existsb attemptb o) eqn:X.
  - destruct (F3 eq_refl) as [Sp E]. rewrite E. cbn [map].
    split; [|split].
    + exists now'. split; [lia|]. split; [exact F2|]. split; [destruct (attempt_times tr); discriminate|apply last_snoc].
    + apply spaced_snoc; [exact S|]. intros _. rewrite EL. lia.
    + split; [|split; [|split]].
      * unfold all_outs. rewrite flat_map_app. intros n m i Hin. apply in_app_or in Hin as [Hin|Hin]; [exact (W n m i Hin)|].
        cbn [flat_map snd] in Hin. rewrite app_nil_r in Hin. exact (F5 n m i Hin).
      * unfold all_outs. rewrite flat_map_app, sockets_app. fold (all_outs tr). rewrite K. cbn [flat_map snd]. rewrite app_nil_r. exact F6.
      * unfold answered. rewrite fold_left_app. cbn [fold_left fst snd]. fold (answered tr). rewrite A, F7. reflexivity.
      * intros Q. apply F4; auto.
  - rewrite (filter_none o X). cbn [map]. rewrite app_nil_r.
    split; [|split].
    + exists last. split; [exact L'|]. split; [exact F2|]. split; [exact NE|exact EL].
    + exact S.
    + split; [|split; [|split]].
      * unfold all_outs. rewrite flat_map_app. intros n m i Hin. apply in_app_or in Hin as [Hin|Hin]; [exact (W n m i Hin)|].
        cbn [flat_map snd] in Hin. rewrite app_nil_r in Hin. exact (F5 n m i Hin).
      * unfold all_outs. rewrite flat_map_app, sockets_app. fold (all_outs tr). rewrite K. cbn [flat_map snd]. rewrite app_nil_r. exact F6.
      * unfold answered. rewrite fold_left_app. cbn [fold_left fst snd]. fold (answered tr). rewrite A, F7. reflexivity.
      * intros Q. apply F4; auto.
Qed.

Lemma last_cons {A} (k : list A) : forall t d, List.last (t :: k) d = List.last k t.
Proof.
  induction k as [|z k IH]; intros t d; [reflexivity|]. change (List.last (z :: k) d = List.last (z :: k) t). now rewrite !IH.
Qed.

Lemma tinv_hist (P : cenv -> Prop) l : forall now c tr c' tr', ordered now l -> Forall (fun x => P (snd (fst x))) l ->
  tinv P now c tr -> chist l c tr = Some (c', tr') -> tinv P (last_time now l) c' tr'.
Proof.
  induction l as [|[[t v] e] l IH]; intros now c tr c' tr' O F T H.
  - injection H as <- <-. exact T.
  - cbn [chist] in H. destruct (cstep t v e c) as [[c1 o]|] eqn:E; [|discriminate].
    destruct O as [O1 O2]. inversion F as [|? ? F1 F2]; subst. cbn [fst snd] in F1.
    replace (last_time now ((t, v, e) :: l)) with (last_time t l).
    + eapply IH; [exact O2|exact F2| |exact H]. eapply tinv_step; eauto.
    + unfold last_time. cbn [map fst]. symmetry. apply last_cons.
Qed.

Lemma tinv_create (P : cenv -> Prop) now v c o : client_create now v = Some (c, o) -> tinv P now c [(now, None, o)].
Proof.
  unfold client_create. intros H.
  destruct (connect_cases now v client0 eq_refl) as [(Q & E)|[(Q & F & E)|(Q & E)]]; rewrite E in H; cbn [client0 c_pong c_link c_nr] in H.
  - cbn [Z.ltb Z.compare] in H. injection H as <- <-.
    split; [cbn; auto|]. split; [|split; [|split; [|split; [|split]]]].
    + exists now. split; [lia|]. split; [split; cbn; discriminate|]. split; [discriminate|reflexivity].
    + exact Logic.I.
    + intros n m i [Hin|[]]; discriminate.
    + reflexivity.
    + reflexivity.
    + intros _ X. discriminate X.
  - rewrite (proj2 (Z.ltb_lt _ _) Q) in H. discriminate.
  - cbn [Z.ltb Z.compare] in H. injection H as <- <-.
    split; [cbn; auto|]. split; [|split; [|split; [|split; [|split]]]].
    + exists now. split; [lia|]. split; [split; cbn [c_ct c_pt]; intros t Ht; [injection Ht as <-; lia|discriminate]|]. split; [discriminate|reflexivity].
    + exact Logic.I.
    + intros n m i [Hin|[]]; discriminate.
    + reflexivity.
    + reflexivity.
    + intros _ _. left. discriminate.
Qed.

Lemma reached_tinv P now c tr : creached P now c tr -> tinv P now c tr.
Proof.
  intros (t0 & v0 & l & O & P0 & F & R & ->). unfold crun in R. destruct (client_create t0 v0) as [[c0 o0]|] eqn:E; [|discriminate].
  eapply tinv_hist; [exact O|exact F| |exact R]. now apply tinv_create with (v := v0).
Qed.

Lemma hist_app l1 : forall l2 c tr, chist (l1 ++ l2) c tr = match chist l1 c tr with Some (c', tr') => chist l2 c' tr' | None => None end.
Proof.
  induction l1 as [|[[t v] e] l1 IH]; intros l2 c tr; [reflexivity|]. cbn [app chist]. destruct (cstep t v e c) as [[c1 o]|]; auto.
Qed.

Lemma ordered_snoc l : forall now t v e, ordered now l -> last_time now l <= t -> ordered now (l ++ [(t, v, e)]).
Proof.
  induction l as [|[[t1 v1] e1] l IH]; intros now t v e O L; cbn [app ordered].
  - split; [exact L|exact Logic.I].
  - destruct O as [O1 O2]. split; [exact O1|]. apply IH; [exact O2|].
    unfold last_time in *. cbn [map fst] in L. rewrite last_cons in L. exact L.
Qed.

Lemma reached_step (P : cenv -> Prop) now now' v e c c' o tr :
  creached P now c tr -> now <= now' -> P v -> cstep now' v e c = Some (c', o) -> creached P now' c' (tr ++ [(now', Some e, o)]).
Proof.
  intros (t0 & v0 & l & O & P0 & F & R & ->) T Pv H. exists t0, v0, (l ++ [(now', v, e)]).
  split; [now apply ordered_snoc|]. split; [exact P0|]. split; [apply Forall_app; split; [exact F|repeat constructor; exact Pv]|].
  split.
  - unfold crun in *. destruct (client_create t0 v0) as [[c0 o0]|]; [|discriminate]. rewrite hist_app, R. cbn [chist]. rewrite H. reflexivity.
  - unfold last_time. rewrite map_app. cbn [map fst]. symmetry. apply last_snoc.
Qed.

(** ** What the theorems say *)
Lemma one_attempt P now c tr : creached P now c tr ->
  (pending c <= 1)%nat /\ (c_link c = LUp -> pending c = 0%nat) /\ sockets 0 (all_outs tr) = Some (match c_link c with LClosed => 0 | _ => 1 end)%nat.
Proof.
  intros R. destruct (reached_tinv _ _ _ _ R) as (I & _ & _ & _ & K & _). split; [|split; [|exact K]].
  - unfold cinv, pending in *. destruct (c_link c); [|destruct I as (_ & -> & _); lia|destruct I as (_ & -> & _); lia].
    destruct (c_ct c); lia.
  - intros E. unfold cinv, pending in *. rewrite E in *. destruct I as (_ & -> & _). reflexivity.
Qed.

Lemma attempts_spaced P now c tr : creached P now c tr -> spaced 1 (attempt_times tr).
Proof. intros R. apply (reached_tinv _ _ _ _ R). Qed.

Lemma wire_ok P now c tr n m i : creached P now c tr -> In (OWire n m i) (all_outs tr) -> n = m.
Proof. intros R. destruct (reached_tinv _ _ _ _ R) as (_ & _ & _ & W & _). apply W. Qed.

Lemma conn_link P now c tr : creached P now c tr -> (c_conn c = true <-> c_link c = LUp).
Proof.
  intros R. destruct (reached_tinv _ _ _ _ R) as (I & _). unfold cinv in I. destruct (c_link c); destruct I as (-> & _); split; congruence.
Qed.

Lemma attempts_of o : existsb attemptb o = true -> attempts o.
Proof.
  unfold attempts. induction o as [|x o IH]; [discriminate|]. cbn [existsb]. destruct x; cbn [attemptb orb]; intros H;
    try (apply Exists_cons_hd; exact Logic.I); apply Exists_cons_tl; auto.
Qed.

Lemma connect_attempts now v c : c_conn c = false -> attempts (snd (gsup_client_connect now v c)).
Proof.
  intros E. destruct (connect_cases now v c E) as [(_ & ->)|[(_ & _ & ->)|(_ & ->)]]; apply Exists_cons_hd; exact Logic.I.
Qed.

(** a client without a link and without an attempt going on has a timer that makes it try again *)
Lemma retries now c tr : creached willing now c tr -> c_link c = LClosed ->
  (exists t, c_ct c = Some t /\ t <= now + 1 /\
    forall now' v, t <= now' -> willing v -> exists c' o, cstep now' v CConnectTimer c = Some (c', o) /\ attempts o) \/
  (exists t, c_pt c = Some t /\ t <= now + 20 /\
    forall now' v, t <= now' -> willing v -> exists c' o, cstep now' v CPingTimer c = Some (c', o) /\
      (attempts o \/
       (c_link c' = LClosed /\ c_pt c' = Some (now' + 20) /\
        forall now'' v', now' + 20 <= now'' -> exists c'' o', cstep now'' v' CPingTimer c' = Some (c'', o') /\ attempts o'))).
Proof.
  intros R LC. destruct (reached_tinv _ _ _ _ R) as (I & (last & L & [D1 D2] & _) & _ & _ & _ & _ & V).
  specialize (V (fun v H => H) LC). unfold cinv in I. rewrite LC in I. destruct I as (C & X).
  destruct c as [conn pong ct pt lk nr q]. cbn [c_conn c_ct c_pt c_link] in *. subst lk conn.
  destruct ct as [t|].
  - left. exists t. split; [reflexivity|]. split; [apply (D1 t eq_refl)|]. intros now' v T W.
    cbn [cstep c_ct]. rewrite (proj2 (Z.leb_le t now') T). unfold connect_timer_cb, set_ct. cbn [c_conn c_pong c_pt c_link c_nr c_q].
    pose proof (connect_attempts now' v (mk_client false pong None pt LClosed nr q) eq_refl) as A.
    destruct (gsup_client_connect now' v (mk_client false pong None pt LClosed nr q)) as [[rc c'] o]. cbn [snd] in A.
    destruct W as [W _]. destruct (v_cb v) as [[|]|]; [|congruence|];
      do 2 eexists; (split; [reflexivity|]); [apply Exists_cons_tl|]; exact A.
  - right. destruct pt as [t|]; [|destruct V; congruence]. exists t. split; [reflexivity|]. split; [apply (D2 t eq_refl)|].
    intros now' v T W. cbn [cstep c_pt]. rewrite (proj2 (Z.leb_le t now') T). unfold ping_timer_cb, set_pt. cbn [c_conn c_pong c_ct c_link c_nr c_q].
    destruct pong.
    + unfold start_test_procedure, conn_send, set_pt, set_pong, set_q. cbn [c_conn c_pong c_ct c_pt c_link c_nr c_q].
      do 2 eexists. split; [reflexivity|]. right. cbn [c_link c_pt c_ct]. split; [reflexivity|]. split; [reflexivity|].
      intros now'' v' T'. cbn [cstep c_pt]. unfold PING_INTERVAL. rewrite (proj2 (Z.leb_le _ _) T').
      unfold ping_timer_cb, set_pt. cbn [c_pong]. unfold conn_close, set_link, set_conn. cbn [c_conn c_pong c_ct c_pt c_link c_nr c_q].
      match goal with |- context [gsup_client_connect ?n ?v ?c] => pose proof (connect_attempts n v c eq_refl) as A;
        destruct (gsup_client_connect n v c) as [[rc c'] o] end. cbn [snd] in A.
      do 2 eexists. split; [reflexivity|]. exact A.
    + unfold conn_close, set_link, set_conn. cbn [c_conn c_pong c_ct c_pt c_link c_nr c_q].
      match goal with |- context [gsup_client_connect ?n ?v ?c] => pose proof (connect_attempts n v c eq_refl) as A;
        destruct (gsup_client_connect n v c) as [[rc c'] o] end. cbn [snd] in A.
      do 2 eexists. split; [reflexivity|]. left. exact A.
Qed.

(** an attempt in progress ends by a result, upon failure another one is due in a second *)
Lemma attempt_ends now c tr now' v : creached willing now c tr -> c_link c = LConnecting -> willing v ->
  (exists c' o, cstep now' v CEstablished c = Some (c', o) /\ c_link c' = LUp /\ c_conn c' = true /\ c_pt c' = Some (now' + 20)) /\
  (exists c' o, cstep now' v CConnectFailed c = Some (c', o) /\ c_link c' = LClosed /\ c_ct c' = Some (now' + 1)).
Proof.
  intros R LC [W _]. destruct (reached_tinv _ _ _ _ R) as (I & _). unfold cinv in I. rewrite LC in I. destruct I as (C & CT & PT & Q).
  destruct c as [conn pong ct pt lk nr q]. cbn [c_conn c_ct c_pt c_link c_q] in *. subst.
  split.
  - cbn [cstep c_link]. unfold gsup_client_updown_cb, start_test_procedure, conn_send, set_link, set_conn, set_pong, set_pt, set_q, set_ct.
    cbn [c_conn c_pong c_ct c_pt c_link c_nr c_q]. destruct (v_oap v); cbn [c_conn c_pong c_ct c_pt c_link c_nr c_q];
      do 2 eexists; (split; [reflexivity|]); cbn [c_link c_conn c_pt]; auto.
  - cbn [cstep c_link]. unfold conn_close, gsup_client_updown_cb, set_link, set_conn, set_pt, set_ct.
    cbn [c_conn c_pong c_ct c_pt c_link c_nr c_q]. destruct (v_cb v) as [[|]|]; [|congruence|]; do 2 eexists; (split; [reflexivity|]); auto.
Qed.

(** the keep-alive of an established link *)
Lemma keep_alive P now c tr : creached P now c tr -> c_link c = LUp ->
  exists t, c_pt c = Some t /\ t <= now + 20 /\ forall now' v, t <= now' -> exists c' o, cstep now' v CPingTimer c = Some (c', o) /\
    (if answered tr then c_link c' = LUp /\ c_conn c' = true /\ o = [OQueue LUp IPing] /\ c_pt c' = Some (now' + 20)
     else exists o', o = OClose :: o' /\ attempts o' /\ c_conn c' = false).
Proof.
  intros R LC. destruct (reached_tinv _ _ _ _ R) as (I & (last & L & [D1 D2] & _) & _ & _ & _ & A & _).
  unfold cinv in I. rewrite LC in I. destruct I as (C & CT & (t & PT) & Q). exists t. split; [exact PT|]. split; [apply (D2 t PT)|].
  intros now' v T. rewrite A. destruct c as [conn pong ct pt lk nr q]. cbn [c_conn c_ct c_pt c_link c_q c_pong c_nr] in *. subst conn ct pt lk.
  cbn [cstep c_pt]. rewrite (proj2 (Z.leb_le t now') T). unfold ping_timer_cb, set_pt. cbn [c_conn c_pong c_ct c_link c_nr c_q].
  destruct pong.
  - unfold start_test_procedure, conn_send, set_pt, set_pong, set_q. cbn [c_conn c_pong c_ct c_pt c_link c_nr c_q].
    do 2 eexists. split; [reflexivity|]. cbn [c_link c_conn c_pt]. auto.
  - unfold conn_close, set_link, set_conn. cbn [c_conn c_pong c_ct c_pt c_link c_nr c_q].
    match goal with |- context [gsup_client_connect ?n ?v ?c] => pose proof (connect_attempts n v c eq_refl) as At;
      pose proof (connect_cases n v c eq_refl) as Cs; destruct (gsup_client_connect n v c) as [[rc c'] o] end. cbn [snd] in At.
    do 2 eexists. split; [reflexivity|]. exists o. split; [reflexivity|]. split; [exact At|].
    destruct Cs as [(_ & E)|[(_ & _ & E)|(_ & E)]]; injection E as _ -> _; reflexivity.
Qed.

(** GSUP and OAP messages are queued at established links only *)
Lemma queue_up P now c tr now' v e c' o l i : creached P now c tr -> cstep now' v e c = Some (c', o) -> In (OQueue l i) o ->
  l = LUp \/ (i = IPing /\ e = CPingTimer /\ l = LClosed /\ c_link c = LClosed /\ answered tr = true).
Proof.
  intros R H Hin. destruct (reached_tinv _ _ _ _ R) as (I & _ & _ & _ & _ & A & _). rewrite A. clear A R.
  destruct c as [conn pong ct pt lk nr q]. unfold cinv in I. cbn [c_conn c_ct c_pt c_link c_q c_pong c_nr] in *.
  assert (NC : forall n v c, c_conn c = false -> ~ In (OQueue l i) (snd (gsup_client_connect n v c))).
  { intros n v' c E. destruct (connect_cases n v' c E) as [(_ & ->)|[(_ & _ & ->)|(_ & ->)]]; intros [X|[]]; discriminate. }
  destruct e; cbn [cstep c_link c_ct c_pt c_q c_nr] in H;
    try (destruct lk; try discriminate; injection H as <- <-; cbn [In] in Hin; contradiction).
  - destruct lk; try discriminate. unfold gsup_client_updown_cb, start_test_procedure, conn_send, set_link, set_conn, set_pong, set_pt, set_q, set_ct in H.
    cbn [c_conn c_pong c_ct c_pt c_link c_nr c_q] in H.
    destruct (v_oap v), (v_cb v); cbn [c_conn c_pong c_ct c_pt c_link c_nr c_q app] in H; injection H as <- <-;
      cbn [In] in Hin; repeat (destruct Hin as [Hin|Hin]; [left; congruence|]); contradiction.
  - destruct lk; try discriminate. unfold conn_close, gsup_client_updown_cb in H. cbn [c_link] in H.
    destruct (v_cb v) as [[|]|]; injection H as <- <-; cbn [app In] in Hin; repeat (destruct Hin as [Hin|Hin]; [discriminate|]); contradiction.
  - destruct lk; try discriminate. unfold conn_close, gsup_client_updown_cb in H. cbn [c_link] in H.
    destruct (v_cb v) as [[|]|]; injection H as <- <-; cbn [app In] in Hin; repeat (destruct Hin as [Hin|Hin]; [discriminate|]); contradiction.
  - destruct lk; try discriminate. injection H as <- <-. cbn [In] in Hin. destruct Hin as [Hin|[]]; discriminate.
  - destruct lk; try discriminate. injection H as <- <-. destruct Hin as [Hin|[]]; discriminate.
  - destruct lk; try discriminate. destruct (v_oap v); injection H as <- <-; [|contradiction]. destruct Hin as [Hin|[]]. left. cbn [c_link] in Hin. congruence.
  - destruct ct as [t|]; [|discriminate]. destruct (t <=? now'); [|discriminate].
    destruct lk; [|destruct I as (_ & X & _); discriminate|destruct I as (_ & X & _); discriminate]. destruct I as (-> & _).
    unfold connect_timer_cb, set_ct in H. cbn [c_conn c_pong c_ct c_pt c_link c_nr c_q] in H.
    specialize (NC now' v (mk_client false pong None pt LClosed nr q) eq_refl).
    destruct (gsup_client_connect now' v (mk_client false pong None pt LClosed nr q)) as [[rc c1] o1]. cbn [snd] in NC.
    destruct (v_cb v) as [[|]|]; injection H as <- <-; cbn [app In] in Hin; [destruct Hin as [Hin|Hin]; [discriminate|]|destruct Hin as [Hin|[]]; discriminate|]; contradiction.
  - destruct pt as [t|]; [|discriminate]. destruct (t <=? now'); [|discriminate].
    unfold ping_timer_cb, set_pt in H. cbn [c_conn c_pong c_ct c_link c_nr c_q] in H. destruct pong.
    + unfold start_test_procedure, conn_send, set_pt, set_pong, set_q in H. cbn [c_conn c_pong c_ct c_pt c_link c_nr c_q] in H. injection H as <- <-.
      destruct Hin as [Hin|[]]. injection Hin as <- <-. destruct lk; [right; auto|destruct I as (_ & _ & X & _); discriminate|left; reflexivity].
    + unfold conn_close, set_link, set_conn in H. cbn [c_conn c_pong c_ct c_pt c_link c_nr c_q] in H.
      specialize (NC now' v (mk_client false false ct None LClosed nr q) eq_refl).
      destruct (gsup_client_connect now' v (mk_client false false ct None LClosed nr q)) as [[rc c1] o1]. cbn [snd] in NC.
      injection H as <- <-. destruct lk; cbn [app In] in Hin; try (destruct Hin as [Hin|Hin]; [discriminate|]); contradiction.
  - destruct lk; try discriminate. destruct q as [|[n0 i0] q]; injection H as <- <-; [contradiction|]. destruct Hin as [Hin|[]]; discriminate.
  - unfold osmo_gsup_client_send in H. cbn [c_conn] in H. destruct conn; [unfold conn_send in H|]; injection H as <- <-; destruct Hin as [Hin|[]]; [|discriminate].
    cbn [c_link] in Hin. destruct lk; [destruct I as (X & _); discriminate|destruct I as (X & _); discriminate|left; congruence].
Qed.

(** a client that gave up never tries again *)
Definition cdead (c : client) : Prop := c_link c = LClosed /\ c_ct c = None /\ c_pt c = None /\ c_conn c = false.
Lemma dead_step now v e c c' o : cdead c -> cstep now v e c = Some (c', o) -> cdead c' /\ exists g, e = CSend g /\ o = [ORefused g].
Proof.
  intros (L & CT & PT & C) H. destruct c as [conn pong ct pt lk nr q]. cbn [c_conn c_ct c_pt c_link] in *. subst.
  destruct e; cbn in H; try discriminate. injection H as <- <-. split; [repeat split|]. eauto.
Qed.
Lemma dead_hist l : forall c tr c' tr', cdead c -> chist l c tr = Some (c', tr') ->
  cdead c' /\ exists more, tr' = tr ++ more /\ forall x, In x (all_outs more) -> exists g, x = ORefused g.
Proof.
  induction l as [|[[t v] e] l IH]; intros c tr c' tr' D H.
  - injection H as <- <-. split; [exact D|]. exists []. rewrite app_nil_r. split; [reflexivity|intros x []].
  - cbn [chist] in H. destruct (cstep t v e c) as [[c1 o]|] eqn:E; [|discriminate].
    destruct (dead_step _ _ _ _ _ _ D E) as (D1 & g & -> & ->). destruct (IH _ _ _ _ D1 H) as (D2 & more & -> & M). split; [exact D2|].
    exists ((t, Some (CSend g), [ORefused g]) :: more). split; [rewrite <- app_assoc; reflexivity|].
    intros x Hin. unfold all_outs in Hin. cbn [flat_map snd] in Hin. apply in_app_or in Hin as [[<-|[]]|Hin]; [eauto|exact (M x Hin)].
Qed.

(** what the user is told *)
Lemma reports P now c tr now' v e c' o b : creached P now c tr -> v_cb v = Some b -> cstep now' v e c = Some (c', o) ->
  (In (OUpDown true) o <-> e = CEstablished) /\
  (In (OUpDown false) o -> c_link c' <> LUp) /\
  (e = CLost \/ e = CConnectFailed -> In (OUpDown false) o) /\
  (c_link c <> LUp -> c_link c' = LUp -> In (OUpDown true) o).
Proof.
  intros R CB H. destruct (reached_tinv _ _ _ _ R) as (I & _). clear R.
  destruct c as [conn pong ct pt lk nr q]. unfold cinv in I. cbn [c_conn c_ct c_pt c_link c_q c_pong c_nr] in *.
  assert (NC : forall n v c, c_conn c = false -> forall u, ~ In (OUpDown u) (snd (gsup_client_connect n v c))).
  { intros n v' c E u. destruct (connect_cases n v' c E) as [(_ & ->)|[(_ & _ & ->)|(_ & ->)]]; intros [X|[]]; discriminate. }
  assert (NL : forall n v c, c_conn c = false -> c_link c <> LUp -> c_link (snd (fst (gsup_client_connect n v c))) <> LUp).
  { intros n v' c E X. destruct (connect_cases n v' c E) as [(_ & ->)|[(_ & _ & ->)|(_ & ->)]]; cbn [fst snd c_link]; [discriminate|exact X|exact X]. }
  assert (Easy : forall e c1 o1, (forall u, ~ In (OUpDown u) o1) -> e <> CEstablished -> e <> CLost -> e <> CConnectFailed -> (c_link c1 = LUp -> lk = LUp) ->
    (In (OUpDown true) o1 <-> e = CEstablished) /\ (In (OUpDown false) o1 -> c_link c1 <> LUp) /\ (e = CLost \/ e = CConnectFailed -> In (OUpDown false) o1) /\
    (lk <> LUp -> c_link c1 = LUp -> In (OUpDown true) o1)).
  { intros e1 c1 o1 N E1 E2 E3 Lk. split; [split; [intros X; destruct (N _ X)|contradiction]|]. split; [intros X; destruct (N _ X)|].
    split; [tauto|]. intros A B. destruct (A (Lk B)). }
  destruct e; cbn [cstep c_link c_ct c_pt c_q c_nr] in H.
  - destruct lk; try discriminate. unfold gsup_client_updown_cb, start_test_procedure, conn_send, set_link, set_conn, set_pong, set_pt, set_q, set_ct in H.
    cbn [c_conn c_pong c_ct c_pt c_link c_nr c_q] in H. rewrite CB in H.
    destruct (v_oap v); cbn [c_conn c_pong c_ct c_pt c_link c_nr c_q app] in H; injection H as <- <-; cbn [In c_link].
    all: split; [split; auto|]; split; [intros X; repeat (destruct X as [X|X]; [discriminate|]); contradiction|]; split; [intros [X|X]; discriminate|auto 6].
  - destruct lk; try discriminate. unfold conn_close, gsup_client_updown_cb in H. cbn [c_link] in H. rewrite CB in H.
    destruct b; injection H as <- <-; cbn [app In set_link set_conn set_pt set_ct c_link].
    all: split; [split; [intros X; repeat (destruct X as [X|X]; [discriminate|]); contradiction|discriminate]|]; split; [discriminate|]; split; [auto|discriminate].
  - destruct lk; try discriminate. unfold conn_close, gsup_client_updown_cb in H. cbn [c_link] in H. rewrite CB in H.
    destruct b; injection H as <- <-; cbn [app In set_link set_conn set_pt set_ct c_link].
    all: split; [split; [intros X; repeat (destruct X as [X|X]; [discriminate|]); contradiction|discriminate]|]; split; [discriminate|]; split; [auto|discriminate].
  - destruct lk; try discriminate. injection H as <- <-. apply Easy; auto; discriminate.
  - destruct lk; try discriminate. injection H as <- <-. apply Easy; auto; try discriminate. intros u [X|[]]; discriminate.
  - destruct lk; try discriminate. injection H as <- <-. apply Easy; auto; discriminate.
  - destruct lk; try discriminate. injection H as <- <-. apply Easy; auto; discriminate.
  - destruct lk; try discriminate. injection H as <- <-. apply Easy; auto; try discriminate. intros u [X|[]]; discriminate.
  - destruct lk; try discriminate. destruct (v_oap v); injection H as <- <-; apply Easy; auto; try discriminate. intros u [X|[]]; discriminate.
  - destruct ct as [t|]; [|discriminate]. destruct (t <=? now'); [|discriminate].
    destruct lk; [|destruct I as (_ & X & _); discriminate|destruct I as (_ & X & _); discriminate]. destruct I as (-> & _).
    unfold connect_timer_cb, set_ct in H. cbn [c_conn c_pong c_ct c_pt c_link c_nr c_q] in H. rewrite CB in H.
    specialize (NC now' v (mk_client false pong None pt LClosed nr q) eq_refl).
    specialize (NL now' v (mk_client false pong None pt LClosed nr q) eq_refl).
    destruct (gsup_client_connect now' v (mk_client false pong None pt LClosed nr q)) as [[rc c1] o1]. cbn [fst snd c_link] in NC, NL.
    assert (NL' : c_link c1 <> LUp) by (apply NL; discriminate).
    destruct b; injection H as <- <-; cbn [app In c_link].
    + split; [split; [intros [X|X]; [discriminate|destruct (NC _ X)]|discriminate]|]. split; [auto|]. split; [intros [X|X]; discriminate|]. intros _ X. contradiction.
    + split; [split; [intros [X|[]]; discriminate|discriminate]|]. split; [discriminate|]. split; [intros [X|X]; discriminate|discriminate].
  - destruct pt as [t|]; [|discriminate]. destruct (t <=? now'); [|discriminate].
    unfold ping_timer_cb, set_pt in H. cbn [c_conn c_pong c_ct c_link c_nr c_q] in H. destruct pong.
    + unfold start_test_procedure, conn_send, set_pt, set_pong, set_q in H. cbn [c_conn c_pong c_ct c_pt c_link c_nr c_q] in H. injection H as <- <-.
      apply Easy; auto; try discriminate. intros u [X|[]]; discriminate.
    + unfold conn_close, set_link, set_conn in H. cbn [c_conn c_pong c_ct c_pt c_link c_nr c_q] in H.
      specialize (NC now' v (mk_client false false ct None LClosed nr q) eq_refl).
      specialize (NL now' v (mk_client false false ct None LClosed nr q) eq_refl).
      destruct (gsup_client_connect now' v (mk_client false false ct None LClosed nr q)) as [[rc c1] o1]. cbn [fst snd c_link] in NC, NL.
      injection H as <- <-. apply Easy; try discriminate.
      * intros u X. destruct lk; cbn [app In] in X; [|destruct X as [X|X]; [discriminate|]|destruct X as [X|X]; [discriminate|]]; destruct (NC _ X).
      * intros X. destruct NL; [discriminate|exact X].
  - destruct lk; try discriminate. destruct q as [|[n0 i0] q]; injection H as <- <-; apply Easy; auto; try discriminate. intros u [X|[]]; discriminate.
  - unfold osmo_gsup_client_send in H. cbn [c_conn] in H. destruct conn; [unfold conn_send in H|]; injection H as <- <-; apply Easy; auto; try discriminate;
      intros u [X|[]]; discriminate.
Qed.
