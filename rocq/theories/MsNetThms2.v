(** Lookups over the network: what is on the air, what is told. *)
From Verif Require Import Base PeerId Db DbSpec DbProofs Ctrl CtrlSpec CtrlThms MsLookup MsSpec MsThms Mdns MdnsSpec MdnsThms Proxy MsServer MsServerSpec MsServerThms MsServerThms2 MsClient MsClientSpec MsClientThms MsClientThms2 MsNet MsNetSpec MsNetThms.
Local Open Scope string_scope.
Local Open Scope list_scope.
Local Open Scope N_scope.

(** ** Notes of the client *)
Definition of_user (e : cev) : Prop := match e with CAnswer _ _ | CResult _ _ _ => False | _ => True end.
Definition quiet (n : note) : Prop := match n with TCall _ _ _ _ _ | TCancel _ _ => True | _ => False end.
Lemma user_notes s e s' n : creach s -> (forall q mn tm, e = CRequest q mn tm -> handle_free s) -> of_user e -> cstep s e = Val s' -> In n (c_trace s') ->
  In n (c_trace s) \/ quiet n \/ exists u q mn tm t0, n = TStart u q mn tm t0 /\ asked s e = Some q.
Proof.
  intros R F U E I. pose proof (creach_inv _ R) as Iv. destruct e as [q mn tm|h| |h rc x|q x|u|ms]; cbn [cstep] in E; try destruct U.
  - injection E as <-. unfold request in I. unfold asked. destruct (negb _ || negb _); [auto|]. cbv zeta in I. cbn [c_reqs] in I.
    destruct (find _ (c_reqs s)) as [o|] eqn:Fd; [exfalso; apply find_some in Fd as [Io Eo]; apply N.eqb_eq in Eo; destruct (F _ _ _ eq_refl) as [Fr _]; exact (Fr _ Io Eo)|].
    cbn in I. destruct I as [<-|I]; [|auto]. right. right. do 5 eexists. split; reflexivity.
  - injection E as <-. destruct (get_request s h) as [r|]; [|auto]. cbn in I. destruct I as [<-|I]; [right; left; exact Logic.I|auto].
  - destruct (c_stack s) as [|f st] eqn:St; [injection E as <-; auto|]. left. pose proof (i_frame _ Iv) as Fi. unfold frame_inv in Fi. rewrite St in Fi. destruct st; [|contradiction]. destruct Fi as [_ Fi].
    unfold return_cb in E. assert (T : c_trace (if f_finish f then cancel (c_with_stack s []) (f_handle f) else c_with_stack s []) = c_trace s) by (destruct (f_finish f); [unfold cancel; destruct (get_request _ _)|]; reflexivity).
    destruct (f_after f); [injection E as <-; rewrite T in I; exact I| |contradiction]. destruct (find _ _); [|discriminate]. injection E as <-. change (In n (c_trace (if f_finish f then cancel (c_with_stack s []) (f_handle f) else c_with_stack s []))) in I. rewrite T in I. exact I.
  - destruct (c_stack s); [|injection E as <-; auto]. destruct (find _ _) as [r|]; [|injection E as <-; auto]. destruct (q_timer r) as [t|]; [|injection E as <-; auto]. destruct (t <=? c_now s); injection E as <-; [|auto].
    unfold timeout in I. cbn [q_waiting q_with_timer] in I. destruct (q_waiting r).
    + cbn [q_tmo q_min q_with_waiting q_with_timer] in I. destruct (q_tmo r <=? q_min r).
      * cbn in I. destruct I as [<-|I]; [right; left; exact Logic.I|auto].
      * destruct (q_rc _); cbn in I; try (left; exact I). destruct I as [<-|I]; [right; left; exact Logic.I|auto].
    + cbn in I. destruct I as [<-|I]; [right; left; exact Logic.I|auto].
  - destruct (c_stack s); injection E as <-; auto.
Qed.
Lemma answer_notes s q x s' n : creach s -> lq_type q <> IdNone -> cstep s (CAnswer q x) = Val s' -> In n (c_trace s') ->
  In n (c_trace s) \/ quiet n \/ exists u t, n = TRes u q RcResult x t.
Proof.
  intros R T E I. cbn [cstep] in E. destruct (c_stack s); injection E as <-; [|auto]. unfold rx_answer in I. destruct (find _ (c_mdns s)) as [[h q']|] eqn:Fd; [|auto].
  apply find_some in Fd as [Im Eq]. cbn in Eq. pose proof (creach_inv _ R) as Iv. unfold rx_result in I. destruct (get_request s h) as [r|] eqn:Gr; [|auto]. apply get_request_in in Gr as [Ir Eh].
  rewrite (i_mdns _ Iv), <- in_rev in Im. apply in_map_iff in Im as (r' & Em & Ir'). injection Em as Eh' Eq'.
  assert (r' = r) by (apply (nodup_inj q_handle (c_reqs s)); auto; [exact (i_hnd _ Iv)|congruence]). subst r'.
  assert (Qq : q_query r = q).
  { assert (query_eqb q q' = true). { unfold query_eqb in Eq |- *. apply andb_true_iff in Eq as [Eq A]. apply andb_true_iff in Eq as [B C]. rewrite String.eqb_sym, B.
      destruct (lq_type q'), (lq_type q); try discriminate C; try congruence; cbn [id_type_eqb andb] in *; rewrite String.eqb_sym; exact A. }
    rewrite Eq'. symmetry. apply query_eqb_eq; auto. }
  rewrite Qq in I. assert (H : In n (TRes (q_uid r) q RcResult x (c_now s) :: c_trace s) \/ quiet n).
  { repeat match type of I with context [if ?b then _ else _] => destruct b end; cbn in I; first [left; exact I|destruct I as [<-|I]; [right; exact Logic.I|left; exact I]]. }
  destruct H as [[<-|H]|H]; [right; right; eauto|auto|auto].
Qed.

(** ** The air *)
Definition question (suffix : string) (q : query) (p : list N) : Prop :=
  good_query q /\ dns_name (lq_service q) /\ exists id, id < 65536 /\ mdns_query_encode id q suffix = Val (Some p).
Definition statement (suffix : string) (l : list nev) (p : list N) : Prop := exists id q x, id < 65536 /\ good_query q /\ dns_name (lq_service q) /\
  good_host 4 (lr_v4 x) /\ good_host 16 (lr_v6 x) /\ lr_age x < 4294967296 /\ told l q x /\ mdns_result_encode id q x suffix = Val (Some p).
Record ninv (suffix : string) (l : list nev) (s : nst) : Prop := mk_ninv {
  v_reach : creach (n_cl s); v_short : short (n_cl s); v_uid : c_uid (n_cl s) <= nreqs l; v_id : n_id s < 65536;
  v_air : forall p, In p (n_air s) -> (exists q, question suffix q p) \/ statement suffix l p;
  v_start : forall u q mn tm t0, In (TStart u q mn tm t0) (c_trace (n_cl s)) -> exists p, In p (n_air s) /\ question suffix q p;
  v_res : forall u q rc x t, In (TRes u q rc x t) (c_trace (n_cl s)) -> rc = RcResult /\ told l q x }.
Lemma told_more l e q x : told l q x -> told (l ++ [e]) q x.
Proof.
  intros [(k & y & now & c & f & d & I & A)|(pton & argv & I & G)]; [left; exists k, y, now, c, f, d|right; exists pton, argv]; (split; [apply in_app_iff; auto|assumption]).
Qed.
Lemma statement_more suffix l e p : statement suffix l p -> statement suffix (l ++ [e]) p.
Proof. intros (id & q & x & A & B & C & D & E & F & T & H). exists id, q, x. repeat (split; [assumption|]). split; [apply told_more; exact T|exact H]. Qed.
Lemma nreqs_app l e : nreqs (l ++ [e]) = nreqs l + nreqs [e].
Proof. unfold nreqs. rewrite filter_app, app_length. lia. Qed.
Lemma ninv_init suffix id : id < 65536 -> ninv suffix [] (n_init id).
Proof.
  intros L. constructor; cbn; try (intros; contradiction); auto; [apply cr_init| |lia]. split; [left; auto|]. split; intros ? [].
Qed.
Lemma ninv_same suffix l e s : ninv suffix l s -> ninv suffix (l ++ [e]) s.
Proof.
  intros [A B C D E F G]. constructor; auto; [rewrite nreqs_app; lia| |].
  - intros p I. destruct (E p I) as [X|X]; [left; exact X|right; apply statement_more; exact X].
  - intros u q rc x t I. destruct (G _ _ _ _ _ I) as [X Y]. split; [exact X|apply told_more; exact Y].
Qed.
Lemma ninv_put suffix l e s p : ninv suffix l s -> statement suffix (l ++ [e]) p -> ninv suffix (l ++ [e]) (put_air s (Some p)).
Proof.
  intros V S. destruct (ninv_same suffix l e s V) as [A B C D E F G]. constructor; auto.
  - intros p' I. cbn [put_air n_air] in I. apply in_app_iff in I as [I|[<-|[]]]; auto.
  - intros u q mn tm t0 I. destruct (F _ _ _ _ _ I) as (p' & I' & Q). exists p'. split; [cbn; apply in_app_iff; auto|exact Q].
Qed.
Lemma asked_valid s e q : creach s -> of_user e -> asked s e = Some q -> exists mn tm, e = CRequest q mn tm /\ service_valid (lq_service q) = true /\ id_valid (lq_type q) (lq_id q) = true.
Proof.
  intros R U H. destruct e as [q' mn tm|h| |h rc x|q' x|u|ms]; unfold asked in H; try discriminate; try (destruct (c_stack s); discriminate).
  - destruct (service_valid (lq_service q')) eqn:A; [|discriminate]. destruct (id_valid (lq_type q') (lq_id q')) eqn:B; [|discriminate]. cbn [negb orb] in H. destruct (find _ _); [discriminate|]. injection H as <-. exists mn, tm. auto.
  - destruct (c_stack s) as [|f st] eqn:St; [discriminate|]. pose proof (i_frame _ (creach_inv _ R)) as Fi. unfold frame_inv in Fi. rewrite St in Fi. destruct st; [|contradiction]. destruct (f_after f); try discriminate. destruct Fi as [_ []].
Qed.
Lemma client_inv suffix l s e c : suffix_fits suffix -> ninv suffix l s -> of_user e -> event_fits (NClient e) -> nreqs (l ++ [NClient e]) <= 4294967295 -> cstep (n_cl s) e = Val c ->
  match asked (n_cl s) e with
  | None => ninv suffix (l ++ [NClient e]) (mk_nst c (n_id s) (n_air s))
  | Some q => exists p, question suffix q p /\ mdns_query_encode (n_id s) q suffix = Val (Some p) /\ ninv suffix (l ++ [NClient e]) (put_air (mk_nst c ((n_id s + 1) mod 65536) (n_air s)) (Some p))
  end.
Proof.
  intros [Sf Ls] V U Ev Ln E. destruct V as [A B C D Ea F G]. rewrite nreqs_app in Ln.
  assert (Rq : reqs_in [e] = nreqs [NClient e]) by (destruct e; reflexivity).
  assert (Hf : forall q mn tm, e = CRequest q mn tm -> handle_free (n_cl s)). { intros q mn tm ->. apply short_free; auto. change (nreqs [NClient (CRequest q mn tm)]) with 1 in Ln. lia. }
  assert (A' : creach c) by (eapply cr_step; eauto).
  assert (L0 : c_uid (n_cl s) + reqs_in [e] <= 4294967295) by (rewrite Rq; lia).
  destruct (step_short _ _ _ (creach_inv _ A) B L0 E) as [B' C']. rewrite Rq in C'.
  assert (G' : forall u q rc x t, In (TRes u q rc x t) (c_trace c) -> rc = RcResult /\ told (l ++ [NClient e]) q x).
  { intros u q rc x t I. destruct (user_notes _ _ _ _ A Hf U E I) as [I'|[I'|(u' & q' & mn & tm & t0 & I' & _)]]; [|destruct I'|discriminate]. destruct (G _ _ _ _ _ I') as [X Y]. split; [exact X|apply told_more; exact Y]. }
  destruct (asked (n_cl s) e) as [q|] eqn:As.
  - destruct (asked_valid _ _ _ A U As) as (mn & tm & -> & Sv & Iv). cbn in Ev. destruct Ev as [Dn Lq].
    assert (Gq : good_query q). { split; [|apply id_valid_spec; exact Iv]. unfold service_valid in Sv. apply Nat.ltb_lt in Sv. lia. }
    destruct (c33_query (n_id s) q suffix Gq Dn Sf ltac:(lia) D) as (p & Ep & _). exists p. assert (Qp : question suffix q p) by (split; [exact Gq|split; [exact Dn|eauto]]).
    split; [exact Qp|]. split; [exact Ep|]. constructor; cbn [put_air n_cl n_id n_air]; auto.
    + rewrite nreqs_app. lia.
    + apply N.mod_lt. discriminate.
    + intros p' I. apply in_app_iff in I as [I|[<-|[]]]; [|left; eauto]. destruct (Ea p' I) as [X|X]; [left; exact X|right; apply statement_more; exact X].
    + intros u q' mn' tm' t0 I. destruct (user_notes _ _ _ _ A Hf U E I) as [I'|[[]|(u' & q2 & mn2 & tm2 & t2 & I' & As')]].
      * destruct (F _ _ _ _ _ I') as (p' & Ip & Q). exists p'. split; [apply in_app_iff; auto|exact Q].
      * injection I' as <- <- <- <- <-. assert (q' = q) by congruence. subst. exists p. split; [apply in_app_iff; right; left; reflexivity|exact Qp].
  - constructor; cbn [n_cl n_id n_air]; auto.
    + rewrite nreqs_app. lia.
    + intros p' I. destruct (Ea p' I) as [X|X]; [left; exact X|right; apply statement_more; exact X].
    + intros u q' mn' tm' t0 I. destruct (user_notes _ _ _ _ A Hf U E I) as [I'|[[]|(u' & q2 & mn2 & tm2 & t2 & I' & As')]]; [eauto|congruence].
Qed.
Lemma answer_ninv suffix l e s q x c : ninv suffix l s -> nreqs l <= 4294967295 -> good_query q -> told l q x -> cstep (n_cl s) (CAnswer q x) = Val c -> ninv suffix (l ++ [e]) (mk_nst c (n_id s) (n_air s)).
Proof.
  intros V Ln G T E. pose proof (v_uid _ _ _ V) as Lu. pose proof (ninv_same suffix l e s V) as [A B C D Ea F R]. assert (Tq : lq_type q <> IdNone) by (destruct G as [_ G]; intros H; rewrite H in G; destruct G).
  assert (L0 : c_uid (n_cl s) + reqs_in [CAnswer q x] <= 4294967295) by (change (reqs_in [CAnswer q x]) with 0; lia).
  destruct (step_short _ _ _ (creach_inv _ A) B L0 E) as [B' C']. change (reqs_in [CAnswer q x]) with 0 in C'.
  constructor; cbn [n_cl n_id n_air]; auto.
  - eapply cr_step; [exact A| |exact E]. discriminate.
  - lia.
  - intros u q' mn tm t0 I. destruct (answer_notes _ _ _ _ _ A Tq E I) as [I'|[[]|(u' & t & I')]]; [eauto|discriminate].
  - intros u q' rc y t I. destruct (answer_notes _ _ _ _ _ A Tq E I) as [I'|[[]|(u' & t' & I')]]; [eauto|]. injection I' as <- <- <- <- <-. split; [reflexivity|apply told_more; exact T].
Qed.

(** ** Steps *)
(** what a reader makes of the packets on the air *)
Lemma read_client suffix l s p : suffix_fits suffix -> ninv suffix l s -> In p (n_air s) ->
  mdns_result_decode (firstn RX_BUF p) suffix = Val None \/ exists id q x, mdns_result_decode (firstn RX_BUF p) suffix = Val (Some (id, q, x)) /\ good_query q /\ told l q x.
Proof.
  intros Sf V I. destruct (v_air _ _ _ V p I) as [(q & Gq & Dn & id & Li & Ep)|(id & q & x & Li & Gq & Dn & G4 & G6 & La & T & Ep)].
  - left. rewrite whole by (eapply query_len; exact Ep). eapply query_no_result; eauto.
  - rewrite whole by (eapply result_len; exact Ep). destruct (result_packet id q x suffix Gq Dn Sf Li G4 G6 La) as (p' & Ep' & Dp). assert (p' = p) by congruence. subst. rewrite Dp.
    destruct (lr_v4 x), (lr_v6 x); auto; right; exists id, q, x; auto.
Qed.
Lemma read_server suffix l s p : suffix_fits suffix -> ninv suffix l s -> In p (n_air s) ->
  mdns_query_decode (firstn RX_BUF p) suffix = Val None \/ exists id q, id < 65536 /\ mdns_query_decode (firstn RX_BUF p) suffix = Val (Some (id, q)) /\ good_query q /\ dns_name (lq_service q).
Proof.
  intros Sf V I. destruct (v_air _ _ _ V p I) as [(q & Gq & Dn & id & Li & Ep)|(id & q & x & Li & Gq & Dn & G4 & G6 & La & T & Ep)].
  - right. exists id, q. rewrite whole by (eapply query_len; exact Ep). destruct Sf as [Sf L]. destruct (c33_query id q suffix Gq Dn Sf ltac:(lia) Li) as (p' & Ep' & Dp). assert (p' = p) by congruence. subst. auto.
  - left. rewrite whole by (eapply result_len; exact Ep). eapply result_no_query; eauto.
Qed.
Lemma ninv_step suffix l s e s' : suffix_fits suffix -> ninv suffix l s -> event_fits e -> nreqs (l ++ [e]) <= 4294967295 -> nstep suffix s e = Val s' -> ninv suffix (l ++ [e]) s'.
Proof.
  intros Sf V Ev Ln E. assert (Ll : nreqs l <= 4294967295) by (rewrite nreqs_app in Ln; lia). destruct e as [ce|k|k y now c f d|pton argv].
  - assert (H : forall c, of_user ce -> cstep (n_cl s) ce = Val c -> (match asked (n_cl s) ce with
        | None => Val (mk_nst c (n_id s) (n_air s))
        | Some q => mdo p <- mdns_query_encode (n_id s) q suffix;; Val (put_air (mk_nst c ((n_id s + 1) mod 65536) (n_air s)) p) end) = Val s' -> ninv suffix (l ++ [NClient ce]) s').
    { intros c U Ec. pose proof (client_inv suffix l s ce c Sf V U Ev Ln Ec) as H. destruct (asked (n_cl s) ce) as [q|]; [|intros [= <-]; exact H]. destruct H as (p & _ & -> & H). cbn [mbind]. intros [= <-]. exact H. }
    destruct ce; cbn [nstep] in E; try (injection E as <-; apply ninv_same; exact V); destruct (cstep (n_cl s) _) as [c|] eqn:Ec; try discriminate; cbn [mbind] in E; eapply H; solve [exact Logic.I|reflexivity|exact E|exact Ec].
  - cbn [nstep] in E. destruct (nth_error (n_air s) k) as [p|] eqn:K; [|injection E as <-; apply ninv_same; exact V]. destruct (c_stack (n_cl s)) eqn:St; [|injection E as <-; apply ninv_same; exact V].
    destruct (read_client suffix l s p Sf V (nth_error_In _ _ K)) as [R|(id & q & x & R & G & T)]; rewrite R in E; cbn [mbind] in E; [injection E as <-; apply ninv_same; exact V|].
    destruct (cstep (n_cl s) (CAnswer q x)) as [c|] eqn:Ec; [|discriminate]. cbn [mbind] in E. injection E as <-. eapply answer_ninv; eauto.
  - cbn [nstep] in E. destruct (nth_error (n_air s) k) as [p|] eqn:K; [|injection E as <-; apply ninv_same; exact V].
    destruct (read_server suffix l s p Sf V (nth_error_In _ _ K)) as [R|(id & q & Li & R & G & Dn)].
    + unfold mdns_server_rx in E. rewrite R in E. injection E as <-. apply ninv_same; exact V.
    + pose proof (server_out y now c f d suffix id q _ Ev G Dn Sf Li R) as H. destruct (run_out (mslookup_server_rx y now c q) f d) as [[y' [|v4 v6 age]]| |].
      * rewrite H in E. injection E as <-. apply ninv_same; exact V.
      * destruct H as (p' & Rp & Ep & An). rewrite Rp in E. injection E as <-. apply ninv_put; [exact V|]. pose proof (answers_good _ _ _ _ _ _ _ Ev An) as (G4 & G6 & _ & La).
        do 3 eexists. split; [exact Li|]. split; [exact G|]. split; [exact Dn|]. split; [exact G4|]. split; [exact G6|]. split; [exact La|]. split; [|exact Ep]. left. do 6 eexists. split; [apply in_app_iff; right; left; reflexivity|exact An].
      * rewrite H in E. injection E as <-. apply ninv_same; exact V.
      * rewrite H in E. discriminate.
  - cbn [nstep] in E. destruct Ev as [Rd Dn]. destruct (send_cases pton suffix argv) as [(q & x & Gv & _ & S)|[S _]]; rewrite S in E.
    + destruct (given_good _ _ _ _ Rd Gv) as (G & G4 & G6 & La). destruct (result_packet 0 q x suffix G (Dn _ _ Gv) Sf ltac:(lia) G4 G6 La) as (p & Ep & _). rewrite Ep in E. cbn [mbind snd] in E. injection E as <-.
      apply ninv_put; [exact V|]. exists 0, q, x. split; [lia|]. split; [exact G|]. split; [exact (Dn _ _ Gv)|]. split; [exact G4|]. split; [exact G6|]. split; [exact La|]. split; [|exact Ep]. right. exists pton, argv. split; [apply in_app_iff; right; left; reflexivity|exact Gv].
    + cbn [mbind snd put_air] in E. injection E as <-. apply ninv_same; exact V.
Qed.
Lemma nrun_app suffix l : forall s l', nrun suffix s (l ++ l') = mdo s' <- nrun suffix s l;; nrun suffix s' l'.
Proof. induction l as [|e l IH]; intros s l'; [reflexivity|]. cbn [nrun app]. destruct (nstep suffix s e); [|reflexivity]. cbn [mbind]. apply IH. Qed.
Lemma net_ninv suffix id l s : net_run suffix id l s -> ninv suffix l s.
Proof.
  revert s. induction l as [|e l IH] using rev_ind; intros s (Sf & Li & Ev & Ln & R).
  - injection R as <-. apply ninv_init; exact Li.
  - rewrite nrun_app in R. destruct (nrun suffix (n_init id) l) as [s1|] eqn:R1; [|discriminate]. cbn [mbind nrun] in R. destruct (nstep suffix s1 e) as [s2|] eqn:R2; [|discriminate]. cbn [mbind] in R. injection R as <-.
    apply Forall_app in Ev as [Ev Ee]. inversion Ee; subst. eapply ninv_step; eauto. apply IH. repeat split; auto; try apply Sf. rewrite nreqs_app in Ln. lia.
Qed.
