(** Proofs about the scripts that forward calls and messages (C74), continued: what they do; queries with other timeouts. *)
From Verif Require MainThms.
From Verif Require Import Base PeerId DbProofs Db DbSpec Auth Gsup Router Ctrl MsLookup Mdns MsSpec MsThms MsClient MsClientSpec MsClientThms MsClientThms2 Main MsTool MsToolSpec MsToolThms MsToolThms2 MsToolThms4 MsToolThms8 MsToolThms9 MsToolThms10 Cmd Scripts ScriptsSpec ScriptsThms.
Local Open Scope string_scope. Local Open Scope N_scope.

Lemma sip_service : service "sip.voice". Proof. split; [eexists; reflexivity|]. cbn. repeat split; lia. Qed.
Lemma smpp_service : service "smpp.sms". Proof. split; [eexists; reflexivity|]. cbn. repeat split; lia. Qed.
(** ** The dialplan *)
Lemma handler_spec e n b : tool_runs e -> is_msisdn n -> Forall network (concat b) ->
  (handler e (Some n) b = CallWaits /\ forall r, ~ settled (mk_query "sip.voice" IdMsisdn n) 0 None (concat b) r) \/
  (exists r, (forall r', settled (mk_query "sip.voice" IdMsisdn n) 0 None (concat b) r' <-> r' = r) /\
     handler e (Some n) b = match r with Some x => match nonzero (lr_v4 x) with Some (a, p) => CallBridge (dial e n a p) | None => CallHangup "UNALLOCATED_NUMBER" end | None => CallHangup "UNALLOCATED_NUMBER" end).
Proof.
  intros T Nn N. unfold handler. cbn [opt_default]. destruct (lookup_number e "sip.voice" n b T sip_service Nn N) as [[E S]|(r & E & S)]; rewrite E; [left; auto|right].
  exists r. split; auto. rewrite v4_found. destruct r as [x|]; auto. destruct (nonzero (lr_v4 x)) as [[a p]|]; reflexivity.
Qed.
Lemma c74_bridge e n b t : tool_runs e -> is_msisdn n -> Forall network (concat b) ->
  handler e (Some n) b = CallBridge t <-> exists x a p, settled (mk_query "sip.voice" IdMsisdn n) 0 None (concat b) (Some x) /\ v4_told x a p /\ t = dial e n a p.
Proof.
  intros T Nn N. destruct (handler_spec e n b T Nn N) as [[E S]|(r & S & E)]; rewrite E.
  - split; [discriminate|]. intros (x & a & p & H & _). destruct (S _ H).
  - split.
    + intros H. destruct r as [x|]; [|discriminate]. destruct (nonzero (lr_v4 x)) as [[a p]|] eqn:Z; [|discriminate]. injection H as <-. exists x, a, p. split; [apply S; auto|]. split; auto. apply v4_iff; auto.
    + intros (x & a & p & H & V & ->). apply S in H. subst r. apply v4_iff in V. rewrite V. reflexivity.
Qed.
Lemma c74_hangup e n b c : tool_runs e -> is_msisdn n -> Forall network (concat b) ->
  handler e (Some n) b = CallHangup c <-> c = "UNALLOCATED_NUMBER" /\ exists r, settled (mk_query "sip.voice" IdMsisdn n) 0 None (concat b) r /\ forall x a p, r = Some x -> ~ v4_told x a p.
Proof.
  intros T Nn N. destruct (handler_spec e n b T Nn N) as [[E S]|(r & S & E)]; rewrite E.
  - split; [discriminate|]. intros (_ & r & H & _). destruct (S _ H).
  - split.
    + intros H. assert (X : c = "UNALLOCATED_NUMBER" /\ forall x a p, r = Some x -> nonzero (lr_v4 x) <> Some (a, p)).
      { destruct r as [x|]; [|injection H as <-; split; auto; discriminate]. destruct (nonzero (lr_v4 x)) as [[a p]|] eqn:Z; [discriminate|]. injection H as <-. split; auto. intros y a p Y. injection Y as <-. rewrite Z. discriminate. }
      destruct X as [-> X]. split; auto. exists r. split; [apply S; auto|]. intros x a p R V. apply v4_iff in V. exact (X x a p R V).
    + intros (-> & r' & H & V). apply S in H. subst r'. destruct r as [x|]; auto. destruct (nonzero (lr_v4 x)) as [[a p]|] eqn:Z; auto. apply v4_iff in Z. destruct (V x a p eq_refl Z).
Qed.
Lemma c74_waits e n b : tool_runs e -> is_msisdn n -> Forall network (concat b) -> handler e (Some n) b = CallWaits <-> forall r, ~ settled (mk_query "sip.voice" IdMsisdn n) 0 None (concat b) r.
Proof.
  intros T Nn N. destruct (handler_spec e n b T Nn N) as [[E S]|(r & S & E)]; rewrite E; [split; auto|]. split; [|intros H; destruct (H r); apply S; auto]. destruct r as [x|]; [destruct (nonzero (lr_v4 x)) as [[a p]|]|]; discriminate.
Qed.
(** ** The ESME *)
Lemma rx_spec e tx p n b : tool_runs e -> taken p n -> is_msisdn n -> Forall network (concat b) ->
  (rx_deliver e None tx p b = PWait /\ forall r, ~ settled (mk_query "smpp.sms" IdMsisdn n) 0 None (concat b) r) \/
  (exists r, (forall r', settled (mk_query "smpp.sms" IdMsisdn n) 0 None (concat b) r' <-> r' = r) /\
     rx_deliver e None tx p b = match r with Some x => match nonzero (lr_v4 x) with Some (a, q) => if tx (mk_sms (e_ntop e a) (dec q) n) then PGot (Some (mk_sms (e_ntop e a) (dec q) n), 0) else PRaise | None => PGot (None, 8) end | None => PGot (None, 8) end).
Proof.
  intros T (P1 & P2 & P3) Nn N. unfold rx_deliver, can_handle, TON_INTL. rewrite P1, P3, (proj2 (N.eqb_neq _ _) P2). cbn [negb andb]. destruct (lookup_number e "smpp.sms" n b T smpp_service Nn N) as [[E S]|(r & E & S)]; rewrite E; [left; auto|right].
  exists r. split; auto. rewrite v4_found. destruct r as [x|]; auto. destruct (nonzero (lr_v4 x)) as [[a q]|]; reflexivity.
Qed.
Lemma c74_forward e tx p n b m c : tool_runs e -> taken p n -> is_msisdn n -> Forall network (concat b) -> (forall m, tx m = true) ->
  rx_deliver e None tx p b = PGot (m, c) <-> exists r, settled (mk_query "smpp.sms" IdMsisdn n) 0 None (concat b) r /\
    ((exists x a q, r = Some x /\ v4_told x a q /\ m = Some (mk_sms (e_ntop e a) (dec q) n) /\ c = 0) \/ ((forall x a q, r = Some x -> ~ v4_told x a q) /\ m = None /\ c = 8)).
Proof.
  intros T P Nn N Tx. destruct (rx_spec e tx p n b T P Nn N) as [[E S]|(r & S & E)]; rewrite E.
  - split; [discriminate|]. intros (r & H & _). destruct (S _ H).
  - split.
    + intros H. exists r. split; [apply S; auto|]. destruct r as [x|]; [|injection H as <- <-; right; split; [discriminate|auto]]. destruct (nonzero (lr_v4 x)) as [[a q]|] eqn:Z.
      * rewrite Tx in H. injection H as <- <-. left. exists x, a, q. split; auto. split; auto. apply v4_iff; auto.
      * injection H as <- <-. right. split; auto. intros y a q Y V. injection Y as <-. apply v4_iff in V. congruence.
    + intros (r' & H & D). apply S in H. subst r'. destruct D as [(x & a & q & -> & V & -> & ->)|(D & -> & ->)].
      * apply v4_iff in V. rewrite V, Tx. reflexivity.
      * destruct r as [x|]; auto. destruct (nonzero (lr_v4 x)) as [[a q]|] eqn:Z; auto. apply v4_iff in Z. destruct (D x a q eq_refl Z).
Qed.
(** ** Numbers that are none *)
Lemma last_dot a : forall a' b b', all_chars no_dot b = true -> all_chars no_dot b' = true -> a ++ "." ++ b = a' ++ "." ++ b' -> a = a' /\ b = b'.
Proof.
  induction a as [|c a IH]; intros [|c' a'] b b' B B' E; cbn in E.
  - injection E as ->. auto.
  - injection E as <- ->. rewrite all_app in B. cbn in B. rewrite andb_false_r in B. discriminate.
  - injection E as -> <-. rewrite all_app in B'. cbn in B'. rewrite andb_false_r in B'. discriminate.
  - injection E as -> E. destruct (IH a' b b' B B' E) as [-> ->]. auto.
Qed.
Lemma word_no_dot t w : word_for t w -> t <> IdNone -> all_chars no_dot w = true.
Proof.
  intros W T. assert (X : Forall (fun c => no_dot c = true) (bytes_of w)).
  { unfold word_for in W. assert (Y : Forall (fun c => (97 <= N_of_ascii c <= 122)%N) (bytes_of match t with IdNone => "none" | IdImsi => "imsi" | IdMsisdn => "msisdn" end)) by (destruct t; cbn; repeat constructor; cbn; lia).
    induction W as [|c c' l l' H W IH]; constructor; [|apply Forall_cons_iff in Y as [_ Y]; auto]. apply Forall_cons_iff in Y as [Y _]. unfold no_dot. apply negb_true_iff, Ascii.eqb_neq. intros ->. destruct H as [<-|[H _]]; cbn in *; lia. }
  clear W T. induction w as [|c w IH]; auto. cbn in X. apply Forall_cons_iff in X as [X1 X2]. cbn. rewrite X1. auto.
Qed.
Lemma word_msisdn t : t <> IdNone -> word_for t "msisdn" -> t = IdMsisdn.
Proof. intros T W. destruct t; auto; [contradiction|]. unfold word_for in W. cbn in W. repeat match goal with H : Forall2 _ (_ :: _) _ |- _ => inversion H; clear H; subst end. Qed.
Lemma digits_no_dot n : all_chars MsToolSpec.is_digit n = true -> all_chars no_dot n = true.
Proof. apply all_impl. intros c. unfold MsToolSpec.is_digit, no_dot. rewrite andb_true_iff, !N.leb_le, negb_true_iff, Ascii.eqb_neq. intros [A B] ->. cbn in A. lia. Qed.
Lemma imsi_digits n : is_imsi n -> all_chars MsToolSpec.is_digit n = true.
Proof.
  intros [_ D]. induction n as [|c n IH]; cbn; auto. apply andb_true_iff. split; [|apply IH; intros m x H; exact (D (S m) x H)].
  specialize (D O c eq_refl). unfold MsToolSpec.is_digit. apply andb_true_iff. split; apply N.leb_le; lia.
Qed.
Lemma not_number s n : ~ is_msisdn n -> all_chars no_dot n = true -> exists z, query_init (query_text s n "msisdn") = inr z.
Proof.
  intros Nn D. destruct (query_init (query_text s n "msisdn")) as [q|z] eqn:E; eauto. exfalso. apply init_sound in E as ([_ G] & w & W & E). unfold query_text in E.
  assert (T : lq_type q <> IdNone) by (intros T; rewrite T in G; exact G). pose proof (word_no_dot _ _ W T) as Wd.
  assert (Id : all_chars no_dot (lq_id q) = true) by (destruct (lq_type q); [contradiction|apply digits_no_dot, imsi_digits, G|apply digits_no_dot, digits_of, G]).
  assert (E' : ((s ++ "." ++ n) ++ "." ++ "msisdn" = (lq_service q ++ "." ++ lq_id q) ++ "." ++ w)) by (rewrite !MainThms.append_assoc; exact E).
  apply last_dot in E' as [E1 Ew]; auto. subst w. apply last_dot in E1 as [_ E2]; auto. apply word_msisdn in W; auto. rewrite W in G. apply Nn. rewrite E2. exact G.
Qed.

Lemma refused_number s n : (exists r, s = String "s" r) -> ~ is_msisdn n -> all_chars no_dot n = true -> refused (query_text s n "msisdn").
Proof.
  intros (r & ->) Nn D. destruct (split_at "@" (query_text (String "s" r) n "msisdn")) as [[t x]|] eqn:A; [right|left; split; [exact A|apply not_number; auto]].
  exists t, x. split; auto. unfold query_text in A. cbn [append split_at Ascii.eqb Bool.eqb] in A. destruct (split_at "@" _) as [[t' x']|]; [|discriminate]. injection A as <- <-.
  unfold handling. destruct (_ <=? _)%nat; auto. cbn [split_at Ascii.eqb Bool.eqb]. destruct (split_at "-" t') as [[y z]|]; reflexivity.
Qed.
Lemma refused_waits e s n : e_mdns e "239.192.23.42" 4266 = true -> (exists r, s = String "s" r) -> ~ is_msisdn n -> all_chars no_dot n = true -> query_mslookup e s n "msisdn" [] = PWait.
Proof.
  intros M S Nn D. pose proof (refused_number s n S Nn D) as R. destruct S as (r & ->). destruct (main_refused e _ R) as (s1 & E1 & _). unfold query_mslookup.
  assert (E : look_main e [query_text (String "s" r) n "msisdn"; "-f"; "json"] [] = mdo x <- MsTool.main (json_opts e) [query_text (String "s" r) n "msisdn"] [];; Val (LRan (fst x) (snd x), [])) by (apply (look_json e _ [] M)).
  rewrite E. unfold MsTool.main. rewrite E1. reflexivity.
Qed.

(** ** One query with any timeouts *)
Definition told (o : topts) (d : string) (rs : list tres) : list tout := map (fun r => OLine (format o d (Some r))) rs.
Definition small (r : tres) : Prop := lr_age (r_res r) < 4294967296.
Record busy (o : topts) (d : string) (q : query) (s : tst) : Prop := mk_busy {
  by_q : exists mn tm w rc x tmr now tr, t_cl s = mk_cst [mk_req 0 1 q mn tm w rc x (Some tmr)] 2 1 [(1, q)] now [] tr /\ lr_age x < 4294967296 /\ Forall small (calls 0 tr) /\ t_out s = told o d (calls 0 tr);
  by_qs : t_qs s = [(1, d)]; by_cls : t_cls s = []; by_handled : t_handled s = 0 }.
Record ready (o : topts) (d : string) (s : tst) : Prop := mk_ready {
  rd_reqs : c_reqs (t_cl s) = []; rd_mdns : c_mdns (t_cl s) = []; rd_stack : c_stack (t_cl s) = []; rd_qs : t_qs s = []; rd_cls : t_cls s = [];
  rd_handled : t_handled s = 1; rd_out : t_out s = told o d (calls 0 (c_trace (t_cl s))); rd_small : Forall small (calls 0 (c_trace (t_cl s))); rd_final : final_call 0 (c_trace (t_cl s)) }.
Lemma ready_step o d s e : ready o d s -> network e -> exists s', tstep o s e = Val s' /\ ready o d s'.
Proof.
  intros O N. pose proof O as [A B C D E F G H H']. destruct e as [|i b|i|q' x|u|ms]; cbn [tstep]; try contradiction.
  - cbn [cstep]. rewrite C. unfold rx_answer. rewrite B. cbn [find mbind]. unfold settle. cbn [t_cl t_with_cl]. rewrite C. eexists. split; [reflexivity|]. constructor; auto.
  - cbn [cstep]. rewrite C, A. cbn [find mbind]. unfold settle. cbn [t_cl t_with_cl]. rewrite C. eexists. split; [reflexivity|]. constructor; auto.
  - cbn [cstep]. rewrite C. cbn [mbind]. unfold settle. cbn [t_cl t_with_cl c_stack]. eexists. split; [reflexivity|]. constructor; auto.
Qed.
Lemma busy_step o d q s e : busy o d q s -> network e -> exists s', tstep o s e = Val s' /\ (busy o d q s' \/ ready o d s').
Proof.
  intros [(mn & tm & w & rc & x & tmr & now & tr & Ec & Ag & Sm & Eo) Eq El Eh] N. destruct s as [c qs cls nx hd out]. cbn [t_cl t_out t_qs t_cls t_handled] in *. subst c qs cls hd out.
  assert (Ag0 : lr_age none < 4294967296) by (cbn; lia).
  destruct e as [|i b|i|q' y|u|ms]; try contradiction.
  - cbn in N. cbn [tstep cstep t_cl c_stack]. unfold rx_answer. cbn [c_mdns find snd]. destruct (query_eqb q q') eqn:Q.
    + unfold rx_result, get_request. cbn [N.eqb c_reqs find q_handle Pos.eqb q_rc q_res q_uid q_query c_now]. destruct (match rc with RcResult => lr_age x <=? lr_age y | _ => false end).
      * eexists. split; [cbn; reflexivity|]. left. constructor; auto. cbn. do 8 eexists. split; [reflexivity|]. cbn. auto.
      * destruct (lr_age y =? 0).
        -- eexists. split; [cbn; reflexivity|]. right. constructor; cbn; auto. exists RcResult, y, now. left. reflexivity.
        -- cbn [q_with_result q_waiting]. destruct w.
           ++ eexists. split; [cbn; reflexivity|]. left. constructor; auto. cbn. do 8 eexists. split; [reflexivity|]. cbn. auto.
           ++ eexists. split; [cbn; reflexivity|]. left. constructor; auto. cbn. do 8 eexists. split; [reflexivity|]. cbn. split; [exact N|]. split; [constructor; auto|reflexivity].
    + eexists. split; [cbn; reflexivity|]. left. constructor; auto. cbn. do 8 eexists. split; [reflexivity|]. auto.
  - cbn [tstep cstep t_cl c_stack c_reqs find q_uid]. destruct (N.eqb_spec 0 u) as [<-|U].
    2:{ eexists. split; [cbn; reflexivity|]. left. constructor; auto. cbn. do 8 eexists. split; [reflexivity|]. auto. }
    cbn [q_timer c_now]. destruct (tmr <=? now).
    2:{ eexists. split; [cbn; reflexivity|]. left. constructor; auto. cbn. do 8 eexists. split; [reflexivity|]. auto. }
    unfold timeout. cbn [q_with_timer q_with_waiting q_with_result q_waiting q_tmo q_min q_rc q_res q_uid c_now]. destruct w.
    + destruct (tm <=? mn).
      * destruct rc; (eexists; split; [cbn; reflexivity|]; right; constructor; cbn; auto; do 3 eexists; left; reflexivity).
      * destruct rc.
        -- eexists. split; [cbn; reflexivity|]. left. constructor; auto. cbn. do 8 eexists. split; [reflexivity|]. auto.
        -- eexists. split; [cbn; reflexivity|]. left. constructor; auto. cbn. do 8 eexists. split; [reflexivity|]. cbn. split; [exact Ag|]. split; [constructor; auto|reflexivity].
        -- eexists. split; [cbn; reflexivity|]. left. constructor; auto. cbn. do 8 eexists. split; [reflexivity|]. auto.
    + destruct rc; (eexists; split; [cbn; reflexivity|]; right; constructor; cbn; auto; do 3 eexists; left; reflexivity).
  - eexists. split; [cbn; reflexivity|]. left. constructor; auto. cbn. do 8 eexists. split; [reflexivity|]. auto.
Qed.
Lemma busy_run o d q l : Forall network l -> forall s, busy o d q s \/ ready o d s -> exists s', trun o s l = Val s' /\ (busy o d q s' \/ ready o d s').
Proof.
  induction l as [|e l IH]; intros N s H; cbn [trun]; [eauto|]. apply Forall_cons_iff in N as [N1 N2].
  assert (X : exists s', tstep o s e = Val s' /\ (busy o d q s' \/ ready o d s')). { destruct H as [H|H]; [apply busy_step; auto|]. destruct (ready_step o d s e H N1) as (s' & E & R). eauto. }
  destruct X as (s1 & -> & H1). cbn [mbind]. apply IH; auto.
Qed.
Lemma busy_loop o d q : o_daemon o = false -> forall b, Forall network (concat b) -> forall s, busy o d q s -> exists s' l l', concat b = (l ++ l')%list /\ trun o s l = Val s' /\
  ((loop o s b = Val (s', false) /\ busy o d q s' /\ l' = []) \/ (loop o s b = Val (s', true) /\ ready o d s')).
Proof.
  intros D. induction b as [|l b IH]; intros N s H; cbn [loop concat].
  - exists s, [], []. split; auto.
  - cbn [concat] in N. apply Forall_app in N as [N1 N2]. destruct (busy_run o d q l N1 s (or_introl H)) as (s1 & E & [H1|H1]); rewrite E; cbn [mbind].
    + assert (Dn : done o s1 = false) by (unfold done; rewrite D, (by_handled _ _ _ _ H1); reflexivity). rewrite Dn. destruct (IH N2 s1 H1) as (s2 & l2 & l2' & E2 & T2 & C). exists s2, (l ++ l2)%list, l2'.
      split; [rewrite E2; apply List.app_assoc|]. split; [rewrite trun_app, E; exact T2|exact C].
    + assert (Dn : done o s1 = true) by (unfold done; rewrite D, (rd_handled _ _ _ H1), (rd_qs _ _ _ H1); reflexivity). rewrite Dn, (rd_cls _ _ _ H1). cbn [fold_left]. exists s1, l, (concat b). split; auto.
Qed.
Lemma start_busy (o : topts) x d mn tm q : o_fmt o = Json -> has_times o x d mn tm -> (String.length x <= String.length d + 16)%nat -> mn <= 4294967295 -> tm <= 4294967295 -> (String.length d < 128)%nat -> query_init d = inl q ->
  exists s, start o [x] = Val s /\ busy o d q s.
Proof.
  intros J H Lx Lm Lt Ld Qi. destruct (has_times_split _ _ _ _ _ H Lx Lm Lt) as [Ed Eh]. unfold start. rewrite J. cbn [start_queries]. unfold start_query. rewrite Ed, Eh. destruct (Nat.leb_spec QUERY_STR (String.length d)) as [X|_]; [unfold QUERY_STR in X; lia|]. rewrite Qi.
  destruct (query_init_valid _ _ Qi) as [V1 V2]. rewrite V1, V2. cbn [negb orb]. cbv zeta. unfold request. rewrite V1, V2. eexists. split; [cbn; reflexivity|]. constructor; auto. cbn. do 8 eexists. split; [reflexivity|]. cbn. repeat split; auto.
Qed.
Lemma stdout_told o d rs : stdout (told o d rs) = rev (map (fun r => format o d (Some r)) rs).
Proof. unfold told. induction rs as [|r rs IH]; cbn; auto. rewrite IH. reflexivity. Qed.
Lemma pipe_app a b r : pipe_lines (a ++ b) r = match pipe_lines a r with PGot d => pipe_lines b d | x => x end.
Proof. revert r. induction a as [|x a IH]; intros r; cbn; auto. destruct (read_json x); auto. Qed.
Lemma pipe_told o d rs : o_fmt o = Json -> plain_ntop o -> all_chars literal d = true -> (String.length d <= 700)%nat -> Forall small rs ->
  pipe_lines (rev (map (fun r => format o d (Some r)) rs)) nothing = PGot (answer o d rs).
Proof.
  intros J P L Le. induction 1 as [|r rs S F IH]; [reflexivity|]. cbn [map rev]. rewrite pipe_app, IH. cbn [pipe_lines]. rewrite (c59_json o d (Some r) J P L Le S). unfold answer. cbn [newest].
  assert (K : key_of "result" (members o d (Some r)) = Some (JStr (code_name (r_code r)))) by reflexivity. rewrite K. destruct (r_code r); reflexivity.
Qed.
Lemma newest_in rs r : newest rs = Some r -> In r rs /\ r_code r = RcResult.
Proof. induction rs as [|x rs IH]; cbn; [discriminate|]. destruct (r_code x) eqn:E; intros H; try (destruct (IH H); auto; fail). injection H as <-. auto. Qed.
Lemma calls_in u tr r : In r (calls u tr) <-> exists t, In (TCall u (r_code r) (r_res r) (r_last r) t) tr.
Proof.
  induction tr as [|n tr IH]; cbn; [split; [intros []|intros (t & [])]|]. assert (X : (exists t, n = TCall u (r_code r) (r_res r) (r_last r) t \/ In (TCall u (r_code r) (r_res r) (r_last r) t) tr) <-> (exists t, n = TCall u (r_code r) (r_res r) (r_last r) t) \/ In r (calls u tr)).
  { rewrite IH. split; [intros (t & [H|H]); eauto|intros [(t & H)|(t & H)]; eauto]. }
  rewrite X. destruct n as [v q mn tm t|v q rc x t|v rc x last t|v t]; try (split; [auto|intros [(t' & H)|H]; [discriminate|auto]]).
  destruct (N.eqb_spec v u) as [->|D].
  - cbn. split; (intros [H|H]; [left|right; auto]); [subst r; cbn; eauto|destruct H as (t' & H); injection H as -> -> ->; destruct r; reflexivity].
  - split; auto. intros [(t' & H)|H]; auto. injection H as H; congruence.
Qed.
(** the newest answer is the youngest *)
Lemma newest_best s u r y l t : creach s -> In (TCall u RcResult y l t) (c_trace s) -> newest (calls u (c_trace s)) = Some r -> lr_age (r_res r) <= lr_age y.
Proof.
  intros R. assert (G : forall tr a, c_trace s = (a ++ tr)%list -> In (TCall u RcResult y l t) tr -> newest (calls u tr) = Some r -> lr_age (r_res r) <= lr_age y).
  { induction tr as [|n tr IH]; intros a E H Nw; [destruct H|]. assert (E' : c_trace s = ((a ++ [n]) ++ tr)%list) by (rewrite <- List.app_assoc; exact E).
    destruct H as [->|H].
    - cbn [calls] in Nw. rewrite N.eqb_refl in Nw. cbn in Nw. injection Nw as <-. cbn. lia.
    - destruct n as [v q mn tm t'|v q rc x t'|v rc x last t'|v t']; cbn [calls] in Nw; try (eapply IH; eauto; fail). destruct (N.eqb_spec v u) as [->|D]; [|eapply IH; eauto]. cbn [newest r_code] in Nw. destruct rc; try (eapply IH; eauto; fail).
      injection Nw as <-. cbn. apply in_split in H as (b1 & b2 & ->).
      assert (E2 : c_trace s = ((a ++ TCall u RcResult x last t' :: b1) ++ TCall u RcResult y l t :: b2)%list) by (rewrite E, <- List.app_assoc; reflexivity).
      destruct (c35_ages s _ u RcResult y l t b2 x last t' R E2) as [_ X]; [apply in_app_iff; right; left; reflexivity|]. lia. }
  intros H Nw. exact (G (c_trace s) [] eq_refl H Nw).
Qed.
Lemma newest_some rs r : In r rs -> r_code r = RcResult -> exists x, newest rs = Some x.
Proof. induction rs as [|x rs IH]; [intros []|]. intros [->|H] C; cbn; [rewrite C; eauto|]. destruct (r_code x); eauto. Qed.
Lemma c74_pipe e x d mn tm q b : tool_runs e -> has_times (json_opts e) x d mn tm -> (String.length x <= String.length d + 16)%nat -> mn <= 4294967295 -> tm <= 4294967295 -> (String.length d < 128)%nat -> query_init d = inl q ->
  all_chars literal d = true -> (exists c r, x = String c r /\ c <> "-"%char) -> Forall network (concat b) ->
  exists s l l', concat b = (l ++ l')%list /\ reached (json_opts e) [x] l s /\
   ((look_main e ["-f"; "json"; x] b = Val (LRan s false, []) /\ pipe_query e x b = PWait) \/
    (look_main e ["-f"; "json"; x] b = Val (LRan s true, []) /\ final_call 0 (c_trace (t_cl s)) /\
     pipe_query e x b = PGot (answer (json_opts e) d (calls 0 (c_trace (t_cl s)))) /\
     forall q' y t, In (TRes 0 q' RcResult y t) (c_trace (t_cl s)) -> exists r, newest (calls 0 (c_trace (t_cl s))) = Some r /\ lr_age (r_res r) <= lr_age y)).
Proof.
  intros [M P] H Lx Lm Lt Ld Qi Lit Nd N. destruct (start_busy (json_opts e) x d mn tm q eq_refl H Lx Lm Lt Ld Qi) as (s0 & E0 & B0).
  destruct (busy_loop (json_opts e) d q eq_refl b N s0 B0) as (s & l & l' & Eb & Tr & C). exists s, l, l'. split; auto.
  assert (Pk : packets l = O). { rewrite Eb in N. apply Forall_app in N as [N _]. clear - N. induction N as [|y l H N IH]; auto. destruct y; cbn in *; auto; contradiction. }
  assert (R : reached (json_opts e) [x] l s). { split; [rewrite Pk; cbn; lia|]. exists s0. auto. }
  split; auto. assert (E : look_main e ["-f"; "json"; x] b = mdo r <- MsTool.main (json_opts e) [x] b;; Val (LRan (fst r) (snd r), [])) by (apply look_json2; auto).
  unfold pipe_query. rewrite E. unfold MsTool.main. rewrite E0. cbn [mbind]. fold nothing. destruct C as [(E1 & B1 & _)|(E1 & R1)]; rewrite E1; cbn [mbind fst snd look_status]; [left|right]; (split; [reflexivity|]).
  - destruct B1 as [(mn' & tm' & w & rc & x' & tmr & now & tr & Ec & Ag & Sm & Eo) _ _ _]. rewrite Eo, stdout_told, (pipe_told (json_opts e) d); auto; lia.
  - pose proof R1 as [_ _ _ _ _ _ Eo Sm Fi]. split; auto. split; [rewrite Eo, stdout_told, (pipe_told (json_opts e) d); auto; lia|].
    intros q' y t T. destruct (reached_tinv _ _ _ _ R) as [[Bi _] _]. pose proof (v_reach _ Bi) as Cr. destruct Fi as (rc & z & tz & Fi). apply in_split in Fi as (a & b' & Ef).
    destruct (c35_one_end _ _ _ _ _ _ _ Cr Ef) as (_ & _ & After). assert (Tb : In (TRes 0 q' RcResult y t) b').
    { rewrite Ef in T. apply in_app_iff in T as [T|[T|T]]; auto; [|discriminate]. destruct (After _ T eq_refl) as (t' & X). discriminate. }
    destruct (c35_best _ _ _ _ _ _ _ _ _ _ Cr Ef Tb) as (z' & l1 & t1 & I1 & Le). destruct (newest_some (calls 0 (c_trace (t_cl s))) (mk_tres RcResult z' l1)) as (r & Nw); [apply calls_in; exists t1; exact I1|reflexivity|].
    exists r. split; auto. pose proof (newest_best _ _ _ _ _ _ Cr I1 Nw). lia.
Qed.
