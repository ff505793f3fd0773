(** Proofs about the scripts that forward calls and messages (C74): one query with the timeouts that the tool has by itself. *)
From Verif Require Import Base PeerId DbProofs Db DbSpec Auth Gsup Router Ctrl MsLookup Mdns MsSpec MsThms MsClient MsClientThms2 Main MsTool MsToolSpec MsToolThms9 MsToolThms10 Cmd Scripts ScriptsSpec.
Local Open Scope string_scope. Local Open Scope N_scope.

Definition none : lresult := mk_result None None 0.
Definition final (best : option lresult) : tres := match best with Some x => mk_tres RcResult x true | None => mk_tres RcNotFound none true end.
Lemma eqb_iff q q' : lq_type q <> IdNone -> query_eqb q q' = true <-> q' = q.
Proof.
  intros T. split; [intros E; symmetry; apply query_eqb_eq; auto|intros ->]. unfold query_eqb. destruct q as [s t i]. cbn in *. rewrite String.eqb_refl. destruct t; [contradiction| |]; rewrite ?String.eqb_refl; reflexivity.
Qed.
(** the tool while it waits, and when it has its answer *)
Definition waiting (q : query) (d : string) (now : N) (best : option lresult) (tr : list note) : tst :=
  mk_tst (mk_cst [mk_req 0 1 q 1000 1000 true (match best with Some _ => RcResult | None => RcNone end) (opt_default none best) (Some 1000)] 2 1 [(1, q)] now [] tr) [(1, d)] [] 0 0 [].
Record over (o : topts) (d : string) (r : option lresult) (s : tst) : Prop := mk_over {
  ov_reqs : c_reqs (t_cl s) = []; ov_mdns : c_mdns (t_cl s) = []; ov_stack : c_stack (t_cl s) = []; ov_qs : t_qs s = []; ov_cls : t_cls s = [];
  ov_handled : t_handled s = 1; ov_out : t_out s = [OLine (format o d (Some (final r)))] }.
Definition fair (best : option lresult) : Prop := match best with Some x => lr_age x <> 0 | None => True end.
Lemma over_step o d r s e : over o d r s -> network e -> exists s', tstep o s e = Val s' /\ over o d r s'.
Proof.
  intros O N. pose proof O as [A B C D E F G]. destruct e as [|i b|i|q' x|u|ms]; cbn [tstep]; try contradiction.
  - cbn [cstep]. rewrite C. unfold rx_answer. rewrite B. cbn [find mbind]. unfold settle. cbn [t_cl t_with_cl]. rewrite C. eexists. split; [reflexivity|]. constructor; auto.
  - cbn [cstep]. rewrite C, A. cbn [find mbind]. unfold settle. cbn [t_cl t_with_cl]. rewrite C. eexists. split; [reflexivity|]. constructor; auto.
  - cbn [cstep]. rewrite C. cbn [mbind]. unfold settle. cbn [t_cl t_with_cl c_stack]. eexists. split; [reflexivity|]. constructor; auto.
Qed.
Lemma over_run o d r l : forall s, over o d r s -> Forall network l -> exists s', trun o s l = Val s' /\ over o d r s'.
Proof.
  induction l as [|e l IH]; intros s O N; cbn [trun]; [eauto|]. apply Forall_cons_iff in N as [N1 N2]. destruct (over_step o d r s e O N1) as (s1 & -> & O1). cbn [mbind]. apply IH; auto.
Qed.
(** one event *)
Inductive moves (q : query) : N -> option lresult -> tev -> N -> option lresult -> Prop :=
| mo_better : forall now best x, lr_age x <> 0 -> news best x -> moves q now best (EAnswer q x) now (Some x)
| mo_worse : forall now best x, lr_age x <> 0 -> ~ news best x -> moves q now best (EAnswer q x) now best
| mo_other : forall now best q' x, q' <> q -> moves q now best (EAnswer q' x) now best
| mo_time : forall now best ms, moves q now best (ETick ms) (now + ms) best
| mo_early : forall now best, now < 1000 -> moves q now best (ETimer 0) now best
| mo_skip : forall now best u, u <> 0 -> moves q now best (ETimer u) now best.
Inductive ends (q : query) : N -> option lresult -> tev -> option lresult -> Prop :=
| en_now : forall now best x, lr_age x = 0 -> ends q now best (EAnswer q x) (Some x)
| en_over : forall now best, 1000 <= now -> ends q now best (ETimer 0) best.
Lemma wait_step o q d now best tr e : lq_type q <> IdNone -> fair best -> network e ->
  (exists s now' best' tr', tstep o (waiting q d now best tr) e = Val s /\ s = waiting q d now' best' tr' /\ moves q now best e now' best' /\ fair best') \/
  (exists s r, tstep o (waiting q d now best tr) e = Val s /\ over o d r s /\ ends q now best e r).
Proof.
  intros T Fa N. destruct e as [|i b|i|q' x|u|ms]; try contradiction.
  - cbn [tstep cstep waiting t_cl c_stack]. unfold rx_answer. cbn [c_mdns find snd]. destruct (query_eqb q q') eqn:Eq.
    + apply eqb_iff in Eq; auto. subst q'. unfold rx_result, get_request. cbn [N.eqb c_reqs find q_handle Pos.eqb q_rc q_res q_uid q_query c_now]. destruct (N.eq_dec (lr_age x) 0) as [Z|Z].
      * right. assert (W : (match match best with Some _ => RcResult | None => RcNone end with RcResult => lr_age (opt_default none best) <=? lr_age x | _ => false end) = false).
        { destruct best as [y|]; auto. cbn in Fa |- *. apply N.leb_gt. lia. }
        rewrite W, (proj2 (N.eqb_eq _ _) Z). eexists. exists (Some x). split; [cbn; reflexivity|]. split; [constructor; reflexivity|]. constructor; auto.
      * left. destruct (match match best with Some _ => RcResult | None => RcNone end with RcResult => lr_age (opt_default none best) <=? lr_age x | _ => false end) eqn:W.
        -- eexists. exists now, best. eexists. split; [cbn; reflexivity|]. split; [reflexivity|]. split; auto. apply mo_worse; auto. destruct best as [y|]; [|discriminate]. cbn in W |- *. apply N.leb_le in W. lia.
        -- rewrite (proj2 (N.eqb_neq _ _) Z). eexists. exists now, (Some x). eexists. split; [cbn; reflexivity|]. split; [reflexivity|]. split; [|exact Z]. apply mo_better; auto. destruct best as [y|]; [|exact I]. cbn in W |- *. apply N.leb_gt in W. lia.
    + left. exists (waiting q d now best tr), now, best, tr. split; [cbn; reflexivity|]. split; auto. split; auto. apply mo_other. intros ->. rewrite (proj2 (eqb_iff q q T) eq_refl) in Eq. discriminate.
  - cbn [tstep cstep waiting t_cl c_stack c_reqs find q_uid]. destruct (N.eqb_spec 0 u) as [<-|U].
    + cbn [q_timer c_now]. destruct (N.leb_spec 1000 now) as [L|L].
      * right. destruct best as [y|]; [eexists; exists (Some y)|eexists; exists None]; (split; [cbn; reflexivity|]); (split; [constructor; reflexivity|]); constructor; auto.
      * left. exists (waiting q d now best tr), now, best, tr. split; [cbn; reflexivity|]. split; auto. split; auto. apply mo_early; auto.
    + left. exists (waiting q d now best tr), now, best, tr. split; [cbn; reflexivity|]. split; auto. split; auto. apply mo_skip. auto.
  - left. eexists. exists (now + ms), best, tr. split; [cbn; reflexivity|]. split; [reflexivity|]. split; auto. constructor.
Qed.
Lemma moves_settled q now best e now' best' l r : moves q now best e now' best' -> settled q now best (e :: l) r <-> settled q now' best' l r.
Proof.
  intros M. split.
  - intros S. inversion M; subst; inversion S; subst; auto; try congruence; try lia; try contradiction.
  - intros S. destruct M; [apply se_better|apply se_worse|apply se_other|apply se_time|apply se_early|apply se_skip]; auto.
Qed.
Lemma ends_settled q now best e r l : ends q now best e r -> forall r', settled q now best (e :: l) r' <-> r' = r.
Proof.
  intros E r'. split.
  - intros S. inversion E; subst; inversion S; subst; auto; try congruence; try lia; try contradiction.
  - intros ->. destruct E; [apply se_now|apply se_over]; auto.
Qed.
Lemma nil_settled q now best r : ~ settled q now best [] r.
Proof. intros S. inversion S. Qed.
(** the events of one pass *)
Lemma wait_run o q d l l' : lq_type q <> IdNone -> Forall network l -> forall now best tr, fair best ->
  (exists now' best' tr', trun o (waiting q d now best tr) l = Val (waiting q d now' best' tr') /\ fair best' /\ forall r, settled q now best (l ++ l') r <-> settled q now' best' l' r) \/
  (exists s r, trun o (waiting q d now best tr) l = Val s /\ over o d r s /\ forall r', settled q now best (l ++ l') r' <-> r' = r).
Proof.
  intros T. induction l as [|e l IH]; intros N now best tr Fa; cbn [trun app].
  - left. exists now, best, tr. split; auto. split; auto. intros r. reflexivity.
  - apply Forall_cons_iff in N as [N1 N2]. destruct (wait_step o q d now best tr e T Fa N1) as [(s & now' & best' & tr' & E & -> & M & Fa')|(s & r & E & O & M)]; rewrite E; cbn [mbind].
    + destruct (IH N2 now' best' tr' Fa') as [(now2 & best2 & tr2 & E2 & F2 & S2)|(s2 & r2 & E2 & O2 & S2)]; [left|right].
      * exists now2, best2, tr2. split; auto. split; auto. intros r. rewrite (moves_settled _ _ _ _ _ _ _ _ M). apply S2.
      * exists s2, r2. split; auto. split; auto. intros r'. rewrite (moves_settled _ _ _ _ _ _ _ _ M). apply S2.
    + right. destruct (over_run o d r l s O N2) as (s2 & E2 & O2). exists s2, r. split; auto. split; auto. apply ends_settled; auto.
Qed.
Lemma wait_loop o q d : lq_type q <> IdNone -> o_daemon o = false -> forall b, Forall network (concat b) -> forall now best tr, fair best ->
  (exists s, loop o (waiting q d now best tr) b = Val (s, false) /\ forall r, ~ settled q now best (concat b) r) \/
  (exists s r, loop o (waiting q d now best tr) b = Val (s, true) /\ stdout (t_out s) = [format o d (Some (final r))] /\ forall r', settled q now best (concat b) r' <-> r' = r).
Proof.
  intros T D. induction b as [|l b IH]; intros N now best tr Fa; cbn [loop concat].
  - left. eexists. split; [reflexivity|]. intros r. apply nil_settled.
  - cbn [concat] in N. apply Forall_app in N as [N1 N2]. destruct (wait_run o q d l (concat b) T N1 now best tr Fa) as [(now' & best' & tr' & E & F' & S)|(s & r & E & O & S)]; rewrite E; cbn [mbind].
    + assert (Dn : done o (waiting q d now' best' tr') = false) by (unfold done; rewrite D; reflexivity). rewrite Dn. destruct (IH N2 now' best' tr' F') as [(s & E2 & S2)|(s & r & E2 & O2 & S2)]; [left|right].
      * exists s. split; auto. intros r H. apply (S2 r). apply S. auto.
      * exists s, r. split; auto. split; auto. intros r'. rewrite S. apply S2.
    + right. pose proof O as [A1 A2 A3 A4 A5 A6 A7]. assert (Dn : done o s = true) by (unfold done; rewrite D, A4, A6; reflexivity). rewrite Dn, A5. cbn [fold_left]. exists s, r. split; auto. split; [rewrite A7; reflexivity|auto].
Qed.
(** the whole tool, with one query and the options of the scripts *)
Lemma main_one e d q b : query_init d = inl q -> split_at "@" d = None -> (String.length d < 128)%nat -> Forall network (concat b) ->
  (exists s, MsTool.main (json_opts e) [d] b = Val (s, false) /\ forall r, ~ settled q 0 None (concat b) r) \/
  (exists s r, MsTool.main (json_opts e) [d] b = Val (s, true) /\ stdout (t_out s) = [format (json_opts e) d (Some (final r))] /\ forall r', settled q 0 None (concat b) r' <-> r' = r).
Proof.
  intros Q A L N. unfold MsTool.main, start. cbn [start_queries json_opts o_fmt]. unfold start_query. unfold domain_of. rewrite A. cbn [o_min o_tmo].
  unfold QUERY_STR. rewrite (proj2 (Nat.leb_gt _ _) L), Q. destruct (MsToolThms.query_init_valid _ _ Q) as [V1 V2]. cbv zeta. unfold request. rewrite V1, V2.
  assert (T : lq_type q <> IdNone) by (intros T; rewrite T in V2; discriminate).
  change (mbind _ _) with (loop (json_opts e) (waiting q d 0 None [TStart 0 q 1000 1000 0]) b). apply wait_loop; auto. exact I.
Qed.
(** a query that is refused: nothing happens until something happens *)
Definition refused (d : string) : Prop :=
  (split_at "@" d = None /\ exists z, query_init d = inr z) \/ exists t r, split_at "@" d = Some (t, r) /\ handling t = None.
Lemma main_refused (e : lenv) d : refused d -> exists s, start (json_opts e) [d] = Val s /\ t_qs s = [] /\ t_cls s = [] /\ t_handled s = 1 /\ c_reqs (t_cl s) = [] /\ c_mdns (t_cl s) = [] /\ c_stack (t_cl s) = [] /\
  t_out s = [OLine (format (json_opts e) (domain_of d) None)].
Proof.
  intros R. assert (X : start (json_opts e) [d] = Val (respond (json_opts e) t_init (domain_of d) None)).
  { unfold start. cbn [start_queries json_opts o_fmt]. unfold start_query, domain_of. destruct R as [(A & z & Q)|(t & r & A & H)]; rewrite A.
    - cbn [o_min o_tmo]. rewrite Q. destruct (_ <=? _)%nat; reflexivity.
    - rewrite H. reflexivity. }
  rewrite X. eexists. split; [reflexivity|]. repeat split.
Qed.

(** ** The scripts *)
Lemma look_json e t b : e_mdns e "239.192.23.42" 4266 = true ->
  look_main e [String "s" t; "-f"; "json"] b = mdo r <- MsTool.main (json_opts e) [String "s" t] b;; Val (LRan (fst r) (snd r), []).
Proof. intros M. unfold look_main, look_args. cbn. rewrite M. reflexivity. Qed.
Lemma look_json2 e t b : e_mdns e "239.192.23.42" 4266 = true -> (exists c r, t = String c r /\ c <> "-"%char) ->
  look_main e ["-f"; "json"; t] b = mdo r <- MsTool.main (json_opts e) [t] b;; Val (LRan (fst r) (snd r), []).
Proof.
  intros M (c & r & -> & C). unfold look_main, look_args.
  assert (G : getopt look_shorts look_longs ["-f"; "json"; String c r] = ([(RChar "f"%char, Some "json")], Some [String c r])).
  { cbn. destruct c as [[] [] [] [] [] [] [] []]; try reflexivity. destruct C. reflexivity. }
  rewrite G. cbn. rewrite M. reflexivity.
Qed.
Lemma loads_line o q r : o_fmt o = Json -> plain_ntop o -> all_chars literal q = true -> all_chars ascii_char q = true -> (String.length q <= 700)%nat -> match r with Some r => lr_age (r_res r) < 4294967296 | None => True end ->
  loads [format o q r] = PGot (members o q r).
Proof.
  intros J P L A Le Ag. unfold loads. cbn [String.concat]. rewrite (c59_json o q r J P L Le Ag).
  assert (X : all_chars ascii_char (format o q r) = true); [|rewrite X; reflexivity].
  assert (Tk : forall n t, all_chars ascii_char t = true -> all_chars ascii_char (str_take n t) = true).
  { intros n t H. destruct (PeerThms.str_take_split n t) as (b & E & _). rewrite E, all_app in H. apply andb_true_iff in H as [H _]. exact H. }
  assert (Dg : forall n, all_chars ascii_char (dec n) = true).
  { intros n. apply (all_impl MsToolSpec.is_digit); [|apply dec_chars]. intros c. unfold MsToolSpec.is_digit, ascii_char. rewrite andb_true_iff, N.leb_le, N.leb_le, N.ltb_lt. lia. }
  assert (Nt : forall a, all_chars ascii_char (o_ntop o a) = true).
  { intros a. apply (all_impl address_char); [|apply P]. intros c. unfold address_char, ascii_char. rewrite N.ltb_lt. intros H.
    cbv zeta in H. rewrite !orb_true_iff, !andb_true_iff, !N.leb_le, N.eqb_eq in H. lia. }
  assert (Ho : forall nm h, all_chars ascii_char nm = true -> all_chars ascii_char (json_host o nm h) = true).
  { intros nm h Hn. unfold json_host, quoted. destruct (nonzero h) as [[a p]|]; auto. repeat (rewrite all_app; apply andb_true_iff; split); auto. }
  unfold format. rewrite J. apply Tk. unfold json_text, quoted. repeat (rewrite all_app; apply andb_true_iff; split); auto.
  destruct r as [r|]; [|reflexivity]. repeat (rewrite all_app; apply andb_true_iff; split); auto; [destruct (r_code r); reflexivity|destruct (r_last r); reflexivity|].
  destruct (r_code r); auto. rewrite all_app. apply andb_true_iff. split; apply Ho; reflexivity.
Qed.
Lemma settled_age q now best l r x : settled q now best l r -> Forall network l -> match best with Some y => lr_age y < 4294967296 | None => True end -> r = Some x -> lr_age x < 4294967296.
Proof.
  induction 1; intros N B E; subst; apply Forall_cons_iff in N as [N1 N2]; auto; try (injection E as <-); cbn in N1; auto; try lia.
Qed.
Lemma digits_of n : is_msisdn n -> (1 <= String.length n <= 15)%nat /\ all_chars MsToolSpec.is_digit n = true.
Proof.
  intros [L D]. split; auto. clear L. induction n as [|c n IH]; cbn; auto. apply andb_true_iff. split; [|apply IH; intros m x H; exact (D (S m) x H)].
  specialize (D O c eq_refl). unfold MsToolSpec.is_digit. apply andb_true_iff. split; apply N.leb_le; lia.
Qed.
Definition service (s : string) : Prop := (exists r, s = String "s" r) /\ (String.length s <= 64)%nat /\ all_chars literal s = true /\ all_chars ascii_char s = true /\ all_chars (fun x => negb (x =? "@")%char) s = true.
(** what the scripts are told about a telephone number *)
Lemma lookup_number e s n b : tool_runs e -> service s -> is_msisdn n -> Forall network (concat b) ->
  (query_mslookup e s n "msisdn" b = PWait /\ forall r, ~ settled (mk_query s IdMsisdn n) 0 None (concat b) r) \/
  (exists r, query_mslookup e s n "msisdn" b = PGot (members (json_opts e) (query_text s n "msisdn") (Some (final r))) /\ forall r', settled (mk_query s IdMsisdn n) 0 None (concat b) r' <-> r' = r).
Proof.
  intros [M P] ((r0 & ->) & Ls & Lit & Asc & At) Nn N. set (s := String "s" r0) in *. destruct (digits_of n Nn) as [Ln Dn]. set (t := query_text s n "msisdn").
  assert (Q : query_init t = inl (mk_query s IdMsisdn n)).
  { apply (init_complete (mk_query s IdMsisdn n) "msisdn"); [split; auto; cbn; cbn in Ls; lia|]. cbn. repeat constructor. }
  assert (Sp : forall p, all_chars p s = true -> all_chars p n = true -> p "."%char = true -> all_chars p "msisdn" = true -> all_chars p t = true).
  { intros p A B C D. unfold t, query_text. rewrite !all_app. rewrite A, B, D. cbn [all_chars]. rewrite C. reflexivity. }
  assert (At' : split_at "@" t = None) by (apply split_at_none, Sp; auto; apply digits_no; auto).
  assert (Lt : (String.length t < 128)%nat) by (unfold t, query_text; rewrite !str_length_app; change (String.length ".") with 1%nat; change (String.length "msisdn") with 6%nat; lia).
  assert (E : forall x, look_main e [t; "-f"; "json"] x = mdo r <- MsTool.main (json_opts e) [t] x;; Val (LRan (fst r) (snd r), [])) by (intros x; apply (look_json e _ x M)).
  unfold query_mslookup. fold t. rewrite E. destruct (main_one e t _ b Q At' Lt N) as [(s1 & E1 & S1)|(s1 & r & E1 & S1 & S2)]; rewrite E1; cbn [mbind fst snd look_status]; [left; auto|right].
  exists r. split; auto. rewrite S1. apply loads_line; auto.
  - apply Sp; auto. apply (all_impl MsToolSpec.is_digit); auto. intros c. unfold MsToolSpec.is_digit, literal. rewrite !andb_true_iff, !N.leb_le, !negb_true_iff, !Ascii.eqb_neq. intros [A B]. repeat split; [lia| |]; intros ->; cbn in A, B; lia.
  - apply Sp; auto. apply (all_impl MsToolSpec.is_digit); auto. intros c. unfold MsToolSpec.is_digit, ascii_char. rewrite andb_true_iff, N.leb_le, N.leb_le, N.ltb_lt. lia.
  - lia.
  - destruct r as [x|]; [|cbn; lia]. cbn. eapply (settled_age _ _ _ _ (Some x) x); [apply S2; reflexivity|auto|exact I|reflexivity].
Qed.
(** the address that is taken from it *)
Lemma v4_found o t r : v4_of (members o t (Some (final r))) = PGot (match r with Some x => match nonzero (lr_v4 x) with Some (a, p) => Some (o_ntop o a, dec p) | None => None end | None => None end).
Proof.
  destruct r as [x|]; [|reflexivity]. unfold members, told_host, v4_of. cbn [final r_code r_res key_of String.eqb Ascii.eqb Bool.eqb app]. destruct (nonzero (lr_v4 x)) as [[a p]|]; [reflexivity|]. cbn [app].
  destruct (nonzero (lr_v6 x)) as [[a p]|]; reflexivity.
Qed.
Lemma v4_iff x a p : nonzero (lr_v4 x) = Some (a, p) <-> v4_told x a p.
Proof.
  unfold v4_told, nonzero. destruct (lr_v4 x) as [[a' p']|]; [|split; [discriminate|intros (X & _); discriminate]].
  assert (Z : forallb (fun x => x =? 0) a' = false <-> exists y, In y a' /\ y <> 0).
  { induction a' as [|y a' IH]; [split; [discriminate|intros (z & [] & _)]|]. cbn [forallb]. destruct (N.eqb_spec y 0) as [->|NE].
    - cbn [andb]. rewrite IH. split; [intros (z & H & D); exists z; split; [right; exact H|exact D]|intros (z & [<-|H] & D); [congruence|eauto]].
    - split; [intros _; exists y; split; [left; reflexivity|exact NE]|auto]. }
  destruct (N.eqb_spec p' 0) as [->|Dp]; cbn [orb].
  - split; [discriminate|]. intros (X & Y & _). injection X as _ <-. contradiction.
  - destruct (forallb _ a') eqn:F.
    + split; [discriminate|]. intros (X & _ & Y). injection X as <- _. apply Z in Y. discriminate.
    + split; [intros X; injection X as <- <-; repeat split; auto; apply Z; auto|intros (X & _); exact X].
Qed.
