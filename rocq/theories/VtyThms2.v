(** The VTY commands: what they can change, whatever the arguments and faults. *)
From Verif Require Import Base PeerId PeerThms Db DbSpec DbProofs DbThms DbThms2 Auth AuthSpec AuthThms Gsup Router Hlr HlrSpec HlrSpec2 Ctrl CtrlSpec CtrlThms CtrlThms2 CtrlThms3 CtrlThms4 VtySubscr VtySpec VtyThms.
Local Open Scope string_scope.
Local Open Scope list_scope.
Local Open Scope Z_scope.

Lemma run_no_fault_rest {A} (p : prog A) c d o d' c' : run p c d = (o, d', c') -> no_fault c -> no_fault c'.
Proof.
  revert c d. induction p as [a|s k IH|]; intros c d R F; cbn [run] in R; try (injection R as _ _ <-; exact F).
  destruct c as [|e c]; [|inversion F; subst]; destruct (exec s d) as [r d2]; exact (IH r _ _ R ltac:(assumption)).
Qed.

(** ** Finding the subscriber *)
Lemma argv_get k t i c d : exists o c', run (get_by_argv k t i) c d = (o, d, c') /\
  match o with
  | Fin (_, Some h) => exists x r, argv_selector t i = Some x /\ means x r /\ In r (d_sub d) /\ sub_of_row (k_tz k) r = Some h
  | _ => True
  end.
Proof.
  unfold get_by_argv. destruct (argv_selector t i) as [x|]; [|exists (Fin (-1, None)), c; split; [reflexivity|exact I]].
  destruct (get_by_sel k x) as [-> X]. destruct (db_sel_run (k_tz k) (stmt_of x) (cond_of x) c d X) as [c' E]. eexists _, c'. split; [exact E|].
  assert (G : match (match find (cond_of x) (d_sub d) with Some r => match sub_of_row (k_tz k) r with Some h => Fin (0, Some h) | None => Ub end | None => Fin (- ENOENT, None) end) with
     | Fin (_, Some h) => exists x0 r, Some x = Some x0 /\ means x0 r /\ In r (d_sub d) /\ sub_of_row (k_tz k) r = Some h | _ => True end).
  { destruct (find (cond_of x) (d_sub d)) as [r|] eqn:F; [|exact I]. apply find_some in F as [I M]. destruct (sub_of_row (k_tz k) r) as [h|] eqn:H; [|exact Logic.I].
    exists x, r. split; [reflexivity|]. split; [now apply cond_means|]. auto. }
  destruct c as [|[] c]; [exact G|exact G|exact I|exact I].
Qed.
Lemma argv_find k t i x d : argv_selector t i = Some x ->
  run (get_by_argv k t i) [] d = (match find (cond_of x) (d_sub d) with Some r => match sub_of_row (k_tz k) r with Some h => Fin (0, Some h) | None => Ub end | None => Fin (- ENOENT, None) end, d, []).
Proof.
  intros E. unfold get_by_argv. rewrite E. destruct (get_by_sel k x) as [-> X]. destruct (db_sel_run (k_tz k) (stmt_of x) (cond_of x) [] d X) as [c' R].
  destruct (run_nil (db_sel (k_tz k) (stmt_of x)) d) as (o & d' & E'). rewrite E' in R. injection R as -> -> <-. exact E'.
Qed.
Lemma row_range d r : db_inv d -> ids_fit d -> In r (d_sub d) -> - 9223372036854775808 <= s_id r <= 9223372036854775807.
Proof. intros V FT I. pose proof (proj1 (Forall_forall _ _) (iv_pos d V) r I) as WP. cbn in WP. specialize (FT r I). lia. Qed.

(** a named subscriber is found *)
Lemma on_sole k t i d r h f : db_inv d -> ids_fit d -> imeis_ok d -> number_if_id t i -> sole d t i r -> sub_of_row (k_tz k) r = Some h ->
  run (on_argv k t i f) [] d = run (f h) [] d.
Proof.
  intros V FT IM NI (I & N & U) H. unfold on_argv. rewrite run_bind.
  destruct (proj2 (argv_names d t i r IM NI I (row_range d r V FT I)) N) as (x & E & M).
  rewrite (argv_find k t i x d E). replace (find (cond_of x) (d_sub d)) with (Some r); [rewrite H; reflexivity|].
  symmetry. apply find_unique; auto; [now apply cond_means|]. intros y Iy Cy. apply U; auto. apply (argv_names d t i y IM NI Iy (row_range d y V FT Iy)). exists x. split; [exact E|now apply cond_means].
Qed.
Lemma on_nobody k t i d f : db_inv d -> ids_fit d -> imeis_ok d -> number_if_id t i -> (forall r, In r (d_sub d) -> ~ vty_names t i r) ->
  run (on_argv k t i f) [] d = (Fin (no_subscriber t i, []), d, []).
Proof.
  intros V FT IM NI N. unfold on_argv. rewrite run_bind. destruct (argv_selector t i) as [x|] eqn:E.
  - rewrite (argv_find k t i x d E). destruct (find (cond_of x) (d_sub d)) as [r|] eqn:F; [|reflexivity].
    apply find_some in F as [I C]. destruct (N r I). apply (argv_names d t i r IM NI I (row_range d r V FT I)). exists x. split; [exact E|now apply cond_means].
  - unfold get_by_argv. rewrite E. reflexivity.
Qed.

(** ** Only the subscriber meant changes *)
Lemma forall2_mono {A B} (P Q : A -> B -> Prop) l l' : (forall a b, P a b -> Q a b) -> Forall2 P l l' -> Forall2 Q l l'.
Proof. intros H. induction 1; constructor; auto. Qed.
Lemma forall2_in {A B} (R : A -> B -> Prop) l l' : Forall2 R l l' -> Forall2 (fun a b => In a l /\ R a b) l l'.
Proof.
  induction 1 as [|a b l l' H _ IH]; [constructor|]. constructor; [split; [now left|exact H]|].
  refine (forall2_mono _ _ _ _ _ IH). intros x y [I Q]. split; [now right|exact Q].
Qed.
Lemma confined_more (P : sub_row -> Prop) i f d x : (forall r, In r (d_sub d) -> s_imsi r = i -> P r) -> (forall r, s_id (f r) = s_id r /\ s_imsi (f r) = s_imsi r) ->
  confined P d x -> confined P d (snd (upd_sub (by_imsi i) f x)).
Proof.
  intros HP HF (A & B). split; [|exact B]. cbn [upd_sub snd with_sub d_sub]. unfold upd.
  apply forall2_in in A. induction A as [|r r' l l' H _ IH]; cbn [map]; [constructor|]. constructor; [|exact IH].
  destruct H as [I H]. unfold by_imsi. destruct (String.eqb_spec (s_imsi r') i) as [E|E]; [|exact H].
  right. destruct (HF r') as [F1 F2]. destruct H as [<-|(PR & E1 & E2)]; [auto|]. split; [exact PR|]. split; congruence.
Qed.
(** statements that update the row of one IMSI *)
Definition row_stmt (i : string) (s : stmt) : Prop :=
  match s with
  | UPD_NAM_CS_BY_IMSI _ j | UPD_NAM_PS_BY_IMSI _ j | SET_MSISDN_BY_IMSI _ j | DELETE_MSISDN_BY_IMSI j | UPD_IMEI_BY_IMSI _ j => j = i
  | SEL_BY_IMSI _ | SEL_BY_MSISDN _ | SEL_BY_ID _ | SEL_BY_IMEI _ => True
  | _ => False
  end.
Lemma confined_rows {A} (P : sub_row -> Prop) i (p : prog A) c d : (forall r, In r (d_sub d) -> s_imsi r = i -> P r) -> all_stmts (row_stmt i) p -> confined P d (run_db p c d).
Proof.
  intros HP HA. apply (run_inv (confined P d) (row_stmt i)); [|exact HA|apply confined_refl].
  intros s x HS C. destruct s; try contradiction; cbn [exec]; cbn in HS; subst;
    try (unfold sel; destruct (find _ _); exact C); try (apply confined_more; auto; fail).
  destruct (_ && _); [exact C|]. apply confined_more; auto.
Qed.
Lemma nam_rows k v h b ps : all_stmts (row_stmt (h_imsi h)) (hlr_subscr_nam k v h b ps).
Proof.
  unfold hlr_subscr_nam. destruct (Bool.eqb _ b); [exact I|]. unfold db_subscr_nam. destruct ps; cbn; (split; [reflexivity|]); intros r;
    (destruct (negb _); [exact I|]); (destruct b; [exact I|]); destruct (send_delete k v (h_imsi h) (h_vlr h)); try exact I; destruct (send_delete k v (h_imsi h) (h_sgsn h)); exact I.
Qed.
Lemma confined_argv k t i f c d : db_inv d -> ids_fit d -> imeis_ok d -> number_if_id t i ->
  (forall r h c', In r (d_sub d) -> vty_names t i r -> sub_of_row (k_tz k) r = Some h -> confined (vty_names t i) d (run_db (f h) c' d)) ->
  confined (vty_names t i) d (run_db (on_argv k t i f) c d).
Proof.
  intros V FT IM NI F. unfold on_argv. rewrite run_db_bind. destruct (argv_get k t i c d) as (o & c' & E & H). rewrite E.
  destruct o as [[rc [h|]]| |]; try apply confined_refl. destruct H as (x & r & S & M & I & Q). apply (F r h c'); auto. apply (argv_names d t i r IM NI I (row_range d r V FT I)). eauto.
Qed.
Lemma sole_imsi d r h (P : sub_row -> Prop) tz : db_inv d -> In r (d_sub d) -> P r -> sub_of_row tz r = Some h -> forall x, In x (d_sub d) -> s_imsi x = h_imsi h -> P x.
Proof.
  intros V I H S x Ix E. rewrite (row_imsi tz d r h V I S) in E. replace x with r; [exact H|]. apply (row_eq d); auto.
Qed.
Lemma confined_store k t i g gone a c d : db_inv d -> ids_fit d -> imeis_ok d -> number_if_id t i -> confined (vty_names t i) d (run_db (vty_store k t i g gone a) c d).
Proof.
  intros V FT IM NI. unfold vty_store. apply confined_argv; auto. intros r h c' I N H. rewrite run_db_after. destruct (sub_of_row_fields _ _ _ H) as (-> & _). now apply confined_aud.
Qed.

(** deletion by id *)
Lemma delete_id_removed r c d : db_inv d -> In r (d_sub d) -> removed (s_imsi r) d (run_db (db_subscr_delete_by_id (s_id r)) c d).
Proof.
  intros V I. set (v := s_imsi r). pose proof (eq_refl : s_imsi r = v) as M.
  apply (run_inv (removed v d) (fun s => match s with AUC_2G_DELETE j | AUC_3G_DELETE j | DEL_BY_ID j => j = s_id r | _ => False end)).
  - intros s x HS (A & B & C & A' & B' & C' & D). destruct s; try contradiction; subst id; unfold removed; cbn [exec snd with_sub with_auc2 with_auc3 d_sub d_auc2 d_auc3 d_ind].
    + split; [intros y Iy; apply A; exact (proj1 (proj1 (filter_In _ _ _) Iy))|]. do 2 (split; [assumption|]). split; [|auto].
      intros y Iy Ny. apply filter_In. split; [auto|]. unfold by_id. apply negb_true_iff, Z.eqb_neq. intros Q'. apply Ny. replace y with r; [exact M|]. apply (row_eq d); auto.
    + split; [assumption|]. split; [intros y Iy; apply B; exact (proj1 (proj1 (filter_In _ _ _) Iy))|]. do 2 (split; [assumption|]). split; [|auto].
      intros y Iy Ny. apply (del_other a2_id); auto. intros Q'. exact (Ny r I M (eq_sym Q')).
    + do 2 (split; [assumption|]). split; [intros y Iy; apply C; exact (proj1 (proj1 (filter_In _ _ _) Iy))|]. do 2 (split; [assumption|]). split; [|auto].
      intros y Iy Ny. apply (del_other a3_id); auto. intros Q'. exact (Ny r I M (eq_sym Q')).
  - unfold db_subscr_delete_by_id. split; [reflexivity|]. intros q. destruct q; try exact Logic.I. apply all_stmts_bind.
    + cbn [db_subscr_update_aud_by_id]. cbn. split; [reflexivity|]. intros q. destruct (negb _ && negb _); exact Logic.I.
    + intros rc2. apply all_stmts_bind; [|intros; exact Logic.I]. cbn. split; [reflexivity|]. intros q. destruct (negb _ && negb _); exact Logic.I.
  - apply removed_refl.
Qed.

Lemma reads_dump h : all_stmts reads (dump_full h).
Proof. unfold dump_full. destruct (h_imsi h =? "")%string; [exact I|]. apply all_stmts_bind; [apply reads_keys|intros; exact I]. Qed.
Lemma reads_quiet p : all_stmts reads p -> all_stmts reads (quiet p).
Proof. intros H. unfold quiet. apply all_stmts_bind; [exact H|intros; exact I]. Qed.
Lemma reads_argv k t i : all_stmts reads (get_by_argv k t i).
Proof.
  unfold get_by_argv. destruct (argv_selector t i) as [x|]; [|exact I]. destruct (get_by_sel k x) as [-> X]. apply reads_db_sel. exact (reads_sel _ _ X).
Qed.

Theorem vty_effect k s cmd c d : db_inv d -> ids_fit d -> imeis_ok d -> (forall t i, about cmd t i -> number_if_id t i) ->
  let d' := run_db (vty_run k s cmd) c d in
  d' = d \/
  (exists t i, about cmd t i /\ confined (vty_names t i) d d') \/
  (exists t i r, cmd = VDelete t i /\ In r (d_sub d) /\ vty_names t i r /\ removed (s_imsi r) d d') \/
  (exists i, cmd = VCreate i /\ added i d d').
Proof.
  intros V FT IM NI. cbv zeta.
  assert (G : forall t i (p : prog (vres * list out)), about cmd t i -> confined (vty_names t i) d (run_db p c d) -> run_db p c d = d \/
    (exists t0 i0, about cmd t0 i0 /\ confined (vty_names t0 i0) d (run_db p c d)) \/
    (exists t0 i0 r, cmd = VDelete t0 i0 /\ In r (d_sub d) /\ vty_names t0 i0 r /\ removed (s_imsi r) d (run_db p c d)) \/
    (exists i0, cmd = VCreate i0 /\ added i0 d (run_db p c d))).
  { intros t i p A C. right; left. eauto. }
  destruct cmd as [t i|i|t i|t i v|t i|t i a ki|t i|t i a ke ch o b|t i ke b|t i v|t i v]; cbn [vty_run about] in *.
  - left. apply reads_run. unfold vty_show, on_argv. apply all_stmts_bind; [apply reads_argv|]. intros [rc [h|]]; [|exact I]. apply reads_quiet, reads_dump.
  - unfold vty_create. destruct (imsi_valid i) eqn:E; cbn [negb]; [|now left]. rewrite run_db_bind. unfold db_subscr_create. rewrite E. cbn [negb].
    match goal with |- context [match run ?q c d with _ => _ end] => set (p := q) end.
    assert (R : forall (rc : Z) c' x, run_db (if negb (rc =? 0) then Ret (VWarn (if (rc =? - EEXIST)%Z then "Subscriber already exists for IMSI = " ++ i else "cannot create subscriber for IMSI = " ++ i)%string, [])
      else bind (db_subscr_get_by_imsi (k_tz k) i) (fun '(_, h) => match h with Some h => quiet (dump_full h) | None => Undef end)) c' x = x).
    { intros rc c' x. destruct (negb (rc =? 0)); [reflexivity|]. apply reads_run. apply all_stmts_bind; [apply reads_db_sel; exact (reads_sel (SEL_BY_IMSI i) (by_imsi i) (fun _ => eq_refl))|].
      intros [a [h|]]; [|exact I]. apply reads_quiet, reads_dump. }
    assert (X : snd (exec (SUBSCR_CREATE i true true) d) = d \/ added i d (snd (exec (SUBSCR_CREATE i true true) d))).
    { cbn [exec]. destruct (existsb (by_imsi i) (d_sub d)) eqn:Q; [now left|]. right. eexists. split; [|split; [|reflexivity]]; [reflexivity|].
      intros x I. split; [|intros Y; rewrite existsb_false in Q; specialize (Q x I); unfold by_imsi in Q; rewrite Y, String.eqb_refl in Q; discriminate].
      cbn [s_id new_row]. intros Y. apply (next_rowid_fresh (map s_id (d_sub d))). rewrite <- Y. now apply in_map. }
    subst p. change (N.testbit 6 1) with true. change (N.testbit 6 2) with true.
    destruct c as [|[] c]; cbn [run]; [| |rewrite R; now left|now left];
      (destruct (exec (SUBSCR_CREATE i true true) d) as [q d'] eqn:Ex; rewrite R; cbn [snd] in X; destruct X as [X|X]; [now left|right; right; right; eauto]).
  - unfold vty_delete, on_argv. rewrite run_db_bind. destruct (argv_get k t i c d) as (o & c' & E & H). rewrite E.
    destruct o as [[rc [h|]]| |]; try (now left). destruct H as (x & r & S & M & I & Q). right; right; left. exists t, i, r. split; [reflexivity|]. split; [exact I|].
    split; [apply (argv_names d t i r IM (NI t i (conj eq_refl eq_refl)) I (row_range d r V FT I)); eauto|]. rewrite run_db_after. destruct (sub_of_row_fields _ _ _ Q) as (-> & _). now apply delete_id_removed.
  - apply (G t i); [auto|]. unfold vty_set_msisdn. destruct (match _ with Some _ => _ | None => false end); [apply confined_refl|]. destruct (match _ with Some _ => _ | None => false end); [apply confined_refl|].
    apply confined_argv; auto. intros r h c' I N H. apply (confined_rows _ (h_imsi h)); [exact (sole_imsi d r h _ _ V I N H)|].
    apply all_stmts_bind.
    + destruct (if (v =? "none")%string then None else Some v) as [m|]; cbn [db_subscr_update_msisdn_by_imsi]; [destruct (negb _); [exact Logic.I|]|]; (split; [reflexivity|]; intros; exact Logic.I).
    + intros rc. destruct (negb (rc =? 0)); [exact Logic.I|]. destruct (if (v =? "none")%string then None else Some v) as [m|]; [|exact Logic.I]. apply all_stmts_bind; [|intros [? ?]; exact Logic.I].
      split; [exact Logic.I|]. intros []; try exact Logic.I. match goal with |- context[sub_of_row ?a ?b] => destruct (sub_of_row a b) end; exact Logic.I.
  - apply (G t i); [auto|]. apply confined_store; auto.
  - apply (G t i); [auto|]. unfold vty_aud2g. destruct (auth_algo_parse a) as [[[al le] lo]|]; [|apply confined_refl]. destruct (negb _); [apply confined_refl|]. apply confined_store; auto.
  - apply (G t i); [auto|]. apply confined_store; auto.
  - apply (G t i); [auto|]. unfold vty_aud3g. destruct (auth_algo_parse a) as [[[al le] lo]|]; [|apply confined_refl]. destruct (negb _); [apply confined_refl|]. destruct (negb _); [apply confined_refl|]. apply confined_store; auto.
  - apply (G t i); [auto|]. unfold vty_aud3g_xor. destruct (auth_algo_parse _) as [[[al le] lo]|]; [|apply confined_refl]. destruct (negb _); [apply confined_refl|]. apply confined_store; auto.
  - apply (G t i); [auto|]. unfold vty_set_imei. destruct (match _ with Some _ => _ | None => false end); [apply confined_refl|].
    apply confined_argv; auto. intros r h c' I N H. apply (confined_rows _ (h_imsi h)); [exact (sole_imsi d r h _ _ V I N H)|].
    apply all_stmts_bind; [|intros; exact Logic.I]. destruct (if (v =? "none")%string then None else Some (cut_check v)) as [m|]; cbn [db_subscr_update_imei_by_imsi]; [destruct (negb _); [exact Logic.I|]|]; (split; [reflexivity|]; intros; exact Logic.I).
  - apply (G t i); [auto|]. unfold vty_set_nam. apply confined_argv; auto. intros r h c' I N H. apply (confined_rows _ (h_imsi h)); [exact (sole_imsi d r h _ _ V I N H)|].
    apply all_stmts_bind; [|intros a; apply all_stmts_bind; [|intros; exact Logic.I]];
      (destruct (Bool.eqb _ _); [exact Logic.I|]; apply all_stmts_bind; [apply nam_rows|intros; exact Logic.I]).
Qed.
