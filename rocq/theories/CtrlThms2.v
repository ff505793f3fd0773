(** What a request of the control interface can change, and what it answers. *)
From Verif Require Import Base PeerId Db DbSpec DbProofs DbThms DbThms2 Auth Ctrl CtrlSpec CtrlThms.
Local Open Scope string_scope.
Local Open Scope list_scope.
Local Open Scope Z_scope.

Lemma imsi_len s : imsi_valid s = true -> (String.length s <= 15)%nat.
Proof. unfold imsi_valid, is_n_digits. rewrite !andb_true_iff, !Nat.leb_le. tauto. Qed.
Lemma msisdn_len s : msisdn_valid s = true -> (0 < String.length s <= 15)%nat.
Proof. unfold msisdn_valid, is_n_digits. rewrite !andb_true_iff, !Nat.leb_le. intros [[A B] _]. lia. Qed.
Lemma sub_of_row_fields tz r h : sub_of_row tz r = Some h -> h_id h = s_id r /\ h_imsi h = str_take 15 (s_imsi r) /\
  h_msisdn h = text_to_buf 16 (s_msisdn r) /\ h_nam_cs h = s_nam_cs r /\ h_nam_ps h = s_nam_ps r.
Proof.
  unfold sub_of_row. destruct (ipa_set_str ipa_empty (s_vlr_proxy r)); [|discriminate].
  destruct (ipa_set_str ipa_empty (s_sgsn_proxy r)); [|discriminate]. intros [= <-]. cbn. auto 10.
Qed.
Lemma row_imsi tz d r h : db_inv d -> In r (d_sub d) -> sub_of_row tz r = Some h -> h_imsi h = s_imsi r.
Proof.
  intros V I H. destruct (sub_of_row_fields tz r h H) as (_ & -> & _). apply str_take_all.
  pose proof (proj1 (Forall_forall _ _) (iv_wf d V) r I) as [WI _]. now apply imsi_len.
Qed.

(** get_subscriber under any schedule *)
Definition found (tz : Z) (sel : string) (d : db) (h : subscriber) : Prop :=
  exists r, In r (d_sub d) /\ names sel r /\ sub_of_row tz r = Some h.
Lemma gs_run tz sel c d : db_inv d -> ids_fit d -> spaceless sel ->
  exists o c', run (get_subscriber tz sel) c d = (o, d, c') /\ (no_fault c -> no_fault c') /\
  match o with Fin (inr h) => found tz sel d h | _ => True end.
Proof.
  intros V FT S. destruct (sel_run tz sel c d) as (c' & E & NF). unfold get_subscriber. rewrite run_bind, E.
  set (o := match kind sel with KBad rc => _ | _ => _ end).
  assert (G : match o with Fin (_, Some h) => found tz sel d h | _ => True end).
  { subst o. assert (X : forall k, kind sel = k -> match (match find (matches k) (d_sub d) with Some r => match sub_of_row tz r with Some h => Fin (0, Some h) | None => Ub end | None => Fin (- ENOENT, None) end) with Fin (_, Some h) => found tz sel d h | _ => True end).
    { intros k K. destruct (find (matches k) (d_sub d)) as [r|] eqn:F; [|exact I]. apply find_some in F as [I M].
      destruct (sub_of_row tz r) as [h|] eqn:H; [|exact Logic.I]. exists r. split; [exact I|]. split; [|exact H]. apply (kind_names d); auto. now rewrite K. }
    destruct (kind sel) eqn:K; try exact Logic.I; specialize (X _ eq_refl); destruct c as [|[] c]; try exact Logic.I; exact X. }
  destruct o as [[rc [h|]]| |]; cbn [run]; eexists _, c'; (split; [reflexivity|]); split; auto.
Qed.
Lemma gs_named tz sel c d r : db_inv d -> ids_fit d -> spaceless sel -> no_fault c -> In r (d_sub d) -> names sel r ->
  exists c', no_fault c' /\ run (get_subscriber tz sel) c d = (match sub_of_row tz r with Some h => Fin (inr h) | None => Ub end, d, c').
Proof.
  intros V FT S NF I N. destruct (sel_run tz sel c d) as (c' & E & NF'). exists c'. split; [auto|]. unfold get_subscriber. rewrite run_bind, E.
  pose proof (proj2 (kind_names d sel r V FT S I) N) as M.
  assert (F : find (matches (kind sel)) (d_sub d) = Some r).
  { apply find_unique; auto. intros y Iy My. apply (names_unique d sel); auto. now apply (kind_names d). }
  destruct (kind sel) eqn:K; try discriminate M; cbv zeta; rewrite F; (destruct c as [|e c]; [|inversion NF; subst]); destruct (sub_of_row tz r); reflexivity.
Qed.
Lemma gs_unnamed tz sel c d : db_inv d -> ids_fit d -> spaceless sel -> no_fault c -> (forall r, In r (d_sub d) -> ~ names sel r) ->
  exists e c', no_fault c' /\ run (get_subscriber tz sel) c d = (Fin (inl e), d, c').
Proof.
  intros V FT S NF N. destruct (sel_run tz sel c d) as (c' & E & NF'). unfold get_subscriber. rewrite run_bind, E.
  assert (F : find (matches (kind sel)) (d_sub d) = None).
  { destruct (find (matches (kind sel)) (d_sub d)) as [y|] eqn:F; [|reflexivity]. apply find_some in F as [I M]. destruct (N y I). now apply (kind_names d). }
  destruct (kind sel) eqn:K; cbv zeta; try rewrite F; (destruct c as [|e c]; [|inversion NF; subst]); cbn [run]; eexists _, c'; (split; [auto|reflexivity]).
Qed.

(** ** Reading does not change anything *)
Definition reads (s : stmt) : Prop := forall d, snd (exec s d) = d.
Lemma reads_run {A} (p : prog A) c d : all_stmts reads p -> run_db p c d = d.
Proof.
  intros H. unfold run_db. apply (run_inv (fun x => x = d) reads); auto. intros s d0 R ->. apply R.
Qed.
Lemma reads_sel s k : (forall d, exec s d = sel k d) -> reads s.
Proof. intros X d. rewrite X. unfold sel. destruct (find k (d_sub d)); reflexivity. Qed.
Lemma reads_db_sel tz s : reads s -> all_stmts reads (db_sel tz s).
Proof. intros R. cbn. split; [exact R|]. intros r. destruct r; try exact I. destruct (sub_of_row tz r); exact I. Qed.
Lemma reads_sel_get tz sel : all_stmts reads (sel_get tz sel).
Proof.
  rewrite sel_get_kind. destruct (kind sel); try exact I; apply reads_db_sel.
  - exact (reads_sel (SEL_BY_IMSI v) (by_imsi v) (fun _ => eq_refl)).
  - exact (reads_sel (SEL_BY_MSISDN v) (by_msisdn v) (fun _ => eq_refl)).
  - exact (reads_sel (SEL_BY_ID i) (by_id i) (fun _ => eq_refl)).
Qed.
Lemma reads_gs tz sel : all_stmts reads (get_subscriber tz sel).
Proof. unfold get_subscriber. apply all_stmts_bind; [apply reads_sel_get|]. intros [rc [h|]]; exact I. Qed.
Lemma reads_gsi tz sel : all_stmts reads (get_subscriber_imsi tz sel).
Proof. unfold get_subscriber_imsi. destruct (after "by-imsi-" sel); [exact I|]. apply all_stmts_bind; [apply reads_gs|]. intros [e|h]; exact I. Qed.
Lemma reads_keys i : all_stmts reads (get_keys i).
Proof.
  unfold get_keys. apply all_stmts_bind; [|intros [rc|a]; exact I]. unfold db_get_auth_data. split.
  - intros d. cbn. destruct (find (by_imsi i) (d_sub d)); reflexivity.
  - intros r. destruct r as [| | | |id a2 a3| |]; try exact I. destruct (read_3g a3) as [u|]; [|exact I]. destruct (read_2g a2), u; exact I.
Qed.
Lemma reads_on tz sel f : (forall h, all_stmts reads (f h)) -> all_stmts reads (on_subscriber tz sel f).
Proof. intros F. unfold on_subscriber. apply all_stmts_bind; [apply reads_gs|]. intros [e|h]; [exact I|apply F]. Qed.
Lemma reads_get tz sel c : all_stmts reads (get_cmd tz sel c).
Proof.
  unfold get_cmd. repeat match goal with |- all_stmts reads (if ?b then _ else _) => destruct b end; try exact I;
    try (apply reads_on; intros h; exact I).
  - unfold get_info_aud. apply all_stmts_bind; [apply reads_gsi|]. intros [e|i]; [exact I|]. apply all_stmts_bind; [apply reads_keys|]. intros [[a b]|]; exact I.
  - apply reads_on. intros h. apply all_stmts_bind; [apply reads_keys|]. intros [[a b]|]; exact I.
  - apply reads_on. intros h. apply all_stmts_bind; [apply reads_keys|]. intros [[[a|] b]|]; exact I.
  - apply reads_on. intros h. apply all_stmts_bind; [apply reads_keys|]. intros [[a [b|]]|]; exact I.
Qed.

(** ** Writing *)
Lemma confined_refl P d : confined P d d.
Proof. split; [|split; [|split]]; try tauto. induction (d_sub d); constructor; auto. Qed.
Lemma confined_upd (P : sub_row -> Prop) cond f d : (forall r, In r (d_sub d) -> cond r = true -> P r) -> (forall r, s_id (f r) = s_id r /\ s_imsi (f r) = s_imsi r) ->
  confined P d (snd (upd_sub cond f d)).
Proof.
  intros C F. unfold upd_sub. cbn [snd]. split; [|split; [|split]]; cbn; try tauto. unfold upd. revert C. induction (d_sub d) as [|r l IH]; intros C; cbn; constructor.
  - destruct (cond r) eqn:E; [|now left]. right. split; [apply C; [now left|exact E]|apply F].
  - apply IH. intros x I. apply C. now right.
Qed.
Lemma confined_single (P : sub_row -> Prop) {A} s (f : res -> A) c d : confined P d (snd (exec s d)) -> confined P d (run_db (Exec s (fun r => Ret (f r))) c d).
Proof.
  intros H. unfold run_db. destruct c as [|[] c]; cbn [run]; try (cbn; apply confined_refl); destruct (exec s d) as [r d']; exact H.
Qed.
Lemma del_other {R} (key : R -> Z) i (l : list R) a : key a <> i -> (In a (del (fun x => key x =? i) l) <-> In a l).
Proof. intros N. unfold del. rewrite filter_In. apply Z.eqb_neq in N. rewrite N. cbn. tauto. Qed.
Lemma confined_aud (P : sub_row -> Prop) r aud c d : In r (d_sub d) -> P r -> confined P d (run_db (db_subscr_update_aud_by_id (s_id r) aud) c d).
Proof.
  intros I PR. set (i := s_id r).
  apply (run_inv (fun x => confined P d x /\ d_sub x = d_sub d) (fun s => match s with AUC_2G_DELETE j | AUC_3G_DELETE j | AUC_2G_INSERT j _ _ | AUC_3G_INSERT j _ _ _ _ _ => j = i | _ => False end)).
  - intros s x HS [(A & B & C & D) E]. split; [|destruct s; try contradiction; subst; cbn; repeat (match goal with |- context [if ?b then _ else _] => destruct b end; cbn); exact E].
    assert (K2 : forall l, (forall a, a2_id a <> i -> (In a l <-> In a (d_auc2 x))) -> confined P d (with_auc2 x l)).
    { intros l L. split; [exact A|]. split; [|split; [exact C|exact D]]. intros a F. cbn. rewrite L; [apply B, F|]. intros Q. exact (F r I PR (eq_sym Q)). }
    assert (K3 : forall l, (forall a, a3_id a <> i -> (In a l <-> In a (d_auc3 x))) -> confined P d (with_auc3 x l)).
    { intros l L. split; [exact A|]. split; [exact B|]. split; [|exact D]. intros a F. cbn. rewrite L; [apply C, F|]. intros Q. exact (F r I PR (eq_sym Q)). }
    destruct s; try contradiction; subst; cbn.
    + destruct (existsb _ (d_auc2 x)); cbn; [split; [exact A|]; split; [exact B|]; split; [exact C|exact D]|]. apply K2. intros a N. rewrite in_app_iff. cbn. split; [intros [?|[<-|[]]]; [assumption|cbn in N; congruence]|tauto].
    + apply K2. intros a N. now apply del_other.
    + destruct (existsb _ (d_auc3 x)); cbn; [split; [exact A|]; split; [exact B|]; split; [exact C|exact D]|]. apply K3. intros a N. rewrite in_app_iff. cbn. split; [intros [?|[<-|[]]]; [assumption|cbn in N; congruence]|tauto].
    + apply K3. intros a N. now apply del_other.
  - destruct aud; cbn [db_subscr_update_aud_by_id].
    + destruct (negb _); [exact Logic.I|]. destruct (negb _ && negb _); [exact Logic.I|]. split; [reflexivity|]. intros q.
      destruct (negb _ && negb _); [exact Logic.I|]. destruct (algo =? ALG_NONE); [exact Logic.I|]. split; [reflexivity|]. intros; exact Logic.I.
    + destruct (negb _); [exact Logic.I|]. destruct (negb _ && _); [exact Logic.I|]. split; [reflexivity|]. intros q.
      destruct (negb _ && negb _); [exact Logic.I|]. destruct (algo =? ALG_NONE); [exact Logic.I|]. split; [reflexivity|]. intros; exact Logic.I.
    + exact Logic.I.
  - split; [apply confined_refl|reflexivity].
Qed.

Lemma run_db_bind {A B} (p : prog A) (f : A -> prog B) c d : run_db (bind p f) c d =
  match run p c d with (Fin a, d', c') => run_db (f a) c' d' | (_, d', _) => d' end.
Proof. unfold run_db. rewrite run_bind. destruct (run p c d) as [[[a| |] d'] c']; reflexivity. Qed.
Lemma run_db_after {A B} (p : prog A) (f : A -> B) c d : run_db (do x <- p;; Ret (f x)) c d = run_db p c d.
Proof. rewrite run_db_bind. unfold run_db. destruct (run p c d) as [[[a| |] d'] c']; reflexivity. Qed.

Lemma confined_on tz sel f c d : db_inv d -> ids_fit d -> spaceless sel ->
  (forall r h c', In r (d_sub d) -> names sel r -> sub_of_row tz r = Some h -> confined (names sel) d (run_db (f h) c' d)) ->
  confined (names sel) d (run_db (on_subscriber tz sel f) c d).
Proof.
  intros V FT S F. unfold on_subscriber. rewrite run_db_bind. destruct (gs_run tz sel c d V FT S) as (o & c' & E & _ & H). rewrite E.
  destruct o as [[e|h]| |]; try apply confined_refl. destruct H as (r & I & N & Q). exact (F r h c' I N Q).
Qed.
Lemma confined_nam (P : sub_row -> Prop) i v ps c d : (forall r, In r (d_sub d) -> s_imsi r = i -> P r) -> confined P d (run_db (db_subscr_nam i v ps) c d).
Proof.
  intros H. unfold db_subscr_nam. apply confined_single. destruct ps; cbn [exec]; apply confined_upd; auto; intros r I E; apply H; auto; now apply String.eqb_eq.
Qed.
Lemma confined_msisdn (P : sub_row -> Prop) i m c d : (forall r, In r (d_sub d) -> s_imsi r = i -> P r) -> confined P d (run_db (db_subscr_update_msisdn_by_imsi i m) c d).
Proof.
  intros H. assert (G : forall r, In r (d_sub d) -> by_imsi i r = true -> P r) by (intros r I E; apply H; auto; now apply String.eqb_eq).
  destruct m as [m|]; cbn [db_subscr_update_msisdn_by_imsi].
  - destruct (negb (msisdn_valid m)); [apply confined_refl|]. apply confined_single. cbn [exec]. destruct (_ && _); [apply confined_refl|]. apply confined_upd; auto.
  - apply confined_single. cbn [exec]. apply confined_upd; auto.
Qed.

Lemma confined_set tz sel cmd v c d : db_inv d -> ids_fit d -> spaceless sel -> confined (names sel) d (run_db (set_cmd tz sel cmd v) c d).
Proof.
  intros V FT S. unfold set_cmd.
  assert (E : forall ps, confined (names sel) d (run_db (set_enabled tz sel ps v) c d)).
  { intros ps. unfold set_enabled, get_subscriber_imsi. destruct (after "by-imsi-" sel) as [i|] eqn:A.
    - cbn [bind]. rewrite run_db_after. apply confined_nam. intros r I E. apply after_spec in A as ->. now constructor.
    - rewrite run_db_bind, run_bind. destruct (gs_run tz sel c d V FT S) as (o & c' & E & _ & H). rewrite E.
      destruct o as [[e|h]| |]; cbn [run]; try apply confined_refl. destruct H as (r & I & N & Q). rewrite run_db_after. apply confined_nam.
      rewrite (row_imsi tz d r h V I Q). intros r' I' E'. replace r' with r; [exact N|]. apply (row_eq d); auto. }
  repeat match goal with |- confined _ _ (run_db (if ?b then _ else _) _ _) => destruct b end; try apply confined_refl; try apply E;
    apply confined_on; auto; intros r h c' I N Q.
  - rewrite run_db_after. apply confined_msisdn. rewrite (row_imsi tz d r h V I Q). intros r' I' E'. replace r' with r; [exact N|]. apply (row_eq d); auto.
  - destruct (parse_aud2g v) as [e|a]; [apply confined_refl|]. rewrite run_db_after. destruct (sub_of_row_fields tz r h Q) as (-> & _). now apply confined_aud.
  - destruct (parse_aud3g v) as [e|a]; [apply confined_refl|]. rewrite run_db_after. destruct (sub_of_row_fields tz r h Q) as (-> & _). now apply confined_aud.
Qed.

(** ** Creating and deleting *)
Lemma create_added tz v c d : let d' := run_db (set_create tz v) c d in d' = d \/ added v d d'.
Proof.
  cbv zeta. unfold set_create. destruct (imsi_valid v) eqn:E; cbn [negb]; [|now left].
  rewrite run_db_bind. unfold db_subscr_create. rewrite E. cbn [negb].
  assert (R : forall (rc : Z) (c' : sched) (x : db), run_db (if negb (rc =? 0) then Ret (RpError (if rc =? - EEXIST then "Subscriber already exists." else "Cannot create subscriber."))
      else do (_, h) <- db_subscr_get_by_imsi tz v;; Ret (match h with Some h => RpId (h_id h) | None => RpError "Failed retrieving ID of newly created subscriber." end)) c' x = x).
  { intros rc c' x. destruct (negb (rc =? 0)); [reflexivity|]. apply reads_run. apply all_stmts_bind; [apply reads_db_sel; exact (reads_sel (SEL_BY_IMSI v) (by_imsi v) (fun _ => eq_refl))|]. intros [a [h|]]; exact I. }
  assert (X : snd (exec (SUBSCR_CREATE v true true) d) = d \/ added v d (snd (exec (SUBSCR_CREATE v true true) d))).
  { cbn [exec]. destruct (existsb (by_imsi v) (d_sub d)) eqn:Q; [now left|]. right. eexists. split; [|split; [|reflexivity]]; [reflexivity|].
    intros x I. split; [|intros Y; rewrite existsb_false in Q; specialize (Q x I); unfold by_imsi in Q; rewrite Y, String.eqb_refl in Q; discriminate].
    cbn [s_id new_row]. intros Y. apply (next_rowid_fresh (map s_id (d_sub d))). rewrite <- Y. now apply in_map. }
  change (N.testbit 6 1) with true. change (N.testbit 6 2) with true.
  destruct c as [|[] c]; cbn [run]; try (destruct (exec (SUBSCR_CREATE v true true) d) as [q d']; rewrite R; exact X); [rewrite R; now left|now left].
Qed.

Lemma removed_refl v d : removed v d d.
Proof. unfold removed. repeat (split; [tauto|]). reflexivity. Qed.
Lemma delete_removed tz v c d : db_inv d -> removed v d (run_db (set_delete tz v) c d).
Proof.
  intros V. unfold set_delete. destruct (imsi_valid v) eqn:E; cbn [negb]; [|apply removed_refl].
  rewrite run_db_bind. destruct (db_sel_run tz (SEL_BY_IMSI v) (by_imsi v) c d (fun _ => eq_refl)) as [c' R].
  change (db_subscr_get_by_imsi tz v) with (db_sel tz (SEL_BY_IMSI v)). rewrite R.
  assert (G : removed v d match match find (by_imsi v) (d_sub d) with Some r => match sub_of_row tz r with Some h => Fin (0, Some h) | None => Ub end | None => Fin (- ENOENT, None) end with
     | Fin a => run_db (let '(_, h) := a in match h with None => Ret (RpError "Subscriber doesn't exist.") | Some h => do rc <- db_subscr_delete_by_id (h_id h);; Ret (if rc =? 0 then RpId (h_id h) else RpError "Cannot delete subscriber.") end) c' d
     | _ => d end).
  { destruct (find (by_imsi v) (d_sub d)) as [r|] eqn:F; [|apply removed_refl]. apply find_some in F as [I M]. apply String.eqb_eq in M.
    destruct (sub_of_row tz r) as [h|] eqn:Q; [|apply removed_refl]. rewrite run_db_after. destruct (sub_of_row_fields tz r h Q) as (-> & _).
    apply (run_inv (removed v d) (fun s => match s with AUC_2G_DELETE j | AUC_3G_DELETE j | DEL_BY_ID j => j = s_id r | _ => False end)).
    - intros s x HS (A & B & C & A' & B' & C' & D). destruct s; try contradiction; subst id; unfold removed; cbn [exec snd with_sub with_auc2 with_auc3 d_sub d_auc2 d_auc3 d_ind].
      + split; [intros y Iy; apply A; exact (proj1 (proj1 (filter_In _ _ _) Iy))|]. do 2 (split; [assumption|]). split; [|auto].
        intros y Iy Ny. apply filter_In. split; [auto|]. unfold by_id. apply negb_true_iff, Z.eqb_neq. intros Q'. apply Ny. replace y with r; [exact M|]. apply (row_eq d); auto.
      + split; [assumption|]. split; [intros y Iy; apply B; exact (proj1 (proj1 (filter_In _ _ _) Iy))|]. do 2 (split; [assumption|]). split; [|auto].
        intros y Iy Ny. apply (del_other a2_id); auto. intros Q'. exact (Ny r I M (eq_sym Q')).
      + do 2 (split; [assumption|]). split; [intros y Iy; apply C; exact (proj1 (proj1 (filter_In _ _ _) Iy))|]. do 2 (split; [assumption|]). split; [|auto].
        intros y Iy Ny. apply (del_other a3_id); auto. intros Q'. exact (Ny r I M (eq_sym Q')).
    - unfold db_subscr_delete_by_id. split; [reflexivity|]. intros q. destruct q; try exact Logic.I. apply all_stmts_bind.
      + cbn [db_subscr_update_aud_by_id]. cbn. split; [reflexivity|]. intros q. destruct (negb _ && negb _); exact Logic.I.
      + intros rc2. apply all_stmts_bind; [|intros; exact Logic.I]. cbn. split; [reflexivity|]. intros q. destruct (negb _ && negb _); exact Logic.I.
    - apply removed_refl. }
  destruct c as [|[] c]; try exact G; apply removed_refl.
Qed.

(** ** Requests *)
Lemma words_from_spaceless s : spaceless (fst (words_from s)) /\ Forall spaceless (snd (words_from s)).
Proof.
  induction s as [|c s [A B]]; cbn [words_from]; [split; [reflexivity|constructor]|]. destruct (words_from s) as [w l]. cbn [fst snd] in *.
  unfold separator. destruct (is_space c) eqn:P; cbn [orb].
  - split; [reflexivity|]. cbn [snd]. destruct w; [exact B|]. now constructor.
  - destruct (c =? ".")%char.
    + split; [reflexivity|]. cbn [snd]. destruct w; [exact B|]. now constructor.
    + cbn [fst snd]. split; [|exact B]. unfold spaceless in *. cbn. now rewrite P, A.
Qed.
Lemma words_spaceless s : Forall spaceless (words s).
Proof. unfold words. destruct (words_from_spaceless s) as [A B]. destruct (words_from s) as [w l]. cbn in *. destruct w; [exact B|]. now constructor. Qed.

Definition variable (q : request) : string := match q with CtrlGet v => v | CtrlSet v _ => v end.
Lemma descend_cases l : match descend NRoot l with
  | (NSubscr, [c]) => l = ["subscriber"; c]
  | (NSubscrBy sel, [c]) => l = ["subscriber"; sel; c]
  | _ => True
  end.
Proof.
  destruct l as [|a l]; [exact I|]. cbn [descend node_lookup]. destruct (String.eqb_spec a "subscriber") as [->|]; [|exact I].
  destruct l as [|b l]; [exact I|]. cbn [descend node_lookup]. destruct (is_some (after "by-" b)).
  - destruct l as [|c l]; [exact I|]. cbn [descend node_lookup]. destruct l; [reflexivity|exact I].
  - destruct l; [reflexivity|exact I].
Qed.
Lemma request_effect tz q c d : db_inv d -> ids_fit d ->
  let d' := run_db (ctrl_handle tz q) c d in
  d' = d \/
  (exists sel cmd v, words (variable q) = ["subscriber"; sel; cmd] /\ q = CtrlSet (variable q) v /\ confined (names sel) d d') \/
  (exists v, words (variable q) = ["subscriber"; "create"] /\ q = CtrlSet (variable q) v /\ added v d d') \/
  (exists v, words (variable q) = ["subscriber"; "delete"] /\ q = CtrlSet (variable q) v /\ removed v d d').
Proof.
  intros V FT. cbv zeta. unfold ctrl_handle. change (match q with CtrlGet v => v | CtrlSet v _ => v end) with (variable q).
  pose proof (words_spaceless (variable q)) as SP. pose proof (descend_cases (words (variable q))) as DC.
  destruct (is_comment (words (variable q))); [now left|]. destruct (words (variable q)) as [|w l]; [now left|].
  destruct (descend NRoot (w :: l)) as [n rest]. destruct rest as [|c0 [|]]; [destruct n; now left| |destruct n; now left].
  destruct n as [| |sel]; [now left| |].
  - injection DC as -> ->. destruct (String.eqb_spec c0 "create") as [->|].
    + destruct q as [var|var v]; [now left|]. destruct (create_added tz v c d) as [E|E]; [now left|]. right; right; left. exists v. auto.
    + destruct (String.eqb_spec c0 "delete") as [->|]; [|now left]. destruct q as [var|var v]; [now left|]. right; right; right. exists v. split; [reflexivity|]. split; [reflexivity|]. now apply delete_removed.
  - injection DC as -> ->. destruct q as [var|var v].
    + left. apply reads_run, reads_get.
    + right; left. exists sel, c0, v. split; [reflexivity|]. split; [reflexivity|]. apply confined_set; auto. inversion SP as [|? ? _ SP']. inversion SP'. assumption.
Qed.
