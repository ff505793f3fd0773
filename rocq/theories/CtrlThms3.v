(** What a request of the control interface answers and does when the storage works. *)
From Verif Require Import Base PeerId PeerThms Db DbSpec DbProofs DbThms DbThms2 Auth Ctrl CtrlSpec CtrlThms CtrlThms2.
Local Open Scope string_scope.
Local Open Scope list_scope.
Local Open Scope Z_scope.

(** ** Variables *)
Lemma get_forall (P : ascii -> bool) s : str_forall P s = true <-> forall n c, String.get n s = Some c -> P c = true.
Proof.
  induction s as [|a s IH]; cbn [str_forall].
  - split; [intros _ [|n] c; discriminate|reflexivity].
  - rewrite andb_true_iff, IH. split.
    + intros [A B] [|n] c E; [injection E as <-; exact A|exact (B n c E)].
    + intros H. split; [exact (H O a eq_refl)|]. intros n c E. exact (H (Datatypes.S n) c E).
Qed.
Lemma part_sep s : part s <-> s <> EmptyString /\ str_forall (fun c => negb (separator c)) s = true.
Proof.
  unfold part. rewrite get_forall. split; intros [A B]; (split; [exact A|]); intros n c E; specialize (B n c E).
  - apply negb_true_iff. unfold separator, is_space, acode. apply orb_false_iff. split.
    + apply orb_false_iff. split; [apply N.eqb_neq; intros Q; apply B; rewrite Q; cbn; auto 10|].
      apply andb_false_iff. destruct (N.leb_spec 9 (N_of_ascii c)); [right|now left]. apply N.leb_gt.
      destruct (N.ltb_spec 13 (N_of_ascii c)); [assumption|]. destruct B. cbn. lia.
    + destruct (Ascii.eqb_spec c "."); [|reflexivity]. subst c. destruct B. cbn. auto 10.
  - intros I. apply negb_true_iff in B. unfold separator, is_space, acode in B. apply orb_false_iff in B as [B1 B2].
    apply orb_false_iff in B1 as [B0 B1]. apply N.eqb_neq in B0. apply andb_false_iff in B1.
    assert (C : N_of_ascii c <> 46%N). { intros Q. apply Ascii.eqb_neq in B2. apply B2. rewrite <- (ascii_N_embedding c), Q. reflexivity. }
    rewrite !N.leb_gt in B1. cbn in I. lia.
Qed.
Lemma part_spaceless s : part s -> spaceless s.
Proof.
  rewrite part_sep. intros [_ H]. unfold spaceless. rewrite get_forall in *. intros n c E. specialize (H n c E). unfold separator in H. destruct (is_space c); auto.
Qed.
Lemma words_from_part s : str_forall (fun c => negb (separator c)) s = true -> words_from s = (s, []).
Proof. induction s as [|c s IH]; cbn; [reflexivity|]. rewrite andb_true_iff, negb_true_iff. intros [A B]. rewrite (IH B), A. reflexivity. Qed.
Lemma words_from_dot s t : str_forall (fun c => negb (separator c)) s = true -> words_from (s ++ "." ++ t)%string = (s, words t).
Proof.
  induction s as [|c s IH]; intros H.
  - change (words_from (String "." t) = ("", words t)). cbn [words_from]. unfold words. destruct (words_from t) as [w l]. reflexivity.
  - cbn in H. apply andb_true_iff in H as [A B]. apply negb_true_iff in A. specialize (IH B). change ((String c s ++ "." ++ t)%string) with (String c (s ++ "." ++ t)%string). cbn [words_from]. rewrite IH, A. reflexivity.
Qed.
Lemma words_var sel cmd : part sel -> part cmd -> words ("subscriber." ++ sel ++ "." ++ cmd)%string = ["subscriber"; sel; cmd].
Proof.
  rewrite !part_sep. intros [N1 P1] [N2 P2]. change (("subscriber." ++ sel ++ "." ++ cmd)%string) with ("subscriber" ++ "." ++ (sel ++ "." ++ cmd))%string.
  unfold words. rewrite (words_from_dot "subscriber") by reflexivity. unfold words. rewrite (words_from_dot sel cmd P1). unfold words. rewrite (words_from_part cmd P2).
  destruct cmd; [congruence|]. destruct sel; [congruence|]. reflexivity.
Qed.
Definition req (get : bool) (sel cmd v : string) : request :=
  let var := ("subscriber." ++ sel ++ "." ++ cmd)%string in if get then CtrlGet var else CtrlSet var v.
Lemma handle_by tz get sel cmd v : part sel -> part cmd -> is_some (after "by-" sel) = true ->
  ctrl_handle tz (req get sel cmd v) = if get then get_cmd tz sel cmd else set_cmd tz sel cmd v.
Proof.
  intros P1 P2 B. unfold ctrl_handle, req. pose proof (words_var sel cmd P1 P2) as W. destruct get; rewrite W; cbn [is_comment]; cbn [descend node_lookup String.eqb Ascii.eqb Bool.eqb]; rewrite B; cbn [descend node_lookup]; reflexivity.
Qed.

(** a selector that names a row of the database is well-formed *)
Lemma digit_nosep c : is_digit c = true -> negb (separator c) = true.
Proof. destruct c as [[] [] [] [] [] [] [] []]; try discriminate; reflexivity. Qed.
Lemma forall_mono (P Q : ascii -> bool) s : (forall c, P c = true -> Q c = true) -> str_forall P s = true -> str_forall Q s = true.
Proof. intros H. induction s as [|c s IH]; cbn; [auto|]. rewrite !andb_true_iff. intros [A B]. auto. Qed.
Lemma digit_string_nosep mn mx s : digit_string mn mx s -> str_forall (fun c => negb (separator c)) s = true.
Proof.
  intros [_ H]. rewrite get_forall. intros n c E. specialize (H n c E). apply digit_nosep. unfold is_digit, acode. apply andb_true_iff. rewrite !N.leb_le. lia.
Qed.
Lemma forall_app P a b : str_forall P (a ++ b)%string = str_forall P a && str_forall P b.
Proof. induction a as [|c a IH]; cbn; [reflexivity|]. now rewrite IH, andb_assoc. Qed.
Lemma numeral_nosep s v : numeral s v -> str_forall (fun c => negb (separator c)) s = true.
Proof.
  induction 1 as [c n D|s v c n N IH D]; [|rewrite forall_app, IH]; cbn; rewrite (digit_nosep c); auto; now destruct (digit_is c n D).
Qed.
Lemma names_part d sel r : db_inv d -> In r (d_sub d) -> names sel r -> part sel /\ is_some (after "by-" sel) = true.
Proof.
  intros V I N. pose proof (proj1 (Forall_forall _ _) (iv_wf d V) r I) as [WI WM].
  rewrite part_sep. destruct N as [v r E|v r E|t r E].
  - split; [|reflexivity]. split; [discriminate|]. subst v. rewrite forall_app. apply imsi_valid_spec in WI. now rewrite (digit_string_nosep _ _ _ WI).
  - split; [|reflexivity]. split; [discriminate|]. specialize (WM _ E). apply msisdn_valid_spec in WM. rewrite forall_app. now rewrite (digit_string_nosep _ _ _ WM).
  - split; [|reflexivity]. split; [discriminate|]. rewrite forall_app. destruct E as [E|(u & -> & E)]; [now rewrite (numeral_nosep _ _ E)|].
    rewrite forall_app, (numeral_nosep _ _ E). reflexivity.
Qed.

(** ** Commands on a subscriber that exists, storage working *)
Lemma readable_sub tz r : readable r -> exists h, sub_of_row tz r = Some h.
Proof.
  intros R. unfold sub_of_row, ipa_set_str.
  assert (G : forall o, (o = s_vlr_proxy r \/ o = s_sgsn_proxy r) -> match o with None => True | Some p => no_percent p = true end).
  { intros [p|] O; [|exact I]. unfold no_percent. rewrite get_forall. intros n c E. apply negb_true_iff, Ascii.eqb_neq. intros ->. apply (R p) with (n := n); [destruct O; auto|exact E]. }
  pose proof (G _ (or_introl eq_refl)) as G1. pose proof (G _ (or_intror eq_refl)) as G2.
  destruct (s_vlr_proxy r); [rewrite G1|]; (destruct (s_sgsn_proxy r); [rewrite G2|]); eauto.
Qed.
Lemma run_nil {A} (p : prog A) d : exists o d', run p [] d = (o, d', []).
Proof. revert d. induction p as [a|s k IH|]; intros d; cbn; eauto. destruct (exec s d) as [r d']. apply IH. Qed.
Lemma on_named tz sel d r h f : db_inv d -> ids_fit d -> spaceless sel -> In r (d_sub d) -> names sel r -> sub_of_row tz r = Some h ->
  run (on_subscriber tz sel f) [] d = run (f h) [] d.
Proof.
  intros V FT S I N H. unfold on_subscriber. rewrite run_bind. destruct (gs_named tz sel [] d r V FT S (Forall_nil _) I N) as (c' & _ & E).
  destruct (run_nil (get_subscriber tz sel) d) as (o & d' & E'). rewrite E' in E. injection E as -> -> <-. rewrite E', H. reflexivity.
Qed.
Lemma on_unnamed tz sel d f : db_inv d -> ids_fit d -> spaceless sel -> (forall r, In r (d_sub d) -> ~ names sel r) ->
  exists e, run (on_subscriber tz sel f) [] d = (Fin (RpError e), d, []).
Proof.
  intros V FT S N. unfold on_subscriber. rewrite run_bind. destruct (gs_unnamed tz sel [] d V FT S (Forall_nil _) N) as (e & c' & _ & E).
  destruct (run_nil (get_subscriber tz sel) d) as (o & d' & E'). rewrite E' in E. injection E as -> -> <-. rewrite E'. exists e. reflexivity.
Qed.
Lemma gsi_named tz sel d r : db_inv d -> ids_fit d -> spaceless sel -> In r (d_sub d) -> names sel r -> readable r ->
  run (get_subscriber_imsi tz sel) [] d = (Fin (inr (s_imsi r)), d, []).
Proof.
  intros V FT S I N R. unfold get_subscriber_imsi. destruct (after "by-imsi-" sel) as [v|] eqn:A.
  - apply after_spec in A. destruct N as [v' r E|v' r E|t r E]; try discriminate. injection A as ->. subst v. reflexivity.
  - destruct (readable_sub tz r R) as [h H]. destruct (gs_named tz sel [] d r V FT S (Forall_nil _) I N) as (c' & _ & E).
    destruct (run_nil (get_subscriber tz sel) d) as (o & d' & E'). rewrite E' in E. injection E as -> -> <-. rewrite run_bind, E', H. cbn [run].
    now rewrite (row_imsi tz d r h V I H).
Qed.

Lemma cmd_part_1 : part "imsi" /\ part "msisdn" /\ part "cs-enabled" /\ part "ps-enabled" /\ part "aud2g" /\ part "aud3g" /\ part "info" /\ part "info-all" /\ part "info-aud".
Proof. rewrite !part_sep. repeat split; try discriminate. Qed.

Lemma ctrl_read tz sel cmd t c d r : db_ok d -> ids_fit d -> no_fault c -> In r (d_sub d) -> names sel r -> readable r -> reports r cmd t ->
  run_out (ctrl_handle tz (CtrlGet ("subscriber." ++ sel ++ "." ++ cmd)%string)) c d = Fin (RpText t).
Proof.
  intros OK FT NF I N R P. apply db_ok_inv in OK. rewrite (proj1 (run_no_fault _ c d NF)).
  destruct (names_part d sel r OK I N) as [PS B]. destruct (readable_sub tz r R) as [h H].
  assert (PC : part cmd) by (destruct cmd_part_1 as (A1 & A2 & A3 & A4 & _); destruct P; assumption).
  change (CtrlGet _) with (req true sel cmd ""). rewrite (handle_by tz true sel cmd "" PS PC B).
  pose proof (sub_of_row_fields tz r h H) as (F1 & F2 & F3 & F4 & F5). pose proof (row_imsi tz d r h OK I H) as FI.
  pose proof (proj1 (Forall_forall _ _) (iv_wf d OK) r I) as [WI WM].
  unfold run_out.
  destruct P as [|m E|E|E|E|E|E]; unfold get_cmd; cbn [String.eqb Ascii.eqb Bool.eqb]; unfold get_imsi, get_msisdn, get_enabled;
    rewrite (on_named tz sel d r h _ OK FT (part_spaceless _ PS) I N H); cbn [run fst]; rewrite ?F4, ?F5, ?E; try reflexivity.
  - now rewrite FI.
  - rewrite F3, E. specialize (WM _ E). pose proof (msisdn_len _ WM) as L. change (text_to_buf 16 (Some m)) with (str_take 15 m). rewrite (str_take_all 15 m) by lia. destruct m; [cbn in L; lia|reflexivity].
  - rewrite F3, E. reflexivity.
Qed.
Lemma ctrl_info tz sel c d r : db_ok d -> ids_fit d -> no_fault c -> In r (d_sub d) -> names sel r -> readable r ->
  exists h, sub_of_row tz r = Some h /\ run_out (ctrl_handle tz (CtrlGet ("subscriber." ++ sel ++ ".info")%string)) c d = Fin (RpInfo (Some h) None None).
Proof.
  intros OK FT NF I N R. apply db_ok_inv in OK. rewrite (proj1 (run_no_fault _ c d NF)).
  destruct (names_part d sel r OK I N) as [PS B]. destruct (readable_sub tz r R) as [h H]. exists h. split; [exact H|].
  assert (PC : part "info") by apply cmd_part_1.
  change (CtrlGet _) with (req true sel "info" ""). rewrite (handle_by tz true sel "info" "" PS PC B).
  unfold run_out, get_cmd; cbn [String.eqb Ascii.eqb Bool.eqb]. unfold get_info. rewrite (on_named tz sel d r h _ OK FT (part_spaceless _ PS) I N H). reflexivity.
Qed.

(** ** Writing *)
Lemma upd_split (cond : sub_row -> bool) f l r : In r l -> cond r = true -> (forall x, In x l -> cond x = true -> x = r) -> NoDup l ->
  exists a b, l = a ++ r :: b /\ upd cond f l = a ++ f r :: b /\ cnt cond l = 1%nat.
Proof.
  intros I C U ND. apply in_split in I as (a & b & ->). exists a, b. split; [reflexivity|].
  assert (X : forall x, In x (a ++ b) -> cond x = false).
  { intros x Ix. destruct (cond x) eqn:E; [|reflexivity]. apply NoDup_remove_2 in ND. destruct ND. rewrite <- (U x); auto. apply in_app_iff in Ix. apply in_app_iff. cbn. tauto. }
  assert (Y : forall l, (forall x, In x l -> cond x = false) -> upd cond f l = l /\ filter cond l = []).
  { clear. induction l as [|x l IH]; intros H; [split; reflexivity|]. cbn. rewrite (H x) by now left. destruct (IH (fun y Iy => H y (or_intror Iy))) as [A B].
    unfold upd in A. rewrite A, B. split; reflexivity. }
  destruct (Y a) as [A1 A2]; [intros x Ix; apply X, in_app_iff; auto|]. destruct (Y b) as [B1 B2]; [intros x Ix; apply X, in_app_iff; auto|].
  unfold upd, cnt in *. rewrite map_app, filter_app. cbn. rewrite C, A1, B1, A2, B2. split; reflexivity.
Qed.
Lemma rows_nodup d : db_inv d -> NoDup (d_sub d).
Proof.
  intros V. apply NoDup_nth_error. intros i j L E. destruct (nth_error (d_sub d) i) as [r|] eqn:A; [|apply nth_error_None in A; lia].
  exact (inv_unique d V i j r r A (eq_sym E) (or_introl eq_refl)).
Qed.
Lemma imsi_upd d r f : db_inv d -> In r (d_sub d) -> exists a b, d_sub d = a ++ r :: b /\ upd_sub (by_imsi (s_imsi r)) f d = (RDone 1, mk_db (a ++ f r :: b) (d_auc2 d) (d_auc3 d) (d_ind d)).
Proof.
  intros V I. destruct (upd_split (by_imsi (s_imsi r)) f (d_sub d) r I) as (a & b & E1 & E2 & E3).
  - unfold by_imsi. apply String.eqb_refl.
  - intros x Ix C. apply (row_eq d); auto. right; left. now apply String.eqb_eq in C.
  - now apply rows_nodup.
  - exists a, b. split; [exact E1|]. unfold upd_sub. rewrite E2, E3. destruct d; reflexivity.
Qed.
Lemma ctrl_write tz sel cmd v c d r r' : db_ok d -> ids_fit d -> no_fault c -> In r (d_sub d) -> names sel r -> readable r -> writes r cmd v r' ->
  (forall m, s_msisdn r' = Some m -> forall x, In x (d_sub d) -> s_msisdn x = Some m -> s_imsi x = s_imsi r) ->
  let p := ctrl_handle tz (CtrlSet ("subscriber." ++ sel ++ "." ++ cmd)%string v) in
  run_out p c d = Fin (RpText "OK") /\ replaced r r' d (run_db p c d).
Proof.
  intros OK FT NF I N R W U. cbv zeta. apply db_ok_inv in OK. rewrite (proj1 (run_no_fault _ c d NF)), (proj2 (run_no_fault _ c d NF)).
  destruct (names_part d sel r OK I N) as [PS B]. destruct (readable_sub tz r R) as [h H].
  assert (PC : part cmd) by (destruct cmd_part_1 as (A1 & A2 & A3 & A4 & _); destruct W; assumption).
  change (CtrlSet _ v) with (req false sel cmd v). rewrite (handle_by tz false sel cmd v PS PC B).
  pose proof (row_imsi tz d r h OK I H) as FI. pose proof (part_spaceless _ PS) as SP.
  unfold run_out, run_db, replaced.
  assert (EN : forall ps b, set_cmd tz sel (if ps : bool then "ps-enabled" else "cs-enabled") (if b : bool then "1" else "0") = set_enabled tz sel ps (if b then "1" else "0"))
    by (intros [] []; reflexivity).
  assert (EE : forall ps b, exists a b', d_sub d = a ++ r :: b' /\ run (set_enabled tz sel ps (if b : bool then "1" else "0")) [] d =
     (Fin (RpText "OK"), mk_db (a ++ (if ps then set_nam_ps b r else set_nam_cs b r) :: b') (d_auc2 d) (d_auc3 d) (d_ind d), [])).
  { intros ps b. unfold set_enabled. rewrite run_bind, (gsi_named tz sel d r OK FT SP I N R).
    destruct (imsi_upd d r (if ps then set_nam_ps b else set_nam_cs b) OK I) as (a & b' & E1 & E2). exists a, b'. split; [exact E1|].
    rewrite run_bind. unfold db_subscr_nam. replace ((if b then "1" else "0") =? "1")%string with b by (destruct b; reflexivity).
    destruct ps; cbn [run exec]; rewrite E2; reflexivity. }
  assert (EM : forall o, exists a b', d_sub d = a ++ r :: b' /\ ((forall m, o = Some m -> is_msisdn m /\ forall x, In x (d_sub d) -> s_msisdn x = Some m -> s_imsi x = s_imsi r) ->
     run (db_subscr_update_msisdn_by_imsi (s_imsi r) o) [] d = (Fin 0, mk_db (a ++ set_msisdn o r :: b') (d_auc2 d) (d_auc3 d) (d_ind d), []))).
  { intros o. destruct (imsi_upd d r (set_msisdn o) OK I) as (a & b' & E1 & E2). exists a, b'. split; [exact E1|]. intros Q. destruct o as [m|]; cbn [db_subscr_update_msisdn_by_imsi].
    - destruct (Q m eq_refl) as [Qm Qu]. apply msisdn_valid_spec in Qm. rewrite Qm. cbn [negb run exec].
      rewrite (proj2 (existsb_conflict d (s_imsi r) m)) by exact Qu. rewrite andb_false_r, E2. reflexivity.
    - cbn [run exec]. rewrite E2. reflexivity. }
  destruct W as [b v i im ms ie vl sg cs ps pc pp lc lp vp sp ->|b v i im ms ie vl sg cs ps pc pp lc lp vp sp ->|m i im ms ie vl sg cs ps pc pp lc lp vp sp M|i im ms ie vl sg cs ps pc pp lc lp vp sp].
  - rewrite (EN false b). destruct (EE false b) as (a & b' & E1 & E2). rewrite E2. split; [reflexivity|]. exists a, b'. split; [exact E1|reflexivity].
  - rewrite (EN true b). destruct (EE true b) as (a & b' & E1 & E2). rewrite E2. split; [reflexivity|]. exists a, b'. split; [exact E1|reflexivity].
  - unfold set_cmd. cbn [String.eqb Ascii.eqb Bool.eqb orb]. pose proof (proj2 (msisdn_valid_spec m) M) as MV. pose proof (msisdn_len m MV) as L.
    unfold verify_msisdn. rewrite MV, orb_true_r, (proj2 (Nat.leb_le _ _)) by lia. cbn [andb]. unfold set_msisdn_cmd.
    rewrite (on_named tz sel d _ h _ OK FT SP I N H), FI.
    assert (NN : (m =? "none")%string = false). { apply String.eqb_neq. intros ->. discriminate MV. } rewrite NN.
    destruct (EM (Some m)) as (a & b' & E1 & E2). rewrite run_bind, E2.
    + cbn [run fst snd]. split; [reflexivity|]. exists a, b'. split; [exact E1|reflexivity].
    + intros m' [= <-]. split; [exact M|]. exact (U m eq_refl).
  - unfold set_cmd. cbn [String.eqb Ascii.eqb Bool.eqb orb]. cbn [verify_msisdn]. replace (verify_msisdn "none") with true by reflexivity. unfold set_msisdn_cmd.
    rewrite (on_named tz sel d _ h _ OK FT SP I N H), FI. cbn [String.eqb Ascii.eqb Bool.eqb].
    destruct (EM None) as (a & b' & E1 & E2). rewrite run_bind, E2; [|discriminate].
    cbn [run fst snd]. split; [reflexivity|]. exists a, b'. split; [exact E1|reflexivity].
Qed.

(** ** Nobody named *)
Lemma ctrl_unknown tz (get : bool) sel cmd v c d : db_ok d -> ids_fit d -> no_fault c -> part sel -> part cmd -> (forall r, In r (d_sub d) -> ~ names sel r) ->
  (get = true -> cmd <> "info-aud") ->
  exists e, run (ctrl_handle tz (req get sel cmd v)) [] d = (Fin (RpError e), d, []).
Proof.
  intros OK FT NF PS PC N NG. apply db_ok_inv in OK. pose proof (part_spaceless _ PS) as SP.
  destruct (is_some (after "by-" sel)) eqn:B.
  - rewrite (handle_by tz get sel cmd v PS PC B).
    assert (O : forall f, exists e, run (on_subscriber tz sel f) [] d = (Fin (RpError e), d, [])) by (intros f; now apply on_unnamed).
    destruct get.
    + unfold get_cmd. repeat match goal with |- context [(?a =? ?b)%string] => destruct (String.eqb_spec a b); [try (subst cmd; destruct (NG eq_refl); reflexivity); try apply O|] end. eexists; reflexivity.
    + unfold set_cmd. destruct (_ || _ || _ || _); [eexists; reflexivity|].
      assert (E : forall ps, exists e, run (set_enabled tz sel ps v) [] d = (Fin (RpError e), d, [])).
      { intros ps. unfold set_enabled, get_subscriber_imsi. destruct (after "by-imsi-" sel) as [i|] eqn:A.
        - apply after_spec in A. unfold db_subscr_nam.
          assert (Z : forall f, upd_sub (by_imsi i) f d = (RDone 0, d)).
          { intros f. assert (F : forall x, In x (d_sub d) -> by_imsi i x = false).
            { intros x Ix. destruct (by_imsi i x) eqn:Q; [|reflexivity]. destruct (N x Ix). rewrite A. constructor. now apply String.eqb_eq in Q. }
            unfold upd_sub, upd, cnt. clear -F. assert (G : map (fun r => if by_imsi i r then f r else r) (d_sub d) = d_sub d /\ filter (by_imsi i) (d_sub d) = []).
            { induction (d_sub d) as [|x l IH]; [split; reflexivity|]. cbn. rewrite (F x) by now left. destruct IH as [A B]; [intros y Iy; apply F; now right|]. rewrite A, B. split; reflexivity. }
            destruct G as [-> ->]. destruct d; reflexivity. }
          cbn [bind]. destruct ps; cbn [bind run exec]; rewrite Z; eexists; reflexivity.
        - rewrite run_bind, run_bind. destruct (gs_unnamed tz sel [] d OK FT SP (Forall_nil _) N) as (e & c' & _ & E).
          destruct (run_nil (get_subscriber tz sel) d) as (o & d' & E'). rewrite E' in E. injection E as -> -> <-. rewrite E'. exists e. reflexivity. }
      destruct (cmd =? "ps-enabled")%string; [destruct (verify_enabled v); [apply E|eexists; reflexivity]|].
      destruct (cmd =? "cs-enabled")%string; [destruct (verify_enabled v); [apply E|eexists; reflexivity]|].
      destruct (cmd =? "msisdn")%string; [destruct (verify_msisdn v); [apply O|eexists; reflexivity]|].
      destruct (cmd =? "aud2g")%string; [destruct (verify_aud v); [apply O|eexists; reflexivity]|].
      destruct (cmd =? "aud3g")%string; [destruct (verify_aud v); [apply O|eexists; reflexivity]|].
      eexists; reflexivity.
  - unfold ctrl_handle, req. pose proof (words_var sel cmd PS PC) as W. destruct get; rewrite W; cbn [is_comment]; cbn [descend node_lookup String.eqb Ascii.eqb Bool.eqb]; rewrite B; eexists; reflexivity.
Qed.
