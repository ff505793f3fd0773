(** Proofs for C08 and C27. *)
From Verif Require Import Base PeerId Db DbSpec DbProofs DbThms DbThms2 DbThms3 AuthSpec PeerSpec.

Lemma acode_inj x y : ~ (acode x < acode y)%N -> ~ (acode y < acode x)%N -> x = y.
Proof.
  intros H1 H2. rewrite <- (ascii_N_embedding x), <- (ascii_N_embedding y). f_equal. unfold acode in *. lia.
Qed.

Lemma memcmp_cases : forall n a b, (n <= length a)%nat -> (n <= length b)%nat ->
  (memcmp n a b = 0 /\ firstn n a = firstn n b) \/
  (memcmp n a b = -1 /\ forall s t, bytes_lt (firstn n a ++ s) (firstn n b ++ t)) \/
  (memcmp n a b = 1 /\ forall s t, bytes_lt (firstn n b ++ t) (firstn n a ++ s)).
Proof.
  induction n as [|n IH]; intros a b Ha Hb; [left; auto|].
  destruct a as [|x a]; cbn [length] in Ha; [lia|]. destruct b as [|y b]; cbn [length] in Hb; [lia|].
  cbn [memcmp firstn app].
  destruct (N.ltb_spec (acode x) (acode y)) as [L|L].
  { right; left. split; auto. intros. now constructor. }
  destruct (N.ltb_spec (acode y) (acode x)) as [L'|L'].
  { right; right. split; auto. intros. now constructor. }
  assert (x = y) as -> by (apply acode_inj; lia).
  destruct (IH a b) as [[E H]|[[E H]|[E H]]]; try lia.
  - left. split; auto. now f_equal.
  - right; left. split; auto. intros. now constructor.
  - right; right. split; auto. intros. now constructor.
Qed.

Lemma bytes_lt_irrefl l : ~ bytes_lt l l.
Proof. induction l; intros H; inversion H; subst; try lia. contradiction. Qed.
Lemma bytes_lt_trans : forall l m k, bytes_lt l m -> bytes_lt m k -> bytes_lt l k.
Proof.
  intros l m k H. revert k. induction H as [y m|x y l m L|x l m H IH]; intros k K; inversion K; subst; try (constructor; auto; lia).
Qed.
Lemma bytes_lt_prefix l x m : bytes_lt l (l ++ x :: m).
Proof. induction l; cbn; [apply blt_end|now apply blt_next]. Qed.

Lemma firstn_split {A} n m (l : list A) : (n <= m)%nat -> firstn m l = firstn n l ++ firstn (m - n) (skipn n l).
Proof.
  revert m l. induction n as [|n IH]; intros m l H; [cbn; now rewrite Nat.sub_0_r|].
  destruct m as [|m]; [lia|]. destruct l as [|a l]; [now rewrite !firstn_nil|].
  cbn. f_equal. apply IH. lia.
Qed.

Lemma ipa_cmp_cases a b : ipa_wf a -> ipa_wf b ->
  (ipa_cmp a b = 0 /\ ipa_bytes a = ipa_bytes b) \/
  (ipa_cmp a b < 0 /\ bytes_lt (ipa_bytes a) (ipa_bytes b)) \/
  (0 < ipa_cmp a b /\ bytes_lt (ipa_bytes b) (ipa_bytes a)).
Proof.
  intros [La Ua] [Lb Ub]. unfold ipa_cmp, ipa_bytes.
  destruct (Nat.eqb_spec (in_len a) 0) as [Ea|Ea]; destruct (Nat.eqb_spec (in_len b) 0) as [Eb|Eb]; cbn [andb].
  - left. rewrite Ea, Eb. auto.
  - right; left. split; [lia|]. rewrite Ea. destruct (in_val b); cbn in Lb; [discriminate|]. destruct (in_len b); [lia|]. constructor.
  - right; right. split; [lia|]. rewrite Eb. destruct (in_val a); cbn in La; [discriminate|]. destruct (in_len a); [lia|]. constructor.
  - destruct (Nat.eqb_spec (in_len a) (in_len b)) as [E|E].
    + destruct (memcmp_cases (in_len a) (in_val a) (in_val b)) as [[-> H]|[[-> H]|[-> H]]]; try lia.
      * left. split; auto. now rewrite <- E.
      * right; left. split; [lia|]. rewrite <- E. specialize (H [] []). now rewrite !app_nil_r in H.
      * right; right. split; [lia|]. rewrite <- E. specialize (H [] []). now rewrite !app_nil_r in H.
    + destruct (Nat.ltb_spec (in_len a) (in_len b)) as [L|L].
      * rewrite (firstn_split (in_len a) (in_len b)) by lia.
        destruct (memcmp_cases (in_len a) (in_val a) (in_val b)) as [[-> H]|[[-> H]|[-> H]]]; try lia; cbn [Z.eqb].
        -- right; left. split; [lia|]. rewrite H.
           destruct (firstn (in_len b - in_len a) (skipn (in_len a) (in_val b))) eqn:F.
           { apply (f_equal (@length _)) in F. rewrite firstn_length, skipn_length in F. cbn in F. lia. }
           apply bytes_lt_prefix.
        -- right; left. split; [lia|]. specialize (H [] (firstn (in_len b - in_len a) (skipn (in_len a) (in_val b)))). now rewrite app_nil_r in H.
        -- right; right. split; [lia|]. specialize (H [] (firstn (in_len b - in_len a) (skipn (in_len a) (in_val b)))). now rewrite app_nil_r in H.
      * rewrite (firstn_split (in_len b) (in_len a)) by lia.
        destruct (memcmp_cases (in_len b) (in_val a) (in_val b)) as [[-> H]|[[-> H]|[-> H]]]; try lia; cbn [Z.eqb].
        -- right; right. split; [lia|]. rewrite <- H.
           destruct (firstn (in_len a - in_len b) (skipn (in_len b) (in_val a))) eqn:F.
           { apply (f_equal (@length _)) in F. rewrite firstn_length, skipn_length in F. cbn in F. lia. }
           apply bytes_lt_prefix.
        -- right; left. split; [lia|]. specialize (H (firstn (in_len a - in_len b) (skipn (in_len b) (in_val a))) []). now rewrite app_nil_r in H.
        -- right; right. split; [lia|]. specialize (H (firstn (in_len a - in_len b) (skipn (in_len b) (in_val a))) []). now rewrite app_nil_r in H.
Qed.

Lemma c27_spec a b : ipa_wf a -> ipa_wf b ->
  (ipa_cmp a b = 0 <-> ipa_bytes a = ipa_bytes b) /\
  (ipa_cmp a b < 0 <-> bytes_lt (ipa_bytes a) (ipa_bytes b)) /\
  (0 < ipa_cmp a b <-> bytes_lt (ipa_bytes b) (ipa_bytes a)).
Proof.
  intros Ha Hb. pose proof (bytes_lt_irrefl (ipa_bytes a)) as I. pose proof (bytes_lt_irrefl (ipa_bytes b)) as J.
  destruct (ipa_cmp_cases a b Ha Hb) as [[E H]|[[E H]|[E H]]].
  - rewrite H in *. split; [|split]; split; intros; try lia; try contradiction; auto.
  - assert (ipa_bytes a <> ipa_bytes b) by (intros F; rewrite F in *; contradiction).
    assert (~ bytes_lt (ipa_bytes b) (ipa_bytes a)) by (intros F; apply I; eapply bytes_lt_trans; eauto).
    split; [|split]; split; intros; try lia; try contradiction; auto.
  - assert (ipa_bytes a <> ipa_bytes b) by (intros F; rewrite F in *; contradiction).
    assert (~ bytes_lt (ipa_bytes a) (ipa_bytes b)) by (intros F; apply I; eapply bytes_lt_trans; eauto).
    split; [|split]; split; intros; try lia; try contradiction; auto.
Qed.

Lemma c27_order a b c : ipa_wf a -> ipa_wf b -> ipa_wf c ->
  ipa_cmp a a = 0 /\ (ipa_cmp a b < 0 <-> 0 < ipa_cmp b a) /\ (ipa_cmp a b = 0 <-> ipa_cmp b a = 0) /\
  (ipa_cmp a b <= 0 -> ipa_cmp b c <= 0 -> ipa_cmp a c <= 0) /\
  (ipa_cmp a b < 0 -> ipa_cmp b c <= 0 -> ipa_cmp a c < 0) /\
  (ipa_cmp a b <= 0 -> ipa_cmp b c < 0 -> ipa_cmp a c < 0).
Proof.
  intros Ha Hb Hc.
  pose proof (c27_spec a a Ha Ha) as (Eaa & _ & _).
  pose proof (c27_spec a b Ha Hb) as (Eab & Lab & Gab).
  pose proof (c27_spec b a Hb Ha) as (Eba & Lba & Gba).
  pose proof (c27_spec b c Hb Hc) as (Ebc & Lbc & Gbc).
  pose proof (c27_spec a c Ha Hc) as (Eac & Lac & Gac).
  split; [tauto|]. split; [rewrite Lab, Gba; tauto|].
  split; [rewrite Eab, Eba; split; auto|].
  assert (T : ipa_cmp a b < 0 -> ipa_cmp b c < 0 -> ipa_cmp a c < 0)
    by (rewrite Lab, Lbc, Lac; apply bytes_lt_trans).
  assert (T1 : ipa_cmp a b = 0 -> ipa_cmp b c < 0 -> ipa_cmp a c < 0)
    by (rewrite Eab, Lbc, Lac; now intros ->).
  assert (T2 : ipa_cmp a b < 0 -> ipa_cmp b c = 0 -> ipa_cmp a c < 0)
    by (rewrite Lab, Ebc, Lac; now intros H <-).
  assert (T3 : ipa_cmp a b = 0 -> ipa_cmp b c = 0 -> ipa_cmp a c = 0)
    by (rewrite Eab, Ebc, Eac; now intros ->).
  split; [|split]; intros H1 H2; lia.
Qed.

(** names of type IPA *)
Lemma c27_peer a b : p_type a = PT_IPA -> p_type b = PT_IPA -> ipa_wf (p_ipa a) -> ipa_wf (p_ipa b) ->
  (peer_cmp a b = 0 <-> ipa_bytes (p_ipa a) = ipa_bytes (p_ipa b)) /\
  (peer_cmp a b < 0 <-> bytes_lt (ipa_bytes (p_ipa a)) (ipa_bytes (p_ipa b))) /\
  (0 < peer_cmp a b <-> bytes_lt (ipa_bytes (p_ipa b)) (ipa_bytes (p_ipa a))).
Proof. intros Ea Eb. unfold peer_cmp. rewrite Ea, Eb. apply c27_spec. Qed.
(** a peer without a name comes before any named one *)
Lemma c27_peer_unnamed a b : p_type a = PT_EMPTY -> p_type b = PT_IPA -> peer_cmp a b < 0 /\ 0 < peer_cmp b a.
Proof. intros Ea Eb. unfold peer_cmp. rewrite Ea, Eb. split; reflexivity. Qed.

(** ** what the setters make *)
Lemma overwrite_len buf src : length buf = IPA_MAX -> (length src <= IPA_MAX)%nat -> length (overwrite buf src) = IPA_MAX.
Proof. intros. unfold overwrite. rewrite app_length, skipn_length. lia. Qed.
Lemma overwrite_first buf src : firstn (length src) (overwrite buf src) = src.
Proof. unfold overwrite. rewrite firstn_app, Nat.sub_diag, firstn_all. cbn. apply app_nil_r. Qed.
Lemma zero_buf_len : length zero_buf = IPA_MAX.
Proof. apply repeat_length. Qed.

Lemma ipa_set_bytes old l rc n : ipa_wf old -> ipa_set old (Some l) = (rc, n) ->
  ipa_wf n /\ ((rc = 0 /\ ipa_bytes n = l) \/ (rc = - ENOSPC /\ n = old /\ (IPA_MAX < length l)%nat)).
Proof.
  intros [Wl Wu] E. unfold ipa_set in E. destruct l as [|x l].
  - injection E as <- <-. split; [split; [apply zero_buf_len|cbn; lia]|]. left. auto.
  - destruct (Nat.ltb_spec IPA_MAX (length (x :: l))).
    + injection E as <- <-. split; [split; auto|]. right. auto.
    + injection E as <- <-. split.
      * split; [apply overwrite_len; auto|auto].
      * left. split; auto. unfold ipa_bytes. cbn [in_len in_val]. apply (overwrite_first (in_val old) (x :: l)).
Qed.

Lemma bytes_len s : length (bytes_of s) = String.length s.
Proof. induction s; cbn; auto. Qed.
Lemma str_take_len n s : (String.length (str_take n s) <= n)%nat.
Proof.
  revert s. induction n as [|n IH]; intros s; [apply Nat.le_0_l|]. destruct s as [|c s]; [apply Nat.le_0_l|].
  change (str_take (S n) (String c s)) with (String c (str_take n s)). cbn [String.length]. specialize (IH s). lia.
Qed.

Lemma no_percent_iff s : no_percent s = true <-> plain_text s.
Proof.
  unfold no_percent, plain_text. induction s as [|c s IH]; cbn [str_forall].
  - split; auto. intros _ k. destruct k; discriminate.
  - rewrite Bool.andb_true_iff, IH, Bool.negb_true_iff, Ascii.eqb_neq. split.
    + intros [H1 H2] [|k]; cbn; [congruence|apply H2].
    + intros H. split; [specialize (H 0%nat); cbn in H; congruence|]. intros k. apply (H (S k)).
Qed.

Lemma ipa_set_str_bytes old s n : ipa_wf old -> ipa_set_str old (Some s) = Some n ->
  ipa_wf n /\ text_names (str_take 127 s) n.
Proof.
  intros [Wl Wu] E. unfold ipa_set_str in E. destruct (no_percent s); [|discriminate]. injection E as <-.
  assert (L : (length (bytes_of (str_take 127 s) ++ [nul]) <= IPA_MAX)%nat).
  { rewrite app_length, bytes_len. cbn [length]. pose proof (str_take_len 127 s). unfold IPA_MAX. lia. }
  assert (E : (length (bytes_of (str_take 127 s)) + 1 = length (bytes_of (str_take 127 s) ++ [nul]))%nat)
    by (rewrite app_length; reflexivity).
  split.
  - split; [apply overwrite_len; auto|]. cbn [in_len]. lia.
  - unfold text_names, ipa_bytes. cbn [in_len in_val]. rewrite E. apply overwrite_first.
Qed.

Lemma str_take_split n : forall s, exists b, s = (str_take n s ++ b)%string /\ ((String.length s <= n)%nat -> b = ""%string) /\ ((n < String.length s)%nat -> String.length (str_take n s) = n).
Proof.
  induction n as [|n IH]; intros [|c s].
  - exists ""%string. split; [reflexivity|]. split; auto.
  - exists (String c s). split; [reflexivity|]. split; [cbn; lia|reflexivity].
  - exists ""%string. split; [reflexivity|]. split; [auto|cbn; lia].
  - destruct (IH s) as (b & E & A & B). exists b.
    change (str_take (S n) (String c s)) with (String c (str_take n s)). cbn [append String.length]. split; [congruence|]. split; intros; [apply A; lia|rewrite B; lia].
Qed.
Lemma c27_text old s : ipa_wf old -> (forall j, String.get j s <> Some "%"%char) ->
  exists n a b, ipa_set_str old (Some s) = Some n /\ s = (a ++ b)%string /\ ipa_wf n /\ ipa_bytes n = bytes_of a ++ [nul] /\
    p_type (peer_set_str s) = PT_IPA /\ ipa_wf (p_ipa (peer_set_str s)) /\ ipa_bytes (p_ipa (peer_set_str s)) = bytes_of a ++ [nul] /\
    ((String.length s <= 127)%nat -> b = ""%string) /\ ((127 < String.length s)%nat -> String.length a = 127%nat).
Proof.
  intros W P. destruct (str_take_split 127 s) as (b & E & A & B).
  assert (H : ipa_set_str old (Some s) = Some (mk_ipa (length (bytes_of (str_take 127 s)) + 1) (overwrite (in_val old) (bytes_of (str_take 127 s) ++ [nul])))).
  { unfold ipa_set_str. rewrite (proj2 (no_percent_iff s)) by exact P. reflexivity. }
  assert (H0 : ipa_set_str ipa_empty (Some s) = Some (p_ipa (peer_set_str s))).
  { unfold ipa_set_str. rewrite (proj2 (no_percent_iff s)) by exact P. reflexivity. }
  destruct (ipa_set_str_bytes _ _ _ W H) as (W1 & B1). assert (We : ipa_wf ipa_empty) by (split; [reflexivity|cbn; unfold IPA_MAX; lia]).
  destruct (ipa_set_str_bytes _ _ _ We H0) as (W2 & B2).
  eexists. exists (str_take 127 s), b. split; [exact H|]. split; [exact E|]. split; [exact W1|]. split; [exact B1|]. split; [reflexivity|]. auto 6.
Qed.

(** ** C08 *)
Lemma text_name_cstr max n : text_name max n -> exists t, text_names t n /\ ipa_cstr n = Some t /\ (String.length t <= max)%nat /\ (0 < in_len n)%nat.
Proof.
  intros (t & Hb & Hn & Hl). exists t. split; auto. split; [apply (ipa_cstr_bytes n t []); auto|]. split; auto.
  unfold text_names, ipa_bytes in Hb. apply (f_equal (@length _)) in Hb. rewrite firstn_length, app_length in Hb. cbn in Hb. lia.
Qed.

Lemma Forall2_In_l {A B} (P : A -> B -> Prop) l m x : Forall2 P l m -> In x l -> exists y, In y m /\ P x y.
Proof. induction 1; intros []; subst; [eexists; split; [now left|auto]|]. destruct IHForall2 as (z & ? & ?); auto. exists z. split; [now right|auto]. Qed.
Lemma Forall2_and {A B} (P Q : A -> B -> Prop) l m : Forall2 P l m -> Forall2 Q l m -> Forall2 (fun x y => P x y /\ Q x y) l m.
Proof. induction 1; intros H'; inversion H'; subst; constructor; auto. Qed.

Lemma ipa_set_str_plain old s : (forall t, s = Some t -> plain_text t) -> exists n, ipa_set_str old s = Some n.
Proof.
  intros H. destruct s as [t|]; [|eexists; reflexivity]. unfold ipa_set_str. rewrite (proj2 (no_percent_iff t)) by auto. eauto.
Qed.
Lemma ipa_empty_wf : ipa_wf ipa_empty.
Proof. split; [apply zero_buf_len|cbn; lia]. Qed.

Lemma find_by_imsi d r : db_inv d -> In r (d_sub d) -> find (fun x => (s_imsi x =? s_imsi r)%string) (d_sub d) = Some r.
Proof.
  intros Hd Hr. apply find_unique; auto; [apply String.eqb_refl|].
  intros y Hy E. apply String.eqb_eq in E. eapply (NoDup_key_inj s_imsi); eauto. apply Hd.
Qed.

Definition via_ok (via : option ipa_name) : Prop :=
  match via with
  | None => True
  | Some p => in_len p = 0%nat \/ exists t, text_names t p /\ ~ In nul (bytes_of t) /\ plain_text t /\ (String.length t <= 127)%nat
  end.

Lemma lu_inv d id vlr (ps : bool) via now c : db_inv d -> db_inv (run_db (db_subscr_lu id vlr ps via now) c d).
Proof. intros H. exact (db_hist_inv [(ALu id vlr ps via now, c)] d H). Qed.

Lemma c08_round_trip d imsi id vlr (ps : bool) via now tz c c' :
  db_ok d -> is_subscriber d imsi id -> text_name 31 vlr -> via_ok via -> proxies_plain d id ->
  run_out (db_subscr_lu id vlr ps via now) c d = Fin 0 -> no_fault c' ->
  exists h, run_out (db_subscr_get_by_imsi tz imsi) c' (run_db (db_subscr_lu id vlr ps via now) c d) = Fin (0, Some h) /\
    text_names (sub_number ps h) vlr /\
    ipa_bytes (sub_proxy ps h) = match via with Some p => ipa_bytes p | None => [] end.
Proof.
  intros Hok (r & Hr & Ei & Eid) Hv Hvia Hpl Hrun Hc. apply db_ok_inv in Hok.
  destruct (text_name_cstr 31 vlr Hv) as (t & Ht & Ec & Hl & _).
  set (d' := run_db _ c d).
  assert (Hd' : db_inv d') by (now apply lu_inv).
  set (x := if ps then PS else CS). assert (Ex : ps = is_ps x) by (subst x; destruct ps; reflexivity).
  pose proof (c05_lu x d id vlr via now c) as [F _]. rewrite <- Ex in F. fold d' in F.
  rewrite Ex in Hrun. destruct (c05_lu_sets x d id vlr via now c Hrun) as (number & proxy & t0 & En & Ep & _ & [_ G]).
  rewrite <- Ex in G. fold d' in G. rewrite Ec in En. injection En as <-.
  destruct (Forall2_In_l _ _ _ r (Forall2_and _ _ _ _ F G) Hr) as (r' & Hr' & [[S _] E]). cbv beta in E.
  rewrite Eid, Z.eqb_refl in E. cbn in E.
  assert (Ei' : s_imsi r' = imsi) by (subst x; destruct ps; cbn in S; unfold not_ps, not_cs in S; congruence).
  rewrite (proj1 (run_no_fault _ _ _ Hc)). unfold db_subscr_get_by_imsi, db_sel, run_out. cbn [run exec fst snd].
  unfold sel, by_imsi.
  replace (find (fun r => (s_imsi r =? imsi)%string) (d_sub d')) with (Some r')
    by (rewrite <- Ei'; symmetry; now apply find_by_imsi).
  cbn [fst snd]. unfold sub_of_row.
  destruct (Hpl r Hr Eid) as [P1 P2].
  (* the proxy just stored *)
  assert (Pp : forall q, proxy = Some q -> plain_text q /\ exists p, via = Some p /\ text_names q p /\ (String.length q <= 127)%nat).
  { intros q ->. unfold lu_proxy in Ep. destruct via as [p|]; [|discriminate]. unfold ipa_is_empty in Ep.
    destruct (Nat.eqb_spec (in_len p) 0) as [Z0|Z0]; [discriminate|].
    destruct Hvia as [?|(u & Hu & Hn & Hpu & Hlu)]; [contradiction|].
    rewrite (ipa_cstr_bytes p u [] Hn Hu) in Ep. injection Ep as <-. split; auto. exists p. auto. }
  assert (Pn : proxy = None -> match via with Some p => ipa_bytes p | None => [] end = []).
  { intros ->. unfold lu_proxy in Ep. destruct via as [p|]; auto. unfold ipa_is_empty in Ep. unfold ipa_bytes.
    destruct (Nat.eqb_spec (in_len p) 0) as [->|Z0]; [reflexivity|]. destruct (ipa_cstr p); discriminate. }
  assert (Pres : forall n, ipa_set_str ipa_empty proxy = Some n -> ipa_bytes n = match via with Some p => ipa_bytes p | None => [] end).
  { intros n Hn. destruct proxy as [q|].
    - destruct (Pp q eq_refl) as (_ & p & -> & Hq & Lq). destruct (ipa_set_str_bytes _ _ _ ipa_empty_wf Hn) as [_ Hb].
      rewrite str_take_all in Hb by lia. rewrite Hb. symmetry. exact Hq.
    - injection Hn as <-. symmetry. apply Pn. reflexivity. }
  assert (Tt : str_take 31 t = t) by (apply str_take_all; lia).
  destruct ps; subst x; cbn in S, E; injection E as E1 E2 E3 E4 E5; unfold not_ps, not_cs in S.
  - assert (Q : s_vlr_proxy r' = s_vlr_proxy r) by congruence. rewrite Q, E2.
    destruct (ipa_set_str_plain ipa_empty (s_vlr_proxy r) P1) as [n1 ->].
    destruct (ipa_set_str_plain ipa_empty proxy) as [n2 N2]; [intros q Hq; apply (Pp q Hq)|].
    rewrite N2. cbn [run fst]. eexists. split; [reflexivity|]. cbn [sub_number sub_proxy h_sgsn h_sgsn_proxy]. split; auto.
    rewrite E1. unfold text_to_buf. change (32 - 1)%nat with 31%nat. rewrite Tt. exact Ht.
  - assert (Q : s_sgsn_proxy r' = s_sgsn_proxy r) by congruence. rewrite Q, E2.
    destruct (ipa_set_str_plain ipa_empty (s_sgsn_proxy r) P2) as [n1 H1].
    destruct (ipa_set_str_plain ipa_empty proxy) as [n2 N2]; [intros q Hq; apply (Pp q Hq)|].
    rewrite N2, H1. cbn [run fst]. eexists. split; [reflexivity|]. cbn [sub_number sub_proxy h_vlr h_vlr_proxy]. split; auto.
    rewrite E1. unfold text_to_buf. change (32 - 1)%nat with 31%nat. rewrite Tt. exact Ht.
Qed.
