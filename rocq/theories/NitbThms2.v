(** Proofs for the import from OsmoNITB: all rows, faults. *)
From Verif Require Import Base PeerId Db DbSpec DbProofs DbThms Mdns Dbd DbdSpec DbdThms DbdProperties Auth AuthSpec AuthThms Gsup Router Hlr Ctrl CtrlSpec CtrlThms CtrlThms3 CtrlThms4 VtySubscr VtySpec VtyThms VtyList VtyListSpec VtyListThms Nitb NitbSpec NitbThms.
Local Open Scope Z_scope.

(** ** What every import does, whatever fails *)
Definition about_imsi (i : string) (s : stmt) : Prop :=
  stmt_ok s /\ match s with
               | SUBSCR_CREATE j _ _ | SET_MSISDN_BY_IMSI _ j | UPD_IMEI_BY_IMSI _ j | UPD_NAM_CS_BY_IMSI _ j | UPD_NAM_PS_BY_IMSI _ j | SEL_BY_IMSI j => i = j
               | _ => False
               end.
Definition on_key (id : Z) (s : stmt) : Prop := s = AUC_2G_DELETE id \/ exists a k, s = AUC_2G_INSERT id a k.
Definition end_of {A} (x : outcome A * db * sched) : db := snd (fst x).
Lemma after_end {A B} (P : db -> Prop) (x : outcome A * db * sched) (f : A -> db -> sched -> outcome B * db * sched) :
  P (end_of x) -> (forall a d c, P d -> P (end_of (f a d c))) -> P (end_of (after_run x f)).
Proof. destruct x as [[[a| |] d] c]; cbn; auto. Qed.
Lemma aud_on_key id algo ki : all_stmts (on_key id) (db_subscr_update_aud_by_id id (AudGsm algo ki)).
Proof.
  unfold db_subscr_update_aud_by_id. destruct (negb (_ || _)); [exact I|]. destruct (_ && _); [exact I|]. cbn [all_stmts]. split; [now left|]. intros r. destruct (_ && _); [exact I|].
  destruct (algo =? ALG_NONE); [exact I|]. cbn [all_stmts]. split; [right; eauto|]. intros; exact I.
Qed.
Definition always (P : db -> Prop) (i : string) : Prop :=
  (forall s d, about_imsi i s -> P d -> P (snd (exec s d))) /\
  (forall d v, P d -> P (with_sub d (upd (by_imsi i) (set_lu_cs v) (d_sub d)))) /\
  (forall s d x, P d -> In x (d_sub d) -> s_imsi x = i -> on_key (s_id x) s -> P (snd (exec s d))).
Lemma key_run P i {A} x (p : prog A) : always P i -> s_imsi x = i -> all_stmts (on_key (s_id x)) p -> forall c d, P d -> In x (d_sub d) -> P (end_of (run p c d)).
Proof.
  intros (_ & _ & key) E. induction p as [a|s k IH|]; intros Al c d H I; cbn; auto. destruct Al as [S K].
  assert (G : forall c', P (end_of (let '(r, d') := exec s d in run (k r) c' d'))).
  { intros c'. pose proof (key s d x H I E S) as H'. assert (I' : In x (d_sub (snd (exec s d)))).
    { destruct S as [->|(al & ki & ->)]; cbn [exec]; [exact I|]. destruct (existsb _ _); exact I. }
    destruct (exec s d) as [r d']. apply IH; auto. }
  destruct c as [|[] c']; cbn; auto.
Qed.
Lemma import_always P i tz n d c : always P i -> int_text (column_int64 (nr_imsi n)) = i -> P d -> P (end_of (import_nitb_subscr tz n d c)).
Proof.
  intros AW E H. pose proof AW as (stm & lu & key). unfold import_nitb_subscr. rewrite E. clear E. set (m := text_to_buf 16 _).
  assert (R : forall A (p : prog A) c d, all_stmts (about_imsi i) p -> P d -> P (end_of (run p c d))) by (intros A p c' d' A' H'; exact (run_inv P (about_imsi i) stm p A' c' d' H')).
  apply after_end.
  { apply R; [|exact H]. unfold db_subscr_create. destruct (imsi_valid i) eqn:V; cbn [negb]; [|exact I]. split; [split; [exact V|reflexivity]|intros; exact I]. }
  clear d c H. intros _ d c H. destruct (_ <? _); [exact H|]. apply after_end.
  { apply R; [|exact H]. apply all_stmts_bind.
    - unfold db_subscr_update_msisdn_by_imsi. destruct (msisdn_valid _) eqn:V; cbn [negb]; [|exact I]. split; [split; [exact V|reflexivity]|intros; exact I].
    - intros _. destruct (_ =? _)%nat; [|exact I]. unfold db_subscr_update_imei_by_imsi. destruct (negb _); [exact I|]. split; [split; [exact I|reflexivity]|intros; exact I]. }
  clear d c H. intros _ d c H. apply after_end.
  { unfold update_lu_by_imsi. destruct c as [|[] c]; cbn; auto. }
  clear d c H. intros _ d c H. apply after_end; [|intros _ d' c' H'; exact H'].
  rewrite run_bind. pose proof (R _ (db_subscr_nam i (negb (column_int (nr_auth n) =? 0)) true) c d) as H1.
  destruct (run (db_subscr_nam i _ true) c d) as [[[z1| |] d1] c1]; unfold end_of in *; cbn [fst snd] in *; try (apply H1; [split; [split; [exact I|reflexivity]|intros; exact I]|exact H]).
  specialize (H1 (conj (conj I eq_refl) (fun _ => I)) H). rewrite run_bind.
  pose proof (R _ (db_subscr_nam i (negb (column_int (nr_auth n) =? 0)) false) c1 d1) as H2.
  destruct (run (db_subscr_nam i _ false) c1 d1) as [[[z2| |] d2] c2]; unfold end_of in *; cbn [fst snd] in *; try (apply H2; [split; [split; [exact I|reflexivity]|intros; exact I]|exact H1]).
  specialize (H2 (conj (conj I eq_refl) (fun _ => I)) H1). rewrite run_bind.
  assert (G : forall c3, P (end_of (match run (match fst (sel (by_imsi i) d2) with RDone _ => Ret (- ENOENT, None) | RSub row => match sub_of_row tz row with Some x => Ret (0, Some x) | None => Undef end | _ => Ret (- EIO, None) end) c3 d2 with
      | (Fin a, d', c') => run (let '(_, h) := a in match h with Some h0 => if negb (h_imsi h0 =? i)%string then Undef else import_nitb_subscr_aud (nr_keys n) (h_id h0) | None => Ret 0 end) c' d'
      | (Crashed, d', c') => (Crashed, d', c') | (Ub, d', c') => (Ub, d', c') end))).
  { intros c3. unfold sel. destruct (find (by_imsi i) (d_sub d2)) as [x|] eqn:F; cbn [fst run]; [|exact H2].
    apply find_some in F as [Ix Bx]. apply String.eqb_eq in Bx. destruct (sub_of_row tz x) as [h|] eqn:EH; cbn [run]; [|exact H2].
    assert (HI : h_id h = s_id x).
    { unfold sub_of_row in EH. destruct (ipa_set_str ipa_empty (s_vlr_proxy x)); [|discriminate]. destruct (ipa_set_str ipa_empty (s_sgsn_proxy x)); [|discriminate]. injection EH as <-. reflexivity. }
    destruct (negb _); [exact H2|]. apply (key_run P i x); auto. rewrite HI. unfold import_nitb_subscr_aud. destruct (nr_keys n) as [|k ks]; [exact I|].
    destruct (4096 <? nk_size k)%N; [exact I|]. destruct (dbd_decode (nk_mem k) 4096); [|exact I]. apply aud_on_key. }
  unfold db_subscr_get_by_imsi, db_sel. cbn [run exec]. destruct c2 as [|[] c2]; cbn [run].
  - specialize (G []). unfold sel in *. destruct (find (by_imsi i) (d_sub d2)); exact G.
  - specialize (G c2). unfold sel in *. destruct (find (by_imsi i) (d_sub d2)); exact G.
  - exact H2.
  - exact H2.
Qed.

Lemma import_inv tz n d c : db_inv d -> db_inv (end_of (import_nitb_subscr tz n d c)).
Proof.
  intros H. apply (import_always db_inv (int_text (column_int64 (nr_imsi n)))); auto. split; [|split].
  - intros s d' [S _] V. now apply inv_exec.
  - intros d' v V. apply (inv_upd_benign d' _ (set_lu_cs v)); auto.
  - intros s d' x V _ _ [->|(a & k & ->)]; apply inv_exec; cbn; auto.
Qed.
Lemma rows_inv tz l : forall d c, db_inv d -> db_inv (end_of (import_rows tz l d c)).
Proof. induction l as [|n l IH]; intros d c H; [exact H|]. cbn [import_rows]. apply after_end; [now apply import_inv|]. intros _ d' c' H'. now apply IH. Qed.
Lemma import_ok tz o f l d c : db_inv d -> db_inv (end_of (import_nitb_db tz o f l d c)).
Proof. intros H. unfold import_nitb_db. destruct (negb o); [exact H|]. apply after_end; [now apply rows_inv|]. auto. Qed.

(** ** Other subscribers *)
Lemma map_inj {A B} (f : A -> B) l x y : NoDup (map f l) -> In x l -> In y l -> f x = f y -> x = y.
Proof.
  induction l as [|a l IH]; cbn; [contradiction|]. intros N. inversion N as [|? ? Na N']; subst. intros [<-|X] [<-|Y] E; auto; exfalso; apply Na; [rewrite E|rewrite <- E]; now apply in_map.
Qed.
Definition as_in (r : sub_row) (d0 d : db) : Prop :=
  db_inv d /\ In r (d_sub d) /\ (forall a, a2_id a = s_id r -> In a (d_auc2 d) <-> In a (d_auc2 d0)) /\ d_auc3 d = d_auc3 d0 /\ d_ind d = d_ind d0.
Lemma upd_in_other {R} (cond : R -> bool) f l r : cond r = false -> In r l -> In r (upd cond f l).
Proof. intros C I. unfold upd. apply in_map_iff. exists r. now rewrite C. Qed.
Lemma as_in_always r d0 i : s_imsi r <> i -> always (as_in r d0) i.
Proof.
  intros N. assert (B : by_imsi i r = false) by now apply String.eqb_neq. split; [|split].
  - intros s d [OK S] (V & I & K & A3 & IN). split; [now apply inv_exec|].
    destruct s; try contradiction; subst; cbn [exec]; unfold sel, upd_sub.
    + destruct (find _ _); auto.
    + split; [apply upd_in_other; auto|auto].
    + split; [apply upd_in_other; auto|auto].
    + split; [apply upd_in_other; auto|auto].
    + destruct (existsb _ _); [auto|]. split; [apply in_or_app; now left|auto].
    + destruct (_ && _); [auto|]. split; [apply upd_in_other; auto|auto].
  - intros d v (V & I & K & A3 & IN). split; [apply (inv_upd_benign d _ (set_lu_cs v)); auto|]. split; [apply upd_in_other; auto|auto].
  - intros s d x (V & I & K & A3 & IN) Ix Ex S. split; [apply inv_exec; [destruct S as [->|(a & k & ->)]; exact Logic.I|exact V]|].
    assert (D : s_id x <> s_id r).
    { intros E. apply N. rewrite <- Ex. f_equal. symmetry. exact (map_inj s_id (d_sub d) x r (iv_id d V) Ix I E). }
    destruct S as [->|(al & k & ->)]; cbn [exec].
    + split; [exact I|]. split; [|auto]. intros a E. cbn [with_auc2 snd d_auc2]. unfold del. rewrite filter_In, K by exact E. destruct (Z.eqb_spec (a2_id a) (s_id x)); [congruence|]. cbn. tauto.
    + destruct (existsb _ _); [auto|]. split; [exact I|]. split; [|auto]. intros a E. cbn [with_auc2 snd d_auc2]. rewrite in_app_iff, K by exact E. split; [|auto]. intros [H|[<-|[]]]; [exact H|]. cbn in E. congruence.
Qed.
Lemma numeral_det s a b : numeral s a -> numeral s b -> a = b.
Proof. intros A B. apply numeral_digits in A as [A _]. apply numeral_digits in B as [B _]. congruence. Qed.
Lemma int_text_numeral z : 0 <= z <= 9223372036854775807 -> numeral (int_text z) z.
Proof.
  intros B. unfold int_text. destruct (Z.ltb_spec z 0); [lia|]. assert (U : (Z.to_N z < 10 ^ N.of_nat 20)%N) by (replace (10 ^ N.of_nat 20)%N with 100000000000000000000%N by (vm_compute; reflexivity); lia).
  assert (O : (1 <= 20)%nat) by (repeat constructor). destruct (dec_upto_numeral 20 (Z.to_N z) "" U O) as (t & E & H').
  rewrite E, str_app_nil. rewrite Z2N.id in H' by lia. exact H'.
Qed.
(** the text made of the number of a row is not [s], unless [s] is a way to write that number *)
Lemma int_text_other n s z : number_in (nr_imsi n) z -> 0 <= z <= 9223372036854775807 -> ~ numeral s z -> s <> int_text (column_int64 (nr_imsi n)).
Proof. intros H B N E. apply N. rewrite E, (number_int64 _ z H B). now apply int_text_numeral. Qed.
Lemma rows_as_in r d0 tz l : (forall n, In n l -> s_imsi r <> int_text (column_int64 (nr_imsi n))) -> forall d c, as_in r d0 d -> as_in r d0 (end_of (import_rows tz l d c)).
Proof.
  induction l as [|n l IH]; intros N d c H; [exact H|]. cbn [import_rows]. apply after_end.
  - apply (import_always (as_in r d0) (int_text (column_int64 (nr_imsi n)))); [apply as_in_always, N; now left|reflexivity|exact H].
  - intros _ d' c' H'. apply IH; [|exact H']. intros m I. apply N. now right.
Qed.
Theorem import_others tz o f l d c r : db_ok d -> In r (d_sub d) ->
  (forall n, In n l -> exists z, number_in (nr_imsi n) z /\ 0 <= z <= 9223372036854775807 /\ ~ numeral (s_imsi r) z) ->
  kept r d (snd (fst (import_nitb_db tz o f l d c))) /\ d_auc3 (snd (fst (import_nitb_db tz o f l d c))) = d_auc3 d /\ d_ind (snd (fst (import_nitb_db tz o f l d c))) = d_ind d.
Proof.
  intros OK I N. apply db_ok_inv in OK. assert (H : as_in r d (end_of (import_nitb_db tz o f l d c))).
  { assert (H0 : as_in r d d) by (split; [exact OK|]; split; [exact I|]; split; [tauto|auto]). unfold import_nitb_db. destruct (negb o); [exact H0|]. apply after_end; [|auto].
    apply rows_as_in; [|exact H0]. intros n In'. destruct (N n In') as (z & A & B & C). now apply (int_text_other n (s_imsi r) z). }
  unfold end_of in H. destruct H as (_ & I' & K & A3 & IN). split; [|auto]. split; [exact I|]. split; [exact I'|]. unfold key2, key3. split; intros a; [|rewrite A3; tauto].
  split; intros [A E]; (split; [|exact E]); apply (K a E); exact A.
Qed.
(** an import that cannot begin does nothing *)
Lemma import_closed tz f l d c : import_nitb_db tz false f l d c = (Fin (-1), d, c).
Proof. reflexivity. Qed.

(** ** All rows, without faults *)
Lemma nodup_app_r {A} (a b : list A) : NoDup (a ++ b) -> NoDup b.
Proof. induction a as [|x a IH]; cbn; auto. intros H. inversion H; subst. auto. Qed.
Lemma rows_list tz l : forall d is, db_inv d -> Forall2 clean l is -> NoDup is -> (forall i, In i is -> ~ has_imsi d i) -> NoDup (exts l) -> (forall m, In m (exts l) -> ~ has_msisdn d m) ->
  (forall a, In a (d_auc2 d) -> has_id d (a2_id a)) ->
  exists rows kss, import_rows tz l d [] = (Fin tt, mk_db (d_sub d ++ rows) (d_auc2 d ++ kss) (d_auc3 d) (d_ind d), []) /\
    NoDup (map s_id (d_sub d ++ rows)) /\ (forall a, In a kss -> In (a2_id a) (map s_id rows)) /\
    Forall2 (fun ni r => expected (fst ni) (snd ni) r /\
      match nr_keys (fst ni) with [] => forall a, In a kss -> a2_id a <> s_id r
      | k :: _ => exists algo l s, key_in k algo l /\ spells s l /\ forall a, In a kss /\ a2_id a = s_id r <-> a = mk_auc2 (s_id r) algo s end) (combine l is) rows.
Proof.
  induction l as [|n l IH]; intros d is V F ND NI NDX NX OR; inversion F as [|? i ? is' C F']; subst; cbn [import_rows].
  - exists [], []. rewrite !app_nil_r. split; [destruct d; reflexivity|]. split; [apply iv_id, V|]. split; [intros a []|constructor].
  - cbn [exts flat_map] in *. inversion ND as [|? ? N1 ND']; subst.
    destruct (import_one tz n i d V C) as (r & ks & E & EX & ID & KI & KE); [apply NI; now left|intros m Q; apply NX; rewrite Q; now left|exact OR|].
    rewrite E. cbn [after_run]. pose proof (import_inv tz n d [] V) as V1. rewrite E in V1. unfold end_of in V1. cbn [fst snd] in V1.
    set (d1 := mk_db (d_sub d ++ [r]) (d_auc2 d ++ ks) (d_auc3 d) (d_ind d)) in *.
    assert (SI : s_imsi r = i) by (destruct EX as (? & ? & ? & ? & -> & _); reflexivity).
    assert (SM : s_msisdn r = nr_ext n) by (destruct EX as (? & ? & ? & ? & -> & _); reflexivity).
    destruct (IH d1 is' V1 F' ND') as (rows & kss & E' & NDI & KI' & FA).
    + intros j Ij (x & Ix & Ex). cbn in Ix. apply in_app_or in Ix as [Ix|[<-|[]]]; [apply (NI j (or_intror Ij)); now exists x|]. apply N1. congruence.
    + eapply nodup_app_r; eauto.
    + intros m Im (x & Ix & Ex). cbn in Ix. apply in_app_or in Ix as [Ix|[<-|[]]].
      * apply (NX m); [apply in_or_app; now right|now exists x].
      * rewrite SM in Ex. rewrite Ex in NDX. cbn in NDX. inversion NDX. contradiction.
    + intros a Ia. cbn in Ia. apply in_app_or in Ia as [Ia|Ia].
      * destruct (OR a Ia) as (x & Ix & Ex). exists x. split; [cbn; apply in_or_app; now left|exact Ex].
      * exists r. split; [cbn; apply in_or_app; right; now left|]. symmetry. now apply KI.
    + rewrite E'. cbn [d1 d_sub d_auc2 d_auc3 d_ind] in *. exists (r :: rows), (ks ++ kss).
      rewrite <- !app_assoc in *. cbn [app] in *. split; [reflexivity|]. split; [exact NDI|].
      assert (NR : ~ In (s_id r) (map s_id rows)).
      { rewrite map_app in NDI. apply nodup_app_r in NDI. cbn in NDI. now inversion NDI. }
      split; [intros a Ia; apply in_app_or in Ia as [Ia|Ia]; [left; symmetry; now apply KI|right; now apply KI']|].
      cbn [combine]. constructor.
      * cbn [fst snd]. split; [exact EX|]. destruct (nr_keys n) as [|k kr].
        -- subst ks. intros a Ia Ea. apply NR. rewrite <- Ea. now apply KI'.
        -- destruct KE as (algo & lo & s & A & B & ->). exists algo, lo, s. split; [exact A|]. split; [exact B|]. intros a. split.
           ++ intros [Ia Ea]. apply in_app_or in Ia as [[<-|[]]|Ia]; [reflexivity|]. exfalso. apply NR. rewrite <- Ea. now apply KI'.
           ++ intros ->. split; [apply in_or_app; left; now left|reflexivity].
      * assert (GEN : forall ls rs, Forall2 (fun ni r0 => expected (fst ni) (snd ni) r0 /\ match nr_keys (fst ni) with [] => forall a, In a kss -> a2_id a <> s_id r0
            | k :: _ => exists algo l s, key_in k algo l /\ spells s l /\ forall a, In a kss /\ a2_id a = s_id r0 <-> a = mk_auc2 (s_id r0) algo s end) ls rs -> (forall x, In x rs -> In (s_id x) (map s_id rows)) ->
          Forall2 (fun ni r0 => expected (fst ni) (snd ni) r0 /\ match nr_keys (fst ni) with [] => forall a, In a (ks ++ kss) -> a2_id a <> s_id r0
            | k :: _ => exists algo l s, key_in k algo l /\ spells s l /\ forall a, In a (ks ++ kss) /\ a2_id a = s_id r0 <-> a = mk_auc2 (s_id r0) algo s end) ls rs).
        { induction 1 as [|ni r0 ls rs [X Y] _ IHF]; intros SUB; constructor.
          - split; [exact X|]. assert (DI : forall a, In a ks -> a2_id a <> s_id r0).
            { intros a Ia Ea. apply NR. rewrite <- (KI a Ia), Ea. apply SUB. now left. }
            destruct (nr_keys (fst ni)) as [|k kr].
            + intros a Ia. apply in_app_or in Ia as [Ia|Ia]; [now apply DI|now apply Y].
            + destruct Y as (algo & lo & s & A & B & D). exists algo, lo, s. split; [exact A|]. split; [exact B|]. intros a. rewrite <- D. split; intros [Ia Ea]; (split; [|exact Ea]).
              * apply in_app_or in Ia as [Ia|Ia]; [|exact Ia]. exfalso. now apply (DI a).
              * apply in_or_app. now right.
          - apply IHF. intros x Ix. apply SUB. now right. }
        apply GEN; [exact FA|]. intros x Ix. now apply in_map.
Qed.
Theorem import_list tz f l is d : db_ok d -> (forall a, In a (d_auc2 d) -> has_id d (a2_id a)) -> Forall2 clean l is -> NoDup is -> (forall i, In i is -> ~ has_imsi d i) ->
  NoDup (exts l) -> (forall m, In m (exts l) -> ~ has_msisdn d m) ->
  exists rows d', import_nitb_db tz true f l d [] = (Fin 0, d', []) /\ d_sub d' = d_sub d ++ rows /\
    Forall2 (fun ni r => expected (fst ni) (snd ni) r /\ expected_keys (fst ni) (s_id r) d') (combine l is) rows.
Proof.
  intros OK OR F ND NI NDX NX. apply db_ok_inv in OK. destruct (rows_list tz l d is OK F ND NI NDX NX OR) as (rows & kss & E & NDI & KI & FA).
  exists rows. eexists. unfold import_nitb_db. cbn [negb]. rewrite E. cbn [after_run]. split; [reflexivity|]. split; [reflexivity|].
  assert (NEW : forall r, In r rows -> forall a, In a (d_auc2 d) -> a2_id a <> s_id r).
  { intros r Ir a Ia Ea. destruct (OR a Ia) as (x & Ix & Ex). rewrite map_app in NDI. clear - NDI Ir Ix Ea Ex. induction (d_sub d) as [|y q IH]; [contradiction|]. cbn in NDI. inversion NDI as [|? ? N' ND']; subst.
    destruct Ix as [->|Ix]; [|now apply IH]. apply N'. rewrite Ex, Ea. apply in_or_app. right. now apply in_map. }
  revert NEW. clear - FA. induction FA as [|ni r ls rs [X Y] _ IH]; intros NEW; constructor.
  - split; [exact X|]. unfold expected_keys, has_auc2, key2. cbn [d_auc2]. destruct (nr_keys (fst ni)) as [|k kr].
    + intros (a & Ia & Ea). apply in_app_or in Ia as [Ia|Ia]; [|now apply (Y a)]. apply (NEW r (or_introl eq_refl) a Ia). congruence.
    + destruct Y as (algo & lo & s & A & B & D). exists algo, lo, s. split; [exact A|]. split; [exact B|]. intros a. rewrite <- D, in_app_iff. split; [|tauto]. intros [[Ia|Ia] Ea]; [|tauto].
      exfalso. now apply (NEW r (or_introl eq_refl) a Ia).
  - apply IH. intros x Ix. apply NEW. now right.
Qed.

(** ** No undefined behaviour *)
Fixpoint defined {A} (p : prog A) : Prop := match p with Ret _ => True | Exec _ k => forall r, defined (k r) | Undef => False end.
Lemma run_defined {A} (p : prog A) : defined p -> forall c d, fst (fst (run p c d)) <> Ub.
Proof.
  induction p as [a|s k IH|]; cbn; intros D c d; [discriminate| |contradiction]. destruct c as [|[] c]; cbn; [destruct (exec s d)|destruct (exec s d)| |discriminate]; apply IH, D.
Qed.
Definition good (P : db -> Prop) {A} (x : outcome A * db * sched) : Prop := fst (fst x) <> Ub /\ P (end_of x).
Lemma after_good {A B} (P : db -> Prop) (x : outcome A * db * sched) (f : A -> db -> sched -> outcome B * db * sched) :
  good P x -> (forall a d c, P d -> good P (f a d c)) -> good P (after_run x f).
Proof. destruct x as [[[a| |] d] c]; intros [U H] F; cbn in *; [now apply F|split; [discriminate|exact H]|congruence]. Qed.
Definition all_readable (d : db) : Prop := db_inv d /\ forall r, In r (d_sub d) -> readable r.
Lemma upd_readable cond f l : (forall r, readable r -> readable (f r)) -> (forall r, In r l -> readable r) -> forall r, In r (upd cond f l) -> readable r.
Proof. intros F H r I. unfold upd in I. apply in_map_iff in I as (x & <- & I). destruct (cond x); auto. Qed.
Lemma readable_always i : always all_readable i.
Proof.
  split; [|split].
  - intros s d [OK S] [V R]. split; [now apply inv_exec|]. destruct s; try contradiction; subst; cbn [exec]; unfold sel, upd_sub.
    + destruct (find _ _); auto.
    + apply upd_readable; auto.
    + apply upd_readable; auto.
    + apply upd_readable; auto.
    + destruct (existsb _ _); [auto|]. intros r I. cbn in I. apply in_app_or in I as [I|[<-|[]]]; [auto|]. intros p [E|E]; discriminate E.
    + destruct (_ && _); [auto|]. apply upd_readable; auto.
  - intros d v [V R]. split; [apply (inv_upd_benign d _ (set_lu_cs v)); auto|]. apply upd_readable; auto.
  - intros s d x [V R] Ix Ex S. split; [apply inv_exec; [destruct S as [->|(a & k & ->)]; exact Logic.I|exact V]|].
    destruct S as [->|(a & k & ->)]; cbn [exec]; [auto|]. destruct (existsb _ _); auto.
Qed.
(** what the import of a row needs to be defined *)
Definition row_defined (n : nrow) : Prop :=
  - 2147483648 <= column_int (nr_expire n) - 3660 /\ forall k t, nr_keys n = k :: t -> (4096 < nk_size k)%N \/ exists l, dbd_decode (nk_mem k) 4096 = Val l.
Lemma import_good tz n d c : row_defined n -> all_readable d -> good all_readable (import_nitb_subscr tz n d c).
Proof.
  intros [RL RK] H. split; [|now apply (import_always all_readable (int_text (column_int64 (nr_imsi n)))); [apply readable_always| |]].
  unfold import_nitb_subscr. set (i := int_text _). set (m := text_to_buf 16 _).
  assert (R : forall A (p : prog A) c d, defined p -> all_stmts (about_imsi i) p -> all_readable d -> good all_readable (run p c d)).
  { intros A p c' d' D S H'. split; [now apply run_defined|]. exact (run_inv all_readable (about_imsi i) (proj1 (readable_always i)) p S c' d' H'). }
  match goal with |- fst (fst ?x) <> Ub => enough (G : good all_readable x) by exact (proj1 G) end.
  apply after_good.
  { unfold db_subscr_create. destruct (imsi_valid i) eqn:V; cbn [negb]; apply R; cbn; auto. split; [split; [exact V|reflexivity]|auto]. }
  clear d c H. intros _ d c H. destruct (Z.ltb_spec (column_int (nr_expire n) - 3660) (- 2147483648)); [lia|]. apply after_good.
  { apply R; [| |exact H].
    - unfold db_subscr_update_msisdn_by_imsi, db_subscr_update_imei_by_imsi. destruct (negb _); cbn; destruct (_ =? _)%nat; cbn; auto; destruct (negb _); cbn; auto.
    - apply all_stmts_bind.
      + unfold db_subscr_update_msisdn_by_imsi. destruct (msisdn_valid _) eqn:V; cbn [negb]; [|exact I]. split; [split; [exact V|reflexivity]|intros; exact I].
      + intros _. destruct (_ =? _)%nat; [|exact I]. unfold db_subscr_update_imei_by_imsi. destruct (negb _); [exact I|]. split; [split; [exact I|reflexivity]|intros; exact I]. }
  clear d c H. intros _ d c H. apply after_good.
  { unfold update_lu_by_imsi. pose proof (proj1 (proj2 (readable_always i))) as L. destruct c as [|[] c]; cbn; split; try discriminate; auto; apply L, H. }
  clear d c H. intros _ d c H. apply after_good; [|intros _ d' c' H'; split; [discriminate|exact H']].
  (* the rest is about the end of the row only *)
  assert (Q : forall A B (p : prog A) (f : A -> prog B) c d, good all_readable (run p c d) -> (forall a c d, all_readable d -> good all_readable (run (f a) c d)) -> good all_readable (run (bind p f) c d)).
  { intros A B p f c' d' [U G] F. rewrite run_bind. destruct (run p c' d') as [[[a| |] d''] c'']; [now apply F|split; [discriminate|exact G]|cbn in U; congruence]. }
  apply Q; [apply R; [cbn; auto| |exact H]; split; [split; [exact I|reflexivity]|intros; exact I]|]. clear d c H. intros _ c d H.
  apply Q; [apply R; [cbn; auto| |exact H]; split; [split; [exact I|reflexivity]|intros; exact I]|]. clear d c H. intros _ c d H.
  assert (G : forall c3, good all_readable (run (bind (match fst (sel (by_imsi i) d) with RDone _ => Ret (- ENOENT, None) | RSub row => match sub_of_row tz row with Some x => Ret (0, Some x) | None => Undef end | _ => Ret (- EIO, None) end)
     (fun '(_, h) => match h with None => Ret 0 | Some h => if negb (h_imsi h =? i)%string then Undef else import_nitb_subscr_aud (nr_keys n) (h_id h) end)) c3 d)).
  { intros c3. unfold sel. destruct (find (by_imsi i) (d_sub d)) as [x|] eqn:F; cbn [fst bind]; [|split; [discriminate|exact H]].
    apply find_some in F as [Ix Bx]. apply String.eqb_eq in Bx. destruct H as [V RD]. destruct (sub_of_row tz x) as [h|] eqn:EH; cbn [bind].
    - assert (HI : h_id h = s_id x /\ h_imsi h = i).
      { unfold sub_of_row in EH. destruct (ipa_set_str ipa_empty (s_vlr_proxy x)); [|discriminate]. destruct (ipa_set_str ipa_empty (s_sgsn_proxy x)); [|discriminate]. injection EH as <-. cbn [h_id h_imsi].
        split; [reflexivity|]. unfold text_to_buf. rewrite str_take_all; [exact Bx|]. pose proof (proj1 (Forall_forall _ _) (iv_wf d V) x Ix) as [W _]. apply imsi_valid_spec in W. destruct W as [[] _]. cbn. lia. }
      destruct HI as [HI ->]. rewrite String.eqb_refl. cbn [negb]. rewrite HI. unfold import_nitb_subscr_aud. destruct (nr_keys n) as [|k ks]; [split; [discriminate|now split]|].
      destruct (N.ltb_spec 4096 (nk_size k)) as [|L]; [split; [discriminate|now split]|]. destruct (RK k ks eq_refl) as [|(l & ->)]; [lia|]. split.
      + apply run_defined. unfold db_subscr_update_aud_by_id. destruct (negb (_ || _)); [exact I|]. destruct (_ && _); [exact I|]. cbn [defined]. intros r. destruct (_ && _); [exact I|]. destruct (_ =? _); cbn; auto.
      + apply (key_run all_readable i x); [apply readable_always|exact Bx|apply aud_on_key|now split|exact Ix].
    - exfalso. destruct (readable_sub tz x (RD x Ix)) as [h EH']. congruence. }
  unfold db_subscr_get_by_imsi, db_sel. cbn [bind run exec]. unfold sel in *.
  destruct (find (by_imsi i) (d_sub d)) as [x|]; cbn [fst] in G; (destruct c as [|[] c]; [exact (G [])|exact (G c)|split; [discriminate|exact H]|split; [discriminate|exact H]]).
Qed.
Lemma rows_good tz l : Forall row_defined l -> forall d c, all_readable d -> good all_readable (import_rows tz l d c).
Proof.
  induction 1 as [|n l R _ IH]; intros d c H; [split; [discriminate|exact H]|]. cbn [import_rows]. apply after_good; [now apply import_good|]. intros _ d' c' H'. now apply IH.
Qed.
Theorem import_defined tz o f l d c : db_ok d -> (forall r, In r (d_sub d) -> readable r) -> Forall row_defined l -> fst (fst (import_nitb_db tz o f l d c)) <> Ub.
Proof.
  intros OK R F. apply db_ok_inv in OK. unfold import_nitb_db. destruct o; cbn [negb]; [|discriminate].
  apply (after_good all_readable); [apply rows_good; [exact F|now split]|]. intros _ d' c' H. split; [discriminate|exact H].
Qed.
Lemma harmless_defined n : harmless n -> row_defined n.
Proof.
  intros [E K]. split.
  - destruct E as [->|(t & T & B)]; [cbn; lia|]. rewrite (number_int _ t T B). lia.
  - intros k t H. destruct (K k t H) as [L|(e & m & rest & M & U & L)]; [now left|]. right. destruct (C45_bound_partial e m U) as (l & LL & _ & D). exists l. rewrite M. apply D. cbn [length] in LL. lia.
Qed.
Theorem import_harmless tz o f l d c : db_ok d -> (forall r, In r (d_sub d) -> readable r) -> Forall harmless l -> fst (fst (import_nitb_db tz o f l d c)) <> Ub.
Proof. intros OK R F. apply import_defined; auto. revert F. apply Forall_impl. exact harmless_defined. Qed.
