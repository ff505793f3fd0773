(** Proofs about the answers of the lookup server (C37). *)
From Verif Require Import Base PeerId Router Db DbSpec DbProofs DbThms DbThms2 DbThms3 PeerSpec PeerThms MsLookup MsThms Mdns MsSpec MdnsSpec MdnsThms Proxy MsServer MsServerSpec MsServerThms.
Local Open Scope string_scope. Local Open Scope list_scope. Local Open Scope Z_scope.

Lemma service_at c n s : cfg_ok c -> ipa_wf n ->
  match service_get c n s with
  | Some e => at_msc c (ipa_bytes n) s (sv_v4 e) (sv_v6 e) /\ (usable (sv_v4 e) \/ usable (sv_v6 e)) /\
              forall v4 v6, at_msc c (ipa_bytes n) s v4 v6 -> v4 = sv_v4 e /\ v6 = sv_v6 e
  | None => forall v4 v6, ~ at_msc c (ipa_bytes n) s v4 v6
  end.
Proof.
  intros C W. apply cfg_inv_ok in C. unfold service_get. destruct (msc_get c n) as [m|] eqn:F.
  - apply (msc_get_in c n m C W) in F as [I K]. destruct C as [D H]. destruct (H m I) as [_ [Ds O]].
    assert (U : forall m', In m' c -> ipa_bytes (m_name m') = ipa_bytes n -> m' = m).
    { intros m' I' K'. eapply NoDup_key_inj with (f := mkey); eauto. unfold mkey in *. congruence. }
    destruct (svc_get (m_svcs m) s) as [e|] eqn:G.
    + apply (proj1 (svc_get_in _ _ _ Ds)) in G as [Ie Ne]. split; [exists m, e; unfold mkey in K; repeat (split; [auto|]); auto|]. split; [destruct (O e Ie) as (_ & _ & X & _); exact X|].
      intros v4 v6 (m' & e' & I' & K' & Ie' & Ne' & <- & <-). rewrite (U m' I' K') in Ie'.
      assert (e' = e) by (eapply NoDup_key_inj with (f := sv_name); eauto; congruence). subst e'. auto.
    + intros v4 v6 (m' & e' & I' & K' & Ie' & Ne' & <- & <-). rewrite (U m' I' K') in Ie'.
      assert (svc_get (m_svcs m) s = Some e') by (apply svc_get_in; auto). congruence.
  - intros v4 v6 (m' & e' & I' & K' & _). assert (msc_get c n = Some m') by (apply msc_get_in; auto). congruence.
Qed.
Lemma ipa_empty_bytes : ipa_bytes ipa_empty = [].
Proof. reflexivity. Qed.
Lemma bytes_nonempty n : ipa_wf n -> ((in_len n =? 0)%nat = false <-> ipa_bytes n <> []).
Proof.
  intros [L U]. rewrite Nat.eqb_neq. unfold ipa_bytes. split.
  - intros D E. apply (f_equal (@length _)) in E. rewrite firstn_length in E. cbn in E. lia.
  - intros D E. apply D. rewrite E. reflexivity.
Qed.

(** ** Home HLR *)
Definition no_old_bind (y : msrv) : Prop := match y_bind y with Sa6 _ _ => True | _ => snd (y_static y) = SaNone end.

Lemma local_gsup y : cfg_ok (y_cfg y) -> no_old_bind y -> exists v4 v6 st, local_gsup_addr y = ((v4, v6), st) /\
  (forall a b, local_addr (y_cfg y) (y_bind y) a b <-> a = v4 /\ b = v6) /\ no_old_bind (with_static y st).
Proof.
  intros C B. unfold local_gsup_addr. pose proof (service_at (y_cfg y) ipa_empty HLR_GSUP C ipa_empty_wf) as H. rewrite ipa_empty_bytes in H.
  change HLR_GSUP with "gsup.hlr"%string in *.
  destruct (service_get (y_cfg y) ipa_empty "gsup.hlr") as [e|].
  - destruct H as (A & _ & U). do 3 eexists. split; [reflexivity|]. split; [|exact B]. intros a b. unfold local_addr. split.
    + intros [H|[H _]]; [auto|]. destruct (H _ _ A).
    + intros [-> ->]. auto.
  - destruct (y_bind y) as [|ip p|ip p] eqn:E; cbn [no_old_bind] in B; unfold no_old_bind in B; rewrite E in B; try rewrite B;
      do 3 eexists; (split; [reflexivity|]); (split; [|unfold no_old_bind; cbn; rewrite E; auto]); intros a b; unfold local_addr; (split; [intros [X|[_ X]]; [destruct (H _ _ X)|tauto]|intros [-> ->]; right; auto]).
Qed.
Lemma exists_imsi_run i d : run (db_subscr_exists_by_imsi i) [] d = (Fin (if existsb (by_imsi i) (d_sub d) then 0 else - ENOENT), d, []).
Proof. unfold db_subscr_exists_by_imsi. cbn [run exec]. destruct (existsb (by_imsi i) (d_sub d)); reflexivity. Qed.
Lemma exists_msisdn_run i d : run (db_subscr_exists_by_msisdn i) [] d = (Fin (if existsb (by_msisdn i) (d_sub d) then 0 else - ENOENT), d, []).
Proof. unfold db_subscr_exists_by_msisdn. cbn [run exec]. destruct (existsb (by_msisdn i) (d_sub d)); reflexivity. Qed.
Lemma by_msisdn_iff m r : by_msisdn m r = true <-> s_msisdn r = Some m.
Proof. apply str_opt_is_spec. Qed.
Lemma set_result_iff v4 v6 age a b t : set_result v4 v6 age = Found a b t <-> a = v4 /\ b = v6 /\ t = age /\ (usable v4 \/ usable v6).
Proof.
  unfold set_result. rewrite <- !nonzero_iff. destruct (sa_nonzero v4), (sa_nonzero v6); cbn [negb andb]; (split; [intros E; inversion E; subst; tauto|intros (-> & -> & -> & H); try reflexivity]).
  destruct H; discriminate.
Qed.

Lemma c37_home y now c q d : lq_service q = "gsup.hlr" -> cfg_ok (y_cfg y) -> no_old_bind y ->
  exists y' a, run (mslookup_server_rx y now c q) [] d = (Fin (y', a), d, []) /\
    no_old_bind y' /\ y_cfg y' = y_cfg y /\ y_bind y' = y_bind y /\
    forall v4 v6 age, a = Found v4 v6 age <->
      (exists r, In r (d_sub d) /\ asks_row q r) /\ local_addr (y_cfg y) (y_bind y) v4 v6 /\ (usable v4 \/ usable v6) /\ age = 0.
Proof.
  intros S C B. unfold mslookup_server_rx. rewrite S. change (("gsup.hlr" =? HLR_GSUP)%string) with true. cbn [lq_service].
  destruct (local_gsup y C B) as (v4 & v6 & st & L & U & B'). unfold rx_hlr_gsup, asks_row. rewrite L.
  assert (G : forall (P : sub_row -> Prop) f p, (forall r, f r = true <-> P r) -> run p [] d = (Fin (if existsb f (d_sub d) then 0 else - ENOENT), d, []) ->
    exists y' a, run (do rc <- p;; (if negb (rc =? 0) then Ret (y, NotFound) else Ret (with_static y st, set_result v4 v6 0))) [] d = (Fin (y', a), d, []) /\
      no_old_bind y' /\ y_cfg y' = y_cfg y /\ y_bind y' = y_bind y /\
      forall a4 a6 age, a = Found a4 a6 age <-> (exists r, In r (d_sub d) /\ P r) /\ local_addr (y_cfg y) (y_bind y) a4 a6 /\ (usable a4 \/ usable a6) /\ age = 0).
  { intros P f p F R. rewrite run_bind, R. destruct (existsb f (d_sub d)) eqn:E; cbn [run negb Z.eqb].
    - exists (with_static y st), (set_result v4 v6 0). change (0 =? 0) with true. cbn [negb]. split; [reflexivity|]. split; auto. split; auto. split; auto.
      intros a4 a6 age. rewrite set_result_iff, U. apply existsb_exists in E as (r & I & E). apply F in E. split.
      + intros (-> & -> & -> & H). split; [eauto|]. auto.
      + intros (_ & (-> & ->) & H & ->). auto.
    - exists y, NotFound. change (- ENOENT =? 0) with false. cbn [negb]. split; [reflexivity|]. split; auto. split; auto. split; auto.
      intros a4 a6 age. split; [discriminate|]. intros ((r & I & H) & _). apply F in H. assert (existsb f (d_sub d) = true) by (apply existsb_exists; eauto). congruence. }
  destruct (lq_type q) eqn:T.
  - exists y, NotFound. split; [reflexivity|]. split; auto. split; auto. split; auto. intros a4 a6 age. split; [discriminate|]. intros ((r & _ & []) & _).
  - apply (G (fun r => s_imsi r = lq_id q) (by_imsi (lq_id q)) _); [intros r; apply String.eqb_eq|apply exists_imsi_run].
  - apply (G (fun r => s_msisdn r = Some (lq_id q)) (by_msisdn (lq_id q)) _); [intros r; apply by_msisdn_iff|apply exists_msisdn_run].
Qed.

(** ** Location updates here *)
Lemma age_in now ts : sane_time now -> sane_time ts -> forall tz, sane_time tz ->
  timestamp_age (now - tz) (ts - tz) = Val (if (0 <=? now - ts) && (now - ts <=? UINT32_MAX) then Some (now - ts) else None).
Proof.
  unfold sane_time. intros A B tz _. replace (now - ts) with ((now - tz) - (ts - tz)) by lia. apply c44. unfold int64.
  apply andb_true_intro. split; [apply Z.leb_le|apply Z.ltb_lt]; lia.
Qed.
Lemma age_in0 now ts : - 2 ^ 62 <= now <= 2 ^ 62 -> sane_time ts ->
  timestamp_age now ts = Val (if (0 <=? now - ts) && (now - ts <=? UINT32_MAX) then Some (now - ts) else None).
Proof.
  unfold sane_time. intros A B. apply c44. unfold int64. apply andb_true_intro. split; [apply Z.leb_le|apply Z.ltb_lt]; lia.
Qed.

Section Other.
Variables (y : msrv) (now : Z) (c : list pent) (q : query) (d : db).
Hypotheses (Cfg : cfg_ok (y_cfg y)) (Uni : identities_unique d) (Pl : plain_rows d) (Ti : sane_times d c) (Na : names_ok c)
  (One : one_cached c q) (Mx : y_max y <= 2 ^ 32 - 1) (Nw : sane_time now) (Tz : sane_time (y_tz y)) (Late : y_max y < now - y_tz y).

Lemma row_unique r r' : In r (d_sub d) -> In r' (d_sub d) -> asks_row q r -> asks_row q r' -> r = r'.
Proof.
  intros I I' A A'. apply In_nth_error in I as [i Hi]. apply In_nth_error in I' as [j Hj].
  assert (i = j). { eapply Uni; eauto. unfold asks_row in *. destruct (lq_type q); [destruct A|right; left; congruence|right; right; exists (lq_id q); auto]. }
  subst j. congruence.
Qed.

Definition hlr_part (p : prog (Z * option subscriber)) : prog (option (Z * ipa_name)) :=
    do x <- p;;
    match x with
    | (_, None) => Ret None
    | (_, Some h) =>
        if (h_vlr h =? "")%string then Ret None
        else if negb (in_len (h_vlr_proxy h) =? 0)%nat then Ret None
        else match timestamp_age (timestamp_now (y_tz y) now) (h_lu_cs h) with
             | Bad => Undef
             | Val None => Ret None
             | Val (Some age) =>
                 if y_max y <? age then Ret None
                 else match ipa_set_str ipa_empty (Some (h_vlr h)) with None => Undef | Some n => Ret (Some (age, n)) end
             end
    end.
Definition hlr_fits (h : option (Z * ipa_name)) : Prop :=
  (forall age n, h = Some (age, n) -> ipa_wf n /\ ipa_bytes n <> [] /\ lu_home d q now (y_max y) age (ipa_bytes n)) /\
  (forall age name, lu_home d q now (y_max y) age name -> exists n, h = Some (age, n) /\ ipa_bytes n = name).

Lemma hlr_row f p : (forall r, f r = true <-> asks_row q r) ->
  (exec p d = (match find f (d_sub d) with Some r => RSub r | None => RDone 0 end, d)) ->
  exists h, run (hlr_part (db_sel (y_tz y) p)) [] d = (Fin h, d, []) /\ hlr_fits h.
Proof.
  intros F X. unfold hlr_part, db_sel. rewrite run_bind. cbn [run]. rewrite X.
  destruct (find f (d_sub d)) as [r|] eqn:E.
  2: { exists None. split; [reflexivity|]. split; [discriminate|]. intros age name (r & v & t & I & A & _). apply F in A.
       apply (find_none _ _ E) in I. congruence. }
  apply find_some in E as [I A]. apply F in A. destruct (Pl r I) as (Pv & Pp & Ps).
  unfold sub_of_row. destruct (ipa_set_str_plain ipa_empty (s_vlr_proxy r)) as [vp Ev]; [intros t Et; apply (Pp t Et)|].
  destruct (ipa_set_str_plain ipa_empty (s_sgsn_proxy r)) as [sp Es]; [intros t Et; apply (Ps t Et)|].
  rewrite Ev, Es. cbn [run h_vlr h_vlr_proxy h_lu_cs].
  assert (No : forall h, h = None -> (forall age name, ~ lu_home d q now (y_max y) age name) -> hlr_fits h).
  { intros h -> N. split; [discriminate|]. intros age name L. destruct (N _ _ L). }
  assert (Row : forall age name, lu_home d q now (y_max y) age name -> exists v t, s_vlr r = Some v /\ v <> ""%string /\ name = bytes_of v ++ [nul] /\
      s_vlr_proxy r = None /\ s_lu_cs r = Some t /\ age = now - t /\ 0 <= age <= y_max y).
  { intros age name (r' & v & t & I' & A' & H). assert (r' = r) by (apply row_unique; auto). subst r'. exists v, t. auto. }
  destruct (s_vlr r) as [v|] eqn:Ev'; cbn [text_to_buf].
  2: { exists None. split; [reflexivity|]. apply No; auto. intros age name L. destruct (Row _ _ L) as (v & t & V & _). discriminate. }
  destruct (Pv v eq_refl) as (Lv & PTv). change (32 - 1)%nat with 31%nat. rewrite take_all by auto.
  destruct (String.eqb_spec v "") as [->|Dv].
  { exists None. split; [reflexivity|]. apply No; auto. intros age name L. destruct (Row _ _ L) as (v & t & V & N & _). congruence. }
  destruct (s_vlr_proxy r) as [x|] eqn:Ex.
  { assert (in_len vp <> 0%nat). { unfold ipa_set_str in Ev. destruct (no_percent x); [|discriminate]. injection Ev as <-. cbn. lia. }
    assert (Z0 : (in_len vp =? 0)%nat = false) by (apply Nat.eqb_neq; auto). rewrite Z0. cbn [negb].
    exists None. split; [reflexivity|]. apply No; auto. intros age name L. destruct (Row _ _ L) as (v' & t & _ & _ & _ & V & _). discriminate. }
  assert (vp = ipa_empty) by (cbn in Ev; congruence). subst vp. cbn [in_len ipa_empty Nat.eqb negb].
  unfold timestamp_now. destruct (s_lu_cs r) as [t|] eqn:El.
  - assert (St : sane_time t) by (destruct Ti as [T _]; eapply T; eauto). rewrite (age_in now t Nw St (y_tz y) Tz).
    unfold UINT32_MAX. destruct (Z.leb_spec 0 (now - t)), (Z.leb_spec (now - t) (2 ^ 32 - 1)); cbn [andb];
      try (exists None; split; [reflexivity|]; apply No; auto; intros age name L; destruct (Row _ _ L) as (v' & t' & _ & _ & _ & _ & V & -> & G); injection V as <-; lia).
    destruct (Z.ltb_spec (y_max y) (now - t)).
    + exists None; split; [reflexivity|]; apply No; auto; intros age name L; destruct (Row _ _ L) as (v' & t' & _ & _ & _ & _ & V & -> & G); injection V as <-; lia.
    + destruct (ipa_set_str_plain ipa_empty (Some v)) as [n En]; [intros z [= <-]; auto|]. rewrite En.
      destruct (ipa_set_str_bytes _ _ _ ipa_empty_wf En) as [Wn Tn]. rewrite take_all in Tn by lia. unfold text_names in Tn.
      exists (Some (now - t, n)). split; [reflexivity|]. split.
      * intros age m [= <- <-]. split; auto. split; [rewrite Tn; destruct (bytes_of v); discriminate|].
        exists r, v, t. repeat (split; auto).
      * intros age name L. destruct (Row _ _ L) as (v' & t' & V & _ & -> & _ & T & -> & G). exists n. assert (v' = v) by congruence. assert (t' = t) by congruence. subst. auto.
  - assert (S0 : sane_time 0) by (unfold sane_time; lia). unfold sane_time in Nw, Tz. rewrite age_in0; auto; [|lia].
    rewrite Z.sub_0_r. destruct ((0 <=? now - y_tz y) && (now - y_tz y <=? UINT32_MAX)).
    + assert (Lx : (y_max y <? now - y_tz y) = true) by (apply Z.ltb_lt; auto). rewrite Lx.
      exists None. split; [reflexivity|]. apply No; auto. intros age name L. destruct (Row _ _ L) as (v' & t' & _ & _ & _ & _ & V & _). discriminate.
    + exists None. split; [reflexivity|]. apply No; auto. intros age name L. destruct (Row _ _ L) as (v' & t' & _ & _ & _ & _ & V & _). discriminate.
Qed.
Lemma hlr_run : exists h, run (lu_here_hlr y now q) [] d = (Fin h, d, []) /\ hlr_fits h.
Proof.
  unfold lu_here_hlr. fold (hlr_part). destruct (lq_type q) eqn:T.
  - exists None. split; [reflexivity|]. split; [discriminate|]. intros age name (r & v & t & I & A & _). unfold asks_row in A. rewrite T in A. destruct A.
  - apply (hlr_row (by_imsi (lq_id q))).
    + intros r. unfold asks_row. rewrite T. apply String.eqb_eq.
    + cbn [exec]. unfold sel. destruct (find (by_imsi (lq_id q)) (d_sub d)); reflexivity.
  - apply (hlr_row (by_msisdn (lq_id q))).
    + intros r. unfold asks_row. rewrite T. apply by_msisdn_iff.
    + cbn [exec]. unfold sel. destruct (find (by_msisdn (lq_id q)) (d_sub d)); reflexivity.
Qed.

Definition proxy_fits (h : option (Z * ipa_name)) : Prop :=
  (forall age n, h = Some (age, n) -> ipa_wf n /\ lu_roaming (y_tz y) c q now (y_max y) age (ipa_bytes n)) /\
  (forall age name, lu_roaming (y_tz y) c q now (y_max y) age name -> exists n, h = Some (age, n) /\ ipa_bytes n = name).
Lemma proxy_row f : (forall e, f e = true <-> asks_ent q (pe_sub e)) ->
  exists h, match match find f c with Some e => Some (pe_sub e) | None => None end with
    | None => Val None
    | Some s =>
        mdo a <- timestamp_age (timestamp_now (y_tz y) now) (pd_lu (ps_cs s));;
        match a with
        | None => Val None
        | Some age => if y_max y <? age then Val None
                      else if negb (in_len (pd_via (ps_cs s)) =? 0)%nat then Val None
                      else Val (Some (age, pd_name (ps_cs s)))
        end
    end = Val h /\ proxy_fits h.
Proof.
  intros F. destruct (find f c) as [e|] eqn:E.
  2: { exists None. split; [reflexivity|]. split; [discriminate|]. intros age name (s & (e & I & <- & A) & _). apply F in A. apply (find_none _ _ E) in I. congruence. }
  apply find_some in E as [I A]. apply F in A. set (s := pe_sub e) in *.
  assert (Row : forall age name, lu_roaming (y_tz y) c q now (y_max y) age name -> name = ipa_bytes (pd_name (ps_cs s)) /\ ipa_bytes (pd_via (ps_cs s)) = [] /\
      age = now - y_tz y - pd_lu (ps_cs s) /\ 0 <= age <= y_max y).
  { intros age name (s' & K & H). assert (s' = s) by (apply One; auto; exists e; auto). subst s'. auto. }
  assert (No : forall h, h = None -> (forall age name, ~ lu_roaming (y_tz y) c q now (y_max y) age name) -> proxy_fits h).
  { intros h -> N. split; [discriminate|]. intros age name L. destruct (N _ _ L). }
  destruct (Na e I) as [Wn Wv]. fold s in Wn, Wv.
  assert (St : sane_time (pd_lu (ps_cs s))) by (destruct Ti as [_ T]; apply (T e I)).
  unfold timestamp_now. unfold sane_time in Nw, Tz. rewrite age_in0; auto; [|lia]. cbn [mbind].
  destruct (Z.leb_spec 0 (now - y_tz y - pd_lu (ps_cs s))), (Z.leb_spec (now - y_tz y - pd_lu (ps_cs s)) UINT32_MAX); cbn [andb];
    try (exists None; split; [reflexivity|]; apply No; auto; intros age name L; destruct (Row _ _ L) as (_ & _ & -> & G); unfold UINT32_MAX in *; lia).
  destruct (Z.ltb_spec (y_max y) (now - y_tz y - pd_lu (ps_cs s))).
  { exists None; split; [reflexivity|]; apply No; auto; intros age name L; destruct (Row _ _ L) as (_ & _ & -> & G); lia. }
  destruct (in_len (pd_via (ps_cs s)) =? 0)%nat eqn:V; cbn [negb].
  - exists (Some (now - y_tz y - pd_lu (ps_cs s), pd_name (ps_cs s))). split; [reflexivity|].
    assert (Bv : ipa_bytes (pd_via (ps_cs s)) = []) by (apply Nat.eqb_eq in V; unfold ipa_bytes; rewrite V; reflexivity). split.
    + intros age n [= <- <-]. split; auto. exists s. split; [exists e; auto|]. repeat (split; auto).
    + intros age name L. destruct (Row _ _ L) as (-> & _ & -> & _). eauto.
  - exists None. split; [reflexivity|]. apply No; auto. intros age name L. destruct (Row _ _ L) as (_ & X & _).
    apply (bytes_nonempty _ Wv) in V. auto.
Qed.
Lemma proxy_run : exists h, lu_here_proxy y now c q = Val h /\ proxy_fits h.
Proof.
  unfold lu_here_proxy. destruct (lq_type q) eqn:T.
  - exists None. split; [reflexivity|]. split; [discriminate|]. intros age name (s & (e & I & <- & A) & _). unfold asks_ent in A. rewrite T in A. destruct A.
  - apply (proxy_row (fun e => (ps_imsi (pe_sub e) =? lq_id q)%string)). intros e. unfold asks_ent. rewrite T. apply String.eqb_eq.
  - apply (proxy_row (fun e => (ps_msisdn (pe_sub e) =? lq_id q)%string)). intros e. unfold asks_ent. rewrite T. apply String.eqb_eq.
Qed.

Lemma here_run : exists x, run (lu_here y now c q) [] d = (Fin x, d, []) /\
  (forall age n, x = Some (age, n) -> ipa_wf n) /\
  forall age name, (exists n, x = Some (age, n) /\ ipa_bytes n = name) <-> name <> [] /\ lu_latest (y_tz y) d c q now (y_max y) age name.
Proof.
  destruct hlr_run as (h & Rh & Ha & Hb). destruct proxy_run as (p & Rp & Pa & Pb).
  unfold lu_here. rewrite run_bind, Rh, Rp.
  set (x := match p with Some (a, _) => match h with Some (b, _) => if a <? b then p else h | None => p end | None => h end).
  assert (X : (h = None /\ x = p) \/ (p = None /\ x = h) \/
              (exists a n b m, p = Some (a, n) /\ h = Some (b, m) /\ ((a < b /\ x = p) \/ (b <= a /\ x = h)))).
  { subst x. destruct p as [[a n]|], h as [[b m]|]; auto. right; right. exists a, n, b, m. split; auto. split; auto.
    destruct (Z.ltb_spec a b); auto. }
  assert (XW : forall age n, x = Some (age, n) -> ipa_wf n).
  { intros age n E. destruct X as [[_ X]|[[_ X]|(a & n' & b & m & _ & _ & [[_ X]|[_ X]])]]; rewrite X in E; [apply Pa in E|apply Ha in E|apply Pa in E|apply Ha in E]; tauto. }
  assert (XL : forall age name, (exists n, x = Some (age, n) /\ ipa_bytes n = name) <-> lu_latest (y_tz y) d c q now (y_max y) age name).
  { intros age name. unfold lu_latest. split.
    - intros (n & E & <-). destruct X as [[N X]|[[N X]|(a & n' & b & m & Ep & Eh & [[L X]|[L X]])]]; rewrite X in E.
      + right. split; [apply Pa; auto|]. intros a' n' L. apply Hb in L as (k & K & _). congruence.
      + left. split; [apply Ha; auto|]. intros a' n' L. apply Pb in L as (k & K & _). congruence.
      + right. split; [apply Pa; auto|]. intros a' n'' L'. apply Hb in L' as (k & K & _). assert (a' = b) by congruence. assert (age = a) by congruence. lia.
      + left. split; [apply Ha; auto|]. intros a' n'' L'. apply Pb in L' as (k & K & _). assert (a' = a) by congruence. assert (age = b) by congruence. lia.
    - intros [[L O]|[L O]].
      + apply Hb in L as (n & E & B). exists n. split; auto. destruct X as [[N X]|[[N X]|(a & n' & b & m & Ep & Eh & [[L X]|[L X]])]]; try congruence.
        exfalso. destruct (Pa a n' Ep) as [_ Lr]. specialize (O _ _ Lr). assert (age = b) by congruence. lia.
      + apply Pb in L as (n & E & B). exists n. split; auto. destruct X as [[N X]|[[N X]|(a & n' & b & m & Ep & Eh & [[L X]|[L X]])]]; try congruence.
        exfalso. destruct (Ha b m Eh) as (_ & _ & Lr). specialize (O _ _ Lr). assert (age = a) by congruence. lia. }
  exists (match x with Some (_, n) => if (in_len n =? 0)%nat then None else x | None => None end). split; [reflexivity|]. split.
  - intros age n E. destruct x as [[a m]|] eqn:Ex; [|discriminate]. destruct (in_len m =? 0)%nat; [discriminate|]. apply (XW age n). auto.
  - intros age name. rewrite <- XL. destruct x as [[a m]|] eqn:Ex.
    + assert (Wm : ipa_wf m) by (eapply XW; eauto). destruct (in_len m =? 0)%nat eqn:Z.
      * split; [intros (n & E & _); discriminate|]. intros [N (n & [= <- <-] & B)]. exfalso. apply N. rewrite <- B. apply Nat.eqb_eq in Z. unfold ipa_bytes. rewrite Z. reflexivity.
      * split; [|intros [_ H]; auto]. intros (n & [= <- <-] & B). split; [|exists m; auto]. rewrite <- B. apply (bytes_nonempty m Wm). auto.
    + split; [intros (n & E & _); discriminate|intros [_ (n & E & _)]; discriminate].
Qed.

Lemma c37_other : lq_service q <> "gsup.hlr" ->
  exists a, run (mslookup_server_rx y now c q) [] d = (Fin (y, a), d, []) /\
    forall v4 v6 age, a = Found v4 v6 age <->
      exists name, name <> [] /\ lu_latest (y_tz y) d c q now (y_max y) age name /\ serves (y_cfg y) name (lq_service q) v4 v6.
Proof.
  intros S. unfold mslookup_server_rx. destruct (String.eqb_spec (lq_service q) HLR_GSUP) as [E|_]; [destruct (S E)|].
  destruct here_run as (x & R & W & H). rewrite run_bind, R. cbn [run]. eexists. split; [reflexivity|]. intros v4 v6 age.
  destruct x as [[a n]|].
  2: { split; [discriminate|]. intros (name & N & L & _). assert (K : name <> [] /\ lu_latest (y_tz y) d c q now (y_max y) age name) by auto.
       apply H in K as (n & K & _). discriminate. }
  assert (Wn : ipa_wf n) by (eapply W; eauto).
  assert (H' : forall age' name, name <> [] /\ lu_latest (y_tz y) d c q now (y_max y) age' name <-> age' = a /\ name = ipa_bytes n).
  { intros age' name. rewrite <- H. split; [intros (m & [= <- <-] & <-); auto|intros [-> ->]; eauto]. }
  pose proof (service_at (y_cfg y) n (lq_service q) Cfg Wn) as A. pose proof (service_at (y_cfg y) ipa_empty (lq_service q) Cfg ipa_empty_wf) as B. rewrite ipa_empty_bytes in B.
  assert (N0 : ipa_bytes n <> [] /\ lu_latest (y_tz y) d c q now (y_max y) a (ipa_bytes n)) by (apply H'; auto).
  assert (G : forall e, (usable (sv_v4 e) \/ usable (sv_v6 e)) -> (forall p r, serves (y_cfg y) (ipa_bytes n) (lq_service q) p r <-> p = sv_v4 e /\ r = sv_v6 e) ->
     set_result (sv_v4 e) (sv_v6 e) a = Found v4 v6 age <-> exists name, name <> [] /\ lu_latest (y_tz y) d c q now (y_max y) age name /\ serves (y_cfg y) name (lq_service q) v4 v6).
  { intros e U Sv. rewrite set_result_iff. split.
    - intros (-> & -> & -> & _). exists (ipa_bytes n). split; [tauto|]. split; [tauto|]. apply Sv. auto.
    - intros (name & N & L & V). assert (K : age = a /\ name = ipa_bytes n) by (apply H'; auto). destruct K as [-> ->]. apply Sv in V as [-> ->]. auto. }
  destruct (service_get (y_cfg y) n (lq_service q)) as [e|].
  - destruct A as (A & U & Un). apply G; auto. intros p r. unfold serves. split; [intros [V|[V _]]; [auto|destruct (V _ _ A)]|intros [-> ->]; auto].
  - destruct (service_get (y_cfg y) ipa_empty (lq_service q)) as [e|].
    + destruct B as (B & U & Un). apply G; auto. intros p r. unfold serves. split; [intros [V|[_ V]]; [destruct (A _ _ V)|auto]|intros [-> ->]; right; auto].
    + split; [discriminate|]. intros (name & N & L & [V|[_ V]]).
      * assert (K : age = a /\ name = ipa_bytes n) by (apply H'; auto). destruct K as [-> ->]. destruct (A _ _ V).
      * destruct (B _ _ V).
Qed.

(** whatever the database does: an answer means a location update here *)
Definition noexec {A} (p : prog A) : Prop := match p with Exec _ _ => False | _ => True end.
Lemma noexec_run {A} (p : prog A) s d0 o d1 s1 : noexec p -> run p s d0 = (Fin o, d1, s1) -> d1 = d0 /\ run p [] d0 = (Fin o, d0, []).
Proof. destruct p; cbn; intros N E; [injection E as -> -> _; auto|destruct N|discriminate]. Qed.
Lemma hlr_part_fault p s h d' s' : (exists o, run (hlr_part (db_sel (y_tz y) p)) [] d = (Fin o, d, []) /\ hlr_fits o) ->
  (exists x, exec p d = (x, d)) -> run (hlr_part (db_sel (y_tz y) p)) s d = (Fin h, d', s') -> d' = d /\ (h = None \/ hlr_fits h).
Proof.
  intros (o & R & O) [x X] E. unfold hlr_part, db_sel in *. cbn [bind run] in *. rewrite X in R.
  set (k := fun r : res => bind match r with RSub row => match sub_of_row (y_tz y) row with Some z => Ret (0, Some z) | None => Undef end | RDone _ => Ret (- ENOENT, None) | _ => Ret (- EIO, None) end
     (fun z => match z with (_, None) => Ret None | (_, Some h) => if (h_vlr h =? "")%string then Ret None
        else if negb (in_len (h_vlr_proxy h) =? 0)%nat then Ret None
        else match timestamp_age (timestamp_now (y_tz y) now) (h_lu_cs h) with
             | Bad => Undef | Val None => Ret None
             | Val (Some age) => if y_max y <? age then Ret None else match ipa_set_str ipa_empty (Some (h_vlr h)) with None => Undef | Some n => Ret (Some (age, n)) end
             end end)) in *.
  change (run (k x) [] d = (Fin o, d, [])) in R.
  assert (NE : forall r, noexec (k r)).
  { intros r. subst k. cbn beta. destruct r; cbn; auto. destruct (sub_of_row (y_tz y) r); cbn; auto. destruct (h_vlr s0 =? "")%string; cbn; auto.
    destruct (negb (in_len (h_vlr_proxy s0) =? 0)%nat); cbn; auto. destruct (timestamp_age (timestamp_now (y_tz y) now) (h_lu_cs s0)) as [[a|]|]; cbn; auto.
    destruct (y_max y <? a); cbn; auto. destruct (no_percent (h_vlr s0)); cbn; auto. }
  destruct s as [|[] s].
  - rewrite X in E. change (run (k x) [] d = (Fin h, d', s')) in E. rewrite R in E. injection E as <- <- _. auto.
  - rewrite X in E. change (run (k x) s d = (Fin h, d', s')) in E. apply (noexec_run _ _ _ _ _ _ (NE x)) in E as [-> E]. rewrite R in E. injection E as <-. auto.
  - change (run (k RErr) s d = (Fin h, d', s')) in E. cbn in E. injection E as <- <- _. auto.
  - discriminate E.
Qed.
Lemma hlr_fault s h d' s' : run (lu_here_hlr y now q) s d = (Fin h, d', s') -> d' = d /\ (h = None \/ hlr_fits h).
Proof.
  pose proof hlr_run as H. unfold lu_here_hlr in *. fold (hlr_part) in *. destruct (lq_type q) eqn:T.
  - cbn. intros [= <- <- _]. auto.
  - apply hlr_part_fault; auto. cbn [exec]. unfold sel. destruct (find (by_imsi (lq_id q)) (d_sub d)); eexists; reflexivity.
  - apply hlr_part_fault; auto. cbn [exec]. unfold sel. destruct (find (by_msisdn (lq_id q)) (d_sub d)); eexists; reflexivity.
Qed.
Lemma c37_fault s y' v4 v6 age d' s' : lq_service q <> "gsup.hlr" -> run (mslookup_server_rx y now c q) s d = (Fin (y', Found v4 v6 age), d', s') ->
  d' = d /\ exists name, name <> [] /\ serves (y_cfg y) name (lq_service q) v4 v6 /\
    (lu_home d q now (y_max y) age name \/ lu_roaming (y_tz y) c q now (y_max y) age name).
Proof.
  intros S. unfold mslookup_server_rx. destruct (String.eqb_spec (lq_service q) HLR_GSUP) as [E|_]; [destruct (S E)|].
  unfold lu_here. rewrite run_bind. destruct (run (bind (lu_here_hlr y now q) _) s d) as [[o1 d1] s1] eqn:R. rewrite run_bind in R.
  destruct (run (lu_here_hlr y now q) s d) as [[[h| |] d2] s2] eqn:Rh; [|injection R as <- <- <-; discriminate|injection R as <- <- <-; discriminate].
  destruct (hlr_fault _ _ _ _ Rh) as [-> Hh]. destruct proxy_run as (p & Rp & Pa & _). rewrite Rp in R. cbn [run] in R. injection R as <- <- <-. cbn [run].
  intros E. injection E as _ E <- _. split; auto.
  match type of E with match ?X with _ => _ end = _ => set (x := X) in * end.
  destruct x as [[a n]|] eqn:Ex; [|discriminate].
  assert (K : ipa_wf n /\ ipa_bytes n <> [] /\ (lu_home d q now (y_max y) a (ipa_bytes n) \/ lu_roaming (y_tz y) c q now (y_max y) a (ipa_bytes n))).
  { subst x. assert (Hp : forall b m, p = Some (b, m) -> (in_len m =? 0)%nat = false -> ipa_wf m /\ ipa_bytes m <> [] /\
        (lu_home d q now (y_max y) b (ipa_bytes m) \/ lu_roaming (y_tz y) c q now (y_max y) b (ipa_bytes m))).
    { intros b m Em L. destruct (Pa b m Em) as [W U]. split; auto. split; [apply bytes_nonempty; auto|auto]. }
    assert (Hq : forall b m, h = Some (b, m) -> ipa_wf m /\ ipa_bytes m <> [] /\
        (lu_home d q now (y_max y) b (ipa_bytes m) \/ lu_roaming (y_tz y) c q now (y_max y) b (ipa_bytes m))).
    { intros b m Em. destruct Hh as [->|[Ha _]]; [discriminate|]. destruct (Ha b m Em) as (W & N & U). auto. }
    destruct p as [[b m]|], h as [[b' m']|]; try discriminate.
    - destruct (b <? b'); [destruct (in_len m =? 0)%nat eqn:L|destruct (in_len m' =? 0)%nat eqn:L]; try discriminate; injection Ex as <- <-; auto.
    - destruct (in_len m =? 0)%nat eqn:L; try discriminate; injection Ex as <- <-; auto.
    - destruct (in_len m' =? 0)%nat eqn:L; try discriminate; injection Ex as <- <-; auto. }
  destruct K as (Wn & Nn & Ln). exists (ipa_bytes n). split; auto.
  pose proof (service_at (y_cfg y) n (lq_service q) Cfg Wn) as A. pose proof (service_at (y_cfg y) ipa_empty (lq_service q) Cfg ipa_empty_wf) as B. rewrite ipa_empty_bytes in B.
  destruct (service_get (y_cfg y) n (lq_service q)) as [e|].
  - destruct A as (A & U & Un). apply (proj1 (set_result_iff _ _ _ _ _ _)) in E as (-> & -> & -> & _). split; auto. left; auto.
  - destruct (service_get (y_cfg y) ipa_empty (lq_service q)) as [e|]; [|discriminate].
    destruct B as (B & U & Un). apply (proj1 (set_result_iff _ _ _ _ _ _)) in E as (-> & -> & -> & _). split; auto. right; auto.
Qed.
End Other.

(** ** Packets *)
Lemma c37_packet y now c q d id suffix y' a : good_query q -> dns_name (lq_service q) -> dns_name suffix -> (String.length suffix <= 91)%nat -> (id < 65536)%N ->
  run (mslookup_server_rx y now c q) [] d = (Fin (y', a), d, []) ->
  (forall v4 v6 age, a = Found v4 v6 age -> good_result (mk_result (host_of v4) (host_of v6) (Z.to_N age))) ->
  exists p r, mdns_query_encode id q suffix = Val (Some p) /\ run (mdns_server_rx y now c suffix p) [] d = (Fin (y', r), d, []) /\
    match a with
    | NotFound => r = None
    | Found v4 v6 age => exists p', r = Some p' /\ mdns_result_decode p' suffix = Val (Some (id, q, mk_result (host_of v4) (host_of v6) (Z.to_N age)))
    end.
Proof.
  intros G Ds Dx L I R H. destruct (c33_query id q suffix G Ds Dx) as (p & E & D); [lia|auto|]. exists p.
  unfold mdns_server_rx. rewrite D. rewrite run_bind, R. destruct a as [|v4 v6 age].
  - exists None. auto.
  - destruct (c33_result id q _ suffix G (H v4 v6 age eq_refl) Ds Dx L I) as (p' & E' & D'). rewrite E'. cbn [run]. exists (Some p'). split; auto. split; auto. eauto.
Qed.
