(** The lines of the node hlr are read back (C56) *)
From Verif Require Import Base PeerId Db DbSpec DbProofs DbThms DbThms2 DbThms3 Auth Gsup Router Hlr UssdCfg SmsCfg UssdSpec UssdThms MsLookup Mdns Proxy MsServer PeerSpec PeerThms MsServerSpec MsServerThms Ctrl CtrlSpec CtrlThms CtrlThms4 VtyListThms Config ConfigSpec ConfigThms ConfigThms2 ConfigThms3 ConfigThms4.
Local Open Scope string_scope.
Local Open Scope list_scope.

Ltac kw := first [apply wordb_iff; reflexivity | assumption].
Ltac kws := repeat (first [apply Forall_nil | apply Forall_cons; [kw|]]).

(** ** USSD *)
Definition uwords (x : ucmd) : list string :=
  match x with
  | CEuse n => ["euse"; n]
  | CRouteInt p i => ["ussd"; "route"; "prefix"; p; "internal"; iuse_word i]
  | CRouteExt p n => ["ussd"; "route"; "prefix"; p; "external"; n]
  | CDefault n => ["ussd"; "default-route"; "external"; n]
  | _ => []
  end.
Definition writes (x : ucmd) : Prop := match x with CNoRoute _ | CNoDefault | CNoEuse _ => False | _ => True end.
Definition uword_ok (x : ucmd) : Prop := ucmd_words x /\ (forall n, x = CDefault n -> is_word n) /\ writes x.
Lemma set_ussd_id c : set_ussd c (f_ussd c) = c. Proof. destruct c; reflexivity. Qed.
Lemma set_smsc_id c : set_smsc c (f_smsc c) = c. Proof. destruct c; reflexivity. Qed.
Lemma ussd_sec e R xs : forall c, Forall uword_ok xs -> uok (f_ussd c) xs = true ->
  sec e 1 NdHlr R (map (fun x => out 1 (uwords x)) xs) c (set_ussd c (ucmds_run (f_ussd c) xs)).
Proof.
  induction xs as [|x xs IH]; intros c F U; cbn [map].
  - cbn. rewrite set_ussd_id. apply sec_nil.
  - inversion F as [|? ? (W & D & K) Fr]; subst. cbn [uok] in U. apply andb_true_iff in U as [U1 U2].
    change (out 1 (uwords x) :: map (fun x => out 1 (uwords x)) xs) with ([out 1 (uwords x)] ++ map (fun x => out 1 (uwords x)) xs).
    apply sec_app with (c1 := set_ussd c (ucmd_run (f_ussd c) x)).
    + destruct x as [p i|p n|p|n| |n|n]; cbn [ucmd_words writes uwords] in *; try contradiction.
      * eapply sec_line; [destruct i; kws|reflexivity|].
        transitivity (ussd_do c (CRouteInt p i) None); [destruct i; reflexivity|]. unfold ussd_do. rewrite U1. reflexivity.
      * destruct W. eapply sec_line; [kws|reflexivity|]. transitivity (ussd_do c (CRouteExt p n) None); [reflexivity|]. unfold ussd_do. rewrite U1. reflexivity.
      * specialize (D n eq_refl). eapply sec_line; [kws|reflexivity|]. transitivity (ussd_do c (CDefault n) None); [reflexivity|]. unfold ussd_do. rewrite U1. reflexivity.
      * eapply sec_line; [kws|reflexivity|]. transitivity (ussd_do c (CEuse n) (Some NdEuse)); [reflexivity|]. unfold ussd_do. rewrite U1. reflexivity.
    + exact (IH (set_ussd c (ucmd_run (f_ussd c) x)) Fr U2).
Qed.
Lemma default_val u : u_wf u -> default_name u = Val (default_of u).
Proof.
  intros (A & B & C & D). unfold default_name, default_of. destruct (u_default u) as [d|] eqn:E; auto. destruct (euse_name u d) eqn:F; auto.
  exfalso. assert (Q : euse_name u d <> None) by (apply euse_name_iff; auto). auto.
Qed.
Lemma rebuild_writes u t : Forall writes (rebuild u t).
Proof.
  unfold rebuild. rewrite !Forall_app. split; [|split].
  - rewrite Forall_map, Forall_map, Forall_forall. intros; exact Logic.I.
  - rewrite Forall_map, Forall_forall. intros [p [i|n]] _; exact Logic.I.
  - destruct (default_of u); constructor; [exact Logic.I|constructor].
Qed.
Lemma rebuild_uwords u t : u_ok u -> route_table u = Some t -> Forall uword_ok (rebuild u t).
Proof.
  intros U T. pose proof (rebuild_words u t U T) as A. pose proof (rebuild_writes u t) as B. rewrite Forall_forall in *. intros x I. destruct (A x I). split; auto.
Qed.
Lemma write_euse_lines c t : u_ok (f_ussd c) -> route_table (f_ussd c) = Some t ->
  write_euse c = Val (map (fun x => out 1 (uwords x)) (rebuild (f_ussd c) t) ++ opt (negb (f_ncss c =? NCSS_DEFAULT)%Z) (out 1 ["ncss-guard-timeout"; show (f_ncss c)])).
Proof.
  intros U T. unfold write_euse. rewrite T, (default_val _ (proj1 U)). cbn [mbind]. f_equal. unfold rebuild. rewrite !map_app, !map_map, <- !app_assoc. f_equal. f_equal.
  - apply map_ext. intros [p [i|n]]; reflexivity.
  - destruct (default_of (f_ussd c)); reflexivity.
Qed.

(** ** SMSC *)
Definition swords (x : scmd) : list string :=
  match x with
  | SEntity n => ["smsc"; "entity"; n]
  | SRoute a n => ["smsc"; "route"; a; n]
  | SDefault n => ["smsc"; "default-route"; n]
  | _ => []
  end.
Definition srebuild (u : ucfg) (t : list (string * string)) : list scmd :=
  map SEntity (map e_name (u_euses u)) ++ map (fun r => SRoute (fst r) (snd r)) t ++ match default_of u with Some n => [SDefault n] | None => [] end.
Definition ext (r : string * string) : string * ussd_target := (fst r, TExt (snd r)).
Lemma srebuild_u u t : map as_ucmd (srebuild u t) = rebuild u (map ext t).
Proof.
  unfold srebuild, rebuild. rewrite !map_app, !map_map. f_equal. f_equal. destruct (default_of u); reflexivity.
Qed.
Lemma smsc_ext u t : all_ext u -> route_table u = Some t -> exists t', smsc_table u = Some t' /\ t = map ext t'.
Proof.
  intros A T. unfold route_table in T. unfold smsc_table. unfold all_ext in A. revert t T. induction (u_routes u) as [|[p a] l IH]; intros t; cbn [map all_some].
  - intros [= <-]. exists []. auto.
  - cbn [snd fst]. destruct a as [i|nr]; [exfalso; apply (A p i); now left|]. cbn [aim_target]. destruct (euse_name u nr) as [n|]; [|discriminate].
    destruct (all_some (map (fun r : string * aim => match aim_target u (snd r) with Some t0 => Some (fst r, t0) | None => None end) l)) as [r|] eqn:E; [|discriminate].
    intros [= <-]. destruct (IH (fun p i H => A p i (or_intror H)) r eq_refl) as (t' & E' & ->). rewrite E'. exists ((p, n) :: t'). auto.
Qed.
Definition sword_ok (x : scmd) : Prop := uword_ok (as_ucmd x).
Lemma smsc_sec e R xs : forall c, Forall sword_ok xs -> uok (f_smsc c) (map as_ucmd xs) = true ->
  sec e 1 NdHlr R (map (fun x => out 1 (swords x)) xs) c (set_smsc c (ucmds_run (f_smsc c) (map as_ucmd xs))).
Proof.
  induction xs as [|x xs IH]; intros c F U; cbn [map].
  - cbn. rewrite set_smsc_id. apply sec_nil.
  - inversion F as [|? ? (W & D & K) Fr]; subst. cbn [map uok] in U. apply andb_true_iff in U as [U1 U2].
    change (out 1 (swords x) :: map (fun x => out 1 (swords x)) xs) with ([out 1 (swords x)] ++ map (fun x => out 1 (swords x)) xs).
    apply sec_app with (c1 := set_smsc c (ucmd_run (f_smsc c) (as_ucmd x))).
    + destruct x as [n|n|a n|a|n|]; cbn [ucmd_words writes swords as_ucmd] in *; try contradiction.
      * eapply sec_line; [kws|reflexivity|]. transitivity (smsc_do c (SEntity n) (Some NdSmsc)); [reflexivity|]. unfold smsc_do. cbn [as_ucmd]. rewrite U1. reflexivity.
      * destruct W. eapply sec_line; [kws|reflexivity|]. transitivity (smsc_do c (SRoute a n) None); [reflexivity|]. unfold smsc_do. cbn [as_ucmd]. rewrite U1. reflexivity.
      * specialize (D n eq_refl). eapply sec_line; [kws|reflexivity|]. transitivity (smsc_do c (SDefault n) None); [reflexivity|]. unfold smsc_do. cbn [as_ucmd]. rewrite U1. reflexivity.
    + exact (IH (set_smsc c (ucmd_run (f_smsc c) (as_ucmd x))) Fr U2).
Qed.
Lemma write_smsc_lines c t : u_ok (f_smsc c) -> smsc_table (f_smsc c) = Some t ->
  write_smsc c = Val (map (fun x => out 1 (swords x)) (srebuild (f_smsc c) t)).
Proof.
  intros U T. unfold write_smsc. rewrite T, (default_val _ (proj1 U)). cbn [mbind]. f_equal. unfold srebuild. rewrite !map_app, !map_map. f_equal. f_equal.
  destruct (default_of (f_smsc c)); reflexivity.
Qed.

(** ** The other lines of the node *)
Lemma cause_back z : is_cause z -> is_word (cause_name z) /\ existsb (String.eqb (cause_name z)) (map snd cause_names) = true /\ cause_of (cause_name z) = Some z.
Proof. unfold is_cause. cbn [map fst cause_names In]. intros H. repeat (destruct H as [<-|H]; [split; [kw|split; reflexivity]|]). destruct H. Qed.
Lemma reject_sec e R d z : is_cause z -> sec e 1 NdHlr R [out 1 ["reject-cause"; "not-found"; cause_name z]] d (set_reject d z).
Proof.
  intros C. destruct (cause_back z C) as (W & X & B). eapply sec_line; [kws|reflexivity|]. transitivity (if existsb (String.eqb (cause_name z)) (map snd cause_names) then reject_do d ["not-found"; cause_name z] else XNo).
  - unfold exec. cbn -[cause_name cause_names cause_of reject_do existsb map]. cbn [fits]. destruct (existsb (String.eqb (cause_name z)) (map snd cause_names)); reflexivity.
  - rewrite X. unfold reject_do. cbn [argn nth]. rewrite B. reflexivity.
Qed.
Lemma noproxy_sec e R d z : is_cause z -> sec e 1 NdHlr R [out 1 ["reject-cause"; "no-proxy"; cause_name z]] d (set_noproxy d z).
Proof.
  intros C. destruct (cause_back z C) as (W & X & B). eapply sec_line; [kws|reflexivity|]. transitivity (if existsb (String.eqb (cause_name z)) (map snd cause_names) then reject_do d ["no-proxy"; cause_name z] else XNo).
  - unfold exec. cbn -[cause_name cause_names cause_of reject_do existsb map]. cbn [fits]. destruct (existsb (String.eqb (cause_name z)) (map snd cause_names)); reflexivity.
  - rewrite X. unfold reject_do. cbn [argn nth]. rewrite B. reflexivity.
Qed.
Lemma imei_sec e R d b : f_imei d = false -> sec e 1 NdHlr R (opt b (out 1 ["store-imei"])) d (set_imei d b).
Proof.
  intros E. apply sec_opt; intros ->.
  - eapply sec_line; [kws|reflexivity|]. reflexivity.
  - destruct d; cbn in E; subst; reflexivity.
Qed.
Lemma db_sec e R d p : is_word p -> f_db d = DB_DEFAULT -> sec e 1 NdHlr R (opt (negb (p =? DB_DEFAULT)) (out 1 ["database"; p])) d (set_db d p).
Proof.
  intros W E. apply sec_opt; intros B.
  - eapply sec_line; [kws|reflexivity|]. reflexivity.
  - apply negb_false_iff, String.eqb_eq in B. subst. destruct d; cbn in E; subst; reflexivity.
Qed.
Definition cod_put (d c : conf) : conf := match f_cod c with CodOff => set_cod d CodOff (f_cs d) (f_ps d) | m => set_cod d m (f_cs c) (f_ps c) end.
Lemma flags_back cs ps : existsb (String.eqb (flags_word cs ps)) ["none"; "cs"; "ps"; "cs+ps"] = true /\ is_word (flags_word cs ps) /\
  contains "cs" (flags_word cs ps) = cs /\ contains "ps" (flags_word cs ps) = ps.
Proof. destruct cs, ps; (split; [reflexivity|split; [kw|split; reflexivity]]). Qed.
Lemma show_not w : in_range 3 15 w = true -> (w =? "no-msisdn") = false /\ (w =? "msisdn-from-imsi") = false.
Proof. intros R. split; apply String.eqb_neq; intros ->; discriminate. Qed.
Lemma cod_sec e R d c : (forall n, f_cod c = CodRand n -> (3 <= n <= 15)%Z) -> sec e 1 NdHlr R (write_cod c) d (cod_put d c).
Proof.
  intros H. unfold write_cod, cod_put. destruct (flags_back (f_cs c) (f_ps c)) as (F1 & F2 & F3 & F4). destruct (f_cod c) as [| |n|].
  - eapply sec_line; [kws|reflexivity|]. reflexivity.
  - eapply sec_line; [kws|reflexivity|].
    transitivity (if existsb (String.eqb (flags_word (f_cs c) (f_ps c))) ["none"; "cs"; "ps"; "cs+ps"] then cod_do d ["no-msisdn"; flags_word (f_cs c) (f_ps c)] else XNo).
    + rewrite F1. unfold exec. cbn [cmds dispatch args fits is_kw String.eqb Ascii.eqb Bool.eqb existsb orb]. cbn [existsb] in F1. rewrite F1. reflexivity.
    + rewrite F1. unfold cod_do. cbn [argn nth String.eqb Ascii.eqb Bool.eqb]. rewrite F3, F4. reflexivity.
  - destruct (show_range n 3 15) as (A & B & C); [specialize (H n eq_refl); lia|specialize (H n eq_refl); lia|lia|]. destruct (show_not _ A) as [N1 N2].
    eapply sec_line; [kws|reflexivity|]. transitivity (cod_do d [show n; flags_word (f_cs c) (f_ps c)]).
    + unfold exec. cbn [cmds dispatch args fits is_kw String.eqb Ascii.eqb Bool.eqb existsb]. rewrite N1, N2, A. cbn [existsb] in F1. cbn [orb]. rewrite F1. reflexivity.
    + unfold cod_do. cbn [argn nth]. rewrite N1, N2, B, F3, F4. reflexivity.
  - eapply sec_line; [kws|reflexivity|].
    transitivity (cod_do d ["msisdn-from-imsi"; flags_word (f_cs c) (f_ps c)]).
    + unfold exec. cbn [cmds dispatch args fits is_kw String.eqb Ascii.eqb Bool.eqb existsb orb]. cbn [existsb] in F1. rewrite F1. reflexivity.
    + unfold cod_do. cbn [argn nth String.eqb Ascii.eqb Bool.eqb]. rewrite F3, F4. reflexivity.
Qed.
Lemma gsup_sec e R d a n : (forall x, a = Some x -> is_word x /\ v_ipv4 e x = true) -> is_word n -> f_bind d = None ->
  sec e 1 NdHlr R ([out 1 ["gsup"]] ++ match a with Some x => [out 2 ["bind"; "ip"; x]] | None => [] end ++ [out 2 ["ipa-name"; n]]) d (set_name (set_bind d a) n).
Proof.
  intros H W E. cbn [app]. eapply sec_block; [kws|reflexivity|reflexivity|]. apply sec_app with (c1 := set_bind d a).
  - destruct a as [x|].
    + destruct (H x eq_refl) as [Wx V]. eapply sec_line; [kws|reflexivity|]. unfold exec. cbn [cmds dispatch args fits is_kw String.eqb Ascii.eqb Bool.eqb]. rewrite V. reflexivity.
    + replace (set_bind d None) with d by (destruct d; cbn in E; subst; reflexivity). apply sec_nil.
  - eapply sec_line; [kws|reflexivity|]. reflexivity.
Qed.
Lemma ncss_sec e R d n : (0 <= n <= 255)%Z -> f_ncss d = NCSS_DEFAULT -> sec e 1 NdHlr R (opt (negb (n =? NCSS_DEFAULT)%Z) (out 1 ["ncss-guard-timeout"; show n])) d (set_ncss d n).
Proof.
  intros H E. apply sec_opt; intros B.
  - destruct (show_range n 0 255) as (A1 & A2 & A3); [lia|lia|lia|]. eapply sec_line; [kws|reflexivity|]. unfold exec.
    cbn [cmds dispatch args fits is_kw String.eqb Ascii.eqb Bool.eqb]. rewrite A1. cbn [argn nth]. rewrite A2. reflexivity.
  - apply negb_false_iff, Z.eqb_eq in B. subst. destruct d; cbn in E; subst; reflexivity.
Qed.

(** ** PDP profiles *)
Definition free (k : nat) : list pslot := repeat (mk_pslot 0 None) k.
Definition profs_at (d : conf) (l : list pslot) (k : nat) : conf := set_pdp d (mk_pdp true (l ++ free k) (length l)).
Lemma slot_of_no id l : (forall x, In x l -> sl_ctx x <> id) -> slot_of id l = None.
Proof.
  induction l as [|s l IH]; cbn [slot_of]; auto. intros H. destruct (Z.eqb_spec (sl_ctx s) id) as [E|E]; [exfalso; apply (H s); [now left|auto]|].
  rewrite IH; auto. intros x I. apply H. now right.
Qed.
Lemma slot_of_first id l s r : (forall x, In x l -> sl_ctx x <> id) -> sl_ctx s = id -> slot_of id (l ++ s :: r) = Some (length l).
Proof.
  intros H E. induction l as [|x l IH]; cbn [slot_of app length].
  - rewrite E, Z.eqb_refl. auto.
  - destruct (Z.eqb_spec (sl_ctx x) id) as [X|X]; [exfalso; apply (H x); [now left|auto]|]. rewrite IH; auto. intros y I. apply H. now right.
Qed.
Definition apn_ok (e : venv) (s : pslot) : Prop := forall a, sl_apn s = Some a -> is_word a /\ (String.length a < 100)%nat /\ v_apn e a = Some a.
Lemma profs_sec e R l : forall done d k, Forall (fun s => (1 <= sl_ctx s <= 10)%Z /\ apn_ok e s) (done ++ l) -> NoDup (map sl_ctx (done ++ l)) -> (length l <= k)%nat ->
  sec e 3 NdPdps R (flat_map profile_lines l) (profs_at d done k) (profs_at d (done ++ l) (k - length l)).
Proof.
  induction l as [|s l IH]; intros done d k F N L; cbn [flat_map].
  - rewrite app_nil_r, Nat.sub_0_r. apply sec_nil.
  - cbn [length] in L. destruct k as [|k]; [lia|]. rewrite Forall_app in F. destruct F as [F1 F2]. inversion F2 as [|? ? [Rg Ap] F3]; subst.
    assert (DN : forall x, In x done -> sl_ctx x <> sl_ctx s).
    { intros x I E. rewrite map_app in N. cbn [map] in N. apply NoDup_remove_2 in N. apply N. apply in_or_app. left. rewrite <- E. apply in_map; auto. }
    assert (D0 : forall x, In x done -> sl_ctx x <> 0%Z).
    { intros x I. rewrite Forall_forall in F1. specialize (F1 x I). lia. }
    replace (done ++ s :: l) with ((done ++ [s]) ++ l) in * by (rewrite <- app_assoc; auto).
    apply sec_app with (c1 := profs_at d (done ++ [s]) k).
    + unfold profile_lines. replace (sl_ctx s =? 0)%Z with false by (symmetry; apply Z.eqb_neq; lia).
      destruct (show_range (sl_ctx s) 1 10) as (A1 & A2 & A3); [lia|lia|lia|].
      apply sec_block with (m := NdProfile (length done)) (c1 := profs_at d (done ++ [mk_pslot (sl_ctx s) None]) k); [kws|reflexivity| |].
      * unfold exec. cbn [cmds dispatch args fits is_kw String.eqb Ascii.eqb Bool.eqb]. rewrite A1. cbn [argn nth]. rewrite A2. unfold profile_enter. cbn [profs_at set_pdp f_pdp pd_slots pd_on pd_num].
        rewrite slot_of_no.
        2: { intros x I. apply in_app_or in I as [I|I]; auto. unfold free in I. apply repeat_spec in I. subst. cbn. lia. }
        cbn [free repeat]. rewrite slot_of_first by auto. cbn [pd_slots]. rewrite slot_put_split. unfold profs_at. rewrite app_length, <- app_assoc, Nat.add_1_r. reflexivity.
      * destruct s as [ctx [a|]]; cbn [sl_apn sl_ctx] in *.
        -- destruct (Ap a eq_refl) as (W & Ln & V). eapply sec_line; [kws|reflexivity|]. unfold exec. cbn [cmds dispatch args fits is_kw String.eqb Ascii.eqb Bool.eqb argn nth].
           unfold profile_apn. replace (APN_MAXLEN <? String.length a + 1)%nat with false by (symmetry; apply Nat.ltb_ge; unfold APN_MAXLEN; lia). rewrite V. unfold slot_apn.
           cbn [profs_at set_pdp f_pdp pd_slots pd_on pd_num]. rewrite <- app_assoc. cbn [app]. rewrite nth_error_app2, Nat.sub_diag by lia. cbn [nth_error sl_ctx]. rewrite slot_put_split.
           unfold profs_at. rewrite <- !app_assoc, !app_length. reflexivity.
        -- apply sec_nil.
    + replace (S k - S (length l))%nat with (k - length l)%nat by lia. apply IH; auto; [|lia]. rewrite !Forall_app. split; [split|]; auto.
Qed.
(** a packed list of slots is its profiles and free slots *)
Lemma packed_split l : (forall i j s t, (i < j)%nat -> nth_error l i = Some s -> nth_error l j = Some t -> sl_ctx t <> 0%Z -> sl_ctx s <> 0%Z) ->
  firstn (length (prof l)) l = prof l.
Proof.
  induction l as [|s l IH]; intros P; [reflexivity|]. cbn [prof filter]. destruct (used s) eqn:U.
  - cbn [length firstn]. f_equal. apply IH. intros i j a b L. apply (P (S i) (S j) a b). lia.
  - assert (Z : filter used l = []).
    { destruct (filter used l) as [|t r] eqn:F; auto. exfalso. assert (I : In t (filter used l)) by (rewrite F; now left). apply filter_In in I as [I V].
      destruct (In_nth_error _ _ I) as [j J]. unfold used in U, V. apply negb_false_iff, Z.eqb_eq in U. apply negb_true_iff, Z.eqb_neq in V.
      apply (P 0%nat (S j) s t); auto. lia. }
    rewrite Z. reflexivity.
Qed.
Lemma packed_sent p : pdp_ok p -> packed p -> firstn (pd_num p) (pd_slots p) = profiles p.
Proof. intros (L & C & D & U) P. rewrite U. apply packed_split. exact P. Qed.
Lemma prof_used l : Forall (fun s => used s = true) l -> prof l = l.
Proof. induction 1 as [|s l H F IH]; [reflexivity|]. cbn [prof filter]. rewrite H. f_equal. auto. Qed.
Lemma prof_free k : prof (free k) = [].
Proof. induction k; cbn; auto. Qed.
Lemma ps_sec e R d c : pdp_ok (f_pdp c) -> apns_ok e c -> packed (f_pdp c) -> f_pdp d = f_pdp conf0 ->
  exists p, sec e 1 NdHlr R (write_ps c) d (set_pdp d p) /\ pdp_same (f_pdp c) p.
Proof.
  intros O A P E. unfold write_ps. destruct (pd_on (f_pdp c)) eqn:On.
  - exists (mk_pdp true (profiles (f_pdp c) ++ free (10 - length (profiles (f_pdp c)))) (length (profiles (f_pdp c)))). split.
    + cbn [app]. eapply sec_block; [kws|reflexivity|reflexivity|]. eapply sec_block; [kws|reflexivity|reflexivity|]. rewrite packed_sent by auto.
      rewrite E. change (set_pdp d _) with (profs_at d [] 10) at 1. apply (profs_sec e _ (profiles (f_pdp c)) [] d 10); cbn [app].
      * rewrite Forall_forall. intros s I. apply filter_In in I as [I U]. destruct O as (L & C & _). specialize (C s I). apply negb_true_iff, Z.eqb_neq in U. split; [lia|].
        intros a. apply (A s a I).
      * apply O.
      * destruct O as (L & _). unfold profiles. change 10%nat with MAX_PDP. rewrite <- L. clear. induction (pd_slots (f_pdp c)) as [|x l IH]; cbn; [lia|]. destruct (negb _); cbn; lia.
    + split; auto. intros _. cbn [pd_on pd_slots]. rewrite !profiles_prof. cbn [pd_slots]. unfold prof at 2. rewrite filter_app. fold (prof (prof (pd_slots (f_pdp c)))). fold (prof (free (10 - length (prof (pd_slots (f_pdp c)))))).
      rewrite prof_free, app_nil_r. symmetry. apply prof_used. rewrite Forall_forall. intros s I. apply filter_In in I. tauto.
  - exists (f_pdp d). split; [|split; [rewrite E; auto|congruence]]. cbn [app]. eapply sec_block; [kws|reflexivity|reflexivity|].
    replace (set_pdp d (f_pdp d)) with d by (destruct d; reflexivity). apply sec_nil.
Qed.
