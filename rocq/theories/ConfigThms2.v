(** What holds of every configuration that commands make (C56, C57) *)
From Verif Require Import Base PeerId Db DbSpec DbProofs DbThms DbThms2 DbThms3 Auth Gsup Router Hlr UssdCfg SmsCfg UssdSpec UssdThms MsLookup Mdns Proxy MsServer PeerSpec PeerThms MsServerSpec MsServerThms Ctrl CtrlSpec CtrlThms CtrlThms4 VtyListThms Config ConfigSpec ConfigThms.
Local Open Scope string_scope.
Local Open Scope list_scope.

(** ** Arguments of a command *)
Fixpoint fit_args (e : venv) (p : list tok) (argv : list string) : Prop :=
  match p with
  | [] => argv = []
  | K _ :: p' => fit_args e p' argv
  | [Rest] => argv <> []
  | Opt t :: p' => (argv = [] /\ fit_args e p' []) \/ exists w r, argv = w :: r /\ fits e t w = true /\ fit_args e p' r
  | t :: p' => exists w r, argv = w :: r /\ fits e t w = true /\ fit_args e p' r
  end.
Lemma args_eq e p ws : args e p ws =
  match p, ws with
  | [], [] => Some []
  | [Rest], _ :: _ => Some ws
  | Opt _ :: p', [] => args e p' []
  | t :: p', w :: ws' =>
      if fits e t w then match args e p' ws' with Some r => Some (if is_kw t then r else w :: r) | None => None end else None
  | _, _ => None
  end.
Proof. destruct p, ws; reflexivity. Qed.
Definition plain_tok (t : tok) : bool := match t with K _ | Opt _ | Rest => false | _ => true end.
Definition pattern_ok (p : list tok) : Prop := forall a b, p = a ++ Rest :: b -> b = [].
Lemma args_fit e p : pattern_ok p -> forall ws argv, args e p ws = Some argv -> fit_args e p argv /\ (forall w, In w argv -> In w ws).
Proof.
  induction p as [|t p IH]; intros OK ws argv; rewrite args_eq.
  - destruct ws; [intros [= <-]|discriminate]. split; auto. reflexivity.
  - assert (OK' : pattern_ok p) by (intros a b E; apply (OK (t :: a) b); rewrite E; auto). specialize (IH OK').
    assert (G : forall w ws', ws = w :: ws' ->
      (if fits e t w then match args e p ws' with Some r => Some (if is_kw t then r else w :: r) | None => None end else None) = Some argv ->
      (exists r, fits e t w = true /\ argv = (if is_kw t then r else w :: r) /\ fit_args e p r /\ forall x, In x r -> In x ws)).
    { intros w ws' -> H. destruct (fits e t w); [|discriminate]. destruct (args e p ws') as [r|] eqn:A; [|discriminate]. injection H as <-.
      destruct (IH ws' r A) as [B I]. exists r. repeat split; auto. intros x J. right. auto. }
    destruct t as [s| |lo hi|l| | |t].
    7: { destruct ws as [|w ws'].
      - intros A. destruct (IH [] argv A) as [B I]. split; auto. left. split; [|].
        + destruct argv as [|x r]; auto. destruct (I x); now left.
        + destruct argv as [|x r]; auto. destruct (I x); now left.
      - intros A. destruct (G w ws' eq_refl A) as (r & F & -> & B & I). split; [|intros x [<-|J]; [left|]; auto]. right. exists w, r. auto. }
    all: destruct ws as [|w ws']; try (intros [=]; fail); try (destruct p; discriminate).
    6: { assert (p = []) as -> by (apply (OK [] p); auto). intros [= <-]. split; auto. cbn. congruence. }
    all: intros A; destruct (G w ws' eq_refl A) as (r & F & -> & B & I); cbn [is_kw] in *.
    1: { split; auto. }
    all: split; [exists w, r; auto|intros x [<-|J]; [left|]; auto].
Qed.
Lemma dispatch_inv e ws l r : dispatch e ws l = r -> r = XNo \/ exists p h argv, In (p, h) l /\ args e p ws = Some argv /\ r = h argv.
Proof.
  induction l as [|[p h] l IH]; cbn [dispatch]; [auto|]. destruct (args e p ws) as [argv|] eqn:A.
  - intros <-. right. exists p, h, argv. split; [now left|auto].
  - intros H. destruct (IH H) as [E|(q & k & v & I & X)]; auto. right. exists q, k, v. split; [now right|auto].
Qed.
Lemma cmds_patterns e f c n p h : In (p, h) (cmds e f c n) -> pattern_ok p.
Proof.
  intros I. assert (H : existsb (fun t => match t with Rest => true | _ => false end) (removelast p) = false).
  { destruct n; cbn [cmds svc_cmds In app] in I; repeat (destruct I as [[= <- _]|I]; [reflexivity|]); destruct I. }
  intros a b ->. destruct b as [|t b]; auto. exfalso.
  rewrite removelast_app in H by discriminate. rewrite existsb_app in H. cbn [removelast existsb] in H. rewrite orb_true_r in H. discriminate.
Qed.

(** numbers *)
Lemma range_atoi lo hi w : in_range lo hi w = true -> (0 <= lo)%Z -> (hi <= 2147483647)%Z -> (lo <= atoi w <= hi)%Z.
Proof.
  unfold in_range. rewrite andb_true_iff, negb_true_iff, String.eqb_neq. intros [N R] L H. destruct (all_digits w 0) as [v|] eqn:A; [|discriminate].
  apply andb_true_iff in R as [R1 R2]. apply Z.leb_le in R1. apply Z.leb_le in R2. rewrite (numeral_atoi w v); [lia|apply digits_numeral; auto|lia].
Qed.
Lemma show_range n lo hi : (0 <= lo <= n)%Z -> (n <= hi)%Z -> (hi <= 2147483647)%Z -> in_range lo hi (show n) = true /\ atoi (show n) = n /\ is_word (show n).
Proof.
  intros L U H. assert (NU : numeral (show n) n).
  { unfold show. pose proof (dec_text_numeral (Z.to_N n)) as D. rewrite Z2N.id in D by lia. apply D. lia. }
  destruct (numeral_digits _ _ NU) as (A & NE & F & P). split; [|split].
  - unfold in_range. rewrite A. apply andb_true_iff. split; [apply negb_true_iff, String.eqb_neq; auto|]. apply andb_true_iff. rewrite !Z.leb_le. lia.
  - apply numeral_atoi; auto. lia.
  - split; auto. clear F P NE U L NU. revert A. generalize 0%Z. generalize (show n) as s. induction s as [|c s IH]; intros acc A [|k] x; cbn [String.get]; try discriminate.
    + intros [= <-]. cbn [all_digits] in A. destruct (is_digit c) eqn:D; [|discriminate]. unfold is_digit in D. unfold is_space.
      apply andb_true_iff in D as [D1 D2]. apply N.leb_le in D1. apply N.leb_le in D2.
      apply orb_false_iff. split; [apply N.eqb_neq|apply andb_false_iff; right; apply N.leb_gt]; change (acode "0") with 48%N in D1; lia.
    + cbn [all_digits] in A. destruct (is_digit c); [|discriminate]. eauto.
Qed.

(** ** USSD and SMSC entities and routes *)
Definition u_ok (u : ucfg) : Prop :=
  u_wf u /\ NoDup (map fst (u_routes u)) /\ (forall x, In x (u_euses u) -> is_word (e_name x)) /\ (forall r, In r (u_routes u) -> is_word (fst r)).
Definition ucmd_words (x : ucmd) : Prop :=
  match x with CRouteInt p _ => is_word p | CRouteExt p n => is_word p /\ is_word n | CEuse n => is_word n | _ => True end.
Lemma u_ok_run u x : u_ok u -> ucmd_words x -> u_ok (ucmd_run u x).
Proof.
  intros (W & N & E & R) X. split; [apply u_wf_run; auto|]. assert (NR : forall r, find_prefix u (fst r) = None -> NoDup (map fst (u_routes u ++ [r]))).
  { intros r F. rewrite map_app. apply NoDup_snoc; auto. apply find_prefix_none; auto. }
  destruct x as [p i|p n|p|n| |n|n]; cbn [ucmd_run ucmd_words] in *.
  - destruct (find_prefix u p) eqn:F; [auto|]. cbn. split; [apply (NR (p, AInt i)); auto|]. split; auto. intros r I. apply in_app_or in I as [I|[<-|[]]]; auto.
  - destruct (find_prefix u p) eqn:F; [auto|]. destruct (euse_find u n) as [y|] eqn:G; [|auto]. cbn. split; [apply (NR (p, AExt (e_nr y))); auto|]. split; auto.
    intros r I. apply in_app_or in I as [I|[<-|[]]]; [auto|]. apply X.
  - destruct (find_prefix u p) eqn:F; [|auto]. cbn. split; [apply del_first_keys; auto|]. split; auto. intros r I. apply R. apply (del_first_in p); auto.
  - destruct (euse_find u n); auto.
  - auto.
  - destruct (euse_find u n) eqn:F; [auto|]. cbn. split; auto. split; auto. intros x I. apply in_app_or in I as [I|[<-|[]]]; auto.
  - destruct (euse_find u n) eqn:F; [|auto]. destruct (match u_default u with Some _ => _ | None => _ end); [auto|]. cbn. split; auto. split; auto.
    intros x I. apply E. apply (del_euse_in n); auto.
Qed.
Definition all_ext (u : ucfg) : Prop := forall p i, ~ In (p, AInt i) (u_routes u).
Lemma all_ext_run u x : all_ext u -> all_ext (ucmd_run u (as_ucmd x)).
Proof.
  intros A p i. destruct x as [n|n|a n|a|n|]; cbn [as_ucmd ucmd_run].
  - destruct (euse_find u n); apply A.
  - destruct (euse_find u n); [|apply A]. destruct (match u_default u with Some _ => _ | None => _ end); apply A.
  - destruct (find_prefix u a); [apply A|]. destruct (euse_find u n); [|apply A]. cbn. rewrite in_app_iff. intros [I|[[=]|[]]]. apply (A p i I).
  - destruct (find_prefix u a); [|apply A]. cbn. intros I. apply del_first_in in I. apply (A p i I).
  - destruct (euse_find u n); apply A.
  - apply A.
Qed.
Lemma u_ok0 : u_ok ucfg0.
Proof. split; [apply (u_wf_all [])|]. cbn. repeat split; try constructor; tauto. Qed.

(** ** PDP profiles *)
Definition used (s : pslot) : bool := negb (sl_ctx s =? 0)%Z.
Definition pdp_ok (p : pdp) : Prop :=
  length (pd_slots p) = MAX_PDP /\ (forall s, In s (pd_slots p) -> (0 <= sl_ctx s <= 10)%Z) /\ NoDup (map sl_ctx (profiles p)) /\ pd_num p = length (profiles p).
Lemma slot_of_split id l n : slot_of id l = Some n -> exists a s b, l = a ++ s :: b /\ length a = n /\ sl_ctx s = id /\ forall x, In x a -> sl_ctx x <> id.
Proof.
  revert n. induction l as [|s l IH]; intros n; cbn [slot_of]; [discriminate|]. destruct (Z.eqb_spec (sl_ctx s) id) as [E|E].
  - intros [= <-]. exists [], s, l. repeat split; auto.
  - destruct (slot_of id l) as [m|] eqn:F; [|discriminate]. intros [= <-]. destruct (IH m eq_refl) as (a & t & b & -> & L & C & H). exists (s :: a), t, b.
    cbn. repeat split; auto. intros x [<-|I]; auto.
Qed.
Lemma slot_of_none id l : slot_of id l = None -> forall x, In x l -> sl_ctx x <> id.
Proof.
  induction l as [|s l IH]; cbn [slot_of]; [intros _ x []|]. destruct (Z.eqb_spec (sl_ctx s) id) as [E|E]; [discriminate|].
  destruct (slot_of id l); [discriminate|]. intros _ x [<-|I]; auto.
Qed.
Lemma slot_put_split a s b x : slot_put (length a) x (a ++ s :: b) = a ++ x :: b.
Proof. induction a as [|y a IH]; cbn; [auto|]. rewrite IH. auto. Qed.
Lemma filter_split {A} (f : A -> bool) a s b : filter f (a ++ s :: b) = filter f a ++ (if f s then [s] else []) ++ filter f b.
Proof. rewrite filter_app. cbn. destruct (f s); auto. Qed.
Definition prof (l : list pslot) : list pslot := filter used l.
Lemma profiles_prof p : profiles p = prof (pd_slots p).
Proof. reflexivity. Qed.
Lemma prof_split a s b : prof (a ++ s :: b) = prof a ++ (if used s then [s] else []) ++ prof b.
Proof. apply filter_split. Qed.
Lemma prof_in x l : In x (prof l) -> In x l.
Proof. intros I. apply filter_In in I. tauto. Qed.
Lemma slots_put a s b x : length (a ++ s :: b) = MAX_PDP -> (forall y, In y (a ++ s :: b) -> (0 <= sl_ctx y <= 10)%Z) -> (0 <= sl_ctx x <= 10)%Z ->
  length (a ++ x :: b) = MAX_PDP /\ forall y, In y (a ++ x :: b) -> (0 <= sl_ctx y <= 10)%Z.
Proof.
  intros L C X. split; [rewrite app_length in *; cbn in *; auto|]. intros y I. apply in_app_or in I as [I|[<-|I]]; auto; apply C, in_or_app; [left|right; right]; auto.
Qed.
Lemma pdp_enter p id n : pdp_ok p -> (1 <= id <= 10)%Z -> slot_of id (pd_slots p) = None -> slot_of 0 (pd_slots p) = Some n ->
  pdp_ok (mk_pdp (pd_on p) (slot_put n (mk_pslot id None) (pd_slots p)) (S (pd_num p))).
Proof.
  intros (L & C & D & U) R N F. destruct (slot_of_split _ _ _ F) as (a & s & b & E & La & Cs & Ha).
  rewrite profiles_prof in *. unfold pdp_ok. rewrite profiles_prof. cbn [pd_slots pd_num]. rewrite E in *. rewrite <- La, slot_put_split.
  destruct (slots_put a s b (mk_pslot id None) L C) as [L' C']; [cbn; lia|]. split; auto. split; auto.
  rewrite prof_split in *. replace (used s) with false in * by (unfold used; rewrite Cs; reflexivity).
  replace (used (mk_pslot id None)) with true by (unfold used; cbn; symmetry; apply negb_true_iff, Z.eqb_neq; lia). cbn [app] in *. split.
  - rewrite map_app in *. cbn [map sl_ctx]. apply NoDup_Add with (a := id) (l := map sl_ctx (prof a) ++ map sl_ctx (prof b)); [apply Add_app|].
    split; auto. rewrite <- map_app. intros I. apply in_map_iff in I as (x & Ex & I). apply (slot_of_none _ _ N x); auto.
    apply in_app_or in I as [I|I]; apply prof_in in I; apply in_or_app; [left|right; right]; auto.
  - rewrite U, !app_length. cbn. lia.
Qed.
Lemma pdp_del p id n : pdp_ok p -> (1 <= id <= 10)%Z -> slot_of id (pd_slots p) = Some n ->
  pdp_ok (mk_pdp (pd_on p) (slot_put n (mk_pslot 0 None) (pd_slots p)) (pd_num p - 1)).
Proof.
  intros (L & C & D & U) R F. destruct (slot_of_split _ _ _ F) as (a & s & b & E & La & Cs & Ha).
  rewrite profiles_prof in *. unfold pdp_ok. rewrite profiles_prof. cbn [pd_slots pd_num]. rewrite E in *. rewrite <- La, slot_put_split.
  destruct (slots_put a s b (mk_pslot 0 None) L C) as [L' C']; [cbn; lia|]. split; auto. split; auto.
  rewrite prof_split in *. replace (used s) with true in * by (unfold used; rewrite Cs; symmetry; apply negb_true_iff, Z.eqb_neq; lia).
  replace (used (mk_pslot 0 None)) with false by reflexivity. cbn [app] in *. split.
  - rewrite map_app in *. cbn [map] in D. apply NoDup_remove_1 in D. auto.
  - rewrite U, !app_length. cbn. lia.
Qed.
Lemma nth_split_at {A} (l : list A) n s : nth_error l n = Some s -> exists a b, l = a ++ s :: b /\ length a = n.
Proof. apply nth_error_split. Qed.
Lemma pdp_apn p n s x : pdp_ok p -> nth_error (pd_slots p) n = Some s -> pdp_ok (mk_pdp (pd_on p) (slot_put n (mk_pslot (sl_ctx s) x) (pd_slots p)) (pd_num p)).
Proof.
  intros (L & C & D & U) F. destruct (nth_error_split _ _ F) as (a & b & E & La).
  rewrite profiles_prof in *. unfold pdp_ok. rewrite profiles_prof. cbn [pd_slots pd_num]. rewrite E in *. rewrite <- La, slot_put_split.
  destruct (slots_put a s b (mk_pslot (sl_ctx s) x) L C) as [L' C']; [cbn; apply C, in_or_app; right; left; auto|]. split; auto. split; auto.
  rewrite prof_split in *. change (used (mk_pslot (sl_ctx s) x)) with (used s). rewrite U, !app_length. rewrite !map_app in *. destruct (used s); cbn in *; auto.
Qed.
Lemma pdp_on p b : pdp_ok p -> pdp_ok (mk_pdp b (pd_slots p) (pd_num p)).
Proof. auto. Qed.

(** ** Services *)
Definition m_texts (m : msc) : Prop :=
  (mkey m = [] \/ exists ws, msc_name ws /\ mkey m = bytes_of (join ws) ++ [nul]) /\
  forall x, In x (m_svcs m) -> is_word (sv_name x) /\ (String.length (sv_name x) <= 64)%nat.
Definition mscs_ok (l : list msc) : Prop := cfg_inv l /\ forall m, In m l -> m_texts m.
Definition vnode_ok (n : option string) : Prop := match n with None => True | Some s => exists ws, s = join ws /\ msc_name ws end.
Lemma vnode_plain n : vnode_ok n -> plain_node n.
Proof.
  destruct n as [s|]; cbn; auto. intros (ws & -> & _ & _ & L & H). split; auto. intros k E. destruct (H _ _ E). congruence.
Qed.
Definition vcmd_words (x : vcmd) : Prop := vnode_ok (node_of x) /\ match x with VSet _ s _ => is_word s | _ => True end.
Lemma mscs_run l x b l' : mscs_ok l -> vcmd_words x -> vcmd_run l x = Val (b, l') -> mscs_ok l'.
Proof.
  intros [C T] [V W] R. pose proof (vnode_plain _ V) as P. destruct (vcmd_step l x C P) as (b0 & l0 & R0 & C0 & _). rewrite R0 in R. injection R as <- <-.
  split; auto. intros m I. destruct (node_plain _ P) as (k & Ek & Wk & Bk).
  assert (T1 : forall y, In y (msc_create l k) -> m_texts y).
  { intros y. unfold msc_create. destruct (msc_get l k); [apply T|]. intros J. apply in_app_or in J as [J|[<-|[]]]; [auto|]. split; [|intros z []].
    unfold mkey. cbn. rewrite Bk. destruct (node_of x) as [s|]; cbn; auto. right. cbn in V. destruct V as (ws & -> & V). eauto. }
  assert (ED : forall n f, (forall y z, In y (msc_create l k) -> In z (f (m_svcs y)) -> is_word (sv_name z) /\ (String.length (sv_name z) <= 64)%nat) ->
             In m (msc_edit (msc_create l k) n f) -> m_texts m).
  { intros n f F J. apply msc_edit_in in J as [J|(y & J & ->)]; [auto|]. split; [apply (T1 y J)|]. intros z. cbn. apply F; auto. }
  destruct x as [s|n s a|n s|n s a]; cbn [vcmd_run node_of] in *; rewrite Ek in R0; cbn in R0.
  - injection R0 as <- <-. auto.
  - destruct (negb (sa_nonzero a)); [injection R0 as <- <-; auto|]. unfold service_set in R0.
    destruct ((s =? "")%string || (SERVICE_MAXLEN <? String.length s)%nat || negb (sa_nonzero a)) eqn:Q; injection R0 as <- <-; [auto|].
    apply orb_false_iff in Q as [Q _]. apply orb_false_iff in Q as [_ Q]. apply Nat.ltb_ge in Q. apply (ED k (fun l1 => svc_put l1 s a)); auto.
    intros y z J K. apply svc_put_in in K as [K|(z0 & K & N & ->)]; [apply (T1 y J); auto|].
    assert (SN : sv_name (svc_assign z0 a) = sv_name z0) by (destruct a; reflexivity). rewrite SN, N. auto.
  - unfold service_del in R0. destruct (msc_get (msc_create l k) k); injection R0 as <- <-; [|auto]. apply (ED k (svc_del (Some s) None)); auto.
    intros y z J K. apply svc_del_in in K as (z0 & K & N). rewrite (svc_del1_name _ _ _ _ N). apply (T1 y J); auto.
  - destruct (negb (sa_nonzero a)); [injection R0 as <- <-; auto|].
    unfold service_del in R0. destruct (msc_get (msc_create l k) k); injection R0 as <- <-; [|auto]. apply (ED k (svc_del (Some s) (Some a))); auto.
    intros y z J K. apply svc_del_in in K as (z0 & K & N). rewrite (svc_del1_name _ _ _ _ N). apply (T1 y J); auto.
Qed.
