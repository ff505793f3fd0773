(** Proofs about the lookup server: addresses, ages, service configuration (C44, C48). *)
From Verif Require Import Base PeerId Router Db DbSpec DbProofs DbThms DbThms2 DbThms3 PeerSpec PeerThms MsLookup MsThms Mdns MdnsThms Proxy MsServer MsServerSpec.
Local Open Scope string_scope. Local Open Scope list_scope. Local Open Scope Z_scope.

(** ** Ages *)
Lemma c44 now ts : int64 (now - ts) = true ->
  timestamp_age now ts = Val (if (0 <=? now - ts) && (now - ts <=? UINT32_MAX) then Some (now - ts) else None).
Proof.
  intros H. unfold timestamp_age. rewrite H. cbn [negb].
  destruct (Z.leb_spec 0 (now - ts)), (Z.leb_spec (now - ts) UINT32_MAX); cbn [andb];
    (destruct (Z.ltb_spec (now - ts) 0), (Z.ltb_spec UINT32_MAX (now - ts)); cbn [orb]; try reflexivity; lia).
Qed.
Lemma c44_iff now ts : - 2 ^ 63 <= now - ts < 2 ^ 63 -> exists r, timestamp_age now ts = Val r /\
  forall age, r = Some age <-> age = now - ts /\ 0 <= age <= 2 ^ 32 - 1.
Proof.
  intros H. rewrite c44. 2: { unfold int64. apply andb_true_intro. split; [apply Z.leb_le|apply Z.ltb_lt]; lia. }
  eexists. split; [reflexivity|]. intros age. unfold UINT32_MAX.
  destruct (Z.leb_spec 0 (now - ts)), (Z.leb_spec (now - ts) (2 ^ 32 - 1)); cbn [andb]; split; intros E; try discriminate E;
    try (injection E as <-; lia); try (destruct E as [-> E]; try reflexivity; lia).
Qed.

(** ** Addresses *)
Lemma all_zero_spec l : all_zero l = true <-> forall x, In x l -> x = 0%N.
Proof.
  induction l as [|y l IH]; cbn [all_zero]; [split; [intros _ x []|auto]|].
  rewrite andb_true_iff, IH, N.eqb_eq. split.
  - intros [-> H] x [<-|I]; auto.
  - intros H. split; [apply H; now left|intros x I; apply H; now right].
Qed.
Lemma not_all_zero l : all_zero l = false <-> exists x, In x l /\ x <> 0%N.
Proof.
  induction l as [|y l IH]; cbn [all_zero]; [split; [discriminate|intros (x & [] & _)]|].
  destruct (N.eqb_spec y 0) as [->|D]; cbn [andb].
  - rewrite IH. split; intros (x & I & D); exists x; split; auto; [now right|]. destruct I as [<-|I]; [congruence|auto].
  - split; auto. intros _. exists y. split; [now left|auto].
Qed.
Lemma nonzero_iff a : sa_nonzero a = true <-> usable a.
Proof.
  destruct a as [|ip p|ip p]; cbn [sa_nonzero usable]; [split; [discriminate|tauto]| |];
    rewrite andb_true_iff, !negb_true_iff, not_all_zero, N.eqb_neq; tauto.
Qed.
Lemma usable_dec a : usable a \/ ~ usable a.
Proof. destruct (sa_nonzero a) eqn:E; [left; apply nonzero_iff; auto|right; intros U; apply nonzero_iff in U; congruence]. Qed.
Lemma sa_eqb_iff a b : sa_eqb a b = true <-> a = b.
Proof.
  destruct a as [|i p|i p], b as [|j r|j r]; cbn [sa_eqb]; try (split; congruence); [|];
    rewrite andb_true_iff, N.eqb_eq; (split; [intros [E ->]; apply octets_eqb_eq in E; congruence|intros [= -> ->]; split; auto; apply octets_eqb_refl]).
Qed.

(** ** Service entries *)
Definition svcs_ok (l : list svc) : Prop :=
  NoDup (map sv_name l) /\ forall e, In e l ->
    (usable (sv_v4 e) \/ sv_v4 e = SaNone) /\ (usable (sv_v6 e) \/ sv_v6 e = SaNone) /\
    (usable (sv_v4 e) \/ usable (sv_v6 e)) /\ of_fam (sv_v4 e) = F4 /\ (of_fam (sv_v6 e) = F6 \/ sv_v6 e = SaNone).

Lemma svc_get_put l s a s' : svc_get (svc_put l s a) s' =
  if (s =? s')%string then Some (svc_assign (match svc_get l s with Some e => e | None => mk_svc s SaNone SaNone end) a) else svc_get l s'.
Proof.
  assert (SA : forall e, sv_name (svc_assign e a) = sv_name e) by (intros e; destruct a; reflexivity).
  unfold svc_get. induction l as [|e l IH]; cbn [svc_put find].
  - rewrite SA. cbn [sv_name]. destruct (s =? s')%string; auto.
  - destruct (String.eqb_spec (sv_name e) s) as [E|E]; cbn [find].
    + rewrite SA. rewrite E. destruct (s =? s')%string; auto.
    + destruct (String.eqb_spec (sv_name e) s') as [E'|E']; [|apply IH].
      destruct (String.eqb_spec s s'); [congruence|auto].
Qed.
Lemma svc_put_in l s a e : In e (svc_put l s a) -> In e l \/
  exists e0, (In e0 l \/ e0 = mk_svc s SaNone SaNone) /\ sv_name e0 = s /\ e = svc_assign e0 a.
Proof.
  induction l as [|x l IH]; cbn [svc_put].
  - intros [<-|[]]. right. eexists. split; [right; reflexivity|]. split; reflexivity.
  - destruct (String.eqb_spec (sv_name x) s) as [E|E]; intros [<-|I].
    + right. exists x. split; [left; now left|]. auto.
    + left. now right.
    + left. now left.
    + destruct (IH I) as [J|(e0 & [J| ->] & N0 & E0)]; [left; now right| |]; right; [exists e0; split; [left; now right|auto]|].
      exists (mk_svc s SaNone SaNone). split; [now right|auto].
Qed.
Lemma svc_put_names l s a : map sv_name (svc_put l s a) = map sv_name l \/
  (map sv_name (svc_put l s a) = map sv_name l ++ [s] /\ ~ In s (map sv_name l)).
Proof.
  assert (SA : forall e, sv_name (svc_assign e a) = sv_name e) by (intros e; destruct a; reflexivity).
  induction l as [|x l IH]; cbn [svc_put map].
  - right. rewrite SA. split; auto.
  - destruct (String.eqb_spec (sv_name x) s) as [E|E]; cbn [map]; [left; rewrite SA; auto|].
    destruct IH as [-> | [-> N]]; [left; auto|right]. split; auto. intros [H|H]; auto.
Qed.
Lemma svcs_put_ok l s a : svcs_ok l -> usable a -> svcs_ok (svc_put l s a).
Proof.
  intros [D H] U. split.
  - destruct (svc_put_names l s a) as [-> | [-> N]]; auto. apply NoDup_snoc; auto.
  - intros e I. apply svc_put_in in I as [I|(e0 & I & _ & ->)]; [auto|].
    assert (P : (usable (sv_v4 e0) \/ sv_v4 e0 = SaNone) /\ (usable (sv_v6 e0) \/ sv_v6 e0 = SaNone) /\
                of_fam (sv_v4 e0) = F4 /\ (of_fam (sv_v6 e0) = F6 \/ sv_v6 e0 = SaNone)).
    { destruct I as [I| ->]; [destruct (H e0 I) as (? & ? & ? & ? & ?); tauto|cbn; tauto]. }
    destruct a as [|ip p|ip p]; cbn [svc_assign sv_v4 sv_v6 of_fam]; [destruct U| |]; tauto.
Qed.
Lemma svc_get_in l s e : NoDup (map sv_name l) -> (svc_get l s = Some e <-> In e l /\ sv_name e = s).
Proof.
  intros D. unfold svc_get. split.
  - intros F. apply find_some in F as [I E]. apply String.eqb_eq in E. auto.
  - intros [I E]. apply find_unique; auto; [apply String.eqb_eq; auto|]. intros y Iy Ey. apply String.eqb_eq in Ey.
    eapply NoDup_key_inj; eauto. congruence.
Qed.
Lemma svc_del1_name s a e e' : svc_del1 s a e = Some e' -> sv_name e' = sv_name e.
Proof.
  unfold svc_del1. destruct (match s with Some x => negb (x =? sv_name e)%string | None => false end); [intros [= <-]; auto|].
  destruct a as [a|]; [|discriminate]. destruct (sa_eqb a (sv_v4 e)), (sa_nonzero (sv_v6 e)), (sa_eqb a (sv_v6 e)), (sa_nonzero (sv_v4 e));
    intros E; inversion E; reflexivity.
Qed.
Lemma svc_del_in s a l e' : In e' (svc_del s a l) <-> exists e, In e l /\ svc_del1 s a e = Some e'.
Proof.
  unfold svc_del. rewrite in_flat_map. split; intros (e & I & H); exists e; split; auto.
  - destruct (svc_del1 s a e); [|destruct H]. destruct H as [->|[]]. auto.
  - rewrite H. now left.
Qed.
Lemma svc_del_nodup s a l : NoDup (map sv_name l) -> NoDup (map sv_name (svc_del s a l)).
Proof.
  unfold svc_del. induction l as [|e l IH]; cbn [flat_map map]; [auto|]. intros H. inversion H as [|? ? N D]; subst.
  destruct (svc_del1 s a e) as [e'|] eqn:E; cbn [app map]; [|apply IH; auto]. constructor; [|apply IH; auto].
  rewrite (svc_del1_name _ _ _ _ E). intros I. apply N. apply in_map_iff in I as (x & Ex & Ix).
  apply (proj1 (svc_del_in s a l x)) in Ix as (y & Iy & Ey). rewrite <- Ex, (svc_del1_name _ _ _ _ Ey). apply in_map. auto.
Qed.
Lemma svc_get_del s a l s' : NoDup (map sv_name l) -> svc_get (svc_del s a l) s' = match svc_get l s' with Some e => svc_del1 s a e | None => None end.
Proof.
  intros D. pose proof (svc_del_nodup s a l D) as D'.
  destruct (svc_get (svc_del s a l) s') as [e'|] eqn:F'.
  - apply (proj1 (svc_get_in _ _ _ D')) in F' as [I N]. apply svc_del_in in I as (e & I & E).
    rewrite (proj2 (svc_get_in l s' e D)); [auto|]. split; auto. rewrite <- N. symmetry. eapply svc_del1_name; eauto.
  - destruct (svc_get l s') as [e|] eqn:F; auto. apply (proj1 (svc_get_in _ _ _ D)) in F as [I N].
    destruct (svc_del1 s a e) as [e'|] eqn:E; auto. exfalso.
    assert (C : svc_get (svc_del s a l) s' = Some e'). { apply svc_get_in; auto. split; [apply svc_del_in; eauto|]. rewrite (svc_del1_name _ _ _ _ E). auto. }
    congruence.
Qed.
Lemma svcs_del_ok s a l : svcs_ok l -> svcs_ok (svc_del s a l).
Proof.
  intros [D H]. split; [apply svc_del_nodup; auto|]. intros e' I. apply svc_del_in in I as (e & I & E). destruct (H e I) as (A & B & C & F & G).
  unfold svc_del1 in E. destruct (match s with Some x => negb (x =? sv_name e)%string | None => false end); [injection E as <-; tauto|].
  destruct a as [a|]; [|discriminate].
  destruct (sa_eqb a (sv_v4 e)).
  - destruct (sa_nonzero (sv_v6 e)) eqn:Z; [|discriminate]. injection E as <-. apply nonzero_iff in Z. cbn. tauto.
  - destruct (sa_eqb a (sv_v6 e)); [|injection E as <-; tauto].
    destruct (sa_nonzero (sv_v4 e)) eqn:Z; [|discriminate]. injection E as <-. apply nonzero_iff in Z. cbn. tauto.
Qed.

(** ** MSCs *)
Lemma is_msc_iff n m : ipa_wf n -> ipa_wf (m_name m) -> (is_msc n m = true <-> ipa_bytes (m_name m) = ipa_bytes n).
Proof.
  intros A B. unfold is_msc. rewrite Z.eqb_eq. destruct (ipa_cmp_cases (m_name m) n B A) as [[E H]|[[E H]|[E H]]]; [tauto| |].
  - split; [lia|]. intros X. rewrite X in H. destruct (bytes_lt_irrefl _ H).
  - split; [lia|]. intros X. rewrite X in H. destruct (bytes_lt_irrefl _ H).
Qed.
Definition mkey (m : msc) : list ascii := ipa_bytes (m_name m).
Definition cfg_inv (c : list msc) : Prop := NoDup (map mkey c) /\ forall m, In m c -> ipa_wf (m_name m) /\ svcs_ok (m_svcs m).
Lemma cfg_inv_ok c : cfg_inv c <-> cfg_ok c.
Proof.
  unfold cfg_inv, cfg_ok, svcs_ok. change (map mkey c) with (map (fun m => ipa_bytes (m_name m)) c). firstorder.
Qed.
Lemma msc_get_in c n m : cfg_inv c -> ipa_wf n -> (msc_get c n = Some m <-> In m c /\ mkey m = ipa_bytes n).
Proof.
  intros [D H] W. unfold msc_get. split.
  - intros F. apply find_some in F as [I E]. split; auto. apply (is_msc_iff n m) in E; auto. apply H; auto.
  - intros [I E]. apply find_unique; auto; [apply is_msc_iff; auto; apply H; auto|]. intros y Iy Ey. apply (is_msc_iff n y) in Ey; auto; [|apply H; auto].
    eapply NoDup_key_inj with (f := mkey); eauto. unfold mkey in *. congruence.
Qed.
Lemma msc_create_inv c n : cfg_inv c -> ipa_wf n -> cfg_inv (msc_create c n).
Proof.
  intros C W. unfold msc_create. destruct (msc_get c n) as [m|] eqn:F; auto. pose proof C as [D H]. split.
  - rewrite map_app. apply NoDup_snoc; auto. intros I. apply in_map_iff in I as (m & E & I).
    assert (X : msc_get c n = Some m) by (apply msc_get_in; auto). congruence.
  - intros m I. apply in_app_or in I as [I|[<-|[]]]; auto. split; auto. split; [constructor|intros e []].
Qed.
Lemma msc_create_get c n n' : msc_get (msc_create c n) n' =
  match msc_get c n' with Some m => Some m | None => match msc_get c n with Some _ => None | None => if ipa_cmp n n' =? 0 then Some (mk_msc n []) else None end end.
Proof.
  unfold msc_create. destruct (msc_get c n) as [m|] eqn:F; [destruct (msc_get c n'); auto|].
  unfold msc_get. clear F. induction c as [|x c IH]; cbn [app find]; [reflexivity|]. destruct (is_msc n' x); auto.
Qed.
Lemma service_create c n n' s : service_get (msc_create c n) n' s = service_get c n' s.
Proof.
  unfold service_get. rewrite msc_create_get. destruct (msc_get c n'); auto. destruct (msc_get c n); auto.
  destruct (ipa_cmp n n' =? 0); auto.
Qed.
Lemma msc_create_found c n : cfg_inv c -> ipa_wf n -> exists m, msc_get (msc_create c n) n = Some m.
Proof.
  intros C W. rewrite msc_create_get. destruct (msc_get c n); eauto.
  assert (E : ipa_cmp n n = 0) by (destruct (c27_order n n n W W W) as [E _]; auto). rewrite E. cbn. eauto.
Qed.
Lemma msc_edit_names c n f : map m_name (msc_edit c n f) = map m_name c.
Proof. induction c as [|x c IH]; cbn [msc_edit map]; auto. destruct (is_msc n x); cbn [map]; [auto|rewrite IH; auto]. Qed.
Lemma msc_edit_in c n f m : In m (msc_edit c n f) -> In m c \/ exists m0, In m0 c /\ m = mk_msc (m_name m0) (f (m_svcs m0)).
Proof.
  induction c as [|x c IH]; cbn [msc_edit]; [intros []|]. destruct (is_msc n x); intros [<-|I].
  - right. exists x. split; [now left|auto].
  - left. now right.
  - left. now left.
  - destruct (IH I) as [J|(m0 & J & E)]; [left; now right|right; exists m0; split; [now right|auto]].
Qed.
Lemma msc_edit_inv c n f : cfg_inv c -> (forall l, svcs_ok l -> svcs_ok (f l)) -> cfg_inv (msc_edit c n f).
Proof.
  intros [D H] F. split.
  - change mkey with (fun m => ipa_bytes (m_name m)). rewrite <- (map_map m_name ipa_bytes), msc_edit_names, map_map. auto.
  - intros m I. apply msc_edit_in in I as [I|(m0 & I & ->)]; [auto|]. cbn. destruct (H m0 I). auto.
Qed.
Lemma msc_edit_get c n f n' : cfg_inv c -> ipa_wf n -> ipa_wf n' -> msc_get (msc_edit c n f) n' =
  if bytes_eqb (ipa_bytes n) (ipa_bytes n')
  then match msc_get c n with Some m => Some (mk_msc (m_name m) (f (m_svcs m))) | None => None end else msc_get c n'.
Proof.
  intros C W W'. unfold bytes_eqb. destruct (list_eq_dec ascii_dec (ipa_bytes n) (ipa_bytes n')) as [E|E].
  - destruct C as [_ H]. unfold msc_get. induction c as [|x c IH]; cbn [msc_edit find]; auto.
    assert (X : is_msc n' x = is_msc n x).
    { assert (Wx : ipa_wf (m_name x)) by (apply H; now left). pose proof (is_msc_iff n x W Wx) as P. pose proof (is_msc_iff n' x W' Wx) as Q. rewrite <- E in Q.
      destruct (is_msc n x), (is_msc n' x); auto; [apply Q, P; auto|symmetry; apply P, Q; auto]. }
    destruct (is_msc n x) eqn:Ex; cbn [find].
    + replace (is_msc n' (mk_msc (m_name x) (f (m_svcs x)))) with (is_msc n' x) by reflexivity. rewrite X. auto.
    + rewrite X. apply IH. intros m I. apply H. now right.
  - destruct C as [_ H]. unfold msc_get. induction c as [|x c IH]; cbn [msc_edit find]; auto.
    assert (Wx : ipa_wf (m_name x)) by (apply H; now left).
    destruct (is_msc n x) eqn:Ex; cbn [find].
    + replace (is_msc n' (mk_msc (m_name x) (f (m_svcs x)))) with (is_msc n' x) by reflexivity.
      assert (X : is_msc n' x = false).
      { destruct (is_msc n' x) eqn:Ex'; auto. apply (is_msc_iff n x W Wx) in Ex. apply (is_msc_iff n' x W' Wx) in Ex'. congruence. }
      rewrite X. auto.
    + destruct (is_msc n' x); auto. apply IH. intros m I. apply H. now right.
Qed.

(** ** C48 *)
Definition nkey (n : option string) : list ascii := match n with None => [] | Some s => bytes_of s ++ [nul] end.
Lemma bytes_of_inj a b : bytes_of a = bytes_of b -> a = b.
Proof. intros E. rewrite <- (str_bytes a), E. apply str_bytes. Qed.
Lemma nkey_inj n n' : nkey n = nkey n' -> n = n'.
Proof.
  destruct n as [a|], n' as [b|]; cbn [nkey]; auto.
  - intros E. apply app_inj_tail in E as [E _]. apply bytes_of_inj in E. congruence.
  - intros E. destruct (bytes_of a); discriminate.
  - intros E. destruct (bytes_of b); discriminate.
Qed.
Lemma take_all k s : (String.length s <= k)%nat -> str_take k s = s.
Proof.
  revert s. induction k as [|k IH]; intros [|c s] L; cbn [String.length] in L; auto; try lia.
  change (str_take (S k) (String c s)) with (String c (str_take k s)). rewrite IH; auto. lia.
Qed.
Lemma node_plain n : plain_node n -> exists m, node_name n = Some m /\ ipa_wf m /\ ipa_bytes m = nkey n.
Proof.
  destruct n as [s|]; cbn [plain_node node_name nkey].
  - intros [L P]. destruct (ipa_set_str_plain ipa_empty (Some s)) as [m E]; [intros t [= <-]; auto|]. exists m. split; auto.
    destruct (ipa_set_str_bytes _ _ _ ipa_empty_wf E) as [W T]. split; auto. rewrite take_all in T by auto. apply T.
  - intros _. eexists. split; [reflexivity|]. split; [apply ipa_empty_wf|reflexivity].
Qed.
Definition ent (c : list msc) (n : option string) (s : string) : option svc :=
  match node_name n with Some m => service_get c m s | None => None end.
Lemma opt_string_dec (a b : option string) : {a = b} + {a <> b}.
Proof. decide equality. apply string_dec. Defined.

Lemma ent_create c m n s : ent (msc_create c m) n s = ent c n s.
Proof. unfold ent. destruct (node_name n); auto. apply service_create. Qed.
Lemma ent_edit c n' m f n s : cfg_inv c -> plain_node n -> plain_node n' -> node_name n' = Some m -> (exists x, msc_get c m = Some x) -> (f [] = [] \/ True) ->
  ent (msc_edit c m f) n s = if opt_string_dec n' n then match msc_get c m with Some x => svc_get (f (m_svcs x)) s | None => None end else ent c n s.
Proof.
  intros C P P' E [x X] _. destruct (node_plain n P) as (k & Ek & Wk & Bk). destruct (node_plain n' P') as (m0 & Em & Wm & Bm).
  assert (m0 = m) by congruence. subst m0. unfold ent. rewrite Ek. unfold service_get. rewrite (msc_edit_get c m f k C Wm Wk).
  unfold bytes_eqb. rewrite Bk, Bm. destruct (list_eq_dec ascii_dec (nkey n') (nkey n)) as [K|K].
  - apply nkey_inj in K. subst n'. destruct (opt_string_dec n n); [|congruence]. rewrite X. auto.
  - destruct (opt_string_dec n' n) as [->|]; [congruence|auto].
Qed.
Lemma ent_msc c n m x s : plain_node n -> node_name n = Some m -> msc_get c m = Some x -> ent c n s = svc_get (m_svcs x) s.
Proof. intros P E X. unfold ent, service_get. rewrite E, X. auto. Qed.
Lemma ent_nodup c n m x : cfg_inv c -> node_name n = Some m -> ipa_wf m -> msc_get c m = Some x -> svcs_ok (m_svcs x).
Proof. intros C E W X. apply (msc_get_in c m x C W) in X as [I _]. apply C in I. tauto. Qed.

Definition set_ok (s : string) (a : sa) : bool := negb ((s =? "")%string || (SERVICE_MAXLEN <? String.length s)%nat || negb (sa_nonzero a)).
Lemma set_ok_iff s a : set_ok s a = true <-> good_entry s a.
Proof.
  unfold set_ok, good_entry, SERVICE_MAXLEN. rewrite negb_true_iff, !orb_false_iff, negb_false_iff, nonzero_iff, String.eqb_neq, Nat.ltb_ge. tauto.
Qed.
Definition vdel (c : list msc) (n : option string) (s : string) (a : option sa) : bool :=
  match ent c n s with Some e => negb (is_some (svc_del1 (Some s) a e)) | None => false end.

Lemma del_count s a l : NoDup (map sv_name l) -> (Z.of_nat (length (filter (fun e => negb (is_some (svc_del1 (Some s) a e))) l)) <? 1) =
  negb (match svc_get l s with Some e => negb (is_some (svc_del1 (Some s) a e)) | None => false end).
Proof.
  intros D. destruct (svc_get l s) as [e|] eqn:F.
  - apply (proj1 (svc_get_in _ _ _ D)) in F as [I N]. destruct (svc_del1 (Some s) a e) as [e'|] eqn:E; cbn [is_some negb].
    + assert (X : filter (fun e => negb (is_some (svc_del1 (Some s) a e))) l = []).
      { destruct (filter _ l) as [|y r] eqn:X; auto. exfalso. assert (J : In y (y :: r)) by now left. rewrite <- X in J.
        apply filter_In in J as [J K]. assert (Y : y = e \/ sv_name y <> s).
        { destruct (string_dec (sv_name y) s); auto. left. eapply NoDup_key_inj; eauto. congruence. }
        destruct Y as [-> | Y]; [rewrite E in K; discriminate|]. unfold svc_del1 in K. destruct (String.eqb_spec s (sv_name y)); [congruence|discriminate]. }
      rewrite X. reflexivity.
    + destruct (filter _ l) as [|y r] eqn:X; [|cbn [length]; apply Z.ltb_ge; lia]. exfalso.
      assert (J : In e []). { rewrite <- X. apply filter_In. rewrite E. auto. } destruct J.
  - assert (X : filter (fun e => negb (is_some (svc_del1 (Some s) a e))) l = []).
    { destruct (filter _ l) as [|y r] eqn:X; auto. exfalso. assert (J : In y (y :: r)) by now left. rewrite <- X in J.
      apply filter_In in J as [J K]. unfold svc_del1 in K. destruct (String.eqb_spec s (sv_name y)) as [Y|Y]; [|discriminate].
      assert (svc_get l s = Some y) by (apply svc_get_in; auto). congruence. }
    rewrite X. reflexivity.
Qed.

(** one command *)
Lemma vcmd_step c x : cfg_inv c -> plain_node (node_of x) -> exists b c', vcmd_run c x = Val (b, c') /\ cfg_inv c' /\
  b = match x with VMsc _ => true | VSet _ s a => set_ok s a | VNo n s => vdel c n s None | VNoAt n s a => sa_nonzero a && vdel c n s (Some a) end /\
  forall n s, plain_node n -> ent c' n s =
    match x with
    | VMsc _ => ent c n s
    | VSet n' s' a => if opt_string_dec n' n then if (s' =? s)%string && set_ok s' a
                        then Some (svc_assign (match ent c n s with Some e => e | None => mk_svc s SaNone SaNone end) a) else ent c n s else ent c n s
    | VNo n' s' => if opt_string_dec n' n then if (s' =? s)%string then None else ent c n s else ent c n s
    | VNoAt n' s' a => if opt_string_dec n' n then if sa_nonzero a then match ent c n s with Some e => svc_del1 (Some s') (Some a) e | None => None end else ent c n s else ent c n s
    end.
Proof.
  intros C P. destruct (node_plain _ P) as (m & Em & Wm & Bm).
  pose proof (msc_create_inv c m C Wm) as C1. destruct (msc_create_found c m C Wm) as [z Z1].
  destruct x as [t|n' s' a|n' s'|n' s' a]; cbn [vcmd_run node_of] in *; rewrite Em.
  - do 2 eexists. split; [reflexivity|]. split; auto. split; auto. intros n s Pn. apply ent_create.
  - unfold service_set. fold (set_ok s' a). destruct (sa_nonzero a) eqn:Na; cbn [negb].
    + destruct (set_ok s' a) eqn:G.
      * assert (G' := G). unfold set_ok in G'. apply negb_true_iff in G'. rewrite Na in G'. cbn [negb] in G'. rewrite G'.
        do 2 eexists. split; [reflexivity|]. split; [|split; auto].
        { apply msc_edit_inv; auto. intros l L. apply svcs_put_ok; auto. apply nonzero_iff; auto. }
        intros n s Pn. rewrite (ent_edit _ n' m _ n s C1 Pn P Em (ex_intro _ z Z1) (or_intror I)). rewrite ent_create, Z1.
        destruct (opt_string_dec n' n) as [->|]; auto. rewrite svc_get_put. destruct (String.eqb_spec s' s) as [->|D]; cbn [andb].
        -- rewrite <- (ent_msc (msc_create c m) n m z s Pn Em Z1), ent_create. auto.
        -- rewrite <- (ent_msc (msc_create c m) n m z s Pn Em Z1), ent_create. auto.
      * assert (G' := G). unfold set_ok in G'. apply negb_false_iff in G'. rewrite Na in G'. cbn [negb] in G'. rewrite G'.
        do 2 eexists. split; [reflexivity|]. split; auto. split; [reflexivity|]. intros n s Pn. rewrite ent_create, andb_false_r. destruct (opt_string_dec n' n); auto.
    + assert (G : set_ok s' a = false). { unfold set_ok. rewrite Na. cbn [negb]. rewrite orb_true_r. auto. }
      do 2 eexists. split; [reflexivity|]. split; auto. split; [auto|]. intros n s Pn. rewrite ent_create, G, andb_false_r. destruct (opt_string_dec n' n); auto.
  - unfold service_del. rewrite Z1. pose proof (ent_nodup _ n' m z C1 Em Wm Z1) as O. do 2 eexists. split; [reflexivity|]. split; [|split].
    + apply msc_edit_inv; auto. intros l L. apply svcs_del_ok; auto.
    + unfold vdel. rewrite <- (ent_create c m n' s'), (ent_msc _ n' m z s' P Em Z1). rewrite del_count by apply O. apply negb_involutive.
    + intros n s Pn. rewrite (ent_edit _ n' m _ n s C1 Pn P Em (ex_intro _ z Z1) (or_intror I)). rewrite ent_create, Z1.
      destruct (opt_string_dec n' n) as [->|]; auto. rewrite svc_get_del by apply O. rewrite <- (ent_msc (msc_create c m) n m z s Pn Em Z1), ent_create.
      destruct (ent c n s) as [e|] eqn:E.
      * unfold svc_del1. assert (N : sv_name e = s).
        { rewrite <- (ent_create c m n s), (ent_msc _ n m z s Pn Em Z1) in E. apply (proj1 (svc_get_in _ _ _ (proj1 O))) in E. tauto. }
        rewrite N. destruct (s' =? s)%string; auto.
      * destruct (s' =? s)%string; auto.
  - destruct (sa_nonzero a) eqn:Na; cbn [negb andb].
    + unfold service_del. rewrite Z1. pose proof (ent_nodup _ n' m z C1 Em Wm Z1) as O. do 2 eexists. split; [reflexivity|]. split; [|split].
      * apply msc_edit_inv; auto. intros l L. apply svcs_del_ok; auto.
      * unfold vdel. rewrite <- (ent_create c m n' s'), (ent_msc _ n' m z s' P Em Z1). rewrite del_count by apply O. apply negb_involutive.
      * intros n s Pn. rewrite (ent_edit _ n' m _ n s C1 Pn P Em (ex_intro _ z Z1) (or_intror I)). rewrite ent_create, Z1.
        destruct (opt_string_dec n' n) as [->|]; auto. rewrite svc_get_del by apply O. rewrite <- (ent_msc (msc_create c m) n m z s Pn Em Z1), ent_create. auto.
    + do 2 eexists. split; [reflexivity|]. split; auto. split; auto. intros n s Pn. rewrite ent_create. destruct (opt_string_dec n' n); auto.
Qed.

Lemma found_ent c n s f a : found c n s f a <-> exists e, ent c n s = Some e /\ field f e = a /\ a <> SaNone.
Proof.
  unfold found, ent. split.
  - intros (m & e & E & G & F & N). exists e. rewrite E. auto.
  - intros (e & E & F & N). destruct (node_name n) as [m|]; [|discriminate]. exists m, e. auto.
Qed.
Lemma mapped_good h n s f a : mapped h n s f a -> good_entry s a /\ of_fam a = f.
Proof. induction 1; auto. Qed.
Lemma ent_ok c n s e : cfg_inv c -> plain_node n -> ent c n s = Some e ->
  sv_name e = s /\ (usable (sv_v4 e) \/ sv_v4 e = SaNone) /\ (usable (sv_v6 e) \/ sv_v6 e = SaNone) /\
  (usable (sv_v4 e) \/ usable (sv_v6 e)) /\ of_fam (sv_v4 e) = F4 /\ (of_fam (sv_v6 e) = F6 \/ sv_v6 e = SaNone).
Proof.
  intros C P E. destruct (node_plain n P) as (m & Em & Wm & _). unfold ent, service_get in E. rewrite Em in E.
  destruct (msc_get c m) as [z|] eqn:Z; [|discriminate]. pose proof (ent_nodup c n m z C Em Wm Z) as [D O].
  apply (proj1 (svc_get_in _ _ _ D)) in E as [I N]. split; [auto|]. apply O. auto.
Qed.
Lemma mapped_inv x h n s f a : mapped (x :: h) n s f a <->
  (x = VSet n s a /\ good_entry s a /\ of_fam a = f) \/
  (mapped h n s f a /\ match x with
    | VMsc _ => True
    | VSet n' s' a' => ~ (good_entry s' a' /\ n' = n /\ s' = s /\ of_fam a' = f)
    | VNo n' s' => ~ (n' = n /\ s' = s)
    | VNoAt n' s' a' => ~ (n' = n /\ s' = s /\ a' = a)
    end).
Proof.
  split.
  - intros M. inversion M; subst; [left|right]; auto.
  - intros [(-> & G & <-)|[M H]]; [apply map_set; auto|]. apply map_keep; auto.
Qed.
Lemma none_fam a f e : field f e = a -> a <> SaNone -> of_fam (sv_v4 e) = F4 -> (of_fam (sv_v6 e) = F6 \/ sv_v6 e = SaNone) -> of_fam a = f.
Proof. intros <- N A B. destruct f; cbn [field] in *; [auto|]. destruct B; [auto|congruence]. Qed.

Lemma c48_step c h x b c' : cfg_inv c -> plain_node (node_of x) -> vcmd_run c x = Val (b, c') ->
  (forall n s f a, plain_node n -> (found c n s f a <-> mapped h n s f a)) ->
  cfg_inv c' /\ forall n s f a, plain_node n -> (found c' n s f a <-> mapped (x :: h) n s f a).
Proof.
  intros C P R H. destruct (vcmd_step c x C P) as (b' & c2 & R' & C' & _ & S). assert (c2 = c') by congruence. subst c2.
  split; auto. intros n s f a Pn. rewrite found_ent, mapped_inv, S by auto. rewrite <- H, found_ent by auto.
  destruct x as [t|n' s' a'|n' s'|n' s' a'].
  - split; [intros E; right; auto|]. intros [[X _]|[E _]]; [discriminate|auto].
  - destruct (opt_string_dec n' n) as [->|Dn].
    2: { split; [intros E; right; split; auto; intros (_ & X & _); auto|]. intros [[X _]|[E _]]; [congruence|auto]. }
    destruct (String.eqb_spec s' s) as [->|Ds]; cbn [andb].
    2: { split; [intros E; right; split; auto; intros (_ & _ & X & _); auto|]. intros [[X _]|[E _]]; [congruence|auto]. }
    destruct (set_ok s a') eqn:G.
    2: { assert (NG : ~ good_entry s a') by (rewrite <- set_ok_iff; congruence).
         split; [intros E; right; split; auto; tauto|]. intros [(X & Y & _)|[E _]]; [congruence|auto]. }
    apply set_ok_iff in G. split.
    + intros (e & [= <-] & F & N).
      assert (U : usable a') by apply G.
      destruct a' as [|ip p|ip p]; [destruct U| |]; destruct f; cbn [svc_assign field sv_v4 sv_v6] in F.
      * left. subst a. auto.
      * right. split; [|cbn; intros (_ & _ & _ & X); discriminate]. destruct (ent c n s) as [e|] eqn:E; [exists e; auto|cbn in F; congruence].
      * right. split; [|cbn; intros (_ & _ & _ & X); discriminate]. destruct (ent c n s) as [e|] eqn:E; [exists e; auto|cbn in F; congruence].
      * left. subst a. auto.
    + intros [(X & _ & F)|[(e & E & F & N) K]].
      * assert (a' = a) by congruence. subst a'. eexists. split; [reflexivity|].
        assert (U : usable a) by apply G. destruct a as [|ip p|ip p]; [destruct U| |]; cbn in F; subst f; cbn; split; auto; discriminate.
      * rewrite E. eexists. split; [reflexivity|]. split; auto. rewrite <- F. assert (U : usable a') by apply G.
        destruct a' as [|ip p|ip p]; [destruct U| |]; destruct f; cbn; auto; exfalso; apply K; cbn; auto.
  - destruct (opt_string_dec n' n) as [->|Dn].
    2: { split; [intros E; right; split; auto; intros (X & _); auto|]. intros [[X _]|[E _]]; [congruence|auto]. }
    destruct (String.eqb_spec s' s) as [->|Ds].
    2: { split; [intros E; right; split; auto; intros (_ & X); auto|]. intros [[X _]|[E _]]; [congruence|auto]. }
    split; [intros (e & X & _); discriminate|]. intros [[X _]|[_ K]]; [discriminate|]. exfalso. apply K; auto.
  - destruct (opt_string_dec n' n) as [->|Dn].
    2: { split; [intros E; right; split; auto; intros (X & _); auto|]. intros [[X _]|[E _]]; [congruence|auto]. }
    destruct (ent c n s) as [e|] eqn:E.
    2: { destruct (sa_nonzero a'); (split; [intros (e & X & _); discriminate|intros [[X _]|[(e & X & _) _]]; discriminate]). }
    destruct (ent_ok c n s e C Pn E) as (Ne & U4 & U6 & U & Fm4 & Fm6).
    destruct (sa_nonzero a') eqn:Na'.
    2: { split; [intros K; right; split; auto|intros [[X _]|[K _]]; [discriminate|auto]].
         destruct K as (e' & [= <-] & F & N). intros (_ & _ & ->). assert (usable a) by (destruct f; cbn in F; subst a; tauto).
         apply nonzero_iff in H0. congruence. }
    apply nonzero_iff in Na'. unfold svc_del1. rewrite Ne. destruct (String.eqb_spec s' s) as [->|Ds]; cbn [negb].
    2: { split; [intros K; right; split; auto; intros (_ & X & _); auto|]. intros [[X _]|[K _]]; [discriminate|auto]. }
    destruct (sa_eqb a' (sv_v4 e)) eqn:Q4.
    { apply sa_eqb_iff in Q4. assert (V : sa_nonzero (sv_v6 e) = true <-> usable (sv_v6 e)) by apply nonzero_iff.
      destruct (sa_nonzero (sv_v6 e)).
      - split.
        + intros (e' & [= <-] & F & N). destruct f; cbn [field sv_v4 sv_v6] in F; [congruence|]. right. split; [exists e; auto|].
          intros (_ & _ & X). rewrite X in *. assert (of_fam a = F4) by congruence. assert (of_fam a = F6) by (rewrite <- F in *; destruct Fm6; congruence). congruence.
        + intros [[X _]|[(e' & [= <-] & F & N) K]]; [discriminate|]. eexists. split; [reflexivity|]. destruct f; cbn [field sv_v4 sv_v6] in *; [|auto].
          exfalso. apply K. repeat split; auto. congruence.
      - split; [intros (e' & X & _); discriminate|]. intros [[X _]|[(e' & [= <-] & F & N) K]]; [discriminate|]. exfalso.
        destruct f; cbn [field] in F; [apply K; repeat split; auto; congruence|]. destruct U6 as [U6|U6]; [|congruence].
        assert (false = true) by tauto. discriminate. }
    destruct (sa_eqb a' (sv_v6 e)) eqn:Q6.
    { apply sa_eqb_iff in Q6. assert (V : sa_nonzero (sv_v4 e) = true <-> usable (sv_v4 e)) by apply nonzero_iff.
      destruct (sa_nonzero (sv_v4 e)).
      - split.
        + intros (e' & [= <-] & F & N). destruct f; cbn [field sv_v4 sv_v6] in F; [|congruence]. right. split; [exists e; auto|].
          intros (_ & _ & X). assert (Y : sa_eqb a' (sv_v4 e) = true) by (apply sa_eqb_iff; congruence). congruence.
        + intros [[X _]|[(e' & [= <-] & F & N) K]]; [discriminate|]. eexists. split; [reflexivity|]. destruct f; cbn [field sv_v4 sv_v6] in *; [auto|].
          exfalso. apply K. repeat split; auto. congruence.
      - split; [intros (e' & X & _); discriminate|]. intros [[X _]|[(e' & [= <-] & F & N) K]]; [discriminate|]. exfalso.
        destruct f; cbn [field] in F; [|apply K; repeat split; auto; congruence]. destruct U4 as [U4|U4]; [|congruence].
        assert (false = true) by tauto. discriminate. }
    split.
    + intros (e' & [= <-] & F & N). right. split; [exists e; auto|]. intros (_ & _ & ->).
      destruct f; cbn [field] in F; [assert (Y : sa_eqb a (sv_v4 e) = true) by (apply sa_eqb_iff; congruence)|assert (Y : sa_eqb a (sv_v6 e) = true) by (apply sa_eqb_iff; congruence)]; congruence.
    + intros [[X _]|[K _]]; [discriminate|auto].
Qed.

Lemma c48_run l : forall c h, cfg_inv c -> Forall (fun x => plain_node (node_of x)) l ->
  (forall n s f a, plain_node n -> (found c n s f a <-> mapped h n s f a)) ->
  exists c', vcmds c l = Val c' /\ cfg_inv c' /\ forall n s f a, plain_node n -> (found c' n s f a <-> mapped (rev l ++ h) n s f a).
Proof.
  induction l as [|x l IH]; intros c h C P H; cbn [vcmds].
  - exists c. auto.
  - inversion P as [|? ? Px Pl]; subst. destruct (vcmd_step c x C Px) as (b & c1 & R & C1 & _). rewrite R. cbn [mbind snd].
    destruct (c48_step c h x b c1 C Px R H) as [_ H1]. destruct (IH c1 (x :: h) C1 Pl H1) as (c' & R' & C' & H').
    exists c'. split; auto. split; auto. intros n s f a Pn. rewrite (H' n s f a Pn). cbn [rev]. rewrite <- app_assoc. reflexivity.
Qed.
Lemma c48 l : Forall (fun x => plain_node (node_of x)) l ->
  exists c, vcmds [] l = Val c /\ cfg_ok c /\ forall n s f a, plain_node n -> (found c n s f a <-> mapped (rev l) n s f a).
Proof.
  intros P. assert (C0 : cfg_inv []) by (split; [constructor|intros m []]).
  destruct (c48_run l [] [] C0 P) as (c & R & C & H).
  - intros n s f a _. rewrite found_ent. unfold ent, service_get. cbn [msc_get find]. split.
    + intros (e & E & _). destruct (node_name n); discriminate.
    + intros M. inversion M.
  - exists c. split; auto. rewrite <- cfg_inv_ok. split; auto. intros n s f a Pn. rewrite (H n s f a Pn), app_nil_r. tauto.
Qed.

(** what a command reports *)
Lemma c48_report_set c n s a : cfg_ok c -> plain_node n -> exists b c', vcmd_run c (VSet n s a) = Val (b, c') /\ (b = true <-> good_entry s a) /\
  (b = false -> forall n' s' f x, plain_node n' -> (found c' n' s' f x <-> found c n' s' f x)).
Proof.
  intros C P. apply cfg_inv_ok in C. destruct (vcmd_step c (VSet n s a) C P) as (b & c' & R & _ & B & S). exists b, c'. split; auto. rewrite B, set_ok_iff. split; [tauto|].
  intros F n' s' f x Pn. rewrite !found_ent, S by auto. rewrite F, andb_false_r. destruct (opt_string_dec n n'); tauto.
Qed.
Lemma c48_report_no c n s : cfg_ok c -> plain_node n -> exists b c', vcmd_run c (VNo n s) = Val (b, c') /\ (b = true <-> exists f a, found c n s f a).
Proof.
  intros C P. apply cfg_inv_ok in C. destruct (vcmd_step c (VNo n s) C P) as (b & c' & R & _ & B & S). exists b, c'. split; auto. rewrite B. unfold vdel.
  destruct (ent c n s) as [e|] eqn:E.
  - destruct (ent_ok c n s e C P E) as (Ne & U4 & U6 & U & _). unfold svc_del1. rewrite Ne, String.eqb_refl. cbn. split; auto. intros _.
    destruct U as [U|U]; [exists F4, (sv_v4 e)|exists F6, (sv_v6 e)]; apply found_ent; exists e; (split; [auto|]; split; [auto|]; intros X; rewrite X in U; destruct U).
  - split; [discriminate|]. intros (f & a & F). apply found_ent in F as (e & X & _). congruence.
Qed.
Lemma c48_report_no_at c n s a : cfg_ok c -> plain_node n -> exists b c', vcmd_run c (VNoAt n s a) = Val (b, c') /\ (b = true -> found c n s (of_fam a) a).
Proof.
  intros C P. apply cfg_inv_ok in C. destruct (vcmd_step c (VNoAt n s a) C P) as (b & c' & R & _ & B & S). exists b, c'. split; auto. rewrite B. unfold vdel.
  intros T. apply andb_true_iff in T as [Na T]. apply nonzero_iff in Na.
  destruct (ent c n s) as [e|] eqn:E; [|discriminate]. destruct (ent_ok c n s e C P E) as (Ne & U4 & U6 & U & Fm4 & Fm6).
  unfold svc_del1 in T. rewrite Ne, String.eqb_refl in T. cbn [negb] in T. apply found_ent. exists e. split; auto.
  assert (NN : a <> SaNone) by (intros ->; destruct Na).
  destruct (sa_eqb a (sv_v4 e)) eqn:Q4; [apply sa_eqb_iff in Q4; rewrite Q4 at 1; rewrite Fm4; cbn; auto|].
  destruct (sa_eqb a (sv_v6 e)) eqn:Q6; [|discriminate]. apply sa_eqb_iff in Q6. assert (of_fam a = F6) by (rewrite Q6; destruct Fm6; [auto|congruence]).
  rewrite H. cbn. auto.
Qed.
