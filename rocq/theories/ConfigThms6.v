(** The lines of the node mslookup are read back (C56) *)
From Verif Require Import Base PeerId Db DbSpec DbProofs DbThms DbThms2 DbThms3 Auth Gsup Router Hlr UssdCfg SmsCfg UssdSpec UssdThms MsLookup Mdns Proxy MsServer PeerSpec PeerThms MsServerSpec MsServerThms Ctrl CtrlSpec CtrlThms CtrlThms4 VtyListThms Config ConfigSpec ConfigThms ConfigThms2 ConfigThms3 ConfigThms4 ConfigThms5.
Local Open Scope string_scope.
Local Open Scope list_scope.

(** ** Names of MSCs *)
Lemma esc_plain c : plain_char c -> esc c = String c "".
Proof.
  intros (A & B & C). unfold esc. cbn zeta. assert (N1 : acode c <> 92%N) by (intros E; apply B; rewrite <- (ascii_N_embedding c); unfold acode in E; rewrite E; reflexivity).
  assert (N2 : acode c <> 34%N) by (intros E; apply C; rewrite <- (ascii_N_embedding c); unfold acode in E; rewrite E; reflexivity).
  apply N.eqb_neq in N1. apply N.eqb_neq in N2. rewrite N1, N2. cbn [orb].
  replace (32 <=? acode c)%N with true by (symmetry; apply N.leb_le; lia). replace (acode c <=? 126)%N with true by (symmetry; apply N.leb_le; lia). reflexivity.
Qed.
Lemma escape_plain s : (forall k c, String.get k s = Some c -> plain_char c) -> escape (bytes_of s) = s.
Proof.
  induction s as [|c s IH]; intros H; cbn [bytes_of escape]; auto. rewrite esc_plain by (apply (H 0%nat c); auto). cbn [append]. f_equal. apply IH.
  intros k x. apply (H (S k) x).
Qed.
Lemma ipa_str_name m ws : msc_name ws -> mkey m = bytes_of (join ws) ++ [nul] -> ipa_str (m_name m) = join ws.
Proof.
  intros (_ & _ & _ & H) E. unfold ipa_str. change (ipa_bytes (m_name m)) with (mkey m). rewrite E, rev_unit. cbn [Ascii.eqb]. replace (nul =? nul)%char with true by reflexivity.
  rewrite rev_involutive. apply escape_plain. intros k c G. apply (H k c G).
Qed.
Lemma wild_iff m : ipa_wf (m_name m) -> (is_wild m = true <-> mkey m = []).
Proof.
  intros W. unfold is_wild, ipa_cmp, mkey, ipa_bytes. cbn [ipa_empty in_len]. cbn [Nat.eqb andb]. destruct W as (W1 & W2).
  destruct (Nat.eqb_spec (in_len (m_name m)) 0) as [E|E].
  - rewrite E. cbn. tauto.
  - split; [discriminate|]. intros F. exfalso. apply (f_equal (@length ascii)) in F. rewrite firstn_length in F. cbn in F. lia.
Qed.

(** ** Services as commands *)
Definition entries (l : list svc) : list (string * sa) :=
  flat_map (fun x => (if sa_nonzero (sv_v4 x) then [(sv_name x, sv_v4 x)] else []) ++ (if sa_nonzero (sv_v6 x) then [(sv_name x, sv_v6 x)] else [])) l.
Definition svc_line (e : venv) (i : nat) (p : string * sa) : string := out i ["service"; fst p; "at"; v_show e (snd p); showN (sa_port (snd p))].
Lemma write_entries e i l : write_services e i l = map (svc_line e i) (entries l).
Proof.
  unfold write_services, entries. induction l as [|x l IH]; [reflexivity|]. cbn [flat_map]. rewrite IH, !map_app. f_equal. unfold addr_line, opt, svc_line.
  destruct (sa_nonzero (sv_v4 x)), (sa_nonzero (sv_v6 x)); reflexivity.
Qed.
Definition vset (n : option string) (p : string * sa) : vcmd := VSet n (fst p) (snd p).
Definition set_mscs (d : conf) (l : list msc) : conf := let s := f_srv d in set_srv d (mk_srv (sr_on s) (sr_mdns s) (sr_bind s) (sr_suffix s) l).
Lemma set_mscs_id d : set_mscs d (sr_mscs (f_srv d)) = d.
Proof. destruct d as [? ? ? ? ? ? ? ? ? ? ? ? ? [] ?]; reflexivity. Qed.
Definition at_node (nd : node) (n : option string) : Prop := (nd = NdServer /\ n = None) \/ exists m, nd = NdMsc m /\ n = Some m.
Lemma exec_service e nd n s t pt d : at_node nd n -> in_range 1 65535 pt = true ->
  exec e true nd ["service"; s; "at"; t; pt] d = svc_do d (VSet n s (v_addr e t (port_arg pt))) None.
Proof.
  intros [(-> & ->)|(m & -> & ->)] R; unfold exec; cbn [cmds svc_cmds app dispatch args fits is_kw String.eqb Ascii.eqb Bool.eqb Port]; rewrite R; reflexivity.
Qed.
Lemma port_back p : (1 <= p)%N -> (p <= 65535)%N -> in_range 1 65535 (showN p) = true /\ port_arg (showN p) = p /\ is_word (showN p).
Proof.
  intros A B. destruct (show_range (Z.of_N p) 1 65535) as (X & Y & Z); [lia|lia|lia|]. unfold show in *. rewrite N2Z.id in *. split; [exact X|]. split; [|exact Z].
  unfold port_arg, showN. rewrite Y. apply N2Z.id.
Qed.
Lemma usable_port a : usable a -> (1 <= sa_port a)%N.
Proof. destruct a as [|ip p|ip p]; cbn; [tauto| |]; intros [A _]; lia. Qed.
Lemma vcmds_app l a b : vcmds l (a ++ b) = mdo l1 <- vcmds l a;; vcmds l1 b.
Proof. revert l. induction a as [|x a IH]; intros l; cbn [vcmds app]; auto. destruct (vcmd_run l x) as [[r l1]|]; cbn [mbind snd]; auto. Qed.
Definition line_fit (e : venv) (p : string * sa) : Prop := is_word (fst p) /\ good_entry (fst p) (snd p) /\ addr_text e (snd p).
Lemma svc_sec e i nd n R es : at_node nd n -> plain_node n -> Forall (line_fit e) es -> forall d, cfg_inv (sr_mscs (f_srv d)) ->
  exists l', vcmds (sr_mscs (f_srv d)) (map (vset n) es) = Val l' /\ cfg_inv l' /\ sec e i nd R (map (svc_line e i) es) d (set_mscs d l').
Proof.
  intros A P. induction es as [|[s a] es IH]; intros F d C; cbn [map vcmds].
  - exists (sr_mscs (f_srv d)). rewrite set_mscs_id. split; auto. split; auto. apply sec_nil.
  - inversion F as [|? ? (W & G & T) F2]; subst. cbn [fst snd] in *. destruct (vcmd_step _ (VSet n s a) C P) as (b & l1 & R1 & C1 & B & _).
    assert (B1 : b = true) by (rewrite B; apply set_ok_iff; auto). clear B. subst b. unfold vset at 1. cbn [fst snd]. rewrite R1. cbn [mbind snd].
    destruct (IH F2 (set_mscs d l1) C1) as (l' & R' & C' & S'). exists l'. split; [exact R'|]. split; auto.
    change (svc_line e i (s, a) :: map (svc_line e i) es) with ([svc_line e i (s, a)] ++ map (svc_line e i) es).
    apply sec_app with (c1 := set_mscs d l1); [|exact S']. destruct G as (G1 & G2 & G3). destruct (T G3) as (T1 & T2 & T3). destruct (port_back (sa_port a) (usable_port a G3) T3) as (P1 & P2 & P3).
    unfold svc_line. cbn [fst snd]. eapply sec_line; [kws|reflexivity|]. rewrite (exec_service e nd n) by auto. rewrite P2, T2. unfold svc_do. rewrite R1. reflexivity.
Qed.
Definition nm (m : msc) : string := ipa_str (m_name m).
Definition msc_cmds (m : msc) : list vcmd := if is_wild m then [] else VMsc (nm m) :: map (vset (Some (nm m))) (entries (m_svcs m)).
Definition msc_lines (e : venv) (m : msc) : list string := if is_wild m then [] else out 2 ["msc"; "ipa-name"; ipa_str (m_name m)] :: write_services e 3 (m_svcs m).
Lemma nm_key m : ipa_wf (m_name m) -> m_texts m -> is_wild m = false -> exists ws, msc_name ws /\ nm m = join ws /\ mkey m = nkey (Some (nm m)).
Proof.
  intros W [[E|(ws & N & E)] _] B; [apply wild_iff in E; congruence|]. exists ws. unfold nm. rewrite (ipa_str_name m ws N E). auto.
Qed.
Lemma name_plain ws : msc_name ws -> plain_node (Some (join ws)).
Proof. intros N. apply vnode_plain. exists ws. auto. Qed.
Lemma is_nil_false {A} (l : list A) : l <> [] -> exists x r, l = x :: r. Proof. destruct l; [congruence|eauto]. Qed.
Lemma args_rest e ws : ws <> [] -> args e [K "msc"; K "ipa-name"; Rest] ("msc" :: "ipa-name" :: ws) = Some ws.
Proof. destruct ws; [congruence|]. reflexivity. Qed.
Lemma exec_msc e ws d : ws <> [] -> exec e true NdServer ("msc" :: "ipa-name" :: ws) d = svc_do d (VMsc (join ws)) (Some (NdMsc (join ws))).
Proof.
  intros N. unfold exec. cbn [cmds app]. unfold dispatch at 1. cbn [args fits is_kw String.eqb Ascii.eqb Bool.eqb]. destruct ws as [|w ws]; [congruence|]. reflexivity.
Qed.
Lemma msc_sec e R m d : cfg_inv (sr_mscs (f_srv d)) -> ipa_wf (m_name m) -> m_texts m -> Forall (line_fit e) (entries (m_svcs m)) ->
  exists l', vcmds (sr_mscs (f_srv d)) (msc_cmds m) = Val l' /\ cfg_inv l' /\ sec e 2 NdServer R (msc_lines e m) d (set_mscs d l').
Proof.
  intros C W T F. unfold msc_cmds, msc_lines. destruct (is_wild m) eqn:B.
  - exists (sr_mscs (f_srv d)). rewrite set_mscs_id. split; auto. split; auto. apply sec_nil.
  - destruct (nm_key m W T B) as (ws & N & E & _). fold (nm m). rewrite E. pose proof (name_plain ws N) as P. destruct (vcmd_step _ (VMsc (join ws)) C P) as (b & l1 & R1 & C1 & -> & _).
    cbn [vcmds]. rewrite R1. cbn [mbind snd].
    destruct (svc_sec e 3 (NdMsc (join ws)) (Some (join ws)) ((Some 2%nat, NdServer) :: R) (entries (m_svcs m)) (or_intror (ex_intro _ _ (conj eq_refl eq_refl))) P F (set_mscs d l1) C1) as (l' & R' & C' & S').
    exists l'. split; auto. split; auto. destruct N as (N1 & N2 & N3 & N4).
    replace (out 2 ["msc"; "ipa-name"; join ws]) with (out 2 ("msc" :: "ipa-name" :: ws)) by (destruct ws; [congruence|reflexivity]).
    rewrite write_entries. apply sec_block with (m := NdMsc (join ws)) (c1 := set_mscs d l1); [constructor; [kw|constructor; [kw|auto]]|reflexivity| |exact S'].
    rewrite exec_msc by auto. unfold svc_do. rewrite R1. reflexivity.
Qed.
Lemma mscs_sec e R ms : (forall m, In m ms -> ipa_wf (m_name m) /\ m_texts m /\ Forall (line_fit e) (entries (m_svcs m))) -> forall d, cfg_inv (sr_mscs (f_srv d)) ->
  exists l', vcmds (sr_mscs (f_srv d)) (flat_map msc_cmds ms) = Val l' /\ cfg_inv l' /\ sec e 2 NdServer R (flat_map (msc_lines e) ms) d (set_mscs d l').
Proof.
  induction ms as [|m ms IH]; intros H d C; cbn [flat_map].
  - exists (sr_mscs (f_srv d)). rewrite set_mscs_id. split; auto. split; auto. apply sec_nil.
  - destruct (H m (or_introl eq_refl)) as (W & T & F). destruct (msc_sec e R m d C W T F) as (l1 & R1 & C1 & S1).
    destruct (IH (fun x I => H x (or_intror I)) (set_mscs d l1) C1) as (l' & R' & C' & S'). exists l'. rewrite vcmds_app, R1. cbn [mbind]. split; auto. split; auto.
    eapply sec_app; [exact S1|exact S'].
Qed.
Definition wild_cmds (l : list msc) : list vcmd := match msc_get l ipa_empty with Some m => map (vset None) (entries (m_svcs m)) | None => [] end.
Definition all_cmds (l : list msc) : list vcmd := wild_cmds l ++ flat_map msc_cmds l.
Definition fit_all (e : venv) (l : list msc) : Prop := forall m x, In m l -> In x (m_svcs m) -> addr_text e (sv_v4 x) /\ addr_text e (sv_v6 x).
Lemma entries_in l s a : In (s, a) (entries l) <-> exists x, In x l /\ sv_name x = s /\ (a = sv_v4 x \/ a = sv_v6 x) /\ sa_nonzero a = true.
Proof.
  unfold entries. rewrite in_flat_map. split.
  - intros (x & I & J). exists x. split; auto. apply in_app_or in J. destruct J as [J|J].
    + destruct (sa_nonzero (sv_v4 x)) eqn:Z; [|destruct J]. destruct J as [[= <- <-]|[]]. auto.
    + destruct (sa_nonzero (sv_v6 x)) eqn:Z; [|destruct J]. destruct J as [[= <- <-]|[]]. auto.
  - intros (x & I & <- & [->| ->] & Z); exists x; (split; [auto|]); rewrite Z; apply in_or_app; cbn; auto.
Qed.
Lemma fit_entries e l m : mscs_ok l -> fit_all e l -> In m l -> Forall (line_fit e) (entries (m_svcs m)).
Proof.
  intros [C T] F I. rewrite Forall_forall. intros [s a] J. apply entries_in in J as (x & Ix & <- & Ea & Z). destruct (proj2 (T m I) x Ix) as [Wx Lx]. destruct (F m x I Ix) as [T4 T6].
  split; [exact Wx|]. split; [|destruct Ea as [->| ->]; cbn; auto]. split; [apply Wx|]. split; auto. apply nonzero_iff. auto.
Qed.
Lemma server_lines e R l d : mscs_ok l -> fit_all e l -> sr_mscs (f_srv d) = [] ->
  exists l', vcmds [] (all_cmds l) = Val l' /\
    sec e 2 NdServer R (match msc_get l ipa_empty with Some m => write_services e 2 (m_svcs m) | None => [] end ++ flat_map (msc_lines e) l) d (set_mscs d l').
Proof.
  intros O F E. assert (C0 : cfg_inv (sr_mscs (f_srv d))) by (rewrite E; split; [constructor|intros m []]). destruct O as [C T].
  assert (S1 : exists l1, vcmds [] (wild_cmds l) = Val l1 /\ cfg_inv l1 /\ sec e 2 NdServer R (match msc_get l ipa_empty with Some m => write_services e 2 (m_svcs m) | None => [] end) d (set_mscs d l1)).
  { unfold wild_cmds. destruct (msc_get l ipa_empty) as [m|] eqn:G.
    - apply (msc_get_in l ipa_empty m C ipa_empty_wf) in G as [I _]. rewrite write_entries, <- E. apply svc_sec; auto; [left; auto|exact Logic.I|]. eapply fit_entries; eauto. split; auto.
    - exists []. split; auto. split; [rewrite E in C0; auto|]. rewrite <- E, set_mscs_id. apply sec_nil. }
  destruct S1 as (l1 & R1 & C1 & S1). destruct (mscs_sec e R l) with (d := set_mscs d l1) as (l' & R' & C' & S'); auto.
  { intros m I. split; [apply C; auto|]. split; [auto|]. eapply fit_entries; eauto. split; auto. }
  exists l'. unfold all_cmds. rewrite vcmds_app, R1. cbn [mbind]. split; auto. eapply sec_app; [exact S1|exact S'].
Qed.

(** ** The services found are the same *)
Lemma all_cmds_set l n s a : mscs_ok l -> plain_node n -> (In (VSet n s a) (all_cmds l) <-> exists m, In m l /\ mkey m = nkey n /\ In (s, a) (entries (m_svcs m))).
Proof.
  intros [C T] P. unfold all_cmds. rewrite in_app_iff. split.
  - intros [I|I].
    + unfold wild_cmds in I. destruct (msc_get l ipa_empty) as [m|] eqn:G; [|destruct I]. apply (msc_get_in l ipa_empty m C ipa_empty_wf) in G as [Im K].
      apply in_map_iff in I as ([s' a'] & [= <- <- <-] & I). exists m. auto.
    + apply in_flat_map in I as (m & Im & I). unfold msc_cmds in I. destruct (is_wild m) eqn:B; [destruct I|]. destruct I as [I|I]; [discriminate|].
      apply in_map_iff in I as ([s' a'] & [= <- <- <-] & I). destruct (nm_key m) as (ws & _ & _ & K); [apply C; auto|auto|auto|]. exists m. auto.
  - intros (m & Im & K & I). destruct (is_wild m) eqn:B.
    + left. apply wild_iff in B; [|apply C; auto]. rewrite B in K. destruct n as [x|]; [cbn in K; destruct (bytes_of x); discriminate|].
      unfold wild_cmds. replace (msc_get l ipa_empty) with (Some m); [apply (in_map (vset None) _ _ I)|]. symmetry. apply msc_get_in; auto. apply ipa_empty_wf.
    + right. apply in_flat_map. exists m. split; auto. unfold msc_cmds. rewrite B. right. destruct (nm_key m) as (ws & _ & _ & K2); [apply C; auto|auto|auto|].
      rewrite K2 in K. apply nkey_inj in K. rewrite <- K. apply (in_map (vset (Some (nm m))) _ _ I).
Qed.
Lemma found_set l n s f a : mscs_ok l -> plain_node n -> (found l n s f a <-> In (VSet n s a) (all_cmds l) /\ of_fam a = f).
Proof.
  intros O P. rewrite all_cmds_set by auto. destruct O as [C T]. destruct (node_plain n P) as (k & Ek & Wk & Bk). unfold found. split.
  - intros (k' & x & Ek' & G & Fa & Na). rewrite Ek in Ek'. injection Ek' as <-. unfold service_get in G. destruct (msc_get l k) as [m|] eqn:Gm; [|discriminate].
    apply (msc_get_in l k m C Wk) in Gm as [Im K]. destruct (proj2 C m Im) as [Wm [Nd So]]. apply (svc_get_in _ _ _ Nd) in G as [Ix Nx].
    destruct (So x Ix) as (U4 & U6 & _ & F4' & F6'). split.
    + exists m. split; auto. split; [congruence|]. apply entries_in. exists x. split; auto. split; auto. subst a. destruct f; cbn [field] in *; (split; [auto|]); apply nonzero_iff; [destruct U4|destruct U6]; auto; contradiction.
    + subst a. eapply none_fam; eauto.
  - intros ((m & Im & K & I) & Fa). exists k. apply entries_in in I as (x & Ix & Nx & Ea & Z). destruct (proj2 C m Im) as [Wm [Nd So]]. destruct (So x Ix) as (U4 & U6 & _ & F4' & F6').
    exists x. split; auto. split.
    + unfold service_get. replace (msc_get l k) with (Some m); [apply svc_get_in; auto|]. symmetry. apply msc_get_in; auto. split; auto. congruence.
    + apply nonzero_iff in Z. assert (NN : a <> SaNone) by (intros ->; destruct Z). split; auto. destruct Ea as [->| ->].
      * rewrite <- Fa, F4'. reflexivity.
      * destruct F6' as [F6'|F6']; [|congruence]. rewrite <- Fa, F6'. reflexivity.
Qed.
Lemma fam_dec (f g : fam) : {f = g} + {f <> g}. Proof. decide equality. Qed.
Lemma mapped_set h n s f a : (forall x, In x h -> match x with VMsc _ => True | VSet _ s a => good_entry s a | _ => False end) ->
  (forall a a', In (VSet n s a) h -> In (VSet n s a') h -> of_fam a = f -> of_fam a' = f -> a = a') ->
  (mapped h n s f a <-> In (VSet n s a) h /\ of_fam a = f).
Proof.
  induction h as [|x h IH]; intros G U.
  - split; [intros M; inversion M|intros [[] _]].
  - assert (IH' : mapped h n s f a <-> In (VSet n s a) h /\ of_fam a = f).
    { apply IH; [intros y I; apply G; now right|]. intros b b' I I'. apply U; now right. }
    split.
    + intros M. inversion M as [h0 n0 s0 a0 Gd|h0 x0 n0 s0 f0 a0 M' K]; subst; [split; [now left|auto]|]. apply IH' in M' as [I E]. split; [now right|auto].
    + intros [I E]. assert (X : x = VSet n s a -> mapped (x :: h) n s f a) by (intros ->; rewrite <- E; apply map_set; apply (G _ (or_introl eq_refl))).
      destruct I as [I|I]; [apply X; auto|]. assert (M : mapped h n s f a) by (apply IH'; auto). pose proof (G x (or_introl eq_refl)) as Gx.
      destruct x as [y|n' s' a'|n' s'|n' s' a']; try destruct Gx; [apply map_keep; auto; exact Logic.I|].
      destruct (opt_string_dec n' n) as [->|N1]; [|apply map_keep; auto; intros (_ & Q & _); auto]. destruct (string_dec s' s) as [->|N2]; [|apply map_keep; auto; intros (_ & _ & Q & _); auto].
      destruct (fam_dec (of_fam a') f) as [Ef|N3]; [|apply map_keep; auto; intros (_ & _ & _ & Q); auto].
      apply X. f_equal. symmetry. apply U; auto; [now right|now left].
Qed.
Lemma entry_good l m s a : mscs_ok l -> In m l -> In (s, a) (entries (m_svcs m)) -> good_entry s a.
Proof.
  intros [C T] Im I. apply entries_in in I as (x & Ix & <- & _ & Z). destruct (proj2 (T m Im) x Ix) as [[W _] L]. split; [auto|]. split; [auto|]. apply nonzero_iff; auto.
Qed.
Lemma all_cmds_good l x : mscs_ok l -> In x (all_cmds l) -> plain_node (node_of x) /\ match x with VMsc _ => True | VSet _ s a => good_entry s a | _ => False end.
Proof.
  intros O I. pose proof O as [C T]. unfold all_cmds in I. apply in_app_or in I as [I|I].
  - unfold wild_cmds in I. destruct (msc_get l ipa_empty) as [m|] eqn:G; [|destruct I]. apply (msc_get_in l ipa_empty m C ipa_empty_wf) in G as [Im K].
    apply in_map_iff in I as ([s a] & <- & I). split; [exact Logic.I|]. cbn. eapply entry_good; eauto.
  - apply in_flat_map in I as (m & Im & I). unfold msc_cmds in I. destruct (is_wild m) eqn:B; [destruct I|]. destruct (nm_key m) as (ws & N & E & K); [apply C; auto|auto|auto|].
    pose proof (name_plain ws N) as P. rewrite <- E in P. destruct I as [<-|I]; [split; auto|]. apply in_map_iff in I as ([s a] & <- & I). split; [exact P|]. cbn. eapply entry_good; eauto.
Qed.
Lemma rebuilt_services l l' : mscs_ok l -> vcmds [] (all_cmds l) = Val l' -> forall n s f a, plain_node n -> (found l n s f a <-> found l' n s f a).
Proof.
  intros O R n s f a P. destruct (c48 (all_cmds l)) as (l0 & R0 & _ & H); [rewrite Forall_forall; intros x I; apply (all_cmds_good l x O I)|].
  rewrite R in R0. injection R0 as <-. rewrite (H n s f a P), found_set by auto. rewrite mapped_set.
  - rewrite <- in_rev. tauto.
  - intros x I. rewrite <- in_rev in I. apply (all_cmds_good l x O I).
  - intros b b' I I' Fb Fb'. rewrite <- in_rev in I, I'. assert (Q : found l n s f b) by (apply found_set; auto). assert (Q' : found l n s f b') by (apply found_set; auto).
    apply found_ent in Q as (x & X1 & X2 & _). apply found_ent in Q' as (y & Y1 & Y2 & _). congruence.
Qed.

(** ** Server and client *)
Definition bind_words (e : venv) (a : sa) : list string := ["mdns"; "bind"; v_show e a; showN (sa_port a)].
Lemma bind_arg e a old : usable a -> addr_text e a -> mdns_addr e old [v_show e a; showN (sa_port a)] = a /\ in_range 1 65535 (showN (sa_port a)) = true /\
  is_word (v_show e a) /\ is_word (showN (sa_port a)).
Proof.
  intros U T. destruct (T U) as (T1 & T2 & T3). destruct (port_back (sa_port a) (usable_port a U) T3) as (P1 & P2 & P3). split; [|auto].
  unfold mdns_addr. change (Z.to_N (atoi (showN (sa_port a)))) with (port_arg (showN (sa_port a))). rewrite P2. auto.
Qed.
Lemma server_sec e R c d : srv_ok (f_srv c) -> addr_text e (sr_bind (f_srv c)) -> fit_all e (sr_mscs (f_srv c)) -> f_srv d = f_srv conf0 ->
  exists s, srv_same (f_srv c) s /\ sec e 1 NdMs R (
          [out 1 ["server"]]
          ++ opt (sr_mdns (f_srv c)) (out 2 (["mdns"; "bind"] ++ if sa_nonzero (sr_bind (f_srv c)) then [v_show e (sr_bind (f_srv c)); showN (sa_port (sr_bind (f_srv c)))] else []))
          ++ opt (negb (sr_suffix (f_srv c) =? SUFFIX_DEFAULT)%string) (out 2 ["mdns"; "domain-suffix"; sr_suffix (f_srv c)])
          ++ match msc_get (sr_mscs (f_srv c)) ipa_empty with Some m => write_services e 2 (m_svcs m) | None => [] end
          ++ flat_map (msc_lines e) (sr_mscs (f_srv c))
          ++ opt (negb (sr_on (f_srv c))) (out 1 ["no"; "server"])) d (set_srv d s).
Proof.
  destruct (f_srv c) as [on mdns b suffix mscs]. intros (Z & W & O) T F E. cbn [sr_on sr_mdns sr_bind sr_suffix sr_mscs] in *. rewrite Z.
  set (b1 := if mdns then b else MDNS_DEFAULT).
  destruct (server_lines e ((Some 1%nat, NdMs) :: R) mscs (set_srv d (mk_srv true mdns b1 suffix [])) O F eq_refl) as (l' & Rl & Sl).
  exists (mk_srv on mdns b1 suffix l'). split.
  - split; [auto|]. split; [apply rebuilt_services; auto|]. cbn. intros _. split; auto. split; auto. intros ->. reflexivity.
  - rewrite !app_assoc. apply sec_app with (c1 := set_srv d (mk_srv true mdns b1 suffix l')).
    + rewrite <- !app_assoc. cbn [app]. eapply sec_block; [kws|reflexivity|reflexivity|].
      apply sec_app with (c1 := set_srv d (mk_srv true mdns b1 SUFFIX_DEFAULT [])); [|apply sec_app with (c1 := set_srv d (mk_srv true mdns b1 suffix []))].
      * apply nonzero_iff in Z. destruct (bind_arg e b MDNS_DEFAULT Z T) as (B1 & B2 & B3 & B4). apply sec_opt; intros Em; subst mdns.
        -- eapply sec_line; [kws|reflexivity|]. unfold exec. cbn [cmds app dispatch args fits is_kw String.eqb Ascii.eqb Bool.eqb Port]. rewrite B2.
           unfold srv_bind, srv_on, set_srv. cbn [f_srv sr_on sr_bind sr_mdns sr_suffix sr_mscs]. rewrite E. cbn [conf0 f_srv sr_bind sr_suffix sr_mscs]. rewrite B1.
           apply nonzero_iff in Z. rewrite Z. reflexivity.
        -- unfold srv_on. rewrite E. reflexivity.
      * apply sec_opt; intros Em.
        -- eapply sec_line; [kws|reflexivity|]. reflexivity.
        -- apply negb_false_iff, String.eqb_eq in Em. rewrite Em. reflexivity.
      * exact Sl.
    + apply sec_opt; intros Em.
      * apply negb_true_iff in Em. subst on. eapply sec_line; [kws|reflexivity|]. reflexivity.
      * apply negb_false_iff in Em. subst on. reflexivity.
Qed.
Lemma client_sec e R c d : cli_ok (f_cli c) -> addr_text e (cl_gw (f_cli c)) -> addr_text e (cl_query (f_cli c)) -> f_cli d = f_cli conf0 -> cl_on (f_cli c) = true ->
  exists k, cli_same (f_cli c) k /\ sec e 1 NdMs R (
          [out 1 ["client"]]
          ++ opt (sa_nonzero (cl_gw (f_cli c))) (out 2 ["gateway-proxy"; v_show e (cl_gw (f_cli c)); showN (sa_port (cl_gw (f_cli c)))])
          ++ opt (cl_mdns (f_cli c) && sa_nonzero (cl_query (f_cli c))) (out 2 ["mdns"; "bind"; v_show e (cl_query (f_cli c)); showN (sa_port (cl_query (f_cli c)))])
          ++ opt (negb (cl_suffix (f_cli c) =? SUFFIX_DEFAULT)%string) (out 2 ["mdns"; "domain-suffix"; cl_suffix (f_cli c)])
          ++ opt (negb (cl_timeout (f_cli c) =? TIMEOUT_DEFAULT)%Z) (out 2 ["timeout"; show (cl_timeout (f_cli c))])) d (set_cli d k).
Proof.
  destruct (f_cli c) as [on gw tm mdns q suffix]. cbn [cl_on cl_gw cl_timeout cl_mdns cl_query cl_suffix]. intros (G & Z & W & Tm) Tg Tq E ->. cbn [cl_on cl_gw cl_timeout cl_mdns cl_query cl_suffix] in *.
  rewrite Z, andb_true_r. set (q1 := if mdns then q else MDNS_DEFAULT). exists (mk_cli true gw tm mdns q1 suffix). split.
  - split; [auto|]. cbn. intros _. repeat (split; [auto|]). intros ->. reflexivity.
  - cbn [app]. eapply sec_block; [kws|reflexivity|reflexivity|]. unfold cli_on. rewrite E. cbn [conf0 f_cli cl_gw cl_timeout cl_mdns cl_query cl_suffix].
    apply sec_app with (c1 := set_cli d (mk_cli true gw TIMEOUT_DEFAULT false MDNS_DEFAULT SUFFIX_DEFAULT));
      [|apply sec_app with (c1 := set_cli d (mk_cli true gw TIMEOUT_DEFAULT mdns q1 SUFFIX_DEFAULT)); [|apply sec_app with (c1 := set_cli d (mk_cli true gw TIMEOUT_DEFAULT mdns q1 suffix))]].
    + apply sec_opt; intros Em.
      * pose proof Em as Em2. apply nonzero_iff in Em. destruct (bind_arg e gw MDNS_DEFAULT Em Tg) as (B1 & B2 & B3 & B4). destruct (Tg Em) as (_ & V & Pm). destruct (port_back (sa_port gw) (usable_port gw Em) Pm) as (_ & P2 & _).
        eapply sec_line; [kws|reflexivity|]. unfold exec. cbn [cmds app dispatch args fits is_kw String.eqb Ascii.eqb Bool.eqb Port]. rewrite B2. cbn [argn nth]. rewrite P2, V, Em2. reflexivity.
      * destruct G as [->|G]; [reflexivity|congruence].
    + apply nonzero_iff in Z. destruct (bind_arg e q MDNS_DEFAULT Z Tq) as (B1 & B2 & B3 & B4). apply sec_opt; intros Em; subst mdns.
      * eapply sec_line; [kws|reflexivity|]. unfold exec. cbn [cmds app dispatch args fits is_kw String.eqb Ascii.eqb Bool.eqb Port]. rewrite B2.
        unfold cli_bind, set_cli. cbn [f_cli cl_gw cl_timeout cl_mdns cl_query cl_suffix]. rewrite B1. apply nonzero_iff in Z. rewrite Z. reflexivity.
      * reflexivity.
    + apply sec_opt; intros Em.
      * eapply sec_line; [kws|reflexivity|]. reflexivity.
      * apply negb_false_iff, String.eqb_eq in Em. rewrite Em. reflexivity.
    + apply sec_opt; intros Em.
      * destruct (show_range tm 1 100000) as (A1 & A2 & A3); [lia|lia|lia|]. eapply sec_line; [kws|reflexivity|]. unfold exec. cbn [cmds app dispatch args fits is_kw String.eqb Ascii.eqb Bool.eqb]. rewrite A1.
        cbn [argn nth]. rewrite A2. reflexivity.
      * apply negb_false_iff, Z.eqb_eq in Em. rewrite Em. reflexivity.
Qed.
