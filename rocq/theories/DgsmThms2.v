From Verif Require Import Base PeerId PeerSpec PeerThms Db DbSpec DbProofs DbThms2 DbThms3 Auth AuthThms3 Gsup Router RouterThms Hlr HlrSpec HlrThms2
  Mdns Proxy MsServerSpec MsServerThms Dgsm DgsmSpec DgsmThms.

(** * The cache *)
Definition eimsi (e : pent) : string := ps_imsi (pe_sub e).
Definition eaddr (e : pent) : sa := ps_addr (pe_sub e).
Definition imsis (c : list pent) : list string := map eimsi c.

Lemma by_imsi_in c i p : cache_by_imsi c i = Some p -> exists t, In (mk_pent p t) c /\ ps_imsi p = i.
Proof.
  unfold cache_by_imsi. destruct (find _ _) as [[p' t]|] eqn:E; [|discriminate]. intros [= <-]. apply find_some in E. destruct E as [I E].
  cbn in *. apply String.eqb_eq in E. eauto.
Qed.
Lemma by_imsi_none c i : cache_by_imsi c i = None -> forall e, In e c -> eimsi e <> i.
Proof.
  unfold cache_by_imsi. destruct (find _ _) as [e|] eqn:E; [discriminate|]. intros _ e I X. pose proof (find_none _ _ E e I) as F. cbn in F.
  apply String.eqb_neq in F. auto.
Qed.
Lemma in_by_imsi c e : NoDup (imsis c) -> In e c -> cache_by_imsi c (eimsi e) = Some (pe_sub e).
Proof.
  intros N I. unfold cache_by_imsi. destruct (find _ _) as [f|] eqn:E.
  - apply find_some in E. destruct E as [If E]. apply String.eqb_eq in E. rewrite (NoDup_key_inj eimsi c N f e If I E). reflexivity.
  - pose proof (find_none _ _ E e I) as F. cbn in F. unfold eimsi in F. rewrite String.eqb_refl in F. discriminate.
Qed.
Lemma same_entry c e f : NoDup (imsis c) -> In e c -> In f c -> eimsi e = eimsi f -> e = f.
Proof. intros. eapply (NoDup_key_inj eimsi c); eauto. Qed.

Lemma put_spec c p t : match cache_put c p t with
  | None => ~ In (ps_imsi p) (imsis c)
  | Some c' => imsis c' = imsis c /\ In (ps_imsi p) (imsis c) /\ forall i, cache_by_imsi c' i = if (ps_imsi p =? i)%string then Some p else cache_by_imsi c i
  end.
Proof.
  induction c as [|e c IH]; cbn [cache_put imsis map In]; [tauto|].
  destruct (String.eqb_spec (ps_imsi (pe_sub e)) (ps_imsi p)) as [E|E].
  - cbn [imsis map]. unfold eimsi at 1 3 5. cbn. rewrite E. split; [reflexivity|]. split; [auto|]. intros i. unfold cache_by_imsi. cbn. rewrite E. destruct (_ =? i)%string; reflexivity.
  - fold (imsis c). destruct (cache_put c p t) as [c'|].
    + destruct IH as (A & B & C). cbn [imsis map]. fold (imsis c'). rewrite A. split; [reflexivity|]. split; [auto|]. intros i. specialize (C i). unfold cache_by_imsi in *. cbn.
      destruct (String.eqb_spec (ps_imsi (pe_sub e)) i) as [F|F]; auto. destruct (String.eqb_spec (ps_imsi p) i); congruence.
    + intros [F|F]; auto.
Qed.
Lemma update_view c p t i : cache_by_imsi (cache_update c p t) i = if (ps_imsi p =? i)%string then Some p else cache_by_imsi c i.
Proof.
  unfold cache_update. pose proof (put_spec c p t) as P. destruct (cache_put c p t) as [c'|]; [apply P|].
  unfold cache_by_imsi. cbn. destruct (_ =? i)%string; reflexivity.
Qed.
Lemma update_one c p t : NoDup (imsis c) -> NoDup (imsis (cache_update c p t)).
Proof.
  intros N. unfold cache_update. pose proof (put_spec c p t) as P. destruct (cache_put c p t) as [c'|].
  - destruct P as (-> & _). auto.
  - cbn. constructor; auto.
Qed.
Lemma put_in c p t c' e : cache_put c p t = Some c' -> NoDup (imsis c) -> In e c' -> e = mk_pent p t \/ In e c /\ eimsi e <> ps_imsi p.
Proof.
  revert c'. induction c as [|f c IH]; intros c'; cbn; [discriminate|]. unfold eimsi at 1. intros E N. inversion N as [|? ? N1 N2]; subst.
  destruct (String.eqb_spec (ps_imsi (pe_sub f)) (ps_imsi p)) as [F|F].
  - injection E as <-. intros [<-|I]; auto. right. split; auto. intros X. apply N1. rewrite F, <- X. apply in_map. auto.
  - destruct (cache_put c p t) as [c2|]; [|discriminate]. injection E as <-. intros [<-|I]; auto. destruct (IH c2 eq_refl N2 I) as [->|[A B]]; auto.
Qed.
Lemma update_in c p t e : NoDup (imsis c) -> In e (cache_update c p t) -> e = mk_pent p t \/ In e c /\ eimsi e <> ps_imsi p.
Proof.
  intros N. unfold cache_update. pose proof (put_spec c p t) as P. pose proof (put_in c p t) as Q. destruct (cache_put c p t) as [c'|]; [eauto|].
  intros [<-|I]; auto. right. split; auto. intros X. apply P. rewrite <- X. apply in_map; auto.
Qed.
Lemma del_in c i e : NoDup (imsis c) -> (In e (cache_del c i) <-> In e c /\ eimsi e <> i).
Proof.
  induction c as [|f c IH]; cbn; [tauto|]. unfold eimsi at 1. intros N. inversion N as [|? ? N1 N2]; subst.
  destruct (String.eqb_spec (ps_imsi (pe_sub f)) i) as [F|F].
  - split.
    + intros I. split; auto. intros X. apply N1. unfold eimsi in *. rewrite F, <- X. apply (in_map eimsi) in I. exact I.
    + intros [[->|I] X]; auto. destruct (X F).
  - cbn. rewrite (IH N2). split; [intros [->|[]]; auto|intros [[->|I] X]; auto].
Qed.
Lemma del_one c i : NoDup (imsis c) -> NoDup (imsis (cache_del c i)).
Proof.
  induction c as [|f c IH]; cbn; [constructor|]. intros N. inversion N as [|? ? N1 N2]; subst.
  destruct (_ =? i)%string; auto. cbn. constructor; auto. intros I. apply in_map_iff in I. destruct I as (e & E & I). apply (del_in _ _ _ N2) in I.
  apply N1. rewrite <- E. apply in_map. tauto.
Qed.
Lemma clean_in c now fr : forall c', cache_clean c now fr = Val c' ->
  forall e, In e c' <-> In e c /\ 0 <= now - pe_upd e <= fr /\ now - pe_upd e <= UINT32_MAX.
Proof.
  induction c as [|f c IH]; cbn [cache_clean In]; intros c' E e; [injection E as <-; cbn; tauto|].
  destruct (timestamp_age now (pe_upd f)) as [a|] eqn:A; [|discriminate]. cbn [mbind] in E.
  destruct (cache_clean c now fr) as [c2|]; [|discriminate]. cbn [mbind] in E. injection E as <-. specialize (IH c2 eq_refl).
  unfold timestamp_age in A. destruct (negb (int64 _)); [discriminate|].
  destruct ((now - pe_upd f <? 0) || (UINT32_MAX <? now - pe_upd f)) eqn:B; injection A as <-.
  - rewrite IH. split; [tauto|]. intros [[->|I] H]; [|tauto]. exfalso. apply Bool.orb_true_iff in B. rewrite !Z.ltb_lt in B. lia.
  - apply Bool.orb_false_iff in B. rewrite !Z.ltb_ge in B. destruct (Z.leb_spec (now - pe_upd f) fr); cbn [In]; rewrite IH.
    + split; [intros [->|H']; [split; auto; lia|tauto]|]. intros [[->|I] H']; auto.
    + split; [tauto|]. intros [[->|I] H']; [lia|tauto].
Qed.
Lemma clean_one c now fr c' : cache_clean c now fr = Val c' -> NoDup (imsis c) -> NoDup (imsis c').
Proof.
  revert c'. induction c as [|f c IH]; intros c'; cbn [cache_clean]; [intros [= <-]; auto|]. intros E N. inversion N as [|? ? N1 N2]; subst.
  destruct (timestamp_age now (pe_upd f)) as [a|]; [|discriminate]. cbn [mbind] in E.
  destruct (cache_clean c now fr) as [c2|] eqn:C; [|discriminate]. cbn [mbind] in E. injection E as <-. specialize (IH c2 eq_refl N2).
  assert (NoDup (imsis (f :: c2))).
  { cbn. constructor; auto. intros I. apply in_map_iff in I. destruct I as (e & E & I). apply (clean_in _ _ _ _ C) in I. apply N1. rewrite <- E. apply in_map. tauto. }
  destruct a as [y|]; auto. destruct (y <=? fr); auto.
Qed.

(** * Remote HLRs *)
Definition keeps_addr (f : rem -> option rem) : Prop := forall r r', f r = Some r' -> rm_addr r' = rm_addr r.
Lemma edit_in l a f : keeps_addr f -> NoDup (map rm_addr l) ->
  forall r', In r' (edit_rem l a f) -> In r' l /\ rm_addr r' <> a \/ exists r, In r l /\ rm_addr r = a /\ f r = Some r'.
Proof.
  intros K. induction l as [|r l IH]; cbn; [tauto|]. intros N r' H. inversion N as [|? ? N1 N2]; subst.
  destruct (sa_eqb (rm_addr r) a) eqn:E.
  - apply sa_eqb_iff in E. subst a.
    assert (T : In r' l -> rm_addr r' <> rm_addr r). { intros I X. apply N1. rewrite <- X. apply in_map; auto. }
    destruct (f r) as [r2|] eqn:F; [destruct H as [<-|H]|]; [right; exists r; auto|left; auto..].
  - destruct H as [<-|H].
    + left. split; auto. intros X. apply sa_eqb_iff in X. congruence.
    + destruct (IH N2 r' H) as [[A B]|(q & A & B)]; eauto.
Qed.
Lemma edit_addrs l a f : keeps_addr f -> NoDup (map rm_addr l) -> NoDup (map rm_addr (edit_rem l a f)).
Proof.
  intros K. induction l as [|r l IH]; cbn; [constructor|]. intros N. inversion N as [|? ? N1 N2]; subst.
  destruct (sa_eqb (rm_addr r) a) eqn:E.
  - destruct (f r) as [r'|] eqn:F; auto. cbn. rewrite (K _ _ F). constructor; auto.
  - cbn. constructor; auto. intros I. apply in_map_iff in I. destruct I as (r' & X & I). destruct (edit_in _ _ _ K N2 _ I) as [[A B]|(q & A & B & C)].
    + apply N1. rewrite <- X. apply in_map; auto.
    + apply K in C. assert (rm_addr r = a) by congruence. apply sa_eqb_iff in H. congruence.
Qed.
Lemma find_rem_some z a r : find_rem z a = Some r -> In r (z_rems z) /\ rm_addr r = a.
Proof. unfold find_rem. intros E. apply find_some in E. destruct E as [I E]. apply sa_eqb_iff in E. auto. Qed.
Lemma find_rem_none z a : find_rem z a = None -> forall r, In r (z_rems z) -> rm_addr r <> a.
Proof. unfold find_rem. intros E r I X. pose proof (find_none _ _ E r I) as F. cbn in F. apply sa_eqb_iff in X. congruence. Qed.
Lemma same_rem z r r' : NoDup (map rm_addr (z_rems z)) -> In r (z_rems z) -> In r' (z_rems z) -> rm_addr r = rm_addr r' -> r = r'.
Proof. intros. eapply (NoDup_key_inj rm_addr (z_rems z)); eauto. Qed.

(** * Deferred requests *)
Lemma waiting_iff z i : waiting z i = true <-> exists q, In q (z_wait z) /\ g_imsi (q_gsup q) = i.
Proof.
  unfold waiting, of_imsi. rewrite existsb_exists. split; intros (q & I & E); exists q; split; auto; apply String.eqb_eq; auto.
Qed.
Lemma waiting_false z i : waiting z i = false <-> forall q, In q (z_wait z) -> g_imsi (q_gsup q) <> i.
Proof.
  rewrite <- Bool.not_true_iff_false, waiting_iff. split.
  - intros H q I E. apply H. eauto.
  - intros H (q & I & E). eapply H; eauto.
Qed.

Section Fix.
Context (k : cfg) (x : dworld) (s : hst).

Lemma cb_wait l : forall z a r z' o, connect_cb k s z l a r = (z', o) ->
  z' = z_with_wait z (z_wait z') /\
  (forall q, In q (z_wait z') <-> In q (z_wait z) /\ forall e, In e l -> eaddr e = a -> g_imsi (q_gsup q) <> eimsi e).
Proof.
  induction l as [|e l IH]; intros z a r z' o; cbn [connect_cb].
  - intros [= <- <-]. split; [destruct z; reflexivity|]. intros q. cbn. tauto.
  - destruct (sa_eqb a (ps_addr (pe_sub e))) eqn:E.
    + cbn [pop]. destruct (connect_cb k s _ l a r) as [z2 o2] eqn:C. intros [= <- <-]. destruct (IH _ _ _ _ _ C) as [A B]. split.
      * rewrite A. reflexivity.
      * intros q. rewrite B. cbn. rewrite filter_In, Bool.negb_true_iff. unfold of_imsi. rewrite String.eqb_neq. apply sa_eqb_iff in E. split.
        -- intros [[I X] H]. split; auto. intros f [<-|If] Ea; auto.
        -- intros [I H]. split; [split; auto|auto]. apply (H e); auto.
    + destruct (connect_cb k s z l a r) as [z2 o2] eqn:C. intros [= <- <-]. destruct (IH _ _ _ _ _ C) as [A B]. split; auto.
      intros q. rewrite B. split.
      * intros [I H]. split; auto. intros f [<-|If] Ea; auto. unfold eaddr in Ea. symmetry in Ea. apply sa_eqb_iff in Ea. congruence.
      * intros [I H]. split; auto. intros f If. apply H. right; auto.
Qed.

(** * Invariant *)
Record zbase (z : dgst) : Prop := {
  zb_one : NoDup (imsis (z_cache z));
  zb_rems : NoDup (map rm_addr (z_rems z));
  zb_wf : forall e d, In e (z_cache z) -> ipa_wf (pd_name (pdom_of d (pe_sub e))) /\ ipa_wf (pd_prelim (pdom_of d (pe_sub e))) }.
(** no request waits that could be forwarded; [but]: except at this address *)
Definition idle (but : sa -> Prop) (z : dgst) : Prop :=
  forall e r, In e (z_cache z) -> In r (z_rems z) -> sa_nonzero (eaddr e) = true -> ~ but (eaddr e) -> rm_addr r = eaddr e ->
    rm_up r = true \/ rm_cbs r = O -> waiting z (eimsi e) = false.
Definition nowhere (a : sa) : Prop := False.
(** an entry without address has a lookup, except perhaps that of these IMSIs *)
Definition looked (but : string -> Prop) (z : dgst) : Prop :=
  forall e, In e (z_cache z) -> sa_nonzero (eaddr e) = false -> but (eimsi e) \/ In (eimsi e) (z_look z).
Definition no_one (i : string) : Prop := False.
(** every request waits for something *)
Definition served (z : dgst) : Prop :=
  forall q, In q (z_wait z) -> exists e, In e (z_cache z) /\ eimsi e = g_imsi (q_gsup q) /\
    (sa_nonzero (eaddr e) = false \/ exists r, In r (z_rems z) /\ rm_addr r = eaddr e).

Lemma less_waiting z z' i : (forall q, In q (z_wait z') -> In q (z_wait z)) -> waiting z i = false -> waiting z' i = false.
Proof. rewrite !waiting_false. auto. Qed.

Lemma cb_idle z a r z' o but : connect_cb k s z (z_cache z) a r = (z', o) -> idle (fun b => but b \/ b = a) z -> idle but z'.
Proof.
  intros C H. destruct (cb_wait _ _ _ _ _ _ C) as [A B]. rewrite A. unfold idle. cbn. intros e rr Ie Ir U Nb Ea D.
  assert (X : eaddr e = a \/ eaddr e <> a).
  { destruct (sa_eqb (eaddr e) a) eqn:E; [left; apply sa_eqb_iff; auto|right; intros Y; apply sa_eqb_iff in Y; congruence]. }
  apply waiting_false. cbn. intros q I E. apply B in I. destruct I as [I Nq]. destruct X as [X|X].
  - apply (Nq e Ie X). auto.
  - assert (W : waiting z (eimsi e) = false) by (eapply H; eauto; tauto). apply (proj1 (waiting_false _ _) W q I E).
Qed.

Lemma connect_inv z a z' o : connect k x s z a = (z', o) -> zbase z -> idle (fun b => b = a) z ->
  zbase z' /\ idle nowhere z' /\ z_cache z' = z_cache z /\ z_look z' = z_look z /\ z_cause z' = z_cause z /\ z_gw z' = z_gw z /\ z_active z' = z_active z /\
  (forall q, In q (z_wait z') -> In q (z_wait z)) /\
  ((exists r, In r (z_rems z') /\ rm_addr r = a /\ rm_up r = false /\ rm_cbs r <> O) \/
   forall e, In e (z_cache z) -> eaddr e = a -> waiting z' (eimsi e) = false) /\
  (forall r, In r (z_rems z) -> rm_addr r <> a -> In r (z_rems z')).
Proof.
  unfold connect. intros E [B1 B2 B3] H.
  assert (CB : forall r, connect_cb k s z (z_cache z) a r = (z', o) -> zbase z' /\ idle nowhere z' /\
    z_cache z' = z_cache z /\ z_look z' = z_look z /\ z_cause z' = z_cause z /\ z_gw z' = z_gw z /\ z_active z' = z_active z /\ (forall q, In q (z_wait z') -> In q (z_wait z)) /\
    ((exists r, In r (z_rems z') /\ rm_addr r = a /\ rm_up r = false /\ rm_cbs r <> O) \/
     forall e, In e (z_cache z) -> eaddr e = a -> waiting z' (eimsi e) = false) /\
    (forall r, In r (z_rems z) -> rm_addr r <> a -> In r (z_rems z'))).
  { intros r C. destruct (cb_wait _ _ _ _ _ _ C) as [A B]. split; [|split].
    - rewrite A. split; cbn; auto.
    - eapply cb_idle; [exact C|]. intros e rr. intros Ie Ir U N Ea D. eapply H; eauto.
    - split; [rewrite A; reflexivity|]. split; [rewrite A; reflexivity|]. split; [rewrite A; reflexivity|]. split; [rewrite A; reflexivity|]. split; [rewrite A; reflexivity|]. split; [intros q I; apply B; auto|]. split.
      + right. intros e Ie Ea. apply waiting_false. intros q I X. apply B in I. destruct I as [_ I]. eapply I; eauto.
      + intros rr Ir _. rewrite A. exact Ir. }
  destruct (find_rem z a) as [r|] eqn:F.
  - destruct (rm_up r) eqn:U; [apply (CB (Some r)); auto|]. apply find_rem_some in F. destruct F as [Ir Ea].
    injection E as <- <-. set (f := fun r0 => Some (mk_rem (rm_addr r0) (rm_up r0) (S (rm_cbs r0)))).
    assert (K : keeps_addr f) by (intros r1 r2 [= <-]; reflexivity).
    assert (RI : forall r, In r (z_rems z) -> rm_addr r <> a -> In r (edit_rem (z_rems z) a f)).
    { clear. induction (z_rems z) as [|r0 l IH]; cbn; [tauto|]. intros r [<-|I] N; destruct (sa_eqb _ _) eqn:E; cbn; auto.
      apply sa_eqb_iff in E. congruence. }
    assert (RA : In (mk_rem a false (S (rm_cbs r))) (edit_rem (z_rems z) a f)).
    { clear -B2 Ir Ea U. induction (z_rems z) as [|r0 l IH]; cbn in *; [tauto|]. inversion B2 as [|? ? N1 N2]; subst.
      destruct Ir as [->|I].
      - rewrite (proj2 (sa_eqb_iff _ _) eq_refl). left. rewrite U. reflexivity.
      - destruct (sa_eqb (rm_addr r0) (rm_addr r)) eqn:E; [|right; auto]. apply sa_eqb_iff in E. destruct N1. rewrite E. apply in_map. auto. }
    split; [split; cbn; auto; apply edit_addrs; auto|]. split.
    { intros e rr Ie Irr Us _ Er D. cbn [z_rems z_with_rems] in Irr. cbn [z_cache z_with_rems] in Ie.
      destruct (edit_in _ _ _ K B2 _ Irr) as [[A Ne]|(r1 & I1 & A1 & F1)].
      - change (waiting z (eimsi e) = false). eapply H; eauto. rewrite <- Er. auto.
      - injection F1 as <-. cbn in D. destruct D as [D|D]; [|discriminate].
        assert (r1 = r) by (eapply same_rem; eauto; congruence). congruence. }
    cbn. do 5 (split; [reflexivity|]). split; [auto|]. split; [|exact RI]. left. eexists. split; [exact RA|]. cbn. auto.
  - destruct (dw_ok x a); [|apply (CB None); auto]. injection E as <- <-. pose proof (find_rem_none _ _ F) as NF.
    split; [split; cbn; auto; constructor; auto; intros I; apply in_map_iff in I; destruct I as (r & Er & I); destruct (NF r I Er)|].
    split.
    { intros e rr Ie [<-|Irr] Us _ Er D; [cbn in D; destruct D; discriminate|]. change (waiting z (eimsi e) = false). eapply H; eauto.
      intros X. rewrite X in Er. destruct (NF _ Irr Er). }
    cbn. do 5 (split; [reflexivity|]). split; [auto|]. split; [|auto]. left. eexists. split; [left; reflexivity|]. cbn. auto.
Qed.
End Fix.
