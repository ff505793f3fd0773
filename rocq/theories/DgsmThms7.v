(** Proofs for C40: what a remote HLR gets for its messages. *)
From Verif Require MdnsThms.
From Verif Require Import Base PeerId PeerSpec Db Gsup Router Hlr Mdns Proxy Dgsm DgsmSpec.
Local Open Scope string_scope. Local Open Scope list_scope. Local Open Scope Z_scope.

Lemma sa_eqb_eq a b : sa_eqb a b = true <-> a = b.
Proof.
  destruct a as [|i p|i p], b as [|j r|j r]; cbn [sa_eqb]; try (split; congruence); [|];
    rewrite andb_true_iff, N.eqb_eq; (split; [intros [E ->]; apply MdnsThms.octets_eqb_eq in E; congruence|intros [= -> ->]; split; auto; apply MdnsThms.octets_eqb_refl]).
Qed.
Lemma sa_eqb_refl a : sa_eqb a a = true. Proof. apply sa_eqb_eq. reflexivity. Qed.

Lemma err_reply_is k a up g c : err_reply k a up g c = [] \/ exists m, err_reply k a up g c = [DErr a m] /\ g_type g mod 4 = 0 /\ home_error g m c.
Proof.
  unfold err_reply, is_request, to_error. destruct (Z.eqb_spec (g_type g mod 4) 0) as [E|E]; cbn [negb]; [|left; reflexivity]. cbv zeta.
  destruct (_ && up); [right|left; reflexivity]. eexists. split; [reflexivity|]. split; auto. constructor; cbn [g_type g_imsi g_cause g_class g_src g_dst g_mr g_sid g_ss g_cn g_x]; auto.
  - rewrite E. lia.
  - intros N. apply Z.eqb_neq in N. unfold SS_NONE. rewrite N. auto.
  - intros N. rewrite N. auto.
Qed.
Lemma err_reply_sent k a g c : g_type g mod 4 = 0 -> (forall m, k_enc k m = true) -> err_reply k a true g c <> [].
Proof. intros E K. unfold err_reply, is_request. apply Z.eqb_eq in E. rewrite E. cbn [negb]. cbv zeta. rewrite K. discriminate. Qed.
Lemma forward_out k x s z p g a z' o : forward_to_vlr k x s z p g a = (z', Some o) -> exists c, o = [DTx a c g].
Proof.
  unfold forward_to_vlr. destruct (ipa_set _ _) as [rc dest]. destruct (negb _); [discriminate|]. destruct (route_find _ _) as [c|]; [|discriminate].
  destruct (find_conn _ c); [|discriminate]. destruct (ack_from_remote _ _ _ _ _ _ _); [|discriminate]. destruct (k_enc k g); [|discriminate]. intros [= _ <-]. eauto.
Qed.
Definition verdict (a : sa) (g : gsup) (o : list dout) : Prop :=
  o = [] \/ (exists c, imsi_valid (g_imsi g) = true /\ o = [DTx a c g]) \/
  exists m cause, o = [DErr a m] /\ g_type g mod 4 = 0 /\ home_error g m cause /\ cause = if imsi_valid (g_imsi g) then 17 else 96.
Lemma remote_rx_out k x s z a g z' o : remote_rx k x s z a g = (z', o) -> verdict a g o /\
  ((exists r, In r (z_rems z) /\ rm_addr r = a) -> (forall r, In r (z_rems z) -> rm_addr r = a -> rm_up r = true) -> g_type g mod 4 = 0 -> (forall m, k_enc k m = true) -> o <> []).
Proof.
  unfold remote_rx, verdict. destruct (find_rem z a) as [r|] eqn:F.
  2: { intros [= _ <-]. split; [auto|]. intros (r & J & <-). exfalso. apply (find_none _ _ F) in J. rewrite sa_eqb_refl in J. discriminate. }
  assert (U : (forall r, In r (z_rems z) -> rm_addr r = a -> rm_up r = true) -> rm_up r = true).
  { intros H. apply find_some in F as [J E]. apply sa_eqb_eq in E. apply H; auto. }
  assert (G : forall c, (err_reply k a (rm_up r) g c = [] \/ exists m, err_reply k a (rm_up r) g c = [DErr a m] /\ g_type g mod 4 = 0 /\ home_error g m c)) by (intros; apply err_reply_is).
  assert (V : forall c, ((forall r, In r (z_rems z) -> rm_addr r = a -> rm_up r = true) -> g_type g mod 4 = 0 -> (forall m, k_enc k m = true) -> err_reply k a (rm_up r) g c <> [])).
  { intros c H T K. rewrite (U H). apply err_reply_sent; auto. }
  destruct (imsi_valid (g_imsi g)) eqn:IV; cbn [negb].
  - destruct (cache_by_imsi _ _) as [p|]; [destruct (forward_to_vlr k x s z p g a) as [z1 [o1|]] eqn:W|]; intros [= _ <-].
    + apply forward_out in W as (c & ->). split; [right; left; eauto|discriminate].
    + split; [|intros _; apply V]. destruct (G CAUSE_NET_FAIL) as [E|(m & E & T & H)]; rewrite E; [auto|]. right. right. exists m, 17. auto.
    + split; [|intros _; apply V]. destruct (G CAUSE_NET_FAIL) as [E|(m & E & T & H)]; rewrite E; [auto|]. right. right. exists m, 17. auto.
  - intros [= _ <-]. split; [|intros _; apply V]. destruct (G CAUSE_INV_MAND_INFO) as [E|(m & E & T & H)]; rewrite E; [auto|]. right. right. exists m, 96. auto.
Qed.
Theorem c40_told k s z d l x a g f s' z' d' o : dstep k (s, z, d, l) (x, DRx a g, f) = Some (s', z', d', l ++ o) -> verdict a g o /\
  ((exists r, In r (z_rems z) /\ rm_addr r = a) -> (forall r, In r (z_rems z) -> rm_addr r = a -> rm_up r = true) -> g_type g mod 4 = 0 -> (forall m, k_enc k m = true) -> o <> []).
Proof.
  unfold dstep. cbn [dhandle run]. destruct (remote_rx k x s z a g) as [z1 o1] eqn:R. cbn [fst snd]. intros [= _ _ _ E]. apply app_inv_head in E. subst o1.
  eapply remote_rx_out; eauto.
Qed.
