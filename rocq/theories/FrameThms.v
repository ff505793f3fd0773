From Verif Require Import Base PeerId Db Auth Gsup Router Hlr Frame FrameSpec DbProofs PeerSpec PeerThms RouterThms HlrSpec HlrThms3.

(** ** Frames *)
Lemma server_send_eq l2 : (length l2 <= 1024)%nat -> exists m o8, msgb_put gsup_msgb_alloc l2 = Some m /\ server_send m = Some o8 /\ framed l2 o8.
Proof.
  intros H. unfold msgb_put, gsup_msgb_alloc, msgb_alloc. cbn [mb_tail mb_head mb_data].
  change (1024 + 512 - 512)%nat with 1024%nat. destruct (Nat.leb_spec (length l2) 1024) as [_|H']; [|lia].
  eexists. eexists. split; [reflexivity|]. split; [reflexivity|]. cbn [mb_data app].
  exists (N.of_nat (length (EXT_GSUP :: l2)) / 256 mod 256)%N, (N.of_nat (length (EXT_GSUP :: l2)) mod 256)%N.
  cbn [length]. set (n := N.of_nat (S (length l2))). assert (n < 65536)%N by (subst n; lia).
  split; [reflexivity|]. split; [apply N.mod_lt; lia|]. split; [apply N.mod_lt; lia|].
  rewrite (N.mod_small (n / 256)) by (apply N.div_lt_upper_bound; lia).
  rewrite (N.div_mod n 256) at 3 by lia. lia.
Qed.
Lemma put_long l2 : (1024 < length l2)%nat -> msgb_put gsup_msgb_alloc l2 = None.
Proof.
  intros H. unfold msgb_put, gsup_msgb_alloc, msgb_alloc. cbn [mb_tail]. change (1024 + 512 - 512)%nat with 1024%nat.
  destruct (Nat.leb_spec (length l2) 1024); [lia|reflexivity].
Qed.
Lemma recv_framed l2 o8 rest : framed l2 o8 -> (length l2 <= 1196)%nat -> ipa_recv (o8 ++ rest) = RFrame 238 (5%N :: l2) rest.
Proof.
  intros (hi & lo & -> & _ & _ & E) H. cbn [app ipa_recv]. rewrite E, Nat2N.id.
  assert (En : (IPA_ALLOC_SIZE <? S (length l2) + 3)%nat = false) by (apply Nat.ltb_ge; unfold IPA_ALLOC_SIZE; lia). rewrite En.
  assert (El : (length (5%N :: l2 ++ rest) <? S (length l2))%nat = false) by (apply Nat.ltb_ge; cbn [length]; rewrite app_length; lia). rewrite El.
  cbn [firstn skipn]. rewrite firstn_app, Nat.sub_diag, firstn_all, skipn_app, Nat.sub_diag, skipn_all. cbn. rewrite app_nil_r. reflexivity.
Qed.

(** ** The messages of Hlr.v *)
Lemma forward8_out k s dest q l2 c d : (length l2 <= 1024)%nat ->
  run (do x <- forward8 k s dest q l2;; Ret (fst x)) c d = run (read_cb_forward k s dest q) c d.
Proof.
  intros H. destruct (server_send_eq l2 H) as (m & o8 & E1 & E2 & _).
  unfold forward8, read_cb_forward. destruct (g_src (q_gsup q)); [reflexivity|]. rewrite E1, E2.
  destruct (send_to (t_srv s) dest (q_gsup q)) as [[rc o]|]; [|reflexivity]. cbn [bind run]. destruct (rc =? 0); reflexivity.
Qed.
Lemma bind_assoc {A B C} (p : prog A) (f : A -> prog B) (g : B -> prog C) c d :
  run (bind (bind p f) g) c d = run (bind p (fun a => bind (f a) g)) c d.
Proof. rewrite !run_bind. destruct (run p c d) as [[[a| |] d'] c']; auto. rewrite run_bind. reflexivity. Qed.
Lemma bind_ext {A B} (p : prog A) (f g : A -> prog B) c d :
  (forall a c d, run (f a) c d = run (g a) c d) -> run (bind p f) c d = run (bind p g) c d.
Proof. intros H. rewrite !run_bind. destruct (run p c d) as [[[a| |] d'] c']; auto. Qed.
Lemma bind_ret {A} (p : prog A) c d : run (bind p Ret) c d = run p c d.
Proof. rewrite run_bind. destruct (run p c d) as [[[a| |] d'] c']; reflexivity. Qed.

Lemma read_msg8_out k w s cid l2 g c d : (length l2 <= 1024)%nat ->
  run (do x <- read_msg8 k w s cid l2 g;; Ret (fst x)) c d = run (read_msg k w s cid g) c d.
Proof.
  intros H. unfold read_msg8, read_msg. destruct (conn_rx (k_enc k) (t_srv s) (t_nr s) cid g) as [v [q|o]]; [|reflexivity].
  assert (G : forall p : prog (hst * list out), run (do x <- (do x <- p;; Ret (x, @nil (nat * list N)));; Ret (fst x)) c d = run p c d).
  { intros p. rewrite bind_assoc. transitivity (run (bind p Ret) c d); [apply bind_ext; reflexivity|apply bind_ret]. }
  destruct (g_dst g) as [|a r]; [apply G|]. destruct (ipa_set_str ipa_empty (Some (k_serno k))) as [my|]; [|reflexivity].
  destruct (ipa_set ipa_empty (Some (a :: r))) as [rc dest]. destruct ((rc =? 0) && negb (ipa_cmp dest my =? 0)); [|apply G].
  unfold same. rewrite bind_assoc. cbn [bind]. rewrite !run_bind.
  set (s1 := mk_hst v (t_lus s) (t_ss s) (S (t_nr s))).
  pose proof (forward8_out k s1 dest q l2 c d H) as F. rewrite run_bind in F.
  destruct (run (forward8 k s1 dest q l2) c d) as [[[x| |] d'] c']; rewrite <- F; reflexivity.
Qed.

Lemma read_frame_means dec ccm k w s cid proto payload e c d : (length payload <= 1025)%nat -> meaning dec ccm cid proto payload e ->
  run (do x <- read_frame dec ccm k w s cid proto payload;; Ret (fst x)) c d = run (handle k w s e) c d
  \/ find_conn (t_srv s) cid = None.
Proof.
  intros H M. unfold read_frame. destruct (find_conn (t_srv s) cid) as [x|] eqn:F; [left|auto]. destruct M as [p tag E|l2 g N0 E].
  - change (server_read 254 p) with (ACcm p). cbn [handle]. rewrite E. reflexivity.
  - change (server_read 238 (5%N :: l2)) with (AGsup l2). cbn [handle]. rewrite F. unfold read_gsup. destruct l2 as [|a l2]; [congruence|]. rewrite E.
    cbn [length] in H. unfold read_cb. rewrite bind_assoc. cbn [bind fst].
    pose proof (read_msg8_out k w s cid (a :: l2) g c d ltac:(cbn [length]; lia)) as G. rewrite run_bind in G.
    rewrite !run_bind. destruct (run (read_msg8 k w s cid (a :: l2) g) c d) as [[[y| |] d'] c']; rewrite <- G; reflexivity.
Qed.
Lemma read_frame_nothing dec ccm k w s cid proto payload c d : ~ (exists e, meaning dec ccm cid proto payload e) ->
  exists s', run (read_frame dec ccm k w s cid proto payload) c d = (Fin (s', [], []), d, c) /\ same_but_nr s s'.
Proof.
  intros H. unfold read_frame. destruct (find_conn (t_srv s) cid); [|exists s; repeat split].
  unfold server_read. destruct (proto =? PROTO_IPACCESS)%N eqn:E1.
  { apply N.eqb_eq in E1. subst proto. destruct (ccm payload) as [tag|] eqn:E; [|exists s; repeat split]. exfalso. apply H. exists (EIdent cid tag). constructor. exact E. }
  destruct (proto =? PROTO_OSMO)%N eqn:E2; [|exists s; repeat split]. apply N.eqb_eq in E2. subst proto. cbn [negb].
  destruct payload as [|ext l2]; [exists s; repeat split|]. destruct (ext =? EXT_GSUP)%N eqn:E3.
  - apply N.eqb_eq in E3. subst ext. destruct l2 as [|a l2]; [exists s; repeat split|]. unfold read_gsup. destruct (dec (a :: l2)) as [g|] eqn:E.
    + exfalso. apply H. exists (ERx cid g). constructor; [discriminate|exact E].
    + eexists. split; [reflexivity|]. repeat split.
  - destruct (ext =? EXT_OAP)%N; exists s; repeat split.
Qed.

(** ** What is forwarded *)
Lemma dispatch_wire k w s q c d s' o v d' c' : run (do x <- dispatch k w s q;; Ret (x, @nil (nat * list N))) c d = (Fin (s', o, v), d', c') -> v = [].
Proof. rewrite run_bind. destruct (run (dispatch k w s q) c d) as [[[x| |] d2] c2]; cbn; congruence. Qed.
Lemma read_frame_wire dec ccm k w s cid proto payload c d s' o v n o8 :
  run_out (read_frame dec ccm k w s cid proto payload) c d = Fin (s', o, v) -> In (n, o8) v ->
  exists l2 g, proto = 238%N /\ payload = 5%N :: l2 /\ dec l2 = Some g /\ framed l2 o8 /\ In (OTx n g) o /\ (length l2 <= 1024)%nat.
Proof.
  unfold run_out, read_frame. destruct (find_conn (t_srv s) cid); [|intros [= <- <- <-] []].
  unfold server_read. destruct (proto =? PROTO_IPACCESS)%N; [destruct (ccm payload); intros [= <- <- <-] []|].
  destruct (proto =? PROTO_OSMO)%N eqn:Ep; [|intros [= <- <- <-] []]. apply N.eqb_eq in Ep. subst proto. cbn [negb].
  destruct payload as [|ext l2]; [intros [= <- <- <-] []|].
  destruct (ext =? EXT_GSUP)%N eqn:Ex; [|destruct (ext =? EXT_OAP)%N; intros [= <- <- <-] []]. apply N.eqb_eq in Ex. subst ext.
  unfold read_gsup. destruct l2 as [|a l2]; [intros [= <- <- <-] []|]. set (l := a :: l2). destruct (dec l) as [g|] eqn:Ed; [|intros [= <- <- <-] []].
  rewrite run_bind. destruct (run (read_msg8 k w s cid l g) c d) as [[[[[s1 o1] v1]| |] d1] c1] eqn:Er; [|discriminate|discriminate].
  cbn. intros [= <- <- <-] Hi.
  assert (G : framed l o8 /\ In (OTx n g) o1 /\ (length l <= 1024)%nat).
  2:{ destruct G as (G1 & G2 & G3). exists l, g. repeat split; auto. right. exact G2. }
  revert Er. unfold read_msg8. destruct (conn_rx (k_enc k) (t_srv s) (t_nr s) cid g) as [sv [q|o2]] eqn:Ec; [|intros [= <- <- <-]; destruct Hi].
  assert (Eg : q_gsup q = g).
  { revert Ec. unfold conn_rx. destruct (find_conn (t_srv s) cid) as [x|]; [|discriminate]. unfold req_new. destruct (g_src g) as [|y r].
    - destruct (negb (imsi_valid (g_imsi g))); [discriminate|]. cbn. intros [= _ <-]. reflexivity.
    - destruct (peer_set _ _) as [rc src]. destruct (negb (rc =? 0)); [discriminate|]. destruct (negb (peer_cmp src _ =? 0)).
      + destruct (negb (imsi_valid (g_imsi g))); [discriminate|]. cbn [q_via]. destruct (negb (peer_is_empty _)); [|intros [= _ <-]; reflexivity].
        destruct (route_add _ _ _) as [rc2 v2]. destruct (negb (rc2 =? 0)); [discriminate|]. intros [= _ <-]. reflexivity.
      + destruct (negb (imsi_valid (g_imsi g))); [discriminate|]. cbn. intros [= _ <-]. reflexivity. }
  destruct (g_dst g) as [|y r]; [intros Er; apply dispatch_wire in Er; subst; destruct Hi|].
  destruct (ipa_set_str ipa_empty (Some (k_serno k))) as [my|]; [|discriminate]. destruct (ipa_set ipa_empty (Some (y :: r))) as [rc dest].
  destruct ((rc =? 0) && negb (ipa_cmp dest my =? 0)); [|intros Er; apply dispatch_wire in Er; subst; destruct Hi].
  rewrite run_bind. unfold forward8. rewrite Eg. destruct (g_src g) as [|z r']; [cbn; intros [= <- <- <- <- <-]; destruct Hi|].
  destruct (Nat.le_gt_cases (length l) 1024) as [Hl|Hl].
  2:{ rewrite (put_long l Hl). discriminate. }
  destruct (server_send_eq l Hl) as (m & o8' & E1 & E2 & Fr). rewrite E1, E2.
  destruct (send_to _ dest g) as [[rc2 o2]|] eqn:Es; [|discriminate]. cbn [run]. destruct (rc2 =? 0); cbn; intros [= <- <- <- <- <-]; [|destruct Hi].
  apply in_flat_map in Hi as (x & Hx & Hi). split; [|split; [|exact Hl]].
  - destruct x; cbn in Hi; try contradiction. destruct Hi as [[= <- <-]|[]]. exact Fr.
  - apply in_or_app. left. assert (Eo : forall c' g', In (OTx c' g') o2 -> g' = g).
    { revert Es. unfold send_to. destruct (in_len dest); [discriminate|].
      repeat match goal with |- context [if ?b then _ else _] => destruct b end; try (intros [= <- <-] ? ? []; fail);
        destruct (route_find _ _); intros [= <- <-] c' g' Hx'; destruct Hx' as [[= <- <-]|[]] || destruct Hx'; reflexivity. }
    destruct x; cbn in Hi; try contradiction. destruct Hi as [[= <- <-]|[]]. rewrite (Eo _ _ Hx) in Hx. exact Hx.
Qed.

(** ** Long messages *)
Lemma read_frame_long dec ccm k w s cid x g l2 c d : sinv (t_srv s) -> find_conn (t_srv s) cid = Some x ->
  dec l2 = Some g -> imsi_valid (g_imsi g) = true -> g_src g <> [] -> g_src g = ipa_bytes (c_name x) ->
  g_dst g <> [] -> (length (g_dst g) <= 128)%nat -> g_dst g <> own_name k -> (1024 < length l2)%nat ->
  run_out (read_frame dec ccm k w s cid 238 (5%N :: l2)) c d = Ub.
Proof.
  intros SV F Ed Im Ns Es Nd Ld No Hl. unfold run_out, read_frame. rewrite F. change (server_read 238 (5%N :: l2)) with (AGsup l2).
  unfold read_gsup. destruct l2 as [|a l2']; [cbn in Hl; lia|]. set (l2 := a :: l2') in *. rewrite Ed, run_bind.
  assert (W : ipa_wf (c_name x)). { apply (si_wf _ SV). apply in_map. apply find_some in F. tauto. }
  assert (C : exists v q, conn_rx (k_enc k) (t_srv s) (t_nr s) cid g = (v, inl q) /\ q_gsup q = g).
  { unfold conn_rx. rewrite F. unfold req_new. rewrite Im. cbn [negb]. destruct (g_src g) as [|y r] eqn:Eg; [tauto|]. rewrite <- Eg in *.
    unfold peer_set. cbn [p_ipa]. destruct (ipa_set (c_name x) (Some (g_src g))) as [rc n] eqn:Ei.
    destruct (ipa_set_bytes _ _ _ _ W Ei) as (W2 & [(-> & B)|(_ & _ & B)]).
    2:{ exfalso. rewrite Es in B. destruct W as [W1 W3]. unfold ipa_bytes in B. rewrite firstn_length in B. lia. }
    cbn [negb Z.eqb].
    assert (Cp : peer_cmp (mk_peer PT_IPA n) (mk_peer PT_IPA (c_name x)) = 0). { cbn. apply c27_spec; auto. congruence. }
    rewrite Cp. eexists. eexists. split; reflexivity. }
  destruct C as (v & q & Cv & Eq). unfold read_msg8. rewrite Cv. destruct (g_dst g) as [|y r] eqn:Eg; [tauto|]. rewrite <- Eg in *.
  destruct (ipa_set_str ipa_empty (Some (k_serno k))) as [my|] eqn:Em; [|reflexivity].
  destruct (ipa_set_str_bytes _ _ _ ipa_empty_wf Em) as (Wm & Bm).
  destruct (ipa_set ipa_empty (Some (g_dst g))) as [rc dest] eqn:Ei.
  destruct (ipa_set_bytes _ _ _ _ ipa_empty_wf Ei) as (W2 & [(-> & B)|(_ & _ & B)]); [|exfalso; unfold IPA_MAX in B; lia].
  assert (Cm : ipa_cmp dest my =? 0 = false).
  { apply Z.eqb_neq. intros Z. apply c27_spec in Z; auto. apply No. rewrite <- B, Z. exact Bm. }
  rewrite Cm. cbn [negb andb Z.eqb]. rewrite run_bind. unfold forward8. rewrite Eq.
  destruct (g_src g) as [|z r'] eqn:Eg2; [tauto|]. rewrite (put_long l2 Hl). reflexivity.
Qed.

(** ** Buffers *)
Lemma leaked_oap n p : leaked (repeat (238%N, 6%N :: p) n) = n.
Proof. unfold leaked. induction n; cbn; [reflexivity|]. f_equal. exact IHn. Qed.
Lemma leaked_none l : (forall m, In m l -> forall p, m <> (238%N, 6%N :: p)) -> leaked l = O.
Proof.
  unfold leaked. induction l as [|[proto p] l IH]; intros H; [reflexivity|]. cbn [filter fst snd].
  assert (E : released (server_read proto p) = true).
  { unfold server_read. destruct (proto =? PROTO_IPACCESS)%N; [reflexivity|]. destruct (proto =? PROTO_OSMO)%N eqn:Ep; [|reflexivity]. cbn [negb].
    destruct p as [|x p]; [reflexivity|]. destruct (x =? EXT_GSUP)%N; [reflexivity|]. destruct (x =? EXT_OAP)%N eqn:Ex; [|reflexivity].
    apply N.eqb_eq in Ep. apply N.eqb_eq in Ex. subst. exfalso. apply (H _ (or_introl eq_refl) p). reflexivity. }
  rewrite E. cbn [negb]. apply IH. intros m Hm. apply H. right. exact Hm.
Qed.

Lemma put_room m l : match msgb_put m l with
  | Some m' => mb_data m' = mb_data m ++ l /\ mb_head m' = mb_head m /\ size m' = size m
  | None => (size m < mb_head m + length (mb_data m ++ l))%nat
  end.
Proof.
  unfold msgb_put, size. destruct (Nat.leb_spec (length l) (mb_tail m)); cbn [mb_data mb_head mb_tail]; rewrite app_length; [repeat split; lia|lia].
Qed.
Lemma push_room m l : match msgb_push m l with
  | Some m' => mb_data m' = l ++ mb_data m /\ mb_tail m' = mb_tail m /\ size m' = size m
  | None => (size m < length (l ++ mb_data m) + mb_tail m)%nat
  end.
Proof.
  unfold msgb_push, size. destruct (Nat.leb_spec (length l) (mb_head m)); cbn [mb_data mb_head mb_tail]; rewrite app_length; [repeat split; lia|lia].
Qed.
