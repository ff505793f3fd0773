(** C20, exactly: of several updates of one subscriber the newest is the one that a result or an
    error for inserted data ends. *)
From Coq Require Import List String Ascii ZArith NArith Bool Lia Sorted.
Import ListNotations.
From Verif Require Import Base PeerId Db DbSpec DbProofs DbThms DbThms2 Auth AuthSpec AuthThms AuthThms2 Gsup Router Hlr HlrSpec HlrThms HlrThms2 HlrThms3 HlrStep HlrThms4 HlrThms5 HlrThms6 HlrThms7 HlrThms8.
Local Open Scope Z_scope.

(** [nr] is the newest update of [imsi] that waits for a result *)
Definition newest (s : hst) (nr : nat) (imsi : string) : Prop :=
  waiting s nr imsi /\ forall n, waiting s n imsi -> (n <= nr)%nat.

Definition down (a b : lu) : Prop := (q_nr (l_req b) <= q_nr (l_req a))%nat.
Definition lus_down (s : hst) : Prop := StronglySorted down (t_lus s).

Lemma filter_down p l : StronglySorted down l -> StronglySorted down (filter p l).
Proof.
  induction l as [|a l IH]; cbn; intros H; [constructor|]. inversion H as [|x y S F]; subst.
  destruct (p a); auto. constructor; auto. apply Forall_forall. intros y I. apply filter_In in I as [I _].
  rewrite Forall_forall in F. auto.
Qed.

Lemma app_down n l0 l : Forall (fun x => q_nr (l_req x) = n) l0 -> Forall (fun x => (q_nr (l_req x) <= n)%nat) l ->
  StronglySorted down l -> StronglySorted down (l0 ++ l).
Proof.
  intros H0 H S. induction l0 as [|a l0 IH]; auto. inversion H0 as [|x y Ea Hl]; subst x y. cbn. constructor; auto.
  apply Forall_app. split.
  - eapply Forall_impl; [|exact Hl]. cbn beta. intros x Ex. unfold down. lia.
  - eapply Forall_impl; [|exact H]. cbn beta. intros x Ex. unfold down. lia.
Qed.

Lemma step_down k s d w e f s' d' o : inv s -> Forall lu_ok (t_lus s) -> lus_down s ->
  step k (s, d) (w, e, f) = Some (s', d', o) -> lus_down s'.
Proof.
  intros H LO D E. unfold lus_down in *.
  destruct (step_eff _ _ _ _ _ _ _ _ _ H LO E) as [[(l0 & A & B & _)|(l & o1 & r & co & o2 & A & B & _)]|(-> & _)];
    cbn [fst] in *; [| |constructor].
  - rewrite A. apply app_down with (t_nr s); auto.
    + eapply Forall_impl; [|exact B]. intros x [X _]. exact X.
    + apply Forall_forall. intros x I. pose proof (hi_lt s (proj1 H)) as L. rewrite Forall_forall in L.
      assert (J : In (l_req x) (opens s)) by (unfold opens; apply in_or_app; left; now apply in_map). apply L in J. lia.
  - rewrite B. now apply filter_down.
Qed.
Lemma hist_down k es : forall s d s' d' o, inv s -> Forall lu_ok (t_lus s) -> lus_down s ->
  hist k (s, d) es = Some (s', d', o) -> lus_down s'.
Proof.
  induction es as [|[[w e] f] es IH]; intros s d s' d' o H LO D; cbn [hist].
  - intros [= <- <- <-]. auto.
  - destruct (step k (s, d) (w, e, f)) as [[[s1 d1] o1]|] eqn:E; [|discriminate].
    destruct (hist k (s1, d1) es) as [[[s2 d2] o2]|] eqn:E2; [|discriminate]. intros [= <- <- <-].
    eapply IH; [| | |exact E2]; [eapply step_ltr; eauto|eapply step_lu_ok; eauto|eapply step_down; eauto].
Qed.

Lemma find_newest (p : lu -> bool) l a : StronglySorted down l -> find p l = Some a ->
  forall b, In b l -> p b = true -> (q_nr (l_req b) <= q_nr (l_req a))%nat.
Proof.
  induction l as [|x l IH]; cbn; intros S F b I P; [discriminate|]. inversion S as [|y z S' F']; subst.
  destruct (p x) eqn:Px.
  - injection F as <-. destruct I as [->|I]; [lia|]. rewrite Forall_forall in F'. apply F', I.
  - destruct I as [->|I]; [congruence|]. eauto.
Qed.

Lemma c20_newest k d es s d1 o w c g f s2 d2 o2 : hist k (hst0, d) es = Some (s, d1, o) -> for_us k (t_srv s) c g ->
  g_type g = MSGT_INSERT_DATA_RESULT \/ g_type g = MSGT_INSERT_DATA_ERROR -> no_crash f ->
  step k (s, d1) (w, ERx c g, f) = Some (s2, d2, o2) ->
  d2 = d1 /\
  (((forall n, ~ waiting s n (g_imsi g)) /\ o2 = [ORx (t_nr s) c g; OFree (t_nr s)] /\
    forall n i, waiting s2 n i <-> waiting s n i) \/
   exists nr r co, newest s nr (g_imsi g) /\
    (g_type g = MSGT_INSERT_DATA_RESULT /\ g_type r = MSGT_UPDATE_LOCATION_RESULT /\
       o2 = [ORx (t_nr s) c g; OFree (t_nr s); OResp nr r true co] \/
     g_type g = MSGT_INSERT_DATA_ERROR /\ g_type r = to_error MSGT_UPDATE_LOCATION_REQUEST /\ g_cause r = CAUSE_NET_FAIL /\
       o2 = [ORx (t_nr s) c g; OResp nr r true co; OFree (t_nr s)]) /\
    forall n i, waiting s2 n i <-> waiting s n i /\ n <> nr).
Proof.
  intros Hs U T NC E. destruct (inv_of_hist _ _ _ _ _ _ Hs) as [H LO].
  assert (D : lus_down s) by (eapply hist_down; [| | |exact Hs]; [apply inv0|constructor|constructor]).
  destruct (rx_step _ _ _ _ _ _ _ _ _ _ H U E) as (s1 & q & R & [(o' & f' & -> & Rn)|(_ & _ & C & _)]); [|destruct (NC C)].
  pose proof (rr_gsup _ _ _ _ _ _ R) as Eg.
  assert (Rn' : run (Ret (lu_rx k s1 q)) f d1 = (Fin (s2, o'), d2, f')) by (rewrite <- Rn; unfold dispatch; rewrite Eg; destruct T as [T|T]; rewrite T; reflexivity).
  apply fin_ret in Rn' as (Ex & -> & _). split; auto. unfold lu_rx in Ex. rewrite (rr_lus _ _ _ _ _ _ R), Eg in Ex.
  destruct (find _ _) as [l'|] eqn:Fd.
  2:{ left. unfold respond_err in Ex. rewrite Eg in Ex.
      assert (X : (s2, o') = (s1, [OFree (q_nr q)])) by (destruct T as [T|T]; rewrite T in Ex; exact Ex).
      injection X as -> ->. rewrite (rr_nr _ _ _ _ _ _ R). split; [|split; auto].
      - intros n (l & I & _ & Ei). apply (find_none _ _ Fd) in I. rewrite Ei, String.eqb_refl in I. discriminate.
      - intros n i. unfold waiting. rewrite (rr_lus _ _ _ _ _ _ R). apply iff_refl. }
  right. pose proof (find_newest _ _ _ D Fd) as NW. apply find_some in Fd as [Il' El']. apply String.eqb_eq in El'.
  assert (Nw : newest s (q_nr (l_req l')) (g_imsi g)).
  { split; [exists l'; auto|]. intros n (l & I & <- & Ei). apply NW; auto. now apply String.eqb_eq. }
  assert (WT : forall n i, waiting (lu_del s1 (q_nr (l_req l'))) n i <-> waiting s n i /\ n <> q_nr (l_req l')).
  { intros n i. unfold waiting. cbn [lu_del with_lus t_lus]. rewrite (rr_lus _ _ _ _ _ _ R). split.
    - intros (y & Iy & Ny & Hy). apply filter_In in Iy as [Iy Fy]. apply Bool.negb_true_iff, Nat.eqb_neq in Fy. split; [exists y; auto|congruence].
    - intros [(y & Iy & Ny & Hy) Nn]. exists y. split; auto. apply filter_In. split; auto. apply Bool.negb_true_iff, Nat.eqb_neq. congruence. }
  assert (Lo : lu_ok l') by (rewrite Forall_forall in LO; auto). destruct Lo as [Lt Li].
  destruct T as [T|T]; rewrite T in Ex.
  - change (MSGT_INSERT_DATA_RESULT =? MSGT_INSERT_DATA_RESULT) with true in Ex. cbn iota in Ex.
    unfold respond_msgt in Ex. destruct (respond_plain_out (tx k s1) (l_req l') (msg0 MSGT_UPDATE_LOCATION_RESULT) (is_error MSGT_UPDATE_LOCATION_RESULT) true 6) as (r & Er & Ty & _); [repeat split|reflexivity|discriminate|].
    rewrite Er, (rr_nr _ _ _ _ _ _ R) in Ex. injection Ex as -> ->. exists (q_nr (l_req l')), r, (tx k s1 (l_req l') r).
    split; auto.
  - change (MSGT_INSERT_DATA_ERROR =? MSGT_INSERT_DATA_RESULT) with false in Ex.
    change (MSGT_INSERT_DATA_ERROR =? MSGT_INSERT_DATA_ERROR) with true in Ex. cbn iota in Ex.
    destruct (respond_err_out (tx k s1) (l_req l') CAUSE_NET_FAIL) as (r & Er & Ty & Cz); [rewrite Lt; reflexivity|]. rewrite Lt in Ty.
    rewrite Er, (rr_nr _ _ _ _ _ _ R) in Ex. injection Ex as -> ->. exists (q_nr (l_req l')), r, (tx k s1 (l_req l') r).
    split; auto. split; [|exact WT]. right. repeat split; auto. apply Cz.
Qed.
