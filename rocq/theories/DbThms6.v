(** C09 without any condition on the peer names: which names are given an index, and exactly when
    two of them are given the same one. *)
From Verif Require Import Base PeerId Db DbSpec DbProofs DbThms DbThms2 DbThms3.

(** the name of the peer has at least two bytes, the last one is NUL, and [s] is what stands before
    the first NUL (db_hlr.c:1041-1047) *)
Definition text_before_nul (p : peer_id) (s : string) : Prop :=
  p_type p = PT_IPA /\ (2 <= length (ipa_bytes (p_ipa p)))%nat /\
  (exists front, ipa_bytes (p_ipa p) = front ++ [nul]) /\
  ~ In nul (bytes_of s) /\ (exists rest, ipa_bytes (p_ipa p) = bytes_of s ++ nul :: rest).

(** no call of the history releases a name that is cut to [s] *)
Definition not_cut_released (s : string) (h : list (api * sched)) : Prop :=
  forall v c, In (AIndDel v, c) h -> ~ text_before_nul v s.

(** the buffers of the peers released in a history are well-formed *)
Definition released_wf (h : list (api * sched)) : Prop :=
  forall v c, In (AIndDel v, c) h -> ipa_wf (p_ipa v).

Lemma ipa_bytes_length n : ipa_wf n -> length (ipa_bytes n) = in_len n.
Proof. intros [W1 W2]. unfold ipa_bytes. rewrite firstn_length. lia. Qed.

Lemma cut_iff p s : ipa_wf (p_ipa p) -> (ind_vlr_name p = Some s <-> text_before_nul p s).
Proof.
  intros W. pose proof (ipa_bytes_length _ W) as L. split.
  - intros H. pose proof (ind_name_begins _ _ H) as [rest Hr].
    unfold ind_vlr_name in H. unfold text_before_nul. destruct (p_type p); [discriminate|].
    set (n := p_ipa p) in *.
    destruct (Nat.ltb_spec (in_len n) 2) as [|L2]; [discriminate|]. cbn [orb] in H.
    destruct (Ascii.eqb_spec (nth (in_len n - 1) (in_val n) "x"%char) nul) as [E|]; [|discriminate].
    cbn [negb] in H. apply cstr_inv in H as (Hn & _).
    repeat split; auto; [lia| |now exists rest].
    assert (Hne : ipa_bytes n <> []) by (intros X; rewrite X in L; cbn in L; lia).
    destruct (exists_last Hne) as (front & a & Ef). exists front. rewrite Ef. repeat f_equal.
    rewrite <- E, <- (nth_firstn_lt _ (in_len n)) by lia. fold (ipa_bytes n). rewrite Ef.
    rewrite Ef, app_length in L. cbn in L. rewrite app_nth2 by lia.
    replace (_ - _ - _)%nat with 0%nat by lia. reflexivity.
  - intros (Ht & L2 & [front Ef] & Hn & [rest Hr]). unfold ind_vlr_name. rewrite Ht.
    set (n := p_ipa p) in *.
    destruct (Nat.ltb_spec (in_len n) 2) as [|_]; [lia|]. cbn [orb].
    replace (nth (in_len n - 1) (in_val n) "x"%char) with nul.
    + rewrite Ascii.eqb_refl. cbn [negb]. exact (ipa_cstr_bytes n s rest Hn Hr).
    + rewrite <- (nth_firstn_lt _ (in_len n)) by lia. fold (ipa_bytes n). rewrite Ef.
      rewrite Ef, app_length in L. cbn in L. rewrite app_nth2 by lia.
      replace (_ - _ - _)%nat with 0%nat by lia. reflexivity.
Qed.

Lemma cut_row_step r a c d :
  (forall v, a = AIndDel v -> ind_vlr_name v <> Some (i_vlr r)) ->
  In r (d_ind d) -> In r (d_ind (db_step d (a, c))).
Proof.
  intros Ha H. unfold db_step. cbn [fst snd].
  apply (run_inv (fun d => In r (d_ind d)) (keeps_name (i_vlr r))); auto.
  - intros s d0. apply row_exec.
  - assert (D : (exists p, a = AIndDel p) \/ (match a with AIndDel _ => False | _ => True end)) by (destruct a; eauto).
    destruct D as [[p ->]|D].
    + cbn. unfold db_ind_del. destruct (ind_vlr_name p) as [v|] eqn:E; cbn; auto. split; auto.
      intros ->. now apply (Ha p eq_refl).
    + eapply all_stmts_impl; [|now apply api_not_ind_del]. intros []; cbn; tauto.
Qed.

Lemma cut_row_hist r h d :
  released_wf h -> not_cut_released (i_vlr r) h -> In r (d_ind d) -> In r (d_ind (db_hist h d)).
Proof.
  revert d. induction h as [|[a c] h IH]; intros d Hw Hn H; [exact H|]. unfold db_hist in *. cbn [fold_left].
  apply IH; [intros v c' Hv; apply (Hw v c'); now right|intros v c' Hv; apply (Hn v c'); now right|].
  apply cut_row_step; auto. intros v -> E. apply (Hn v c (or_introl eq_refl)).
  apply cut_iff; auto. apply (Hw v c). now left.
Qed.

Lemma c09_exact h0 h1 p q s t c1 c2 i j :
  let d0 := db_hist h0 db_init in
  let d1 := run_db (db_ind p) c1 d0 in
  let d2 := db_hist h1 d1 in
  Z.of_nat (length h0 + length h1) < 4294967294 ->
  ipa_wf (p_ipa p) -> ipa_wf (p_ipa q) -> released_wf h1 ->
  text_before_nul p s -> text_before_nul q t -> not_cut_released s h1 ->
  run_out (db_ind p) c1 d0 = Fin (0, i) ->
  run_out (db_ind q) c2 d2 = Fin (0, j) ->
  (i = j <-> s = t).
Proof.
  intros d0 d1 d2 Hlen Wp Wq Wh Hp Hq Hrel H1 H2.
  apply (cut_iff p s Wp) in Hp. apply (cut_iff q t Wq) in Hq.
  assert (I0 : db_inv d0) by (apply db_hist_inv, db_inv_init).
  assert (I1 : db_inv d1).
  { unfold d1. rewrite <- ind_call_db. exact (db_step_inv d0 (AInd p, c1) I0). }
  assert (I2 : db_inv d2) by (now apply db_hist_inv).
  set (d3 := run_db (db_ind q) c2 d2).
  assert (I3 : db_inv d3).
  { unfold d3. rewrite <- ind_call_db. exact (db_step_inv d2 (AInd q, c2) I2). }
  assert (B0 : ind_bounded (0 + Z.of_nat (length h0)) d0) by (apply bounded_hist; [lia|intros r []]).
  assert (B1 : ind_bounded (0 + Z.of_nat (length h0) + 1) d1) by (apply bounded_ind; [lia|exact B0]).
  assert (B2 : ind_bounded (0 + Z.of_nat (length h0) + 1 + Z.of_nat (length h1)) d2) by (apply bounded_hist; [lia|exact B1]).
  assert (B3 : ind_bounded (0 + Z.of_nat (length h0) + 1 + Z.of_nat (length h1) + 1) d3) by (apply bounded_ind; [lia|exact B2]).
  destruct (ind_run_spec p c1 d0) as [_ R1]. destruct (R1 i H1) as (v & r & Ev & Hr & Hv & ->).
  rewrite Hp in Ev. injection Ev as <-. fold d1 in Hr.
  destruct (ind_run_spec q c2 d2) as [_ R2]. destruct (R2 j H2) as (v & r' & Ev & Hr' & Hv' & ->).
  rewrite Hq in Ev. injection Ev as <-. fold d3 in Hr'.
  assert (Hr3 : In r (d_ind d3)).
  { unfold d3. rewrite <- ind_call_db.
    change (run_db (api_prog (AInd q)) c2 d2) with (db_step d2 (AInd q, c2)).
    apply cut_row_step; [discriminate|]. apply cut_row_hist; [exact Wh|now rewrite Hv|exact Hr]. }
  split.
  - intros E. apply to_uint_inj in E; [| specialize (B3 _ Hr3); lia | specialize (B3 _ Hr'); lia].
    rewrite <- Hv, <- Hv'. f_equal. exact (NoDup_key_inj i_ind _ (iv_ind _ I3) _ _ Hr3 Hr' E).
  - intros E. do 2 f_equal. apply (NoDup_key_inj i_vlr _ (iv_vlr _ I3)); auto. congruence.
Qed.

(** with working storage: every peer whose name has at least two bytes and ends in NUL is given an
    index, every other one is turned away, and the database is then unchanged *)
Lemma c09_who p c d : ipa_wf (p_ipa p) -> no_fault c ->
  ((exists s, text_before_nul p s) <-> exists i, run_out (db_ind p) c d = Fin (0, i)) /\
  ((~ exists s, text_before_nul p s) ->
     run_out (db_ind p) c d = Fin (- ENOTSUP, 0%N) /\ run_db (db_ind p) c d = d).
Proof.
  intros W Hc.
  assert (N : (~ exists s, text_before_nul p s) -> ind_vlr_name p = None).
  { intros H. destruct (ind_vlr_name p) as [s|] eqn:E; [|reflexivity]. exfalso. apply H. exists s. now apply cut_iff. }
  assert (T : (~ exists s, text_before_nul p s) ->
     run_out (db_ind p) c d = Fin (- ENOTSUP, 0%N) /\ run_db (db_ind p) c d = d).
  { intros H. apply N in H. unfold db_ind. rewrite H. unfold run_out, run_db. cbn. auto. }
  split; [split|exact T].
  - intros [s Hs]. apply (cut_iff p s W) in Hs.
    rewrite (proj1 (run_no_fault _ c d Hc)). unfold run_out.
    unfold db_ind. rewrite Hs. unfold _db_ind_get. cbn.
    destruct (find _ (d_ind d)) as [r|] eqn:E; cbn.
    + eexists. reflexivity.
    + destruct (existsb _ (d_ind d)) eqn:Ex.
      * exfalso. apply existsb_exists in Ex as (r & Hr & Er). eapply find_none in E; eauto. cbn in E. congruence.
      * cbn. rewrite find_app_none by exact E. cbn. rewrite String.eqb_refl. cbn. eexists. reflexivity.
  - intros [i Hi]. destruct (ind_run_spec p c d) as [_ R]. destruct (R i Hi) as (v & r & Ev & _).
    exists v. now apply cut_iff.
Qed.
