(** Location updates under any faults. *)
From Verif Require Import Base PeerId Db DbSpec DbProofs DbThms DbThms2 DbThms3.

Lemma run_shapes {A} s (k : res -> prog A) c d :
  (exists c', run (Exec s k) c d = run (k (fst (exec s d))) c' (snd (exec s d))) \/
  (exists c', run (Exec s k) c d = run (k RErr) c' d) \/ run_db (Exec s k) c d = d.
Proof.
  unfold run_db. cbn [run]. destruct c as [|[] c'].
  - left. exists []. destruct (exec s d); reflexivity.
  - left. exists c'. destruct (exec s d); reflexivity.
  - right. left. eauto.
  - right. right. reflexivity.
Qed.
Lemma upd_none cond f (l : list sub_row) : cnt cond l = 0%nat -> upd cond f l = l.
Proof.
  unfold cnt. induction l as [|r l IH]; cbn; auto. destruct (cond r); cbn; [discriminate|]. intros E. f_equal. auto.
Qed.
Lemma lu_any_faults x d id vlr via now c :
  let d' := run_db (db_subscr_lu id vlr (is_ps x) via now) c d in
  d' = d \/
  exists number proxy, ipa_cstr vlr = Some number /\ lu_proxy via = Some proxy /\
    (dom_changed x (fun r => s_id r =? id) (fun f => mk_dom (Some number) proxy (f_nam f) (f_purged f) (f_seen f)) d d' \/
     exists t, now = Some t /\
       dom_changed x (fun r => s_id r =? id) (fun f => mk_dom (Some number) proxy (f_nam f) (f_purged f) (Some t)) d d').
Proof.
  cbv zeta. unfold db_subscr_lu. destruct (ipa_cstr vlr) as [number|]; [|left; reflexivity].
  destruct (lu_proxy via) as [proxy|]; [|left; reflexivity].
  set (k := fun r : res => let rc := upd_rc r in _).
  set (s1 := if is_ps x then UPD_SGSN_BY_ID (Some number) proxy id else UPD_VLR_BY_ID (Some number) proxy id).
  assert (E1 : exec s1 d = upd_sub (by_id id) (if is_ps x then set_sgsn (Some number) proxy else set_vlr (Some number) proxy) d)
    by (subst s1; destruct x; reflexivity).
  destruct (run_shapes s1 k c d) as [(c' & E)|[(c' & E)|E]]; [| |left; exact E];
    unfold run_db; rewrite E; clear E; [|left; reflexivity].
  rewrite E1. unfold upd_sub. cbn [fst snd].
  set (d1 := with_sub d _).
  destruct (cnt (by_id id) (d_sub d)) as [|n] eqn:Ec.
  { left. subst d1. rewrite upd_none by exact Ec. subst k. cbn. destruct d. reflexivity. }
  assert (Hex : exists r, In r (d_sub d) /\ (s_id r =? id) = true) by (apply cnt_pos_iff; change (0 < cnt (by_id id) (d_sub d))%nat; lia).
  assert (H1 : dom_changed x (fun r => s_id r =? id) (fun f => mk_dom (Some number) proxy (f_nam f) (f_purged f) (f_seen f)) d d1).
  { split; [exact Hex|]. subst d1. cbn [with_sub d_sub]. apply (Forall2_fields x (by_id id) _ (fun f => mk_dom (Some number) proxy (f_nam f) (f_purged f) (f_seen f))). intros r. destruct x; reflexivity. }
  right. exists number, proxy. split; auto. split; auto.
  destruct n as [|n]; [|left; exact H1]. subst k. cbv beta zeta. cbn [upd_rc negb Z.eqb].
  destruct now as [t|]; [|left; exact H1].
  set (s2 := if is_ps x then SET_LAST_LU_SEEN_PS t id else SET_LAST_LU_SEEN t id).
  assert (E2 : exec s2 d1 = upd_sub (by_id id) (if is_ps x then set_lu_ps (Some t) else set_lu_cs (Some t)) d1)
    by (subst s2; destruct x; reflexivity).
  destruct (run_shapes s2 (fun r => Ret (upd_rc r)) c' d1) as [(c2 & E)|[(c2 & E)|E]];
    [| rewrite E; left; exact H1 | unfold run_db in E; rewrite E; left; exact H1].
  rewrite E. right. exists t. split; auto. rewrite E2. unfold upd_sub. cbn [fst snd run].
  split; [exact Hex|]. subst d1. cbn. clear. induction (d_sub d) as [|r l IH]; cbn; constructor; auto.
  destruct x; cbn; unfold by_id; destruct (s_id r =? id) eqn:E; cbn; rewrite ?E; reflexivity.
Qed.
