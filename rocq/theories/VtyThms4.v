(** The VTY commands: printing, creating, deleting, keys, failures. *)
From Verif Require Import Base PeerId PeerThms Db DbSpec DbProofs DbThms DbThms2 DbThms3 Auth AuthSpec AuthThms Gsup Router Hlr PeerSpec HlrSpec HlrSpec2 HlrThms RouterThms Ctrl CtrlSpec CtrlThms CtrlThms2 CtrlThms3 CtrlThms4 CtrlThms5 VtySubscr VtySpec VtyThms VtyThms2 VtyThms3.
Local Open Scope string_scope.
Local Open Scope list_scope.
Local Open Scope Z_scope.

(** ** Printing *)
Lemma keys_shown d r : db_inv d -> keys_wellformed d -> In r (d_sub d) ->
  exists k2 k3, run (get_keys (s_imsi r)) [] d = (Fin (Some (k2, k3)), d, []) /\ shows2 d (s_id r) k2 /\ shows3 d (s_id r) k3.
Proof.
  intros V KW I. assert (IS : is_subscriber d (s_imsi r) (s_id r)) by (exists r; auto).
  pose proof (run_get d (s_imsi r) (s_id r) [] V IS (Forall_nil _)) as G. destruct (read_3g_total d (s_id r) KW) as [u U]. rewrite U in G.
  assert (K : run_out (get_keys (s_imsi r)) [] d = Fin (Some (shown2 (read_2g (stored2 d (s_id r))), shown3 u))).
  { unfold get_keys. rewrite out_after, G. destruct (read_2g (stored2 d (s_id r))) as [g|], u as [u|]; reflexivity. }
  exists (shown2 (read_2g (stored2 d (s_id r)))), (shown3 u). split; [rewrite run_parts, K, (reads_run _ [] d (reads_keys _)); reflexivity|].
  destruct KW as [KW2 KW3]. split.
  - unfold stored2. destruct (find _ (d_auc2 d)) as [a|] eqn:F.
    + apply find_some in F as [Ia Ea]. apply Z.eqb_eq in Ea. destruct (read_2g_row a (KW2 a Ia)) as (l & S & _ & E). rewrite E. cbn [shown2 g_algo]. unfold ALG_NONE.
      assert (Q : forall x, key2 d (s_id r) x -> x = a). { intros x [Ix Ex]. apply (NoDup_key_inj a2_id (d_auc2 d)); auto; [apply V|congruence]. }
      destruct (Z.eqb_spec (a2_algo a) 0) as [Z0|Z0]; cbn [shows2 g_algo g_ki]; [intros x Kx; now rewrite (Q x Kx)|].
      exists a. split; [split; auto|]. auto.
    + cbn. intros a [Ia Ea]. pose proof (find_none _ _ F a Ia) as Q. cbn in Q. apply Z.eqb_neq in Q. congruence.
  - unfold stored3 in U. destruct (find _ (d_auc3 d)) as [a|] eqn:F.
    + apply find_some in F as [Ia Ea]. apply Z.eqb_eq in Ea. destruct (KW3 a Ia) as (Hk & _ & Ho).
      assert (Q : forall x, key3 d (s_id r) x -> x = a). { intros x [Ix Ex]. apply (NoDup_key_inj a3_id (d_auc3 d)); auto; [apply V|congruence]. }
      assert (R : exists lk lo o (is_op : bool), spells (a3_k a) lk /\ spells o lo /\ (if is_op then a3_op a = Some o else a3_opc a = Some o) /\
         read_3g (Some a) = Some (Some (mk_aud3 (a3_algo a) lk lo is_op (a3_sqn a) (a3_ind_bitlen a) 0 false))).
      { destruct Ho as [(o & E1 & E2 & Ho)|(o & E1 & E2 & Ho)].
        - destruct (read_3g_row a _ o true Hk Ho eq_refl E1) as (lk & lo & S1 & S2 & E); [discriminate|]. exists lk, lo, o, true. auto.
        - destruct (read_3g_row a _ o false Hk Ho eq_refl E1) as (lk & lo & S1 & S2 & E); [auto|]. exists lk, lo, o, false. auto. }
      destruct R as (lk & lo & o & is_op & S1 & S2 & C & E). rewrite U in E. injection E as ->. cbn [shown3 u_algo]. unfold ALG_NONE.
      destruct (Z.eqb_spec (a3_algo a) 0) as [Z0|Z0]; cbn [shows3 u_algo u_k u_opc u_is_op u_sqn u_bitlen]; [intros x Kx; now rewrite (Q x Kx)|].
      exists a, o. split; [split; auto|]. auto 10.
    + cbn in U. injection U as <-. cbn. intros a [Ia Ea]. pose proof (find_none _ _ F a Ia) as Q. cbn in Q. apply Z.eqb_neq in Q. congruence.
Qed.
Lemma imsi_nonempty d r : db_inv d -> In r (d_sub d) -> (s_imsi r =? "")%string = false.
Proof.
  intros V I. pose proof (proj1 (Forall_forall _ _) (iv_wf d V) r I) as [W _]. apply String.eqb_neq. intros E. rewrite E in W. discriminate W.
Qed.
Lemma dump_run k d r h : db_inv d -> keys_wellformed d -> imeis_ok d -> In r (d_sub d) -> sub_of_row (k_tz k) r = Some h ->
  exists k2 k3, run (quiet (dump_full h)) [] d = (Fin (VFull h (Some (k2, k3)), []), d, []) /\ shows r h /\ shows2 d (s_id r) k2 /\ shows3 d (s_id r) k3.
Proof.
  intros V KW IM I H. destruct (keys_shown d r V KW I) as (k2 & k3 & E & S2 & S3). exists k2, k3. split; [|split; [exact (row_fields _ d r h V IM I H)|auto]].
  pose proof (row_imsi _ d r h V I H) as FI. unfold quiet, dump_full. rewrite FI, (imsi_nonempty d r V I). rewrite run_bind, run_bind, E. reflexivity.
Qed.
Theorem vty_showing k s t i c d r : db_ok d -> ids_fit d -> imeis_ok d -> keys_wellformed d -> no_fault c -> sole d t i r -> readable r ->
  exists h k2 k3, run_out (vty_run k s (VShow t i)) c d = Fin (VFull h (Some (k2, k3)), []) /\ run_db (vty_run k s (VShow t i)) c d = d /\
    shows r h /\ shows2 d (s_id r) k2 /\ shows3 d (s_id r) k3.
Proof.
  intros OK FT IM KW NF S R. rewrite (proj1 (run_no_fault _ c d NF)), (proj2 (run_no_fault _ c d NF)). apply db_ok_inv in OK.
  destruct (readable_sub (k_tz k) r R) as [h H]. pose proof S as (I & _). destruct (dump_run k d r h OK KW IM I H) as (k2 & k3 & E & Q). exists h, k2, k3.
  cbn [vty_run]. unfold vty_show, run_out, run_db. rewrite (on_sole' k t i d r h _ OK FT IM S H), E. auto.
Qed.

(** ** Creating *)
Lemma next_rowid_above l x : In x l -> x < next_rowid l.
Proof. unfold next_rowid. induction l as [|a l IH]; cbn; [tauto|]. intros [->|H]; [lia|]. specialize (IH H). lia. Qed.
Theorem vty_creating k s v c d : db_ok d -> imeis_ok d -> keys_wellformed d -> no_fault c -> is_imsi v ->
  let p := vty_run k s (VCreate v) in
  (~ has_imsi d v -> exists h k2 k3, run_out p c d = Fin (VFull h (Some (k2, k3)), []) /\
     exists r, s_imsi r = v /\ s_nam_cs r = true /\ s_nam_ps r = true /\ s_msisdn r = None /\ s_imei r = None /\ s_vlr r = None /\ s_sgsn r = None /\
       (forall x, In x (d_sub d) -> s_id x < s_id r) /\ run_db p c d = mk_db (d_sub d ++ [r]) (d_auc2 d) (d_auc3 d) (d_ind d) /\
       shows r h /\ shows2 d (s_id r) k2 /\ shows3 d (s_id r) k3) /\
  (has_imsi d v -> run_out p c d = Fin (VWarn ("Subscriber already exists for IMSI = " ++ v)%string, []) /\ run_db p c d = d).
Proof.
  intros OK IM KW NF M. cbv zeta. rewrite (proj1 (run_no_fault _ c d NF)), (proj2 (run_no_fault _ c d NF)). pose proof (proj1 (db_ok_inv d) OK) as V.
  apply imsi_valid_spec in M. cbn [vty_run]. unfold vty_create. rewrite M. cbn [negb].
  assert (X : forall b, existsb (by_imsi v) (d_sub d) = b -> if b then has_imsi d v else ~ has_imsi d v).
  { intros [] Q.
    - apply existsb_exists in Q as (r & Ir & Er). apply String.eqb_eq in Er. exists r. auto.
    - intros (r & Ir & Er). rewrite existsb_false in Q. specialize (Q r Ir). unfold by_imsi in Q. rewrite Er, String.eqb_refl in Q. discriminate. }
  unfold run_out, run_db, db_subscr_create. rewrite M. cbn [negb]. change (N.testbit 6 1) with true. change (N.testbit 6 2) with true.
  destruct (existsb (by_imsi v) (d_sub d)) eqn:Q; specialize (X _ eq_refl); cbn in X; (split; [|]; intros Y; try contradiction).
  - rewrite run_bind. cbn [run exec]. rewrite Q. cbn [run]. auto.
  - set (r := new_row (next_rowid (map s_id (d_sub d))) v true true). set (d' := mk_db (d_sub d ++ [r]) (d_auc2 d) (d_auc3 d) (d_ind d)).
    assert (EX : exec (SUBSCR_CREATE v true true) d = (RDone 1, d')) by (cbn [exec]; rewrite Q; reflexivity).
    assert (V' : db_inv d') by (change d' with (snd (RDone 1, d')); rewrite <- EX; apply inv_exec; [exact M|exact V]).
    assert (I' : In r (d_sub d')) by (cbn; apply in_app_iff; cbn; auto).
    assert (IM' : imeis_ok d'). { intros x m Ix Ex. cbn in Ix. apply in_app_iff in Ix as [Ix|[<-|[]]]; [exact (IM x m Ix Ex)|discriminate]. }
    destruct (readable_sub (k_tz k) r ltac:(intros p [|]; discriminate)) as [h H].
    destruct (dump_run k d' r h V' KW IM' I' H) as (k2 & k3 & E & S1 & S2 & S3). exists h, k2, k3.
    assert (RUN : run (do rc <- (if negb true then Ret (- EINVAL) else Exec (SUBSCR_CREATE v true true) (fun r => Ret match r with RUnique => - EEXIST | RDone _ => 0 | _ => - EIO end));; if negb (rc =? 0) then Ret (VWarn (if (rc =? - EEXIST)%Z then "Subscriber already exists for IMSI = " ++ v else "cannot create subscriber for IMSI = " ++ v)%string, [])
      else bind (db_subscr_get_by_imsi (k_tz k) v) (fun '(_, h) => match h with Some h => quiet (dump_full h) | None => Undef end)) [] d = (Fin (VFull h (Some (k2, k3)), []), d', [])).
    { rewrite run_bind. cbn [negb run]. rewrite EX. cbn [run negb Z.eqb]. rewrite run_bind.
      change (db_subscr_get_by_imsi (k_tz k) v) with (db_sel (k_tz k) (SEL_BY_IMSI v)). rewrite (db_sel_nil (k_tz k) (SEL_BY_IMSI v) (by_imsi v) d' (fun _ => eq_refl)).
      replace (find (by_imsi v) (d_sub d')) with (Some r); [rewrite H; exact E|]. symmetry. apply find_unique; [exact I'|unfold by_imsi; apply String.eqb_refl|].
      intros y Iy Cy. cbn in Iy. apply in_app_iff in Iy as [Iy|[<-|[]]]; [|reflexivity]. destruct X. exists y. split; [exact Iy|]. now apply String.eqb_eq in Cy. }
    cbn [negb] in RUN. rewrite RUN. cbn [fst snd]. split; [reflexivity|]. exists r.
    do 7 (split; [reflexivity|]). split; [|auto]. intros x Ix. cbn [s_id new_row r]. apply (next_rowid_above (map s_id (d_sub d))). now apply in_map.
Qed.
Theorem vty_create_bad k s v c d : ~ is_imsi v -> run_out (vty_run k s (VCreate v)) c d = Fin (VWarn ("Not a valid IMSI: " ++ v)%string, []) /\ run_db (vty_run k s (VCreate v)) c d = d.
Proof.
  intros M. cbn [vty_run]. unfold vty_create. destruct (imsi_valid v) eqn:E; [apply imsi_valid_spec in E; contradiction|]. split; reflexivity.
Qed.

(** ** Deleting *)
Theorem vty_deleting k s t i c d r : db_ok d -> ids_fit d -> imeis_ok d -> no_fault c -> sole d t i r -> readable r ->
  let d' := run_db (vty_run k s (VDelete t i)) c d in
  run_out (vty_run k s (VDelete t i)) c d = Fin (VOk ("Deleted subscriber for IMSI '" ++ s_imsi r ++ "'")%string, []) /\
  removed (s_imsi r) d d' /\ ~ has_imsi d' (s_imsi r) /\ ~ has_id d' (s_id r) /\ ~ has_auc2 d' (s_id r) /\ ~ has_auc3 d' (s_id r).
Proof.
  intros OK FT IM NF S R. cbv zeta. rewrite (proj1 (run_no_fault _ c d NF)), (proj2 (run_no_fault _ c d NF)). pose proof (proj1 (db_ok_inv d) OK) as V.
  destruct (readable_sub (k_tz k) r R) as [h H]. pose proof S as (I & _). pose proof (row_imsi _ d r h V I H) as FI. destruct (sub_of_row_fields _ _ _ H) as (HI & _).
  cbn [vty_run]. unfold vty_delete, run_out, run_db. rewrite (on_sole' k t i d r h _ V FT IM S H), HI, FI. rewrite (run_after _ _ _ _ _ (run_parts (db_subscr_delete_by_id (s_id r)) d)). cbn [fst snd].
  destruct (c03_delete d (s_id r) [] OK (Forall_nil _)) as (O & G1 & G2 & G3 & _). rewrite O.
  rewrite (proj2 (existsb_exists (fun x => s_id x =? s_id r) (d_sub d))) by (exists r; split; [exact I|apply Z.eqb_refl]). cbn [orb Z.eqb].
  split; [reflexivity|]. pose proof (delete_id_removed r [] d V I) as RM. split; [exact RM|]. split; [|auto].
  intros (x & Ix & Ex). apply G1. exists x. split; [exact Ix|]. f_equal. apply (row_eq d); auto. exact (proj1 RM x Ix).
Qed.
