(** Creation on demand (C22). *)
From Verif Require Import Base PeerId Db DbSpec DbProofs DbThms DbThms2 DbThms3 Auth AuthSpec AuthThms AuthThms3 Gsup Router Hlr PeerSpec PeerThms HlrSpec HlrThms RouterThms HlrThms2 HlrThms3 HlrStep.

Lemma rand_try_some f : forall n j b, rand_try f n j = Some b ->
  exists j', (j <= j' < j + n)%nat /\ f j' = Some b /\ forall i, (j <= i < j')%nat -> f i = None.
Proof.
  induction n as [|n IH]; intros j b; cbn; [discriminate|]. destruct (f j) as [x|] eqn:E.
  - intros [= ->]. exists j. repeat split; auto; lia.
  - intros H. destruct (IH _ _ H) as (j' & L & F & N). exists j'. repeat split; auto; try lia.
    intros i Hi. destruct (Nat.eq_dec i j); [subst; auto|]. apply N. lia.
Qed.
Lemma rand_try_none f : forall n j, rand_try f n j = None -> forall i, (j <= i < j + n)%nat -> f i = None.
Proof.
  induction n as [|n IH]; intros j; cbn; [lia|]. destruct (f j) eqn:E; [discriminate|].
  intros H i Hi. destruct (Nat.eq_dec i j); [subst; auto|]. apply (IH (S j)); auto; lia.
Qed.

Lemma str_of_len l : String.length (str_of l) = length l.
Proof. induction l; cbn; auto. Qed.
Lemma str_of_get l : forall n, String.get n (str_of l) = nth_error l n.
Proof. induction l as [|a l IH]; intros [|n]; cbn; auto. Qed.
Lemma rand_digits_len b len : String.length (rand_digits b len) = len.
Proof. unfold rand_digits. rewrite str_of_len, map_length, seq_length. reflexivity. Qed.
Lemma rand_digits_get b len n : (n < len)%nat -> String.get n (rand_digits b len) = Some (ascii_of_N (48 + b n mod 10)).
Proof.
  intros H. unfold rand_digits. rewrite str_of_get, nth_error_map.
  rewrite (nth_error_nth' _ 0%nat) by (rewrite seq_length; auto). cbn. rewrite seq_nth by auto. reflexivity.
Qed.
Lemma digit_code x : N_of_ascii (ascii_of_N (48 + x mod 10)) = (48 + x mod 10)%N.
Proof. apply N_ascii_embedding. pose proof (N.mod_lt x 10). lia. Qed.
Lemma drawn_digits w len i b : rand_try (w_rnd w i) 10 0 = Some b -> drawn w len i (rand_digits b len).
Proof.
  intros H. destruct (rand_try_some _ _ _ _ H) as (j & L & F & N). exists j, b. repeat split; auto; try lia.
  - intros j' Hj. apply N. lia.
  - apply rand_digits_len.
  - intros n Hn. eexists. split; [apply rand_digits_get; auto|apply digit_code].
Qed.
Lemma drawn_unique w len i m m' : drawn w len i m -> drawn w len i m' -> m = m'.
Proof.
  intros (j & b & J & B & N & L & D) (j' & b' & J' & B' & N' & L' & D').
  assert (j = j'). { destruct (Nat.lt_trichotomy j j') as [H|[H|H]]; auto; [rewrite (N' j H) in B|rewrite (N j' H) in B']; discriminate. }
  subst j'. rewrite B in B'. injection B' as <-.
  clear -L L' D D'. revert m m' len b L L' D D'. induction m as [|x m IH]; intros [|y m'] len b L L' D D'; cbn in L, L'; subst; auto; try discriminate.
  injection L' as L'. f_equal.
  - destruct (D 0%nat) as (c & Hc & E); [lia|]. destruct (D' 0%nat) as (c' & Hc' & E'); [lia|]. cbn in Hc, Hc'.
    injection Hc as ->. injection Hc' as ->. rewrite <- (ascii_N_embedding c), <- (ascii_N_embedding c'). congruence.
  - apply (IH m' (String.length m) (fun n => b (S n))); auto; intros n Hn; [destruct (D (S n))|destruct (D' (S n))]; auto; lia || eauto.
Qed.
Lemma drawn_try w len i m : drawn w len i m -> exists b, rand_try (w_rnd w i) 10 0 = Some b /\ rand_digits b len = m.
Proof.
  intros H. destruct (rand_try (w_rnd w i) 10 0) as [b|] eqn:E.
  - exists b. split; auto. eapply drawn_unique; eauto. apply drawn_digits; auto.
  - exfalso. destruct H as (j & b & J & B & _). rewrite (rand_try_none _ _ _ E j) in B; [discriminate|lia].
Qed.
Lemma drawn_msisdn w len i m : (1 <= len <= 15)%nat -> drawn w len i m -> is_msisdn m.
Proof.
  intros L (j & b & J & B & N & Lm & D). split; [lia|]. intros n c G.
  assert (n < String.length m)%nat.
  { clear -G. revert n G. induction m as [|x m IH]; intros [|n]; cbn; intros H; try discriminate; [lia|]. apply IH in H. lia. }
  destruct (D n) as (c' & G' & E); [lia|]. assert (c = c') as -> by congruence. rewrite E.
  pose proof (N.mod_lt (b n) 10 ltac:(discriminate)) as X.
  revert X. generalize (b n mod 10)%N. intros; lia.
Qed.

Lemma has_msisdn_existsb d m : existsb (by_msisdn m) (d_sub d) = true <-> has_msisdn d m.
Proof.
  rewrite existsb_exists. unfold has_msisdn, by_msisdn, str_opt_is.
  split; intros (r & H & E); exists r; split; auto.
  - destruct (s_msisdn r); cbn in E; [|discriminate]. apply String.eqb_eq in E. congruence.
  - rewrite E. cbn. apply String.eqb_refl.
Qed.

(** the search for a number changes nothing; what it returns is free *)
Lemma gen_run w len : forall n i c d o d' c', run (generate_new_msisdn w len n i) c d = (o, d', c') ->
  d' = d /\ o <> Ub /\
  (forall m, o = Fin (Some m) -> ~ has_msisdn d m /\ exists j, (i <= j < i + n)%nat /\ drawn w len j m) /\
  (no_fault c -> no_fault c' /\
     forall j m, (i <= j < i + n)%nat -> drawn w len j m -> ~ has_msisdn d m -> (forall j', (i <= j' < j)%nat -> exists m', drawn w len j' m') ->
     exists m', o = Fin (Some m')).
Proof.
  induction n as [|n IH]; intros i c d o d' c'; cbn [generate_new_msisdn].
  - intros [= <- <- <-]. repeat split; auto; try discriminate. intros; lia.
  - destruct (rand_try (w_rnd w i) 10 0) as [b|] eqn:R.
    2:{ intros [= <- <- <-]. repeat split; auto; try discriminate. intros j m Hj Dm _ Hd. exfalso.
        assert (X : exists m', drawn w len i m').
        { destruct (Nat.eq_dec j i); [subst; eauto|]. apply Hd. lia. }
        destruct X as (m' & X). apply drawn_try in X. destruct X as (b & X & _). congruence. }
    set (m0 := rand_digits b len). assert (D0 : drawn w len i m0) by (apply drawn_digits; auto). clearbody m0.
    unfold db_subscr_exists_by_msisdn. cbn [bind run exec].
    assert (K : forall c1, run (if exists_rc (if existsb (by_msisdn m0) (d_sub d) then RRow else RDone 0) =? - ENOENT
                 then Ret (Some m0) else generate_new_msisdn w len n (S i)) c1 d = (o, d', c') ->
        (c = [] /\ c1 = []) \/ c = EvOk :: c1 ->
        d' = d /\ o <> Ub /\
  (forall m, o = Fin (Some m) -> ~ has_msisdn d m /\ exists j, (i <= j < i + S n)%nat /\ drawn w len j m) /\
  (no_fault c -> no_fault c' /\
     forall j m, (i <= j < i + S n)%nat -> drawn w len j m -> ~ has_msisdn d m -> (forall j', (i <= j' < j)%nat -> exists m', drawn w len j' m') ->
     exists m', o = Fin (Some m'))).
    { intros c1. destruct (existsb (by_msisdn m0) (d_sub d)) eqn:Ex.
      - change (exists_rc RRow =? - ENOENT) with false. cbn iota. intros E Hc. destruct (IH _ _ _ _ _ _ E) as (-> & U & A & B).
        apply has_msisdn_existsb in Ex. repeat split; auto.
        + apply A in H. tauto.
        + apply A in H. destruct H as (_ & j & Hj & X). exists j. split; auto. lia.
        + apply B. destruct Hc as [[-> ->]| ->]; auto. inversion H; auto.
        + intros j m Hj Dm Nm Hd. assert (Hj2 : j <> i) by (intros ->; assert (m = m0) by (eapply drawn_unique; eauto); congruence).
          assert (H1 : no_fault c1) by (destruct Hc as [[-> ->]| ->]; auto; inversion H; auto).
          destruct (B H1) as [_ B2]. apply (B2 j m); auto; try lia. intros j' Hj'. apply Hd. lia.
      - change (exists_rc (RDone 0) =? - ENOENT) with true. cbn iota. intros E Hc. injection E as <- <- <-.
        assert (N0 : ~ has_msisdn d m0) by (intros X; apply has_msisdn_existsb in X; congruence).
        repeat split; auto; try discriminate.
        + injection H as <-. auto.
        + injection H as <-. exists i. split; auto. lia.
        + destruct Hc as [[-> ->]| ->]; auto. inversion H; auto.
        + intros. eauto. }
    destruct c as [|[] c1].
    + intros E. apply (K [] E). auto.
    + intros E. apply (K c1 E). auto.
    + change (exists_rc RErr =? - ENOENT) with false. cbn iota. intros E. destruct (IH _ _ _ _ _ _ E) as (-> & U & A & B). repeat split; auto.
      * apply A in H. tauto.
      * apply A in H. destruct H as (_ & j & Hj & X). exists j. split; auto. lia.
      * inversion H; discriminate.
      * inversion H; discriminate.
    + intros [= <- <- <-]. repeat split; auto; try discriminate; inversion H; discriminate.
Qed.

Definition cod_added (k : cfg) (w : world) (d : db) (imsi : string) (d' : db) : Prop :=
  k_cod k <> CodOff /\ is_imsi imsi /\ ~ has_imsi d imsi /\
  exists id m, ~ has_id d id /\ d' = with_sub d (d_sub d ++ [cod_row k imsi m id]) /\ (m = None \/ cod_number k w d imsi m).

Lemma next_id_fresh d : ~ has_id d (next_rowid (map s_id (d_sub d))).
Proof. intros (r & Hr & Er). apply (next_rowid_fresh (map s_id (d_sub d))). rewrite <- Er. now apply in_map. Qed.

Lemma upd_last {R} (cond : R -> bool) f l r : (forall x, In x l -> cond x = false) -> cond r = true -> upd cond f (l ++ [r]) = l ++ [f r].
Proof.
  intros H E. unfold upd. rewrite map_app. cbn. rewrite E. f_equal. rewrite <- (map_id l) at 2. apply map_ext_in. intros x Hx. rewrite (H x Hx). auto.
Qed.
Lemma cnt_last {R} (cond : R -> bool) l r : (forall x, In x l -> cond x = false) -> cond r = true -> cnt cond (l ++ [r]) = 1%nat.
Proof.
  intros H E. unfold cnt. rewrite filter_app. cbn. rewrite E, app_length. cbn.
  replace (filter cond l) with (@nil R); auto. symmetry. clear E. induction l as [|x l IH]; cbn; auto. rewrite (H x) by (cbn; auto). apply IH. intros y Hy. apply H. cbn; auto.
Qed.
Lemma not_has_imsi d i : ~ has_imsi d i -> forall x, In x (d_sub d) -> by_imsi i x = false.
Proof. intros H x Hx. unfold by_imsi. destruct (String.eqb_spec (s_imsi x) i); auto. exfalso. apply H. exists x. auto. Qed.
Lemma not_has_id d i : ~ has_id d i -> forall x, In x (d_sub d) -> by_id i x = false.
Proof. intros H x Hx. unfold by_id. destruct (Z.eqb_spec (s_id x) i); auto. exfalso. apply H. exists x. auto. Qed.

(** setting the number of the row just made *)
Lemma set_new d k imsi id m : ~ has_imsi d imsi ->
  let d1 := with_sub d (d_sub d ++ [cod_row k imsi None id]) in
  exec (SET_MSISDN_BY_IMSI m imsi) d1 =
    if existsb (by_msisdn m) (d_sub d) then (RUnique, d1)
    else (RDone 1, with_sub d (d_sub d ++ [cod_row k imsi (Some m) id])).
Proof.
  intros N d1. cbn [exec]. unfold d1. cbn [d_sub with_sub].
  assert (L : forall x, In x (d_sub d) -> by_imsi imsi x = false) by (apply not_has_imsi; auto).
  assert (B : by_imsi imsi (cod_row k imsi None id) = true) by apply String.eqb_refl.
  rewrite existsb_app. cbn [existsb]. rewrite B, Bool.orb_true_r. cbn [andb].
  rewrite existsb_app. cbn [existsb]. rewrite B. cbn [negb]. rewrite Bool.andb_false_r, !Bool.orb_false_r.
  replace (existsb (fun r => by_msisdn m r && negb (by_imsi imsi r)) (d_sub d)) with (existsb (by_msisdn m) (d_sub d)).
  - destruct (existsb (by_msisdn m) (d_sub d)); auto. unfold upd_sub. cbn [d_sub with_sub].
    rewrite cnt_last, upd_last; auto.
  - clear -L. induction (d_sub d) as [|x l IH]; cbn; auto. rewrite (L x) by (cbn; auto). cbn. rewrite Bool.andb_true_r. f_equal.
    apply IH. intros y Hy. apply L. cbn; auto.
Qed.

Lemma cod_msisdn_ok k w d imsi m : is_imsi imsi ->
  (match k_cod k with
   | CodRand len => m <> "" /\ ~ has_msisdn d m /\ exists i, (i < 10)%nat /\ drawn w len i m
   | CodFromImsi => m = imsi | _ => False end) ->
  existsb (by_msisdn m) (d_sub d) = false -> cod_number k w d imsi (Some m).
Proof.
  unfold cod_number. intros I H E.
  assert (N : ~ has_msisdn d m) by (intros X; apply has_msisdn_existsb in X; congruence).
  destruct (k_cod k); try tauto.
  - destruct H as (_ & _ & i & Hi & D). exists i, m. auto.
  - subst. auto.
Qed.

Definition cod_num (k : cfg) (w : world) (imsi : string) : prog (option string) :=
  match k_cod k with
  | CodFromImsi => Ret (Some (str_take 15 imsi))
  | CodRand len => generate_new_msisdn w len 10 0
  | CodNoMsisdn => Ret (Some "")
  | CodOff => Ret None
  end.
Definition cod_rest (k : cfg) (w : world) (imsi : string) (rc : Z) : prog Z :=
  if rc =? 0 then Ret (-1)
  else
    do m <- cod_num k w imsi;;
    match m with
    | None => Ret (-1)
    | Some m =>
        do rc <- db_subscr_create imsi (k_cod_flags k);;
        if negb (rc =? 0) then Ret rc
        else if (m =? "")%string then Ret 0
        else db_subscr_update_msisdn_by_imsi imsi (Some m)
    end.
Lemma cod_eq k w imsi : create_on_demand k w imsi = Exec (EXISTS_BY_IMSI imsi) (fun r => cod_rest k w imsi (exists_rc r)).
Proof. reflexivity. Qed.

Lemma cod_run k w imsi c d o d' c' : run (create_on_demand k w imsi) c d = (o, d', c') ->
  o <> Ub /\ (d' = d \/ cod_added k w d imsi d').
Proof.
  rewrite cod_eq. cbn [run].
  assert (G : forall rc c, run (cod_rest k w imsi rc) c d = (o, d', c') -> o <> Ub /\ (d' = d \/ cod_added k w d imsi d')).
  { clear c. intros rc c. unfold cod_rest. destruct (rc =? 0); [intros [= <- <- <-]; split; [discriminate|auto]|]. clear rc.
    rewrite run_bind. destruct (run (cod_num k w imsi) c d) as [[om d1] c1] eqn:Rn.
    assert (Hn : d1 = d /\ om <> Ub /\ forall m, om = Fin (Some m) -> k_cod k <> CodOff /\
       (m = "" \/ (match k_cod k with
   | CodRand len => m <> "" /\ ~ has_msisdn d m /\ exists i, (i < 10)%nat /\ drawn w len i m
   | CodFromImsi => m = str_take 15 imsi | _ => False end))).
    { unfold cod_num in Rn. destruct (k_cod k) eqn:Ek.
      - injection Rn as <- <- <-. repeat split; try discriminate.
      - injection Rn as <- <- <-. repeat split; try discriminate. injection H as <-. auto.
      - destruct (gen_run _ _ _ _ _ _ _ _ _ Rn) as (-> & U & A & _). repeat split; auto; try discriminate.
        destruct (string_dec m ""); auto. right. destruct (A m H) as (N & j & J & D). repeat split; auto. exists j. split; auto. lia.
      - injection Rn as <- <- <-. repeat split; try discriminate. injection H as <-. auto. }
    destruct Hn as (-> & Uo & Hm). destruct om as [m| |]; [| |tauto].
    2:{ intros [= <- <- <-]. split; [discriminate|auto]. }
    destruct m as [m|]; [|intros [= <- <- <-]; split; [discriminate|auto]].
    destruct (Hm m eq_refl) as (NO & Hm2). clear Hm Uo Rn.
    rewrite run_bind. unfold db_subscr_create. destruct (imsi_valid imsi) eqn:Iv; cbn [negb].
    2:{ cbn [run]. change (negb (- EINVAL =? 0)) with true. cbn. intros [= <- <- <-]. split; [discriminate|auto]. }
    apply imsi_valid_spec in Iv.
    cbn [run exec]. destruct (existsb (by_imsi imsi) (d_sub d)) eqn:Ex.
    { destruct c1 as [|[] c1]; cbn [run]; try change (negb (- EEXIST =? 0)) with true; try change (negb (- EIO =? 0)) with true; cbn iota; cbn [run];
        intros [= <- <- <-]; (split; [discriminate|auto]). }
    assert (N : ~ has_imsi d imsi) by (intros X; apply has_imsi_existsb in X; congruence).
    set (id := next_rowid _). assert (Ni : ~ has_id d id) by apply next_id_fresh. clearbody id.
    change (new_row id imsi (N.testbit (k_cod_flags k) 1) (N.testbit (k_cod_flags k) 2)) with (cod_row k imsi None id).
    set (d1 := with_sub d (d_sub d ++ [cod_row k imsi None id])).
    assert (A1 : cod_added k w d imsi d1) by (split; [exact NO|split; [exact Iv|split; [exact N|]]]; exists id, None; auto).
    assert (G2 : forall c2, run (if (m =? "")%string then Ret 0 else db_subscr_update_msisdn_by_imsi imsi (Some m)) c2 d1 = (o, d', c') ->
      o <> Ub /\ (d' = d \/ cod_added k w d imsi d')).
    { intros c2. destruct (String.eqb_spec m ""); [intros [= <- <- <-]; split; [discriminate|auto]|].
      destruct Hm2 as [Hm2|Hm2]; [tauto|]. unfold db_subscr_update_msisdn_by_imsi.
      destruct (negb (msisdn_valid m)); [intros [= <- <- <-]; split; [discriminate|auto]|].
      assert (Hm3 : match k_cod k with
          | CodRand len => m <> "" /\ ~ has_msisdn d m /\ exists i, (i < 10)%nat /\ drawn w len i m
          | CodFromImsi => m = imsi | _ => False end).
      { destruct (k_cod k); auto. subst. apply str_take_all. apply Iv. }
      cbn [run]. unfold d1. rewrite set_new by auto. fold d1.
      destruct (existsb (by_msisdn m) (d_sub d)) eqn:Em.
      - destruct c2 as [|[] c2]; intros [= <- <- <-]; (split; [discriminate|auto]).
      - assert (A2 : cod_added k w d imsi (with_sub d (d_sub d ++ [cod_row k imsi (Some m) id]))).
        { split; [exact NO|split; [exact Iv|split; [exact N|]]]. exists id, (Some m). repeat split; auto. right. apply cod_msisdn_ok; auto. }
        destruct c2 as [|[] c2]; intros [= <- <- <-]; (split; [discriminate|auto]). }
    destruct c1 as [|[] c1]; cbn [run Z.eqb negb].
    - apply G2.
    - apply G2.
    - change (- EIO =? 0) with false. cbn. intros [= <- <- <-]. split; [discriminate|auto].
    - intros [= <- <- <-]. split; [discriminate|auto]. }
  destruct c as [|[] c].
  - destruct (exec _ d) as [r d1] eqn:E. assert (d1 = d) as -> by (cbn in E; congruence). apply G.
  - destruct (exec _ d) as [r d1] eqn:E. assert (d1 = d) as -> by (cbn in E; congruence). apply G.
  - apply G.
  - intros [= <- <- <-]. split; [discriminate|auto].
Qed.

(** with working storage: an unknown subscriber is made whenever a number can be found, a known one is left alone *)
Lemma cod_nofault k w imsi c d : no_fault c -> is_imsi imsi ->
  (has_imsi d imsi -> run_db (create_on_demand k w imsi) c d = d) /\
  (~ has_imsi d imsi -> cod_able k w d ->
     exists id m, ~ has_id d id /\ cod_number k w d imsi m /\
       run_db (create_on_demand k w imsi) c d = with_sub d (d_sub d ++ [cod_row k imsi m id])).
Proof.
  intros NF I. rewrite (proj2 (run_no_fault _ c d NF)). unfold run_db. rewrite cod_eq.
  cbn [run exec]. unfold cod_rest. split.
  - intros H. apply has_imsi_existsb in H. rewrite H. reflexivity.
  - intros N A. assert (Ex : existsb (by_imsi imsi) (d_sub d) = false).
    { destruct (existsb _ _) eqn:E; auto. apply has_imsi_existsb in E. tauto. }
    rewrite Ex. change (exists_rc (RDone 0) =? 0) with false. cbn iota.
    set (id := next_rowid (map s_id (d_sub d))). exists id.
    assert (Ni : ~ has_id d id) by apply next_id_fresh.
    assert (V := proj2 (imsi_valid_spec imsi) I).
    assert (Hn : exists m, run (cod_num k w imsi) [] d = (Fin (Some m), d, []) /\
      ((k_cod k = CodNoMsisdn /\ m = "") \/
       (m <> "" /\ msisdn_valid m = true /\ match k_cod k with
          | CodRand len => ~ has_msisdn d m /\ exists i, (i < 10)%nat /\ drawn w len i m
          | CodFromImsi => m = imsi | _ => False end))).
    { unfold cod_num, cod_able in *. destruct (k_cod k) eqn:Ek; [destruct A| | |].
      - exists "". split; auto.
      - destruct A as (L & i & m & Hi & D & Nm & P). destruct (run (generate_new_msisdn w len 10 0) [] d) as [[o1 d1] c1] eqn:R.
        destruct (gen_run _ _ _ _ _ _ _ _ _ R) as (-> & U & B & C).
        destruct (C (Forall_nil _)) as (NF2 & C2).
        destruct (C2 i m) as (m' & ->); auto; [lia|intros j' Hj'; apply P; lia|].
        destruct (B m' eq_refl) as (N' & j & Hj & D'). exists m'. 
        assert (c1 = []) as ->. { destruct c1; auto. exfalso. eapply (run_rest _ _ _ _ _ _ R). left; reflexivity. }
        split; auto. right. pose proof (drawn_msisdn _ _ _ _ L D') as M'. repeat split.
        + intros ->. destruct M' as [M' _]. cbn in M'. lia.
        + apply msisdn_valid_spec; auto.
        + auto.
        + exists j. split; auto. lia.
      - exists imsi. rewrite str_take_all by apply I. split; auto. right. destruct I as [I1 I2]. repeat split; auto.
        + intros ->. cbn in I1. lia.
        + apply msisdn_valid_spec. split; auto. lia. }
    rewrite run_bind. destruct Hn as (m & -> & Hm). rewrite run_bind. unfold db_subscr_create. rewrite V. cbn [negb run exec].
    rewrite Ex. cbn [run Z.eqb negb].
    change (new_row _ imsi _ _) with (cod_row k imsi None id).
    destruct Hm as [(Hk & ->)|(Hne & Hv & Hm)].
    + cbn. exists None. unfold cod_number. rewrite Hk. auto.
    + destruct (String.eqb_spec m ""); [tauto|]. unfold db_subscr_update_msisdn_by_imsi. rewrite Hv. cbn [negb run].
      rewrite set_new by auto. destruct (existsb (by_msisdn m) (d_sub d)) eqn:Em.
      * apply has_msisdn_existsb in Em. cbn. exists None. repeat split; auto. unfold cod_number.
        destruct (k_cod k); try tauto. subst. auto.
      * cbn. exists (Some m). repeat split; auto. apply cod_msisdn_ok; auto. destruct (k_cod k); tauto.
Qed.

(** * What a message may do to the database *)
Definition rx_stmt (k : cfg) (g : gsup) (s : stmt) : Prop :=
  match s with
  | SEL_BY_IMSI _ | SEL_BY_MSISDN _ | SEL_BY_ID _ | SEL_BY_IMEI _ | AUC_BY_IMSI _ | EXISTS_BY_IMSI _ | EXISTS_BY_MSISDN _ | IND_SELECT _ => True
  | IND_ADD _ | AUC_UPD_SQN _ _ => g_type g = MSGT_SEND_AUTH_INFO_REQUEST
  | SUBSCR_CREATE i _ _ => k_cod k <> CodOff /\ i = g_imsi g /\ imsi_valid i = true
  | SET_MSISDN_BY_IMSI m i => k_cod k <> CodOff /\ i = g_imsi g /\ msisdn_valid m = true
  | UPD_VLR_BY_ID _ _ _ | SET_LAST_LU_SEEN _ _ | UPD_SGSN_BY_ID _ _ _ | SET_LAST_LU_SEEN_PS _ _ => g_type g = MSGT_UPDATE_LOCATION_REQUEST
  | UPD_IMEI_BY_IMSI (Some _) i => g_type g = MSGT_CHECK_IMEI_REQUEST /\ k_store_imei k = true /\ i = g_imsi g
  | UPD_PURGE_CS_BY_IMSI v i | UPD_PURGE_PS_BY_IMSI v i => g_type g = MSGT_PURGE_MS_REQUEST /\ v = true /\ i = g_imsi g
  | _ => False
  end.

Lemma cod_stmts (S : stmt -> Prop) k w imsi : S (EXISTS_BY_IMSI imsi) -> (forall m, S (EXISTS_BY_MSISDN m)) ->
  (k_cod k <> CodOff -> imsi_valid imsi = true -> forall a b, S (SUBSCR_CREATE imsi a b)) ->
  (k_cod k <> CodOff -> forall m, msisdn_valid m = true -> S (SET_MSISDN_BY_IMSI m imsi)) ->
  all_stmts S (create_on_demand k w imsi).
Proof.
  intros A B C D. rewrite cod_eq. split; auto. intros r. unfold cod_rest. destruct (_ =? 0); [exact I|].
  assert (K : k_cod k <> CodOff -> forall m, all_stmts S (do rc <- db_subscr_create imsi (k_cod_flags k);;
        if negb (rc =? 0) then Ret rc else if (m =? "")%string then Ret 0 else db_subscr_update_msisdn_by_imsi imsi (Some m))).
  { intros H m. apply all_stmts_bind.
    - unfold db_subscr_create. destruct (imsi_valid imsi) eqn:V; cbn; auto.
    - intros rc. destruct (negb _); [exact I|]. destruct (_ =? _)%string; [exact I|]. cbn. destruct (msisdn_valid m) eqn:V; cbn; auto. }
  unfold cod_num. destruct (k_cod k) eqn:E; [exact I|apply K; discriminate| |apply K; discriminate].
  apply all_stmts_bind.
  - assert (G : forall n i, all_stmts S (generate_new_msisdn w len n i)); [|apply G].
    induction n as [|n IH]; intros i; cbn [generate_new_msisdn]; [exact I|].
    destruct (rand_try _ _ _); [|exact I]. cbn. split; auto. intros r0. destruct (_ =? _); cbn; auto.
  - intros [m|]; [|exact I]. apply K. discriminate.
Qed.
Lemma get_stmts (S : stmt -> Prop) tz s : S s -> all_stmts S (db_sel tz s).
Proof. intros H. cbn. split; auto. intros []; cbn; auto. destruct (sub_of_row _ _); exact I. Qed.
Lemma ind_stmts (S : stmt -> Prop) p : (forall v, S (IND_ADD v)) -> (forall v, S (IND_SELECT v)) -> all_stmts S (db_ind p).
Proof.
  intros A B. unfold db_ind. destruct (ind_vlr_name p); [|exact I]. 
  assert (G : all_stmts S (_db_ind_get s)) by (cbn; split; auto; intros []; exact I).
  apply all_stmts_bind; auto. intros [rc i]. destruct (rc =? 0); [exact I|]. split; auto. intros []; try exact I; auto.
Qed.
Lemma lu_stmts (S : stmt -> Prop) id vlr ps via now :
  (forall a b c, S (UPD_VLR_BY_ID a b c)) -> (forall a b c, S (UPD_SGSN_BY_ID a b c)) ->
  (forall a b, S (SET_LAST_LU_SEEN a b)) -> (forall a b, S (SET_LAST_LU_SEEN_PS a b)) -> all_stmts S (db_subscr_lu id vlr ps via now).
Proof.
  intros A B C D. unfold db_subscr_lu. destruct (ipa_cstr _); [|exact I]. destruct (lu_proxy _); [|exact I].
  cbn. split; [destruct ps; auto|]. intros r. destruct (negb _); [exact I|]. destruct now; [|exact I]. cbn. split; [destruct ps; auto|]. intros; exact I.
Qed.

Lemma proc_ss_stmts (S : stmt -> Prop) k s q : (forall i, S (SEL_BY_IMSI i)) -> all_stmts S (rx_proc_ss_req k s q).
Proof.
  intros A.
  assert (G : forall i, all_stmts S (db_subscr_get_by_imsi (k_tz k) i)) by (intros i; apply get_stmts; auto).
  assert (M : forall z g, all_stmts S (ss_send_to_ms k s z g)).
  { intros z g. unfold ss_send_to_ms. destruct (z_ms z); [exact I|]. destruct (negb _); [exact I|]. apply all_stmts_bind.
    - destruct (_ =? _)%nat; [|exact I]. apply all_stmts_bind; auto. intros [rc sub]. destruct (_ <? 0); [exact I|].
      destruct sub; [|exact I]. destruct (ipa_set_str _ _); exact I.
    - intros [z'|]; [|exact I]. destruct (_ <=? _)%nat; [exact I|]. destruct (send_to _ _ _) as [[]|]; exact I. }
  assert (X : forall s z fe g r, (forall z g, all_stmts S (ss_send_to_ms k s z g)) -> all_stmts S (ss_dispatch k s z fe g r)).
  { clear s q M. intros s z fe g r M. unfold ss_dispatch. destruct (op_is_ussd _).
    - unfold handle_ussd. destruct (z_hdl z).
      + apply all_stmts_bind; [apply M|]. intros; exact I.
      + destruct fe; [apply all_stmts_bind; [apply M|]; intros; exact I|]. apply all_stmts_bind.
        * unfold run_iuse. destruct i; try apply M. apply all_stmts_bind; auto. intros [rc sub]. destruct rc; destruct sub; apply M.
        * intros x. destruct (_ =? _); [|exact I]. destruct (ss_free _ _). exact I.
      + destruct fe; [apply all_stmts_bind; [apply M|]; intros; exact I|]. destruct (route_find _ _); [exact I|]. apply all_stmts_bind; [apply M|]; intros; exact I.
      + destruct fe; [apply all_stmts_bind; [apply M|]; intros; exact I|]. exact I.
    - unfold handle_ss. apply all_stmts_bind; [apply M|]. intros; exact I. }
  unfold rx_proc_ss_req. destruct (negb _); [exact I|].
  destruct (match pl_octets _ with [] => _ | _ => _ end) as [r|]; [|exact I].
  destruct (_ =? SS_BEGIN).
  - destruct (ss_find _ _ _); [exact I|]. destruct (ss_handler _ _ _ _); [|exact I]. apply all_stmts_bind; [|intros; exact I].
    apply X. intros z0 g0. exact (M z0 g0).
  - destruct (_ =? SS_CONTINUE).
    + destruct (ss_find _ _ _); [|exact I]. apply all_stmts_bind; [|intros; exact I]. apply X; auto.
    + destruct (_ =? SS_END); [|exact I]. destruct (ss_find _ _ _); [|exact I]. apply all_stmts_bind.
      * destruct (pl_octets _); [exact I|]. apply X; auto.
      * intros x. destruct (snd (fst x)); [exact I|]. destruct (ss_free _ _). exact I.
Qed.
Lemma fwd_name_stmts (S : stmt -> Prop) k s n q : all_stmts S (forward_to_name k s n q).
Proof. unfold forward_to_name. destruct (peer_set _ _). destruct (negb _); [exact I|]. destruct (forward_to_local_peer _ _ _ _); exact I. Qed.
Lemma same_stmts (S : stmt -> Prop) s p : all_stmts S p -> all_stmts S (same s p).
Proof. intros H. apply all_stmts_bind; auto. intros; exact I. Qed.

Lemma dispatch_stmts k w s q : all_stmts (rx_stmt k (q_gsup q)) (dispatch k w s q).
Proof.
  assert (COD : all_stmts (rx_stmt k (q_gsup q)) (create_on_demand k w (g_imsi (q_gsup q)))) by (apply cod_stmts; cbn; auto).
  unfold dispatch. destruct (_ =? MSGT_SEND_AUTH_INFO_REQUEST) eqn:E1.
  { apply Z.eqb_eq in E1. apply same_stmts. unfold rx_send_auth_info. apply all_stmts_bind; auto. intros _.
    apply all_stmts_bind; [apply ind_stmts; cbn; auto|]. intros [rc i]. apply all_stmts_bind; [|intros []; exact I].
    apply AuthThms2.auc_stmts; cbn; auto. }
  destruct (_ =? MSGT_UPDATE_LOCATION_REQUEST) eqn:E2.
  { apply Z.eqb_eq in E2. unfold rx_upd_loc_req. apply all_stmts_bind; auto. intros _. unfold lu_start. destruct (peer_is_empty _); [exact I|].
    apply all_stmts_bind; [apply get_stmts; exact I|]. intros [rc sub]. destruct (_ <? 0); [exact I|]. destruct sub; [|exact I].
    repeat (match goal with |- all_stmts _ (if ?b then Ret _ else _) => destruct b; [exact I|] end).
    apply all_stmts_bind; [apply lu_stmts; cbn; auto|]. intros rc2. destruct (negb _); [exact I|]. destruct (isd_msg _ _ _ _); [|exact I].
    destruct (respond _ _ _ _ _). destruct (negb _); exact I. }
  destruct (_ =? MSGT_PURGE_MS_REQUEST) eqn:E3.
  { apply Z.eqb_eq in E3. apply same_stmts. unfold rx_purge_ms_req. apply all_stmts_bind; [|intros; exact I].
    unfold db_subscr_purge. cbn. split; [destruct (negb _); cbn; auto|]. intros; exact I. }
  destruct (_ || _); [exact I|]. destruct (_ || _); [apply proc_ss_stmts; cbn; auto|]. destruct (_ =? MSGT_PROC_SS_ERROR); [exact I|].
  destruct (_ || _); [exact I|]. destruct (_ =? MSGT_CHECK_IMEI_REQUEST) eqn:E4.
  { apply Z.eqb_eq in E4. apply same_stmts. unfold rx_check_imei_req. destruct (x_imei _); [|exact I]. destruct (bcd_decode _ _); [|exact I].
    destruct (negb _); [exact I|]. apply all_stmts_bind; auto. intros _. apply all_stmts_bind; [|intros; exact I].
    destruct (k_store_imei k) eqn:Es.
    - cbn. destruct (negb _); cbn; auto.
    - apply all_stmts_bind; [apply get_stmts; exact I|]. intros []; exact I. }
  destruct (_ =? MSGT_MO_FORWARD_SM_REQUEST).
  { apply same_stmts. unfold forward_mo_sms. destruct (x_da _) as [[t [|]]|]; try exact I. destruct (negb _); [exact I|]. destruct (_ || _); [exact I|].
    destruct (find_smsc _ _); [apply fwd_name_stmts|exact I]. }
  destruct (_ =? MSGT_MT_FORWARD_SM_REQUEST).
  { apply same_stmts. unfold forward_mt_sms. apply all_stmts_bind; [apply get_stmts; exact I|]. intros [rc sub]. destruct (_ <? 0); [exact I|].
    destruct sub; [|exact I]. destruct (_ =? _)%string; [exact I|apply fwd_name_stmts]. }
  destruct (_ =? MSGT_READY_FOR_SM_REQUEST); [|exact I].
  apply same_stmts. unfold rx_ready_for_sm_req. destruct (copy_to_smscs _ _ _ _); exact I.
Qed.

Lemma conn_rx_gsup enc v nr c g v' q : conn_rx enc v nr c g = (v', inl q) -> q_gsup q = g.
Proof.
  unfold conn_rx. destruct (find_conn v c); [|discriminate]. unfold req_new.
  destruct (g_src g).
  - destruct (negb (imsi_valid _)); [discriminate|]. destruct (negb _); [|intros [= <- <-]; reflexivity]. destruct (route_add _ _ _). destruct (negb _); [discriminate|]. intros [= <- <-]. reflexivity.
  - destruct (peer_set _ _). destruct (negb (z =? 0)); [discriminate|]. destruct (negb (peer_cmp _ _ =? 0)); destruct (negb (imsi_valid _)); try discriminate;
      (destruct (negb _); [|intros [= <- <-]; reflexivity]); destruct (route_add _ _ _); (destruct (negb _); [discriminate|]); intros [= <- <-]; reflexivity.
Qed.

Lemma rx_stmts k w s c g : all_stmts (rx_stmt k g) (handle k w s (ERx c g)).
Proof.
  cbn [handle]. destruct (find_conn _ _); [|exact I]. unfold read_cb. apply all_stmts_bind; [|intros; exact I].
  unfold read_msg. destruct (conn_rx _ _ _ _ _) as [v [q|o]] eqn:E; [|exact I]. apply conn_rx_gsup in E. subst g.
  set (s1 := mk_hst _ _ _ _). destruct (g_dst (q_gsup q)); [apply dispatch_stmts|]. destruct (ipa_set_str _ _); [|exact I].
  destruct (ipa_set _ _). destruct (_ && _); [|apply dispatch_stmts]. apply same_stmts. unfold read_cb_forward.
  destruct (g_src _); [exact I|]. destruct (send_to _ _ _) as [[]|]; exact I.
Qed.

Lemma step_db k s d w e f s' d' o : step k (s, d) (w, e, f) = Some (s', d', o) -> d' = run_db (handle k w s e) f d.
Proof.
  unfold step, run_db. cbn [fst snd]. destruct (run _ f d) as [[[[s2 o2]| |] d2] f2]; intros E; try discriminate; injection E as <- <- <-; reflexivity.
Qed.

Lemma upd_map {R B} (key : R -> B) cond f l : (forall r, key (f r) = key r) -> map key (upd cond f l) = map key l.
Proof. intros H. unfold upd. rewrite map_map. apply map_ext. intros r. destruct (cond r); auto. Qed.

(** switched off: no message makes a subscriber *)
Lemma c22_disabled k s d w c g f s' d' o : k_cod k = CodOff -> step k (s, d) (w, ERx c g, f) = Some (s', d', o) ->
  map s_imsi (d_sub d') = map s_imsi (d_sub d) /\ map s_id (d_sub d') = map s_id (d_sub d).
Proof.
  intros K E. apply step_db in E. subst d'.
  apply (run_inv (fun x => map s_imsi (d_sub x) = map s_imsi (d_sub d) /\ map s_id (d_sub x) = map s_id (d_sub d)) (rx_stmt k g)); auto; [|apply rx_stmts].
  intros st x Hs [H1 H2]. destruct st; cbn in Hs; try tauto; cbn [exec]; unfold sel, upd_sub; cbn [snd with_sub d_sub]; rewrite ?upd_map; auto;
    try (destruct (find _ _); auto); try (destruct (existsb _ _); auto).
Qed.

(** * The database stays in order *)
Definition fine (d : db) : Prop := db_inv d /\ keys_wellformed d.
Lemma rx_stmt_ok k g s : rx_stmt k g s -> stmt_ok s /\ stmt_keys_ok s.
Proof. destruct s; cbn; try tauto. Qed.
Lemma fine_run {A} (p : prog A) : all_stmts stmt_ok p -> all_stmts stmt_keys_ok p -> forall c d, fine d -> fine (run_db p c d).
Proof. intros S1 S2 c d [F1 F2]. split; [apply (run_inv db_inv stmt_ok)|apply (run_inv keys_wellformed stmt_keys_ok)]; auto using inv_exec, keys_exec. Qed.
Lemma all_stmts_impl {A} (S T : stmt -> Prop) (p : prog A) : (forall s, S s -> T s) -> all_stmts S p -> all_stmts T p.
Proof. intros H. induction p as [a|s f IH|]; cbn; auto. intros [X Y]. split; auto. Qed.
Lemma dispatch_fine k w s q c d : fine d -> fine (run_db (dispatch k w s q) c d).
Proof. apply fine_run; (eapply all_stmts_impl; [|apply dispatch_stmts]); intros st H; apply rx_stmt_ok in H; tauto. Qed.

Lemma vty_stmts (S : stmt -> Prop) k s x :
  (forall i, S (SEL_BY_IMSI i)) -> (forall i, S (SEL_BY_ID i)) -> (forall i, S (SEL_BY_IMEI i)) -> (forall i, S (SEL_BY_MSISDN i)) ->
  (forall m, (forall m i, msisdn_valid m = true -> S (SET_MSISDN_BY_IMSI m i)) -> (forall i, S (DELETE_MSISDN_BY_IMSI i)) -> all_stmts S (vty_msisdn k s x m)) /\
  (forall cs ps, (forall b i, S (UPD_NAM_CS_BY_IMSI b i)) -> (forall b i, S (UPD_NAM_PS_BY_IMSI b i)) -> all_stmts S (vty_nam k s x cs ps)).
Proof.
  intros A B C D. assert (G : all_stmts S (get_by k x)).
  { unfold get_by. destruct x; try (apply get_stmts; auto). }
  split.
  - intros m E F. unfold vty_msisdn. destruct (match m with Some _ => _ | None => _ end) eqn:V; [exact I|].
    apply all_stmts_bind; auto. intros [rc sub]. destruct rc; try exact I. destruct sub; [|exact I]. apply all_stmts_bind.
    + destruct m as [m|]; cbn; [|auto]. destruct (msisdn_valid m) eqn:M; cbn; auto.
    + intros rc. destruct (negb _); [exact I|]. destruct m; [|exact I]. apply all_stmts_bind; [apply get_stmts; auto|]. intros [rc2 sub2]. destruct rc2; try exact I. destruct sub2; exact I.
  - intros cs ps E F. unfold vty_nam.
    assert (N : forall h b y, all_stmts S (hlr_subscr_nam k (t_srv s) h b y)).
    { intros h b y. unfold hlr_subscr_nam. destruct (Bool.eqb _ _); [exact I|]. apply all_stmts_bind; [unfold db_subscr_nam; cbn; split; [destruct y; auto|intros; exact I]|].
      intros rc. repeat (match goal with |- all_stmts _ (if ?b then Ret _ else _) => destruct b; [exact I|] end).
      destruct (send_delete _ _ _ _); [|exact I]. destruct (send_delete _ _ _ _); exact I. }
    apply all_stmts_bind; auto. intros [rc sub]. destruct rc; try exact I. destruct sub as [h|]; [|exact I].
    apply all_stmts_bind.
    + destruct (Bool.eqb _ _); [exact I|]. apply all_stmts_bind; auto. intros; exact I.
    + intros a. apply all_stmts_bind; [|intros; exact I]. destruct (Bool.eqb _ _); [exact I|]. apply all_stmts_bind; auto. intros; exact I.
Qed.

Lemma handle_fine k w s e c d : fine d -> fine (run_db (handle k w s e) c d).
Proof.
  destruct e; try (intros F; exact F).
  - apply fine_run; (eapply all_stmts_impl; [|apply rx_stmts]); intros st H; apply rx_stmt_ok in H; tauto.
  - apply fine_run; apply same_stmts; apply vty_stmts; cbn; auto.
  - apply fine_run; apply same_stmts; apply vty_stmts; cbn; auto.
  - apply fine_run; (apply all_stmts_bind; [|intros; exact I]); [apply api_stmts_ok|apply api_keys_ok].
Qed.
Lemma step_fine k s d w e f s' d' o : fine d -> step k (s, d) (w, e, f) = Some (s', d', o) -> fine d'.
Proof. intros F E. apply step_db in E. subst d'. apply handle_fine; auto. Qed.
Lemma hist_fine k : forall es s d s' d' o, fine d -> hist k (s, d) es = Some (s', d', o) -> fine d'.
Proof.
  induction es as [|[[w e] f] es IH]; intros s d s' d' o F; cbn [hist]; [intros [= <- <- <-]; auto|].
  destruct (step k (s, d) (w, e, f)) as [[[s1 d1] o1]|] eqn:E; [|discriminate].
  destruct (hist k (s1, d1) es) as [[[s2 d2] o2]|] eqn:H; [|discriminate]. intros [= <- <- <-].
  eapply IH; [|eauto]. eapply step_fine; eauto.
Qed.
