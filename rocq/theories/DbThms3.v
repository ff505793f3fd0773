(** Proofs about the peer index table (C09). *)
From Verif Require Import Base PeerId Db DbSpec DbProofs DbThms DbThms2.

(** the name of a peer is the text [s], sent with one terminating NUL *)
Definition proper_name (p : peer_id) (s : string) : Prop :=
  p_type p = PT_IPA /\ ipa_wf (p_ipa p) /\ s <> EmptyString /\ ~ In nul (bytes_of s) /\
  ipa_bytes (p_ipa p) = bytes_of s ++ [nul].

(** the name of a peer begins with the text [s] and a NUL (possibly followed by more bytes) *)
Definition name_begins (p : peer_id) (s : string) : Prop :=
  exists rest, ipa_bytes (p_ipa p) = bytes_of s ++ nul :: rest.

Lemma cstr_begins l s rest :
  ~ In nul (bytes_of s) -> l = bytes_of s ++ nul :: rest -> cstr l = Some s.
Proof.
  revert l. induction s as [|a s IH]; cbn; intros l Hn ->; [reflexivity|]. cbn.
  destruct (Ascii.eqb_spec a "000"%char) as [->|_]; [exfalso; apply Hn; now left|].
  rewrite (IH _ (fun H => Hn (or_intror H)) eq_refl). reflexivity.
Qed.

Lemma cstr_inv l s : cstr l = Some s -> ~ In nul (bytes_of s) /\ exists rest, l = bytes_of s ++ nul :: rest.
Proof.
  revert s. induction l as [|a l IH]; cbn; intros s H; [discriminate|].
  destruct (Ascii.eqb_spec a "000"%char) as [->|Ha].
  - injection H as <-. cbn. split; auto. now exists l.
  - destruct (cstr l) as [t|]; [|discriminate]. injection H as <-.
    destruct (IH t eq_refl) as (Hn & rest & ->). cbn. split; [intros [E|E]; [now apply Ha|tauto]|].
    now exists rest.
Qed.

Lemma ipa_cstr_bytes n s rest :
  ~ In nul (bytes_of s) -> ipa_bytes n = bytes_of s ++ nul :: rest -> ipa_cstr n = Some s.
Proof.
  intros Hn E. unfold ipa_cstr.
  rewrite <- (firstn_skipn (in_len n) (in_val n)). fold (ipa_bytes n). rewrite E.
  apply cstr_begins with (rest ++ skipn (in_len n) (in_val n)); auto.
  rewrite <- app_assoc. reflexivity.
Qed.

Lemma nth_firstn_lt {A} (l : list A) n k d : (k < n)%nat -> nth k (firstn n l) d = nth k l d.
Proof.
  revert l k. induction n as [|n IH]; intros l k Hk; [lia|]. destruct l as [|a l]; cbn; [now destruct k|].
  destruct k as [|k]; auto. apply IH. lia.
Qed.

Lemma proper_ind_name p s : proper_name p s -> ind_vlr_name p = Some s.
Proof.
  intros (Ht & [W1 W2] & Hs & Hn & Hb). unfold ind_vlr_name. rewrite Ht.
  set (n := p_ipa p) in *.
  assert (L : (length (bytes_of s) + 1 = in_len n)%nat).
  { unfold ipa_bytes in Hb. apply (f_equal (@length ascii)) in Hb.
    rewrite firstn_length, app_length in Hb. cbn in Hb. lia. }
  assert (Ls : (0 < length (bytes_of s))%nat) by (destruct s; [congruence|cbn; lia]).
  destruct (Nat.ltb_spec (in_len n) 2) as [|_]; [lia|]. cbn [orb].
  replace (nth (in_len n - 1) (in_val n) "x"%char) with nul.
  - cbn [negb]. rewrite Ascii.eqb_refl. cbn [negb]. apply (ipa_cstr_bytes n s [] Hn Hb).
  - rewrite <- (nth_firstn_lt _ (in_len n)) by lia. fold (ipa_bytes n). rewrite Hb, <- L.
    rewrite app_nth2 by lia. replace (_ + 1 - 1 - _)%nat with 0%nat by lia. reflexivity.
Qed.

Lemma ind_name_begins p s : ind_vlr_name p = Some s -> name_begins p s.
Proof.
  unfold ind_vlr_name, name_begins. destruct (p_type p); [discriminate|].
  set (n := p_ipa p).
  destruct (Nat.ltb_spec (in_len n) 2) as [|L]; [discriminate|]. cbn [orb].
  destruct (Ascii.eqb_spec (nth (in_len n - 1) (in_val n) "x"%char) nul) as [E|]; [|discriminate].
  cbn [negb]. intros H. apply cstr_inv in H as (Hn & rest & Hv).
  assert (G : (length (bytes_of s) <= in_len n - 1)%nat).
  { destruct (Nat.le_gt_cases (length (bytes_of s)) (in_len n - 1)) as [?|G]; auto. exfalso.
    apply Hn. rewrite Hv, app_nth1 in E by lia. rewrite <- E. apply nth_In. lia. }
  exists (firstn (in_len n - 1 - length (bytes_of s)) rest).
  unfold ipa_bytes. rewrite Hv, firstn_app, firstn_all2 by lia. f_equal.
  replace (in_len n - length (bytes_of s))%nat with (S (in_len n - 1 - length (bytes_of s))) by lia.
  reflexivity.
Qed.

(** one index request: the table is unchanged or gets one new row for this name; an answer is the
    index stored for this name *)
Lemma ind_run_spec p c d :
  let o := run_out (db_ind p) c d in
  let d' := run_db (db_ind p) c d in
  (d' = d \/ exists v, ind_vlr_name p = Some v /\ (forall r, In r (d_ind d) -> i_vlr r <> v) /\
                      d' = with_ind d (d_ind d ++ [mk_ind (next_rowid (map i_ind (d_ind d))) v])) /\
  (forall i, o = Fin (0, i) -> exists v r, ind_vlr_name p = Some v /\ In r (d_ind d') /\ i_vlr r = v
                                         /\ i = to_uint (i_ind r)).
Proof.
  unfold db_ind. destruct (ind_vlr_name p) as [v|]; [|cbn; split; [now left|discriminate]].
  assert (Hget : forall c d, run_db (_db_ind_get v) c d = d /\
    (forall i, run_out (_db_ind_get v) c d = Fin (0, i) -> exists r, In r (d_ind d) /\ i_vlr r = v /\ i = to_uint (i_ind r))).
  { assert (G : forall d, exists x, exec (IND_SELECT v) d = (x, d) /\
       (forall i, match x with RDone _ => (- ENOENT, 0%N) | RInd i0 => (0, to_uint i0) | _ => (- EIO, 0%N) end = (0, i) ->
           exists r, In r (d_ind d) /\ i_vlr r = v /\ i = to_uint (i_ind r))).
    { intros d0. cbn [exec]. destruct (find _ (d_ind d0)) as [r|] eqn:E.
      - eexists. split; [reflexivity|]. intros i H. injection H as <-.
        apply find_some in E as [Hr E]. apply String.eqb_eq in E. eauto.
      - eexists. split; [reflexivity|]. discriminate. }
    intros c0 d0. destruct (G d0) as (x & Ex & Hx). unfold run_db, run_out, _db_ind_get. cbn [run].
    destruct c0 as [|[] c']; rewrite ?Ex; (split; [now destruct x|]);
      intros i Hi; try discriminate; apply Hx; destruct x; cbn in Hi; congruence. }
  assert (Hadd : forall c d, let k := fun r => match r with RDone _ => _db_ind_get v | _ => Ret (- EIO, 0%N) end in
    (run_db (Exec (IND_ADD v) k) c d = d \/
     (forall r, In r (d_ind d) -> i_vlr r <> v) /\
     run_db (Exec (IND_ADD v) k) c d = with_ind d (d_ind d ++ [mk_ind (next_rowid (map i_ind (d_ind d))) v])) /\
    (forall i, run_out (Exec (IND_ADD v) k) c d = Fin (0, i) ->
       exists r, In r (d_ind (run_db (Exec (IND_ADD v) k) c d)) /\ i_vlr r = v /\ i = to_uint (i_ind r))).
  { intros c0 d0 k.
    assert (G : (exec (IND_ADD v) d0 = (RUnique, d0)) \/
                ((forall r, In r (d_ind d0) -> i_vlr r <> v) /\
                 exec (IND_ADD v) d0 = (RDone 1, with_ind d0 (d_ind d0 ++ [mk_ind (next_rowid (map i_ind (d_ind d0))) v])))).
    { cbn [exec]. destruct (existsb _ (d_ind d0)) eqn:E; [now left|right]. split; auto.
      intros r Hr Hv. rewrite existsb_false in E. specialize (E r Hr). cbn in E. rewrite Hv, String.eqb_refl in E. discriminate. }
    assert (K : forall c', let x := (let '(r, d') := exec (IND_ADD v) d0 in run (k r) c' d') in
      (snd (fst x) = d0 \/ (forall r, In r (d_ind d0) -> i_vlr r <> v) /\
         snd (fst x) = with_ind d0 (d_ind d0 ++ [mk_ind (next_rowid (map i_ind (d_ind d0))) v])) /\
      (forall i, fst (fst x) = Fin (0, i) ->
       exists r, In r (d_ind (snd (fst x))) /\ i_vlr r = v /\ i = to_uint (i_ind r))).
    { intros c'. destruct G as [-> |[Hv ->]]; cbn [k].
      - split; [now left|discriminate].
      - set (d1 := with_ind _ _). destruct (Hget c' d1) as [H1 H2]. unfold run_db, run_out in *.
        cbv zeta. split; [right; auto|]. intros i Hi. rewrite H1. auto. }
    unfold run_db, run_out. cbn [run]. destruct c0 as [|[] c']; try apply K.
    - cbn. split; [now left|discriminate].
    - cbn. split; [now left|discriminate]. }
  cbv zeta in *.
  set (f := fun '(rc, i) => _).
  pose proof (run_bind (_db_ind_get v) f c d) as B.
  destruct (Hget c d) as [G1 G2]. unfold run_db, run_out in G1, G2 |- *.
  rewrite B. clear B.
  destruct (run (_db_ind_get v) c d) as [[[[rc i]| |] d0] c'] eqn:E; cbn in G1; subst d0.
  - unfold f. destruct (rc =? 0) eqn:Er.
    + cbn. split; [now left|]. intros i0 H. injection H as <-.
      destruct (G2 i) as (r & ?); [cbn; do 2 f_equal; lia|]. eauto.
    + destruct (Hadd c' d) as [[A|[A1 A2]] A3]; unfold run_db, run_out in *; (split; [|intros j Hj; destruct (A3 j Hj) as (r & ?); eauto]).
      * now left.
      * right. eauto.
  - cbn. split; [now left|discriminate].
  - cbn. split; [now left|discriminate].
Qed.

(** largest index in use *)
Definition max_ind (d : db) : Z := fold_right Z.max 0 (map i_ind (d_ind d)).
Definition ind_bounded (m : Z) (d : db) : Prop := forall r, In r (d_ind d) -> 0 < i_ind r <= m.

Definition not_ind_add (s : stmt) : Prop := match s with IND_ADD _ => False | _ => True end.

Lemma bounded_exec m s d : not_ind_add s -> ind_bounded m d -> ind_bounded m (snd (exec s d)).
Proof.
  intros Hs H. destruct s; try contradiction; try exact H; cbn [exec];
    try (unfold sel; destruct (find _ _); exact H);
    try (destruct (existsb _ _); exact H); try (destruct (_ && _); exact H);
    try (destruct (find _ _); exact H).
  - intros r Hr. cbn in Hr. apply filter_In in Hr. now apply H.
Qed.

Lemma api_not_ind_add a : (match a with AInd _ => False | _ => True end) -> all_stmts not_ind_add (api_prog a).
Proof.
  intros Ha. destruct a; cbn [api_prog]; try contradiction.
  - unfold db_subscr_create. destruct (imsi_valid imsi); cbn; auto.
  - unfold db_subscr_delete_by_id. cbn. split; auto. intros [| |n| | | |]; cbn; auto.
    split; auto. intros [| |[|[|]]| | | |]; cbn; auto; split; auto; intros [| |[|[|]]| | | |]; cbn; auto.
  - destruct msisdn as [m|]; cbn; auto. destruct (msisdn_valid m); cbn; auto.
  - destruct aud as [algo ki|algo k opc op bl|]; cbn [db_subscr_update_aud_by_id]; [| |exact I].
    + destruct (negb _); [exact I|]. destruct (_ && _); [exact I|].
      cbn [all_stmts]. split; [exact I|]. intros r.
      destruct (_ && _); [exact I|]. destruct (algo =? ALG_NONE); cbn; auto.
    + destruct (negb _); [exact I|]. destruct (_ && _); [exact I|].
      cbn [all_stmts]. split; [exact I|]. intros r.
      destruct (_ && _); [exact I|]. destruct (algo =? ALG_NONE); cbn; auto.
  - destruct imei as [m|]; cbn; auto. destruct (imei_valid14 m); cbn; auto.
  - destruct is_ps; cbn; auto.
  - destruct is_ps; cbn; auto.
  - unfold db_subscr_lu. destruct (ipa_cstr vlr); cbn; auto.
    destruct (lu_proxy via); cbn; auto.
    split; [destruct is_ps; exact I|]. intros r. destruct (upd_rc r =? 0); cbn; auto.
    destruct now; cbn; auto. split; [destruct is_ps; exact I|auto].
  - cbn; auto.
  - unfold db_ind_del. destruct (ind_vlr_name vlr); cbn; auto.
  - cbn. split; auto. intros []; cbn; auto. destruct (sub_of_row _ _); cbn; auto.
  - cbn. split; auto. intros []; cbn; auto. destruct (sub_of_row _ _); cbn; auto.
  - cbn. split; auto. intros []; cbn; auto. destruct (sub_of_row _ _); cbn; auto.
  - cbn. split; auto. intros []; cbn; auto. destruct (sub_of_row _ _); cbn; auto.
  - cbn; auto.
  - cbn; auto.
Qed.

Lemma next_rowid_le m l : 0 <= m -> (forall x, In x l -> x <= m) -> next_rowid l <= m + 1.
Proof.
  unfold next_rowid. intros Hm H. cut (fold_right Z.max 0 l <= m); [lia|].
  induction l as [|a l IH]; cbn in *; [lia|].
  pose proof (H a (or_introl eq_refl)). specialize (IH (fun x Hx => H x (or_intror Hx))). lia.
Qed.

Lemma ind_call_db p c d : run_db (api_prog (AInd p)) c d = run_db (db_ind p) c d.
Proof.
  cbn [api_prog]. unfold run_db. rewrite run_bind.
  destruct (run (db_ind p) c d) as [[[[rc i]| |] d'] c']; reflexivity.
Qed.

Lemma bounded_ind m p c d : 0 <= m -> ind_bounded m d -> ind_bounded (m + 1) (run_db (db_ind p) c d).
Proof.
  intros Hm H. destruct (ind_run_spec p c d) as [[->|(v & _ & _ & ->)] _].
  - intros r Hr. specialize (H r Hr). lia.
  - intros r Hr. cbn in Hr. apply in_app_or in Hr as [Hr|[<-|[]]]; [specialize (H r Hr); lia|]. cbn.
    split; [apply next_rowid_pos|]. apply next_rowid_le; auto.
    intros x Hx. apply in_map_iff in Hx as (y & <- & Hy). specialize (H y Hy). lia.
Qed.

Lemma bounded_step m x d : 0 <= m -> ind_bounded m d -> ind_bounded (m + 1) (db_step d x).
Proof.
  intros Hm H. destruct x as [a c]. unfold db_step. cbn [fst snd].
  assert (D : (exists p, a = AInd p) \/ (match a with AInd _ => False | _ => True end)) by (destruct a; eauto).
  destruct D as [[p ->]|D].
  - rewrite ind_call_db. now apply bounded_ind.
  - assert (B : ind_bounded m (run_db (api_prog a) c d)).
    { apply (run_inv (ind_bounded m) not_ind_add); auto using bounded_exec, api_not_ind_add. }
    intros r Hr. specialize (B r Hr). lia.
Qed.

Lemma bounded_hist h : forall m d, 0 <= m -> ind_bounded m d -> ind_bounded (m + Z.of_nat (length h)) (db_hist h d).
Proof.
  induction h as [|x h IH]; intros m d Hm H; unfold db_hist in *; cbn [fold_left length].
  - now rewrite Z.add_0_r.
  - rewrite Nat2Z.inj_succ. replace (m + Z.succ (Z.of_nat (length h))) with (m + 1 + Z.of_nat (length h)) by lia.
    apply IH; [lia|]. now apply bounded_step.
Qed.

(** a row survives every call that does not release its name *)
Definition keeps_name (s : string) (q : stmt) : Prop := match q with IND_DEL v => v <> s | _ => True end.
Lemma row_exec r q d : keeps_name (i_vlr r) q -> In r (d_ind d) -> In r (d_ind (snd (exec q d))).
Proof.
  intros Hq H. destruct q; try exact H; cbn [exec];
    try (unfold sel; destruct (find _ _); exact H);
    try (destruct (existsb _ _); exact H); try (destruct (_ && _); exact H);
    try (destruct (find _ _); exact H).
  - destruct (existsb _ _); [exact H|]. cbn. apply in_or_app. now left.
  - cbn. apply filter_In. split; auto. cbn in Hq. apply negb_true_iff, String.eqb_neq. congruence.
Qed.

Lemma all_stmts_impl {A} (S T : stmt -> Prop) (p : prog A) :
  (forall s, S s -> T s) -> all_stmts S p -> all_stmts T p.
Proof. intros H. induction p; cbn; auto. intros [H1 H2]. split; auto. Qed.

Definition not_ind_del (s : stmt) : Prop := match s with IND_DEL _ => False | _ => True end.
Lemma api_not_ind_del a : (match a with AIndDel _ => False | _ => True end) -> all_stmts not_ind_del (api_prog a).
Proof.
  intros Ha. destruct a; cbn [api_prog]; try contradiction.
  - unfold db_subscr_create. destruct (imsi_valid imsi); cbn; auto.
  - unfold db_subscr_delete_by_id. cbn. split; auto. intros [| |n| | | |]; cbn; auto.
    split; auto. intros [| |[|[|]]| | | |]; cbn; auto; split; auto; intros [| |[|[|]]| | | |]; cbn; auto.
  - destruct msisdn as [m|]; cbn; auto. destruct (msisdn_valid m); cbn; auto.
  - destruct aud as [algo ki|algo k opc op bl|]; cbn [db_subscr_update_aud_by_id]; [| |exact I].
    + destruct (negb _); [exact I|]. destruct (_ && _); [exact I|].
      cbn [all_stmts]. split; [exact I|]. intros r.
      destruct (_ && _); [exact I|]. destruct (algo =? ALG_NONE); cbn; auto.
    + destruct (negb _); [exact I|]. destruct (_ && _); [exact I|].
      cbn [all_stmts]. split; [exact I|]. intros r.
      destruct (_ && _); [exact I|]. destruct (algo =? ALG_NONE); cbn; auto.
  - destruct imei as [m|]; cbn; auto. destruct (imei_valid14 m); cbn; auto.
  - destruct is_ps; cbn; auto.
  - destruct is_ps; cbn; auto.
  - unfold db_subscr_lu. destruct (ipa_cstr vlr); cbn; auto.
    destruct (lu_proxy via); cbn; auto.
    split; [destruct is_ps; exact I|]. intros r. destruct (upd_rc r =? 0); cbn; auto.
    destruct now; cbn; auto. split; [destruct is_ps; exact I|auto].
  - cbn; auto.
  - unfold db_ind. destruct (ind_vlr_name vlr); cbn; auto. split; auto.
    intros [| |n| | |i|]; cbn; auto; (split; [exact I|]); intros [| |m| | |j|]; cbn; auto;
      (split; [exact I|]); intros []; cbn; auto.
  - cbn. split; auto. intros []; cbn; auto. destruct (sub_of_row _ _); cbn; auto.
  - cbn. split; auto. intros []; cbn; auto. destruct (sub_of_row _ _); cbn; auto.
  - cbn. split; auto. intros []; cbn; auto. destruct (sub_of_row _ _); cbn; auto.
  - cbn. split; auto. intros []; cbn; auto. destruct (sub_of_row _ _); cbn; auto.
  - cbn; auto.
  - cbn; auto.
Qed.

(** no call of the history releases the name [s] *)
Definition not_released (s : string) (h : list (api * sched)) : Prop :=
  forall v c, In (AIndDel v, c) h -> ~ name_begins v s.

Lemma row_step r a c d :
  (forall v, a = AIndDel v -> ~ name_begins v (i_vlr r)) -> In r (d_ind d) -> In r (d_ind (db_step d (a, c))).
Proof.
  intros Ha H. unfold db_step. cbn [fst snd].
  apply (run_inv (fun d => In r (d_ind d)) (keeps_name (i_vlr r))); auto.
  - intros s d0. apply row_exec.
  - assert (D : (exists p, a = AIndDel p) \/ (match a with AIndDel _ => False | _ => True end)) by (destruct a; eauto).
    destruct D as [[p ->]|D].
    + cbn. unfold db_ind_del. destruct (ind_vlr_name p) as [v|] eqn:E; cbn; auto. split; auto.
      intros ->. apply (Ha p eq_refl). now apply ind_name_begins.
    + eapply all_stmts_impl; [|now apply api_not_ind_del]. intros []; cbn; tauto.
Qed.

Lemma row_hist r h d : not_released (i_vlr r) h -> In r (d_ind d) -> In r (d_ind (db_hist h d)).
Proof.
  revert d. induction h as [|[a c] h IH]; intros d Hn H; [exact H|]. unfold db_hist in *. cbn [fold_left].
  apply IH; [intros v c' Hv; apply (Hn v c'); now right|]. apply row_step; auto.
  intros v ->. apply (Hn v c). now left.
Qed.

Lemma NoDup_key_inj {A B} (f : A -> B) (l : list A) :
  NoDup (map f l) -> forall x y, In x l -> In y l -> f x = f y -> x = y.
Proof.
  intros H x y Hx Hy E. apply In_nth_error in Hx as [i Hi]. apply In_nth_error in Hy as [j Hj].
  assert (i = j) by (eapply (NoDup_map_inj f l); eauto). congruence.
Qed.

Lemma to_uint_inj a b : 0 < a < 4294967296 -> 0 < b < 4294967296 -> to_uint a = to_uint b -> a = b.
Proof. unfold to_uint. intros Ha Hb. rewrite !Z.mod_small by lia. lia. Qed.

Lemma c09_index h0 h1 p q s t c1 c2 i j :
  let d0 := db_hist h0 db_init in
  let d1 := run_db (db_ind p) c1 d0 in
  let d2 := db_hist h1 d1 in
  Z.of_nat (length h0 + length h1) < 4294967294 ->
  proper_name p s -> proper_name q t -> not_released s h1 ->
  run_out (db_ind p) c1 d0 = Fin (0, i) ->
  run_out (db_ind q) c2 d2 = Fin (0, j) ->
  (i = j <-> s = t).
Proof.
  intros d0 d1 d2 Hlen Hp Hq Hrel H1 H2.
  assert (I0 : db_inv d0) by (apply db_hist_inv, db_inv_init).
  assert (I1 : db_inv d1).
  { unfold d1. rewrite <- ind_call_db. exact (db_step_inv d0 (AInd p, c1) I0). }
  assert (I2 : db_inv d2) by (now apply db_hist_inv).
  set (d3 := run_db (db_ind q) c2 d2).
  assert (I3 : db_inv d3).
  { unfold d3. rewrite <- ind_call_db. exact (db_step_inv d2 (AInd q, c2) I2). }
  assert (B0 : ind_bounded (0 + Z.of_nat (length h0)) d0) by (apply bounded_hist; [lia|intros r []]).
  assert (B1 : ind_bounded (0 + Z.of_nat (length h0) + 1) d1) by (apply bounded_ind; [lia|exact B0]).
  assert (B2 : ind_bounded (0 + Z.of_nat (length h0) + 1 + Z.of_nat (length h1)) d2) by (apply bounded_hist; [lia|exact B1]).
  assert (B3 : ind_bounded (0 + Z.of_nat (length h0) + 1 + Z.of_nat (length h1) + 1) d3) by (apply bounded_ind; [lia|exact B2]).
  destruct (ind_run_spec p c1 d0) as [_ R1]. destruct (R1 i H1) as (v & r & Ev & Hr & Hv & ->).
  rewrite (proper_ind_name p s Hp) in Ev. injection Ev as <-. fold d1 in Hr.
  destruct (ind_run_spec q c2 d2) as [_ R2]. destruct (R2 j H2) as (v & r' & Ev & Hr' & Hv' & ->).
  rewrite (proper_ind_name q t Hq) in Ev. injection Ev as <-. fold d3 in Hr'.
  assert (Hr3 : In r (d_ind d3)).
  { unfold d3. rewrite <- ind_call_db.
    change (run_db (api_prog (AInd q)) c2 d2) with (db_step d2 (AInd q, c2)).
    apply row_step; [discriminate|]. apply row_hist; [now rewrite Hv|exact Hr]. }
  split.
  - intros E. apply to_uint_inj in E; [| specialize (B3 _ Hr3); lia | specialize (B3 _ Hr'); lia].
    rewrite <- Hv, <- Hv'. f_equal. exact (NoDup_key_inj i_ind _ (iv_ind _ I3) _ _ Hr3 Hr' E).
  - intros E. do 2 f_equal. apply (NoDup_key_inj i_vlr _ (iv_vlr _ I3)); auto. congruence.
Qed.

(** with working storage every properly named peer is given an index *)
Lemma c09_total p s c d : proper_name p s -> no_fault c -> exists i, run_out (db_ind p) c d = Fin (0, i).
Proof.
  intros Hp Hc. rewrite (proj1 (run_no_fault _ c d Hc)). unfold run_out.
  unfold db_ind. rewrite (proper_ind_name p s Hp). unfold _db_ind_get. cbn.
  destruct (find _ (d_ind d)) as [r|] eqn:E; cbn.
  - eexists. reflexivity.
  - destruct (existsb _ (d_ind d)) eqn:Ex.
    + exfalso. apply existsb_exists in Ex as (r & Hr & Er). eapply find_none in E; eauto. cbn in E. congruence.
    + cbn. rewrite find_app_none by exact E. cbn. rewrite String.eqb_refl. cbn. eexists. reflexivity.
Qed.

(** the fields of one domain *)
Record dom_fields := mk_dom { f_number : option string; f_proxy : option string; f_nam : bool; f_purged : bool; f_seen : option Z }.
Definition fields_of (x : domain) (r : sub_row) : dom_fields :=
  match x with
  | CS => mk_dom (s_vlr r) (s_vlr_proxy r) (s_nam_cs r) (s_purged_cs r) (s_lu_cs r)
  | PS => mk_dom (s_sgsn r) (s_sgsn_proxy r) (s_nam_ps r) (s_purged_ps r) (s_lu_ps r)
  end.
(** the row of [imsi] (or [id]) after the change has fields [g] of the old ones *)
Definition dom_changed (x : domain) (tgt : sub_row -> bool) (g : dom_fields -> dom_fields) (d d' : db) : Prop :=
  (exists r, In r (d_sub d) /\ tgt r = true) /\
  Forall2 (fun r r' => fields_of x r' = if tgt r then g (fields_of x r) else fields_of x r) (d_sub d) (d_sub d').

Lemma single_upd_success s cond f d c :
  exec s d = upd_sub cond f d ->
  run_out (Exec s (fun r => Ret (upd_rc r))) c d = Fin 0 ->
  (exists r, In r (d_sub d) /\ cond r = true) /\ run_db (Exec s (fun r => Ret (upd_rc r))) c d = with_sub d (upd cond f (d_sub d)).
Proof.
  intros E. unfold run_out, run_db. cbn [run]. rewrite E. unfold upd_sub.
  assert (G : upd_rc (RDone (cnt cond (d_sub d))) = 0 -> exists r, In r (d_sub d) /\ cond r = true).
  { intros H. apply cnt_pos_iff. destruct (cnt cond (d_sub d)); [discriminate|lia]. }
  destruct c as [|[] c']; cbn [run fst snd]; intros H; try discriminate; injection H as H; auto.
Qed.

Lemma Forall2_fields x (cond : sub_row -> bool) f g l :
  (forall r, fields_of x (f r) = g (fields_of x r)) ->
  Forall2 (fun r r' => fields_of x r' = if cond r then g (fields_of x r) else fields_of x r) l (upd cond f l).
Proof. intros H. induction l as [|r l IH]; cbn; constructor; auto. destruct (cond r); auto. Qed.

Lemma c05_nam_sets x d imsi v c :
  run_out (db_subscr_nam imsi v (is_ps x)) c d = Fin 0 ->
  dom_changed x (fun r => (s_imsi r =? imsi)%string) (fun f => mk_dom (f_number f) (f_proxy f) v (f_purged f) (f_seen f))
    d (run_db (db_subscr_nam imsi v (is_ps x)) c d).
Proof.
  unfold db_subscr_nam. intros H. destruct x; cbn [is_ps] in *;
    (eapply single_upd_success in H as [H1 ->]; [|reflexivity]); (split; [exact H1|]); cbn [with_sub d_sub];
    match goal with |- Forall2 _ _ (upd _ ?ff _) =>
      apply (Forall2_fields _ (by_imsi imsi) ff (fun f => mk_dom (f_number f) (f_proxy f) v (f_purged f) (f_seen f))); reflexivity end.
Qed.

Lemma c05_purge_sets x d imsi v c :
  run_out (db_subscr_purge imsi v (is_ps x)) c d = Fin 0 ->
  dom_changed x (fun r => (s_imsi r =? imsi)%string) (fun f => mk_dom (f_number f) (f_proxy f) (f_nam f) v (f_seen f))
    d (run_db (db_subscr_purge imsi v (is_ps x)) c d).
Proof.
  unfold db_subscr_purge. intros H. destruct x; cbn [is_ps] in *;
    (eapply single_upd_success in H as [H1 ->]; [|reflexivity]); (split; [exact H1|]); cbn [with_sub d_sub];
    match goal with |- Forall2 _ _ (upd _ ?ff _) =>
      apply (Forall2_fields _ (by_imsi imsi) ff (fun f => mk_dom (f_number f) (f_proxy f) (f_nam f) v (f_seen f))); reflexivity end.
Qed.

Lemma run_exec_ok {A} s (k : res -> prog A) c d x :
  run (Exec s k) c d = x ->
  (exists c', x = run (k (fst (exec s d))) c' (snd (exec s d))) \/ (exists c', x = run (k RErr) c' d) \/ fst (fst x) = Crashed.
Proof.
  cbn [run]. destruct c as [|[] c']; intros <-.
  - left. exists []. destruct (exec s d); reflexivity.
  - left. exists c'. destruct (exec s d); reflexivity.
  - right. left. eauto.
  - right. right. reflexivity.
Qed.

Lemma c05_lu_sets x d id vlr via now c :
  run_out (db_subscr_lu id vlr (is_ps x) via now) c d = Fin 0 ->
  exists number proxy t, ipa_cstr vlr = Some number /\ lu_proxy via = Some proxy /\ now = Some t /\
  dom_changed x (fun r => s_id r =? id) (fun f => mk_dom (Some number) proxy (f_nam f) (f_purged f) (Some t))
    d (run_db (db_subscr_lu id vlr (is_ps x) via now) c d).
Proof.
  unfold db_subscr_lu. destruct (ipa_cstr vlr) as [number|]; [|discriminate].
  destruct (lu_proxy via) as [proxy|]; [|discriminate].
  unfold run_out, run_db. set (k := fun r : res => let rc := upd_rc r in _).
  set (s1 := if is_ps x then UPD_SGSN_BY_ID (Some number) proxy id else UPD_VLR_BY_ID (Some number) proxy id).
  assert (E1 : exec s1 d = upd_sub (by_id id) (if is_ps x then set_sgsn (Some number) proxy else set_vlr (Some number) proxy) d)
    by (subst s1; destruct x; reflexivity).
  destruct (run_exec_ok s1 k c d _ eq_refl) as [(c' & ->)|[(c' & ->)|E]].
  - rewrite E1. unfold upd_sub. cbn [fst snd]. subst k. cbv beta zeta.
    destruct (cnt (by_id id) (d_sub d)) as [|[|n]] eqn:Ec; cbn [upd_rc]; [discriminate| |discriminate]. cbn [negb Z.eqb].
    destruct now as [t|]; [|discriminate].
    intros H. exists number, proxy, t. split; auto. split; auto. split; auto.
    set (d1 := with_sub d _) in *.
    set (s2 := if is_ps x then SET_LAST_LU_SEEN_PS t id else SET_LAST_LU_SEEN t id) in *.
    assert (E2 : exec s2 d1 = upd_sub (by_id id) (if is_ps x then set_lu_ps (Some t) else set_lu_cs (Some t)) d1)
      by (subst s2; destruct x; reflexivity).
    destruct (single_upd_success s2 _ _ d1 c' E2 H) as [_ H2]. unfold run_db in H2. rewrite H2.
    split.
    + apply cnt_pos_iff. change (0 < cnt (by_id id) (d_sub d))%nat. lia.
    + subst d1. cbn. clear. induction (d_sub d) as [|r l IH]; cbn; constructor; auto.
      destruct x; cbn; unfold by_id; destruct (s_id r =? id) eqn:E; cbn; rewrite ?E; reflexivity.
  - cbn. discriminate.
  - rewrite E. discriminate.
Qed.
