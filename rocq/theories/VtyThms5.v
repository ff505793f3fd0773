(** The VTY commands: keys and failures. *)
From Verif Require Import Base PeerId PeerThms Db DbSpec DbProofs DbThms DbThms2 DbThms3 Auth AuthSpec AuthThms Gsup Router Hlr PeerSpec HlrSpec HlrSpec2 HlrThms RouterThms Ctrl CtrlSpec CtrlThms CtrlThms2 CtrlThms3 CtrlThms4 CtrlThms5 VtySubscr VtySpec VtyThms VtyThms2 VtyThms3 VtyThms4.
Local Open Scope string_scope.
Local Open Scope list_scope.
Local Open Scope Z_scope.

(** ** Keys *)
Lemma store_run k t i g gone a d r : db_inv d -> ids_fit d -> imeis_ok d -> sole d t i r -> readable r ->
  exists w, run (vty_store k t i g gone a) [] d =
    (match run_out (db_subscr_update_aud_by_id (s_id r) a) [] d with Fin rc => Fin (if (rc =? 0) || (gone && (rc =? - ENOENT)) then VOk "" else VWarn w, []) | Crashed => Crashed | Ub => Ub end,
     run_db (db_subscr_update_aud_by_id (s_id r) a) [] d, []).
Proof.
  intros V FT IM S R. destruct (readable_sub (k_tz k) r R) as [h H]. destruct (sub_of_row_fields _ _ _ H) as (HI & _). eexists.
  unfold vty_store. rewrite (on_sole' k t i d r h _ V FT IM S H), HI. rewrite (run_after _ _ _ _ _ (run_parts (db_subscr_update_aud_by_id (s_id r) a) d)). reflexivity.
Qed.
Lemma store_ok k t i g a d r : db_ok d -> ids_fit d -> imeis_ok d -> sole d t i r -> readable r -> acceptable a -> aud_algo a <> 0 ->
  run_out (vty_store k t i g false a) [] d = Fin (VOk "", []) /\ keys_new (is_3g a) (s_id r) a (run_db (vty_store k t i g false a) [] d).
Proof.
  intros OK FT IM S R A Z0. destruct (c07_no_fault (s_id r) a [] d (Forall_nil _) A Z0 OK) as [O K]. apply db_ok_inv in OK.
  destruct (store_run k t i g false a d r OK FT IM S R) as [w E]. unfold run_out at 1, run_db at 1. rewrite E, O. split; [reflexivity|exact K].
Qed.
Lemma hex_len_ok s mn mx : hex_string (2 * mn) (2 * mx) s -> hex_len s (mn, mx) = true.
Proof. intros H. unfold hex_len. exact (proj2 (is_hexstr_spec s _ _) H). Qed.
Theorem vty_key2 k s t i n shown algo name ki c d r : db_ok d -> ids_fit d -> imeis_ok d -> no_fault c -> sole d t i r -> readable r ->
  gsm_algorithm n shown algo -> lowercase name n -> hex_string 32 32 ki ->
  run_out (vty_run k s (VAud2g t i name ki)) c d = Fin (VOk "", []) /\
  forall a, key2 (run_db (vty_run k s (VAud2g t i name ki)) c d) (s_id r) a <-> a = mk_auc2 (s_id r) algo ki.
Proof.
  intros OK FT IM NF S R G L H. rewrite (proj1 (run_no_fault _ c d NF)), (proj2 (run_no_fault _ c d NF)). cbn [vty_run].
  destruct (parse2 n shown algo name ki G L H) as (_ & _ & A & Z0 & _).
  assert (E : vty_aud2g k t i name ki = vty_store k t i "2G" false (AudGsm algo ki)).
  { unfold vty_aud2g. rewrite (algo_parse_nocase name n (lowercase_nocase _ _ L)). destruct G; cbn [auth_algo_parse same_nocase]; 
      match goal with |- context [auth_algo_parse ?x] => let y := eval vm_compute in (auth_algo_parse x) in change (auth_algo_parse x) with y end; cbv match; rewrite (hex_len_ok ki 16 16 H); reflexivity. }
  rewrite E. destruct (store_ok k t i "2G" _ d r OK FT IM S R A Z0) as [O K]. split; [exact O|]. cbn [is_3g keys_new new2] in K. intros a. rewrite (K a). tauto.
Qed.
(** the optional number of bits *)
Lemma bits_is b n : vty_bits b n -> bitlen_arg b = n.
Proof.
  intros [|t m N B]; [reflexivity|]. unfold bitlen_arg. rewrite (numeral_atoi t m N) by lia. unfold to_uint. rewrite Z.mod_small by lia. lia.
Qed.
Theorem vty_key3 k s t i name ke (is_op : bool) choice o b n c d r : db_ok d -> ids_fit d -> imeis_ok d -> no_fault c -> sole d t i r -> readable r ->
  lowercase name "milenage" -> hex_string 32 32 ke -> lowercase choice (if is_op then "op" else "opc") -> hex_string 32 32 o -> vty_bits b n ->
  run_out (vty_run k s (VAud3g t i name ke choice o b)) c d = Fin (VOk "", []) /\
  forall a, key3 (run_db (vty_run k s (VAud3g t i name ke choice o b)) c d) (s_id r) a <-> a = mk_auc3 (s_id r) 5 ke (if is_op then Some o else None) (if is_op then None else Some o) 0 n.
Proof.
  intros OK FT IM NF S R L H1 C H2 B. rewrite (proj1 (run_no_fault _ c d NF)), (proj2 (run_no_fault _ c d NF)). cbn [vty_run].
  assert (H64 : forall s, hex_string 32 32 s -> hex_string 32 64 s) by (intros x [[A1 A2] A3]; split; [lia|exact A3]).
  assert (NB : 0 <= n <= 28) by (destruct B; lia).
  assert (A : acceptable (AudUmts 5 ke o is_op n)) by (right; auto 10).
  assert (E : vty_aud3g k t i name ke choice o b = vty_store k t i "3G" false (AudUmts 5 ke o is_op n)).
  { unfold vty_aud3g. rewrite (algo_parse_nocase name "milenage" (lowercase_nocase _ _ L)). change (auth_algo_parse "milenage") with (Some (ALG_MILENAGE, (16, 16), (16, 16))%nat). cbv zeta match.
    rewrite (hex_len_ok ke 16 16 H1), (hex_len_ok o 16 16 H2), (bits_is b n B). cbn [negb].
    replace (same_nocase "op" choice) with is_op; [reflexivity|]. rewrite nocase_sym, (nocase_either _ _ "op" (lowercase_nocase _ _ C)). destruct is_op; reflexivity. }
  rewrite E. destruct (store_ok k t i "3G" _ d r OK FT IM S R A ltac:(discriminate)) as [O K]. split; [exact O|]. cbn [is_3g keys_new new3] in K. intros a. rewrite (K a).
  split; [tauto|]. intros ->. split; [discriminate|reflexivity].
Qed.
Theorem vty_key3_xor k s t i ke b n c d r : db_ok d -> ids_fit d -> imeis_ok d -> no_fault c -> sole d t i r -> readable r -> hex_string 32 32 ke -> vty_bits b n ->
  run_out (vty_run k s (VAud3gXor t i ke b)) c d = Fin (VOk "", []) /\
  forall a, key3 (run_db (vty_run k s (VAud3gXor t i ke b)) c d) (s_id r) a <-> a = mk_auc3 (s_id r) 4 ke None (Some "00000000000000000000000000000000"%string) 0 n.
Proof.
  intros OK FT IM NF S R H1 B. rewrite (proj1 (run_no_fault _ c d NF)), (proj2 (run_no_fault _ c d NF)). cbn [vty_run].
  assert (H64 : hex_string 32 64 ke) by (destruct H1 as [[A1 A2] A3]; split; [lia|exact A3]).
  assert (H0 : hex_string 32 64 "00000000000000000000000000000000") by (apply is_hexstr_spec; reflexivity).
  assert (NB : 0 <= n <= 28) by (destruct B; lia).
  assert (A : acceptable (AudUmts 4 ke "00000000000000000000000000000000" false n)) by (right; auto 10).
  assert (E : vty_aud3g_xor k t i ke b = vty_store k t i "3G" false (AudUmts 4 ke "00000000000000000000000000000000" false n)).
  { unfold vty_aud3g_xor. change (auth_algo_parse "xor-3g") with (Some (ALG_XOR_3G, (12, 16), (0, 0))%nat). cbv match.
    rewrite (hex_len_ok ke 12 16), (bits_is b n B); [reflexivity|]. destruct H1 as [[A1 A2] A3]. split; [lia|exact A3]. }
  rewrite E. destruct (store_ok k t i "3G" _ d r OK FT IM S R A ltac:(discriminate)) as [O K]. split; [exact O|]. cbn [is_3g keys_new new3] in K. intros a. rewrite (K a).
  split; [tauto|]. intros ->. split; [discriminate|reflexivity].
Qed.
Theorem vty_no_key k s t i (three : bool) c d r : db_ok d -> ids_fit d -> imeis_ok d -> no_fault c -> sole d t i r -> readable r ->
  let p := vty_run k s (if three then VNoAud3g t i else VNoAud2g t i) in
  run_out p c d = Fin (VOk "", []) /\ (if three then ~ has_auc3 (run_db p c d) (s_id r) else ~ has_auc2 (run_db p c d) (s_id r)).
Proof.
  intros OK FT IM NF S R. cbv zeta. rewrite (proj1 (run_no_fault _ c d NF)), (proj2 (run_no_fault _ c d NF)).
  pose proof (c06_remove d (s_id r) [] three OK (Forall_nil _)) as (A1 & A2 & A3). cbv zeta in *. pose proof (proj1 (db_ok_inv d) OK) as V.
  assert (HD : (if three then has_auc3 d (s_id r) else has_auc2 d (s_id r)) \/ ~ (if three then has_auc3 d (s_id r) else has_auc2 d (s_id r))).
  { destruct three; [unfold has_auc3; destruct (existsb (fun a => a3_id a =? s_id r) (d_auc3 d)) eqn:Q|unfold has_auc2; destruct (existsb (fun a => a2_id a =? s_id r) (d_auc2 d)) eqn:Q].
    1,3: left; apply existsb_exists in Q as (a & Ia & Ea); apply Z.eqb_eq in Ea; eauto.
    1,2: right; intros (a & Ia & Ea); rewrite existsb_false in Q; specialize (Q a Ia); cbn in Q; apply Z.eqb_neq in Q; congruence. }
  destruct three; cbn [vty_run]; unfold vty_no_aud3g, vty_no_aud2g, ALG_NONE.
  - destruct (store_run k t i "3G" true (AudUmts 0 "" "" false 0) d r V FT IM S R) as [w E]. unfold run_out at 1, run_db at 1. rewrite E. cbn [fst snd]. split; [|exact A3].
    destruct HD as [H|H]; [rewrite (A1 H)|rewrite (A2 H)]; reflexivity.
  - destruct (store_run k t i "2G" true (AudGsm 0 "") d r V FT IM S R) as [w E]. unfold run_out at 1, run_db at 1. rewrite E. cbn [fst snd]. split; [|exact A3].
    destruct HD as [H|H]; [rewrite (A1 H)|rewrite (A2 H)]; reflexivity.
Qed.

(** ** Nobody named *)
Theorem vty_unknown k s cmd t i c d : db_ok d -> ids_fit d -> imeis_ok d -> no_fault c -> about cmd t i -> number_if_id t i -> (forall r, In r (d_sub d) -> ~ vty_names t i r) ->
  exists w, run_out (vty_run k s cmd) c d = Fin (VWarn w, []) /\ run_db (vty_run k s cmd) c d = d.
Proof.
  intros OK FT IM NF AB NI N. rewrite (proj1 (run_no_fault _ c d NF)), (proj2 (run_no_fault _ c d NF)). apply db_ok_inv in OK.
  assert (Q : forall f, exists w, run_out (on_argv k t i f) [] d = Fin (VWarn w, []) /\ run_db (on_argv k t i f) [] d = d).
  { intros f. unfold run_out, run_db. rewrite (on_nobody k t i d f OK FT IM NI N). eexists. split; reflexivity. }
  assert (W : forall w, exists w', run_out (Ret (VWarn w, @nil out)) [] d = Fin (VWarn w', []) /\ run_db (Ret (VWarn w, @nil out)) [] d = d) by (intros w; exists w; split; reflexivity).
  destruct cmd as [t0 i0|i0|t0 i0|t0 i0 v|t0 i0|t0 i0 a ki|t0 i0|t0 i0 a ke ch o b|t0 i0 ke b|t0 i0 v|t0 i0 v]; try contradiction; destruct AB as [<- <-]; cbn [vty_run].
  - apply Q.
  - apply Q.
  - unfold vty_set_msisdn. destruct (match _ with Some _ => _ | None => false end); [apply W|]. destruct (match _ with Some _ => _ | None => false end); [apply W|apply Q].
  - apply Q.
  - unfold vty_aud2g. destruct (auth_algo_parse a) as [[[al le] lo]|]; [|apply W]. destruct (negb _); [apply W|apply Q].
  - apply Q.
  - unfold vty_aud3g. destruct (auth_algo_parse a) as [[[al le] lo]|]; [|apply W]. destruct (negb _); [apply W|]. destruct (negb _); [apply W|apply Q].
  - unfold vty_aud3g_xor. destruct (auth_algo_parse _) as [[[al le] lo]|]; [|apply W]. destruct (negb _); [apply W|apply Q].
  - unfold vty_set_imei. destruct (match _ with Some _ => _ | None => false end); [apply W|apply Q].
  - apply Q.
Qed.

(** ** A warning changes nothing *)
Definition warn_same (d : db) (p : prog (vres * list out)) : Prop := forall w o, run_out p [] d = Fin (VWarn w, o) -> run_db p [] d = d /\ o = [].
Lemma warn_argv k t i f d : (forall h, (exists r, In r (d_sub d) /\ sub_of_row (k_tz k) r = Some h) -> warn_same d (f h)) -> warn_same d (on_argv k t i f).
Proof.
  intros F w o. unfold on_argv, run_out, run_db. rewrite run_bind. destruct (argv_get k t i [] d) as (u & c' & E & H). pose proof (run_parts (get_by_argv k t i) d) as P. rewrite E in P. injection P as _ _ ->. rewrite E.
  destruct u as [[rc [h|]]| |]; try discriminate; [|intros [= _ <-]; auto]. destruct H as (x & r & _ & _ & I & Q). apply F. eauto.
Qed.
Lemma warn_store k t i g gone a d : db_ok d -> warn_same d (vty_store k t i g gone a).
Proof.
  intros OK. apply warn_argv. intros h _ w o. unfold run_out, run_db. rewrite (run_after _ _ _ _ _ (run_parts (db_subscr_update_aud_by_id (h_id h) a) d)). cbn [fst snd].
  destruct (run_out _ [] d) as [rc| |] eqn:O; try discriminate. destruct (Z.eqb_spec rc 0) as [->|NZ]; [discriminate|]. cbn [orb].
  destruct (gone && _); [discriminate|]. intros [= _ <-]. split; [exact (aud_error _ _ _ _ OK O NZ)|reflexivity].
Qed.
Theorem vty_warning k s cmd c d w o : db_ok d -> no_fault c -> run_out (vty_run k s cmd) c d = Fin (VWarn w, o) -> run_db (vty_run k s cmd) c d = d /\ o = [].
Proof.
  intros OK NF. rewrite (proj1 (run_no_fault _ c d NF)), (proj2 (run_no_fault _ c d NF)). revert w o. change (warn_same d (vty_run k s cmd)).
  assert (W : forall w, warn_same d (Ret (VWarn w, []))) by (intros w x o [= _ <-]; auto).
  assert (DF : forall h d w o, run_out (quiet (dump_full h)) [] d <> Fin (VWarn w, o)).
  { intros h x w o. unfold quiet, run_out. rewrite (run_after _ _ _ _ _ (run_parts (dump_full h) x)). cbn [fst]. unfold dump_full. destruct (h_imsi h =? "")%string; [discriminate|]. rewrite out_after.
    destruct (run_out _ [] x); discriminate. }
  destruct cmd as [t i|i|t i|t i v|t i|t i a ki|t i|t i a ke ch oo b|t i ke b|t i v|t i v]; cbn [vty_run].
  - apply warn_argv. intros h _ w o E. destruct (DF h d w o E).
  - unfold vty_create. destruct (imsi_valid i) eqn:IV; cbn [negb]; [|apply W]. intros w o. unfold run_out, run_db. rewrite run_bind, (run_parts (db_subscr_create i 6) d).
    destruct (run_out (db_subscr_create i 6) [] d) as [rc| |] eqn:O; try discriminate. destruct (Z.eqb_spec rc 0) as [->|NZ]; cbn [negb].
    + rewrite run_bind, (run_parts (db_subscr_get_by_imsi (k_tz k) i)). destruct (run_out (db_subscr_get_by_imsi _ _) [] _) as [[rc [h|]]| |]; try discriminate. intros E. destruct (DF h _ w o E).
    + cbn [run fst snd]. intros [= _ <-]. split; [|reflexivity]. apply (c10_unchanged (ACreate i 6) d []); [exact OK|exact I|]. cbn [api_prog]. rewrite O. congruence.
  - apply warn_argv. intros h (r & I & H) w o. unfold run_out, run_db. rewrite (run_after _ _ _ _ _ (run_parts (db_subscr_delete_by_id (h_id h)) d)). cbn [fst snd].
    destruct (c03_delete d (h_id h) [] OK (Forall_nil _)) as (O & _). rewrite O. destruct (sub_of_row_fields _ _ _ H) as (HI & _).
    rewrite (proj2 (existsb_exists (fun x => s_id x =? h_id h) (d_sub d))); [discriminate|]. exists r. split; [exact I|]. apply Z.eqb_eq. congruence.
  - unfold vty_set_msisdn. destruct (match _ with Some _ => _ | None => false end); [apply W|]. destruct (match _ with Some _ => _ | None => false end); [apply W|].
    apply warn_argv. intros h _ w o. unfold run_out, run_db. rewrite run_bind.
    match goal with |- context [run (db_subscr_update_msisdn_by_imsi ?x ?m)] => set (mm := m); rewrite (run_parts (db_subscr_update_msisdn_by_imsi x mm) d) end.
    destruct (run_out _ [] d) as [rc| |] eqn:O; try discriminate. destruct (Z.eqb_spec rc 0) as [->|NZ]; cbn [negb].
    + destruct mm as [m|]; [|discriminate]. rewrite run_bind, (run_parts (db_subscr_get_by_msisdn (k_tz k) m)). destruct (run_out (db_subscr_get_by_msisdn _ _) [] _) as [[rc h']| |]; discriminate.
    + cbn [run fst snd]. intros [= _ <-]. split; [|reflexivity]. apply (c10_unchanged (AMsisdn (h_imsi h) mm) d []); [exact OK|exact I|]. cbn [api_prog]. rewrite O. congruence.
  - now apply warn_store.
  - unfold vty_aud2g. destruct (auth_algo_parse a) as [[[al le] lo]|]; [|apply W]. destruct (negb _); [apply W|now apply warn_store].
  - now apply warn_store.
  - unfold vty_aud3g. destruct (auth_algo_parse a) as [[[al le] lo]|]; [|apply W]. destruct (negb _); [apply W|]. destruct (negb _); [apply W|now apply warn_store].
  - unfold vty_aud3g_xor. destruct (auth_algo_parse _) as [[[al le] lo]|]; [|apply W]. destruct (negb _); [apply W|now apply warn_store].
  - unfold vty_set_imei. destruct (match _ with Some _ => _ | None => false end); [apply W|].
    apply warn_argv. intros h _ w o. unfold run_out, run_db.
    match goal with |- context [db_subscr_update_imei_by_imsi ?x ?m] => set (mm := m); rewrite (run_after _ _ _ _ _ (run_parts (db_subscr_update_imei_by_imsi x mm) d)) end. cbn [fst snd].
    destruct (run_out _ [] d) as [rc| |] eqn:O; try discriminate. destruct (Z.eqb_spec rc 0) as [->|NZ]; cbn [negb]; [destruct mm; discriminate|].
    intros [= _ <-]. split; [|reflexivity]. apply (c10_unchanged (AImei (h_imsi h) mm) d []); [exact OK|exact I|]. cbn [api_prog]. rewrite O. congruence.
  - apply warn_argv. intros h _ w o. unfold run_out. rewrite run_bind.
    match goal with |- context [run ?p [] d] => rewrite (run_parts p d); destruct (run_out p [] d) as [a| |]; try discriminate end.
    rewrite run_bind. match goal with |- context [run ?p [] ?x] => rewrite (run_parts p x); destruct (run_out p [] x) as [a'| |]; discriminate end.
Qed.

(** ** Success is only reported if everything was written *)
Fixpoint always {A} (P : A -> Prop) (p : prog A) : Prop :=
  match p with Ret a => P a | Exec _ k => forall r, always P (k r) | Undef => True end.
Fixpoint loud {A} (bad : A -> Prop) (p : prog A) : Prop :=
  match p with Exec _ k => always bad (k RErr) /\ forall r, loud bad (k r) | _ => True end.
Lemma always_run {A} (P : A -> Prop) p c d a d' c' : always P p -> run p c d = (Fin a, d', c') -> P a.
Proof.
  revert c d. induction p as [x|s k IH|]; intros c d H R; cbn [run always] in *; [injection R as -> _ _; exact H| |discriminate].
  destruct c as [|[] c]; [destruct (exec s d) as [r d1]; exact (IH r _ _ (H r) R)|destruct (exec s d) as [r d1]; exact (IH r _ _ (H r) R)|exact (IH RErr _ _ (H RErr) R)|discriminate].
Qed.
Lemma loud_run {A} (bad : A -> Prop) p c d a d' c' : loud bad p -> run p c d = (Fin a, d', c') -> ~ bad a -> run p [] d = (Fin a, d', []).
Proof.
  intros L R B. revert c d L R. induction p as [x|s k IH|]; intros c d L R; cbn [run loud] in *; [injection R as -> -> _; reflexivity| |discriminate]. destruct L as [L1 L2].
  destruct c as [|[] c]; [destruct (exec s d) as [r d1]; exact (IH r _ _ (L2 r) R)|destruct (exec s d) as [r d1]; exact (IH r _ _ (L2 r) R)|destruct (B (always_run _ _ _ _ _ _ _ L1 R))|discriminate].
Qed.
Lemma always_bind {A B} (Q : A -> Prop) (P : B -> Prop) (p : prog A) f : always Q p -> (forall a, Q a -> always P (f a)) -> always P (bind p f).
Proof. intros H F. induction p as [x|s k IH|]; cbn in *; auto. Qed.
Lemma loud_bind {A B} (Q : A -> Prop) (bad : B -> Prop) (p : prog A) f : loud Q p -> (forall a, Q a -> always bad (f a)) -> (forall a, loud bad (f a)) -> loud bad (bind p f).
Proof. intros H F L. induction p as [x|s k IH|]; cbn in *; auto. destruct H as [H1 H2]. split; [exact (always_bind Q bad _ _ H1 F)|auto]. Qed.

Definition bad_result (r : vres * list out) : Prop := match fst r with VWarn _ | VFull _ None => True | _ => False end.
Lemma loud_argv k t i f : (forall h, loud bad_result (f h)) -> loud bad_result (on_argv k t i f).
Proof.
  intros F. unfold on_argv. apply (loud_bind (fun a => snd a = None)).
  - unfold get_by_argv. destruct (argv_selector t i) as [x|]; [|exact I]. destruct (get_by_sel k x) as [-> _]. unfold db_sel. split; [reflexivity|]. intros []; try exact I. destruct (sub_of_row _ _); exact I.
  - intros [rc h] E. cbn in E. subst h. exact I.
  - intros [rc [h|]]; [apply F|exact I].
Qed.
Lemma loud_dump h : loud bad_result (quiet (dump_full h)).
Proof.
  unfold quiet, dump_full. destruct (h_imsi h =? "")%string; [exact I|].
  apply (loud_bind (fun r => match r with VFull _ None => True | _ => False end)).
  - apply (loud_bind (fun ks => ks = None)); [|intros ks ->; exact I|intros ks; exact I].
    unfold get_keys, db_get_auth_data. cbn. split; [reflexivity|]. intros []; try exact I. destruct (read_3g a3) as [u|]; [|exact I]. destruct (read_2g a2), u; exact I.
  - intros [t|t|x [ks|]] B; try contradiction. exact I.
  - intros; exact I.
Qed.
Lemma loud_aud id a : loud (fun rc => rc <> 0 /\ rc <> - ENOENT) (db_subscr_update_aud_by_id id a).
Proof.
  destruct (aud_shape id a) as [[_ ->]|[_ ->]]; [|exact I]. unfold two_step. split; [split; discriminate|]. intros r. cbv zeta.
  destruct (_ && _); [exact I|]. destruct (aud_ins_stmt id a); [|exact I]. split; [split; discriminate|]. intros; exact I.
Qed.
Lemma loud_store k t i g gone a : loud bad_result (vty_store k t i g gone a).
Proof.
  apply loud_argv. intros h. apply (loud_bind (fun rc => rc <> 0 /\ rc <> - ENOENT)); [apply loud_aud| |intros; exact I].
  intros rc [N1 N2]. apply Z.eqb_neq in N1, N2. rewrite N1, N2, andb_false_r. exact I.
Qed.
Theorem vty_success k s cmd c d w o : run_out (vty_run k s cmd) c d = Fin (w, o) -> done w -> (forall t i, cmd <> VDelete t i) -> (forall t i v, cmd <> VNam t i v) ->
  run_db (vty_run k s cmd) c d = run_db (vty_run k s cmd) [] d.
Proof.
  intros E W ND NN.
  assert (G : loud bad_result (vty_run k s cmd) -> run_db (vty_run k s cmd) c d = run_db (vty_run k s cmd) [] d).
  { intros L. unfold run_out, run_db in *. destruct (run (vty_run k s cmd) c d) as [[u d'] c'] eqn:R. cbn in E. subst u.
    rewrite (loud_run bad_result _ _ _ _ _ _ L R); [reflexivity|]. unfold bad_result. cbn. destruct w as [|t|h [ks|]]; auto. }
  assert (S : forall im m, loud (fun rc => rc <> 0) (db_subscr_update_msisdn_by_imsi im m)).
  { intros im [m|]; cbn [db_subscr_update_msisdn_by_imsi]; [destruct (negb _); [exact I|]|]; (split; [discriminate|intros; exact I]). }
  destruct cmd as [t i|i|t i|t i v|t i|t i a ki|t i|t i a ke ch oo b|t i ke b|t i v|t i v]; cbn [vty_run] in *.
  - apply G. apply loud_argv. intros h. apply loud_dump.
  - apply G. unfold vty_create. destruct (negb _); [exact I|]. apply (loud_bind (fun rc => rc <> 0)).
    + unfold db_subscr_create. destruct (negb _); [exact I|]. split; [discriminate|intros; exact I].
    + intros rc N. apply Z.eqb_neq in N. rewrite N. exact I.
    + intros rc. destruct (negb _); [exact I|]. apply (loud_bind (fun a => snd a = None)).
      * split; [reflexivity|]. intros []; try exact I. destruct (sub_of_row _ _); exact I.
      * intros [x h] Q. cbn in Q. subst h. exact I.
      * intros [x [h|]]; [apply loud_dump|exact I].
  - destruct (ND t i eq_refl).
  - unfold vty_set_msisdn in *. set (m := if (v =? "none")%string then None else Some v) in *.
    destruct (match m with Some m => _ | None => false end); [cbn in E; injection E as <- _; destruct W|].
    destruct (match m with Some m => _ | None => false end); [cbn in E; injection E as <- _; destruct W|].
    (* the first two accesses are what matters *)
    set (q := on_argv k t i (fun h => do rc <- db_subscr_update_msisdn_by_imsi (h_imsi h) m;;
       Ret (if negb (rc =? 0)%Z then VWarn ("Error: cannot update MSISDN for subscriber IMSI=" ++ quoted (h_imsi h))
            else VOk match m with Some m => "Updated subscriber IMSI=" ++ quoted (h_imsi h) ++ " to MSISDN=" ++ quoted m | None => "Updated subscriber IMSI=" ++ quoted (h_imsi h) ++ ": removed MSISDN" end, @nil out))%string).
    match type of E with run_out ?p _ _ = _ => set (full := p) in * end.
    assert (FQ : forall c d, run_db full c d = run_db q c d /\ (forall u, run_out full c d = Fin u -> exists o', run_out q c d = Fin (fst u, o'))).
    { clear. intros c d. unfold full, q, on_argv, run_db, run_out. rewrite !run_bind. destruct (argv_get k t i c d) as (u & c' & R & _). rewrite R.
      destruct u as [[rc [h|]]| |]; try (split; [reflexivity|]; cbn; intros u [= <-]; eauto; fail); try (split; [reflexivity|discriminate]).
      rewrite !run_bind. destruct (run (db_subscr_update_msisdn_by_imsi (h_imsi h) m) c' d) as [[x d1] c1]. destruct x as [rc1| |]; try (split; [reflexivity|discriminate]).
      destruct (negb (rc1 =? 0)); [split; [reflexivity|]; cbn; intros u [= <-]; eauto|]. destruct m as [m|]; [|split; [reflexivity|]; cbn; intros u [= <-]; eauto].
      rewrite run_bind. change (db_subscr_get_by_msisdn (k_tz k) m) with (db_sel (k_tz k) (SEL_BY_MSISDN m)).
      destruct (db_sel_run (k_tz k) (SEL_BY_MSISDN m) (by_msisdn m) c1 d1 (fun _ => eq_refl)) as [c2 R2]. rewrite R2.
      match goal with |- context [match ?x with Fin a => _ | Crashed => _ | Ub => _ end] => destruct x as [[rc2 h2]| |] end; (split; [reflexivity|]); try discriminate; cbn; intros u [= <-]; eauto. }
    assert (L : loud bad_result q).
    { apply loud_argv. intros h. apply (loud_bind (fun rc => rc <> 0)); [apply S|intros rc N; apply Z.eqb_neq in N; rewrite N; exact I|intros; exact I]. }
    destruct (FQ c d) as [D1 O1]. destruct (FQ [] d) as [D2 O2]. destruct (O1 _ E) as [o' Eq]. cbn [fst] in Eq.
    rewrite D1, D2. unfold run_out, run_db in *. destruct (run q c d) as [[u d'] c'] eqn:R. cbn in Eq. subst u.
    assert (R0 : run q [] d = (Fin (w, o'), d', [])). { apply (loud_run bad_result _ _ _ _ _ _ L R). unfold bad_result. cbn. destruct w as [|t'|h [ks|]]; auto. }
    rewrite R0. reflexivity.
  - apply G, loud_store.
  - apply G. unfold vty_aud2g. destruct (auth_algo_parse a) as [[[al le] lo]|]; [|exact I]. destruct (negb _); [exact I|apply loud_store].
  - apply G, loud_store.
  - apply G. unfold vty_aud3g. destruct (auth_algo_parse a) as [[[al le] lo]|]; [|exact I]. destruct (negb _); [exact I|]. destruct (negb _); [exact I|apply loud_store].
  - apply G. unfold vty_aud3g_xor. destruct (auth_algo_parse _) as [[[al le] lo]|]; [|exact I]. destruct (negb _); [exact I|apply loud_store].
  - apply G. unfold vty_set_imei. destruct (match _ with Some _ => _ | None => false end); [exact I|]. apply loud_argv. intros h.
    apply (loud_bind (fun rc => rc <> 0)); [|intros rc N; apply Z.eqb_neq in N; rewrite N; exact I|intros; exact I].
    destruct (if (v =? "none")%string then None else Some (cut_check v)) as [m|]; cbn [db_subscr_update_imei_by_imsi]; [destruct (negb _); [exact I|]|]; (split; [discriminate|intros; exact I]).
  - destruct (NN t i v eq_refl).
Qed.
