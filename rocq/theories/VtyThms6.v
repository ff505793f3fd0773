(** The VTY commands: stored IMEIs, and the messages sent. *)
From Verif Require Import Base PeerId PeerThms Db DbSpec DbProofs DbThms DbThms2 DbThms3 Auth AuthSpec AuthThms Gsup Router Hlr PeerSpec HlrSpec HlrSpec2 HlrThms RouterThms Ctrl CtrlSpec CtrlThms CtrlThms2 CtrlThms3 CtrlThms4 CtrlThms5 VtySubscr VtySpec VtyThms VtyThms2 VtyThms3 VtyThms4 VtyThms5.
Local Open Scope string_scope.
Local Open Scope list_scope.
Local Open Scope Z_scope.

(** ** Stored IMEIs *)
Definition imei_stmt (s : stmt) : Prop := match s with UPD_IMEI_BY_IMSI (Some m) _ => is_imei14 m | _ => True end.
Lemma imeis_upd cond f d : imeis_ok d -> (forall r m, In r (d_sub d) -> s_imei (f r) = Some m -> is_imei14 m) -> imeis_ok (snd (upd_sub cond f d)).
Proof.
  intros H F r m I E. cbn in I. unfold upd in I. apply in_map_iff in I as (x & <- & I). destruct (cond x); [exact (F x m I E)|exact (H x m I E)].
Qed.
Lemma imeis_exec s d : imei_stmt s -> imeis_ok d -> imeis_ok (snd (exec s d)).
Proof.
  intros S H. destruct s; cbn [exec]; unfold sel; repeat match goal with |- context[match ?x with _ => _ end] => destruct x end; try exact H;
    try (apply imeis_upd; [exact H|intros r m I E; exact (H r m I E)]).
  - apply imeis_upd; [exact H|]. intros r m I E. cbn in E. subst imei. exact S.
  - intros r m I E. cbn in I. apply in_app_iff in I as [I|[<-|[]]]; [exact (H r m I E)|discriminate].
  - intros r m I E. cbn in I. unfold del in I. apply filter_In in I as [I _]. exact (H r m I E).
Qed.
Lemma aud_imei id aud : all_stmts imei_stmt (db_subscr_update_aud_by_id id aud).
Proof.
  destruct aud as [algo ki|algo k opc op bl|]; cbn [db_subscr_update_aud_by_id]; [| |exact I].
  - destruct (negb _); [exact I|]. destruct (_ && _); [exact I|].
    cbn [all_stmts]. split; [exact I|]. intros r.
    destruct (_ && _); [exact I|]. destruct (algo =? ALG_NONE); cbn; auto.
  - destruct (negb _); [exact I|]. destruct (_ && _); [exact I|].
    cbn [all_stmts]. split; [exact I|]. intros r.
    destruct (_ && _); [exact I|]. destruct (algo =? ALG_NONE); cbn; auto.
Qed.
Lemma api_imei a : all_stmts imei_stmt (api_prog a).
Proof.
  destruct a; cbn [api_prog].
  - unfold db_subscr_create. destruct (negb _); [exact I|]. split; [exact I|intros; exact I].
  - unfold db_subscr_delete_by_id. cbn [all_stmts]. split; [exact I|].
    intros [| |n| | | |]; try exact I.
    apply all_stmts_bind; [apply aud_imei|]. intros rc2.
    apply all_stmts_bind; [apply aud_imei|]. intros rc3. exact I.
  - destruct msisdn as [m|]; cbn; [destruct (negb _); [exact I|]|]; (split; [exact I|intros; exact I]).
  - apply aud_imei.
  - destruct imei as [m|]; cbn; [|split; [exact I|intros; exact I]]. destruct (imei_valid14 m) eqn:E; [|exact I]. split; [now apply imei_valid_spec|intros; exact I].
  - destruct is_ps; (split; [exact I|intros; exact I]).
  - destruct is_ps; (split; [exact I|intros; exact I]).
  - unfold db_subscr_lu. destruct (ipa_cstr vlr); cbn; auto.
    destruct (lu_proxy via); cbn; auto.
    split; [destruct is_ps; exact I|]. intros r. destruct (upd_rc r =? 0); cbn; auto.
    destruct now; cbn; auto. split; [destruct is_ps; exact I|auto].
  - cbn; auto.
  - unfold db_ind. destruct (ind_vlr_name vlr); cbn; auto. split; auto.
    intros [| |n| | |i|]; cbn; auto; (split; [exact I|]); intros [| |m| | |j|]; cbn; auto;
      (split; [exact I|]); intros []; cbn; auto.
  - unfold db_ind_del. destruct (ind_vlr_name vlr); cbn; auto.
  - cbn. split; auto. intros []; cbn; auto. destruct (sub_of_row _ _); cbn; auto.
  - cbn. split; auto. intros []; cbn; auto. destruct (sub_of_row _ _); cbn; auto.
  - cbn. split; auto. intros []; cbn; auto. destruct (sub_of_row _ _); cbn; auto.
  - cbn. split; auto. intros []; cbn; auto. destruct (sub_of_row _ _); cbn; auto.
  - cbn; auto.
  - cbn; auto.
Qed.
Lemma imeis_hist h d : imeis_ok d -> imeis_ok (db_hist h d).
Proof.
  unfold db_hist. revert d. induction h as [|x h IH]; cbn; [auto|]. intros d H. apply IH. unfold db_step.
  eapply (run_inv imeis_ok imei_stmt); eauto using imeis_exec, api_imei.
Qed.

(** ** Messages *)
(** the same statements, with the same result *)
Fixpoint same {A} (p q : prog A) : Prop :=
  match p, q with
  | Ret a, Ret b => a = b
  | Undef, Undef => True
  | Exec s k, Exec t l => s = t /\ forall r, same (k r) (l r)
  | _, _ => False
  end.
Lemma same_run {A} (p q : prog A) c d : same p q -> run p c d = run q c d.
Proof.
  revert q c d. induction p as [a|s k IH|]; intros [b|t l|] c d; cbn [same]; try contradiction; [now intros ->| |auto].
  intros [<- H]. cbn [run]. destruct c as [|[] c]; auto; destruct (exec s d); auto.
Qed.
Lemma same_refl {A} (p : prog A) : same p p.
Proof. induction p; cbn; auto. Qed.
Lemma same_bind {A B} (p q : prog A) (f g : A -> prog B) : same p q -> (forall a, same (f a) (g a)) -> same (bind p f) (bind q g).
Proof. revert q. induction p as [a|s k IH|]; intros [b|t l|] H F; cbn in *; try contradiction; [subst; auto| |auto]. destruct H as [-> H]. auto. Qed.
Lemma bind_assoc {A B C} (p : prog A) (f : A -> prog B) (g : B -> prog C) : same (bind (bind p f) g) (bind p (fun a => bind (f a) g)).
Proof. induction p; cbn; auto using same_refl. Qed.
Lemma same_trans {A} (p q r : prog A) : same p q -> same q r -> same p r.
Proof.
  revert q r. induction p as [a|s k IH|]; intros [b|t l|] [e|u m|]; cbn; try contradiction; try congruence; auto.
  intros [-> H] [-> G]. split; [auto|]. intros x. eapply IH; eauto.
Qed.
Definition sends (p : prog (vres * list out)) : prog (list out) := do r <- p;; Ret (snd r).
Lemma sends_argv k t i x f g : argv_selector t i = Some x -> (forall h, same (f h) (sends (g h))) ->
  same (do (rc, sub) <- get_by k x;; match rc, sub with 0, Some h => f h | _, _ => Ret [] end) (sends (on_argv k t i g)).
Proof.
  intros X F. unfold on_argv, get_by_argv. rewrite X.
  assert (G : exists st, get_by k x = db_sel (k_tz k) st) by (destruct x; eexists; reflexivity). destruct G as [st ->].
  unfold sends at 1. cbn [db_sel bind same]. split; [reflexivity|]. intros []; cbn; auto.
  match goal with |- context[sub_of_row ?a ?b] => destruct (sub_of_row a b) end; cbn; [apply F|auto].
Qed.
Lemma msisdn_sends k s t i v x : argv_selector t i = Some x ->
  same (vty_msisdn k s x (if (v =? "none")%string then None else Some v)) (sends (vty_run k s (VMsisdn t i v))).
Proof.
  intros X. cbn [vty_run]. unfold vty_set_msisdn, vty_msisdn. destruct (v =? "none")%string; cbv zeta.
  - apply sends_argv; [exact X|]. intros h. unfold sends.
    unfold db_subscr_update_msisdn_by_imsi. cbn. split; [reflexivity|]. intros r. destruct (upd_rc r =? 0); cbn; auto.
  - destruct (15 <? _)%nat; cbn [orb]; [exact eq_refl|]. destruct (negb (msisdn_valid v)) eqn:E; [exact eq_refl|].
    apply sends_argv; [exact X|]. intros h. unfold sends, db_subscr_update_msisdn_by_imsi. rewrite E. cbn. split; [reflexivity|]. intros r.
    destruct (upd_rc r =? 0); [|exact eq_refl]. cbn. split; [reflexivity|]. intros r'. destruct r'; cbn; auto.
    match goal with |- context[sub_of_row ?a ?b] => destruct (sub_of_row a b) end; cbn; auto.
Qed.
Lemma sends_two (P Q : prog (list out)) w : same (do a <- P;; do b <- Q;; Ret (a ++ b)) (sends (do a <- P;; do b <- Q;; Ret (w, a ++ b))).
Proof.
  unfold sends. induction P as [a|st l IH|]; cbn; auto. induction Q as [b|st l IH|]; cbn; auto.
Qed.
Lemma nam_sends k s t i v x : argv_selector t i = Some x -> same (vty_nam k s x (contains "cs" v) (contains "ps" v)) (sends (vty_run k s (VNam t i v))).
Proof.
  intros X. cbn [vty_run]. unfold vty_set_nam, vty_nam. cbv zeta. apply sends_argv; [exact X|]. intros h. apply sends_two.
Qed.
Lemma run_sends p c d : run_out (sends p) c d = match run_out p c d with Fin (_, o) => Fin o | Crashed => Crashed | Ub => Ub end /\ run_db (sends p) c d = run_db p c d.
Proof. unfold sends, run_out, run_db. rewrite run_bind. destruct (run p c d) as [[[[w o]| |] d'] c']; cbn; auto. Qed.
Lemma sends_same (p : prog (list out)) q c d : same p (sends q) -> run_out p c d = match run_out q c d with Fin (_, o) => Fin o | Crashed => Crashed | Ub => Ub end /\ run_db p c d = run_db q c d.
Proof. intros H. destruct (run_sends q c d) as [<- <-]. unfold run_out, run_db. now rewrite (same_run _ _ c d H). Qed.

(** ** Keys that are never stored *)
Lemma store_refused k t i gen aud c d text m : (forall id, db_subscr_update_aud_by_id id aud = Ret (- EINVAL)) ->
  run_out (vty_store k t i gen false aud) c d <> Fin (VOk text, m).
Proof.
  intros H E. unfold run_out in E. destruct (run _ c d) as [[u d'] c'] eqn:R. cbn in E. subst u.
  refine (always_run (fun a => fst a <> VOk text) _ _ _ _ _ _ _ R eq_refl). unfold vty_store, on_argv.
  apply (always_bind (fun _ => True)); [clear; induction (get_by_argv k t i); cbn; auto|].
  intros [rc [h|]] _; cbn [always fst]; [|discriminate]. rewrite H. cbn. discriminate.
Qed.
Lemma ret_refused c d w text m : run_out (Ret (VWarn w, @nil out)) c d <> Fin (VOk text, m).
Proof. discriminate. Qed.
Theorem vty_tuak k s t i ke choice o b c d text m : run_out (vty_run k s (VAud3g t i "tuak" ke choice o b)) c d <> Fin (VOk text, m).
Proof.
  cbn [vty_run]. unfold vty_aud3g. change (auth_algo_parse "tuak") with (Some (ALG_TUAK, (16, 32), (32, 32))%nat). cbv match zeta.
  destruct (negb _); [apply ret_refused|]. destruct (negb _); [apply ret_refused|]. now apply store_refused.
Qed.
Theorem vty_xor_short k s t i ke b c d text m : hex_string 24 31 ke -> run_out (vty_run k s (VAud3gXor t i ke b)) c d <> Fin (VOk text, m).
Proof.
  intros [[L1 L2] _]. cbn [vty_run]. unfold vty_aud3g_xor. change (auth_algo_parse "xor-3g") with (Some (ALG_XOR_3G, (12, 16), (0, 0))%nat). cbv match zeta.
  destruct (negb _); [apply ret_refused|]. apply store_refused. intros id. cbn [db_subscr_update_aud_by_id].
  destruct (is_hexstr ke 32 64) eqn:E; [|reflexivity]. apply is_hexstr_spec in E as [[E _] _]. lia.
Qed.
