(** The purge mark is never lifted (C21). *)
From Verif Require Import Base PeerId Db DbSpec DbProofs DbThms Auth AuthSpec AuthThms AuthThms2 AuthThms3 Gsup Router Hlr HlrSpec HlrThms HlrThms2 HlrThms3 HlrStep HlrThms4.

(** statements that neither take back the mark nor remove a subscriber *)
Definition keeps_mark (s : stmt) : Prop :=
  match s with UPD_PURGE_CS_BY_IMSI v _ | UPD_PURGE_PS_BY_IMSI v _ => v = true | DEL_BY_ID _ => False | _ => True end.
(** [d'] has the subscriber [row] marked in domain [x] *)
Definition marked (x : domain) (row : sub_row) (d' : db) : Prop :=
  exists row', In row' (d_sub d') /\ s_id row' = s_id row /\ s_imsi row' = s_imsi row /\ purged x row' = true.

Lemma upd_marked x row cond f d : (forall r, s_id (f r) = s_id r) -> (forall r, s_imsi (f r) = s_imsi r) -> (forall r, purged x r = true -> purged x (f r) = true) ->
  marked x row d -> marked x row (with_sub d (upd cond f (d_sub d))).
Proof.
  intros A B C (r & I & E1 & E2 & P). exists (if cond r then f r else r). split.
  - cbn. unfold upd. apply in_map_iff. exists r. auto.
  - destruct (cond r); auto. rewrite A, B. auto.
Qed.
Lemma exec_marked x row s d : keeps_mark s -> marked x row d -> marked x row (snd (exec s d)).
Proof.
  intros K M. destruct s; cbn in K; try contradiction; try subst v; cbn [exec]; unfold sel, upd_sub; cbn [snd];
    try (destruct (find _ _); exact M); try (apply upd_marked; auto; destruct x; auto).
  all: repeat match goal with |- context [if ?b then _ else _] => destruct b; cbn [snd] | |- context [match find ?a ?b with _ => _ end] => destruct (find a b); cbn [snd] end;
    try exact M; try (apply upd_marked; auto; destruct x; auto).
  all: destruct M as (r & I & M); exists r; split; auto; cbn; try (apply in_or_app; auto).
Qed.
Lemma aud_keeps id aud : all_stmts keeps_mark (db_subscr_update_aud_by_id id aud).
Proof.
  destruct aud as [algo ki|algo k opc op bl|]; cbn [db_subscr_update_aud_by_id]; [| |exact I].
  - destruct (negb _); [exact I|]. destruct (_ && _); [exact I|].
    cbn [all_stmts]. split; [exact I|]. intros r.
    destruct (_ && _); [exact I|]. destruct (algo =? ALG_NONE); cbn; auto.
  - destruct (negb _); [exact I|]. destruct (_ && _); [exact I|].
    cbn [all_stmts]. split; [exact I|]. intros r.
    destruct (_ && _); [exact I|]. destruct (algo =? ALG_NONE); cbn; auto.
Qed.
(** the event is neither the removal of a subscriber nor a direct call of db_subscr_purge() with false, which nobody makes *)
Definition no_removal (e : event) : Prop :=
  match e with EApi (ADelete _) => False | EApi (APurge _ v _) => v = true | _ => True end.
Lemma api_keeps a : no_removal (EApi a) -> all_stmts keeps_mark (api_prog a).
Proof.
  destruct a; cbn [no_removal api_prog]; intros N; try contradiction.
  - unfold db_subscr_create. destruct (imsi_valid imsi); cbn; auto.
  - destruct msisdn as [m|]; cbn; auto. destruct (msisdn_valid m); cbn; auto.
  - apply aud_keeps.
  - destruct imei as [m|]; cbn; auto. destruct (imei_valid14 m); cbn; auto.
  - destruct is_ps; cbn; auto.
  - subst v. destruct is_ps; cbn; auto.
  - unfold db_subscr_lu. destruct (ipa_cstr vlr); cbn; auto. destruct (lu_proxy via); cbn; auto.
    split; [destruct is_ps; exact I|]. intros r. destruct (upd_rc r =? 0); cbn; auto. destruct now; cbn; auto. split; [destruct is_ps; exact I|auto].
  - cbn; auto.
  - unfold db_ind. destruct (ind_vlr_name vlr); cbn; auto. split; auto.
    intros [| |n| | |i|]; cbn; auto; (split; [exact I|]); intros [| |m| | |j|]; cbn; auto; (split; [exact I|]); intros []; cbn; auto.
  - unfold db_ind_del. destruct (ind_vlr_name vlr); cbn; auto.
  - cbn. split; auto. intros []; cbn; auto. destruct (sub_of_row _ _); cbn; auto.
  - cbn. split; auto. intros []; cbn; auto. destruct (sub_of_row _ _); cbn; auto.
  - cbn. split; auto. intros []; cbn; auto. destruct (sub_of_row _ _); cbn; auto.
  - cbn. split; auto. intros []; cbn; auto. destruct (sub_of_row _ _); cbn; auto.
  - cbn; auto.
  - cbn; auto.
Qed.
Lemma handle_keeps k w s e : no_removal e -> all_stmts keeps_mark (handle k w s e).
Proof.
  intros N. destruct e; try exact I.
  - eapply all_stmts_impl; [|apply rx_stmts]. intros st H. destruct st; cbn in *; try tauto.
  - apply same_stmts. apply vty_stmts; cbn; auto.
  - apply same_stmts. apply vty_stmts; cbn; auto.
  - cbn [handle]. apply all_stmts_bind; [apply api_keeps; exact N|intros; exact I].
Qed.
Lemma step_marked k x row s d w e f s' d' o : no_removal e -> marked x row d -> step k (s, d) (w, e, f) = Some (s', d', o) -> marked x row d'.
Proof.
  intros N M E. apply step_db in E. subst d'. apply (run_inv (marked x row) keeps_mark); auto; [intros; apply exec_marked; auto|apply handle_keeps; auto].
Qed.
Lemma hist_marked k x row : forall es s d s' d' o, (forall w e f, In (w, e, f) es -> no_removal e) -> marked x row d ->
  hist k (s, d) es = Some (s', d', o) -> marked x row d'.
Proof.
  induction es as [|[[w e] f] es IH]; intros s d s' d' o N M; cbn [hist]; [intros [= <- <- <-]; auto|].
  destruct (step k (s, d) (w, e, f)) as [[[s1 d1] o1]|] eqn:E; [|discriminate].
  destruct (hist k (s1, d1) es) as [[[s2 d2] o2]|] eqn:H; [|discriminate]. intros [= <- <- <-].
  eapply IH; [| |exact H]. { intros w' e' f' I. apply (N w' e' f'). right. exact I. }
  eapply step_marked; [|exact M|exact E]. apply (N w e f). left. reflexivity.
Qed.
