(** Proofs for C56: what a command leaves alone. *)
From Verif Require Import Base PeerId Db Auth Gsup Router Hlr UssdCfg SmsCfg MsLookup Mdns Proxy MsServer Ctrl Config ConfigSpec.
Local Open Scope string_scope. Local Open Scope list_scope.

Lemma dispatch_in e ws l r : dispatch e ws l = r -> r <> XNo -> exists p h v, In (p, h) l /\ args e p ws = Some v /\ r = h v.
Proof.
  intros <-. induction l as [|[p h] l IH]; cbn [dispatch]; [tauto|]. destruct (args e p ws) as [v|] eqn:A.
  - intros _. exists p, h, v. split; [left; auto|]. auto.
  - intros N. destruct (IH N) as (p' & h' & v & I & X). exists p', h', v. split; [right; auto|auto].
Qed.
Lemma args_kw e s p ws v : args e (K s :: p) ws = Some v -> exists r, ws = s :: r /\ args e p r = Some v.
Proof.
  destruct ws as [|w r]; cbn [args fits is_kw]; [discriminate|]. destruct (String.eqb_spec w s) as [->|]; [|discriminate]. destruct (args e p r) as [x|] eqn:A; [|discriminate].
  intros [= <-]. exists r. auto.
Qed.
Lemma args_choice e l p ws v : args e (Choice l :: p) ws = Some v -> exists w r x, ws = w :: r /\ In w l /\ v = w :: x /\ args e p r = Some x.
Proof.
  destruct ws as [|w r]; cbn [args fits is_kw]; [discriminate|]. destruct (existsb (String.eqb w) l) eqn:E; [|discriminate]. destruct (args e p r) as [x|] eqn:A; [|discriminate].
  intros [= <-]. apply existsb_exists in E as (y & I & Y). apply String.eqb_eq in Y. subst y. exists w, r, x. auto.
Qed.
Definition to_conf (r : xres) : option conf := match r with XOk d _ | XWarn d => Some d | _ => None end.
Lemma kept s c : keeps s c c.
Proof. destruct s; cbn; auto. Qed.

Local Ltac kw A := repeat (let r := fresh "r" in apply args_kw in A as (r & -> & A)).
Local Ltac done_keep := cbn [to_conf] in *; match goal with E : Some _ = Some _ |- _ => injection E as <-; apply kept end.


Local Ltac split_r R := repeat match type of R with context [match ?x with _ => _ end] => destruct x end.
Local Ltac finish R N := injection R as <-; match goal with |- keeps ?s _ _ => destruct s end; try (cbn; auto; fail); exfalso; apply N; repeat (first [apply ab_no | constructor]).
Lemma mdns_both e c v d s : to_conf (let r1 := srv_bind e c v in let r2 := cli_bind e (snd r1) v in answer_of (fst r1 && fst r2, snd r2)) = Some d ->
  s <> SServer -> s <> SClient -> keeps s c d.
Proof.
  unfold srv_bind, cli_bind, answer_of. cbv zeta. destruct (sa_nonzero (mdns_addr e (sr_bind (f_srv c)) v)); cbn [fst snd];
    match goal with |- context [sa_nonzero ?x] => destruct (sa_nonzero x) end; cbn; intros [= <-] N1 N2; destruct s; cbn; auto; congruence.
Qed.
Lemma others e f n ws c d s : to_conf (exec e f n ws c) = Some d -> ~ about n ws s -> keeps s c d.
Proof.
  unfold exec. intros R N. destruct (dispatch e ws (cmds e f c n)) as [|w|w ch|] eqn:D; try discriminate; cbn in R; injection R as ->;
    (destruct (dispatch_in _ _ _ _ D ltac:(discriminate)) as (p & h & v & I & A & R); clear D; symmetry in R; apply (f_equal to_conf) in R; cbn [to_conf] in R; revert R A I N; clear; intros R A I N;
     destruct n; cbn [cmds svc_cmds List.app In] in I).
  all: repeat (destruct I as [I|I]; [injection I as <- <-; kw A|]); try destruct I.
  all: try (cbn [to_conf] in R; finish R N; fail).
  all: try (unfold ussd_do, smsc_do, cod_do, profile_enter, profile_del, profile_apn, slot_apn, svc_do in R; cbv zeta in R; split_r R; cbn [to_conf] in R; try discriminate R; finish R N; fail).
  all: try (apply args_choice in A as (w & r' & x & -> & J & -> & A); unfold reject_do in R; cbn [argn nth] in R; destruct (cause_of _); [|discriminate R];
            destruct J as [<-|[<-|[]]]; cbn [String.eqb Ascii.eqb Bool.eqb to_conf] in R; finish R N; fail).
  all: try (apply (mdns_both e c v d s R); intros ->; apply N; constructor; fail).
  all: unfold srv_bind, cli_bind, answer_of in R; cbv zeta in R; destruct (sa_nonzero _) in R; cbn [fst snd to_conf] in R; finish R N.
Qed.
