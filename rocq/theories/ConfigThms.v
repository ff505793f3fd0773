(** Lines and blocks of a file that is read (C56) *)
From Verif Require Import Base PeerId Db Auth Gsup Router Hlr UssdCfg SmsCfg MsLookup Mdns Proxy MsServer PeerSpec MsServerSpec Ctrl CtrlSpec CtrlThms CtrlThms4 VtyListThms Config ConfigSpec.
Local Open Scope string_scope.
Local Open Scope list_scope.

(** ** Words *)
Definition no_space (w : string) : bool := str_forall (fun c => negb (is_space c)) w.
Lemma no_space_iff w : no_space w = true <-> forall k c, String.get k w = Some c -> is_space c = false.
Proof.
  unfold no_space. induction w as [|c w IH]; cbn [str_forall].
  - split; auto. intros _ [|k] c; cbn; discriminate.
  - rewrite andb_true_iff, negb_true_iff, IH. split.
    + intros [A B] [|k] x; cbn; [intros [= <-]; auto|apply B].
    + intros H. split; [apply (H 0%nat c); auto|]. intros k x. apply (H (S k) x).
Qed.
Definition wordb (w : string) : bool := negb (w =? "") && no_space w.
Lemma wordb_iff w : wordb w = true <-> is_word w.
Proof. unfold wordb, is_word. rewrite andb_true_iff, negb_true_iff, String.eqb_neq, no_space_iff. tauto. Qed.

Lemma split_word w : no_space w = true -> split_words w = [w].
Proof.
  induction w as [|c w IH]; cbn [split_words no_space str_forall]; auto. unfold no_space in *. cbn [str_forall].
  rewrite andb_true_iff, negb_true_iff. intros [-> H]. rewrite IH; auto.
Qed.
Lemma split_app w r : no_space w = true -> split_words (w ++ String " " r) = w :: split_words r.
Proof.
  unfold no_space. induction w as [|c w IH]; cbn [split_words str_forall append]; auto.
  rewrite andb_true_iff, negb_true_iff. intros [-> H]. rewrite IH; auto.
Qed.
Lemma words_join ws : Forall is_word ws -> words (join ws) = ws.
Proof.
  unfold words. induction ws as [|w ws IH]; intros F; [reflexivity|]. inversion F as [|? ? Hw Hr]; subst. apply wordb_iff in Hw. unfold wordb in Hw.
  apply andb_true_iff in Hw as [N S]. destruct ws as [|v ws].
  - cbn [join]. rewrite split_word by auto. cbn [filter]. rewrite N. auto.
  - change (join (w :: v :: ws)) with (w ++ String " " (join (v :: ws)))%string. rewrite split_app by auto. cbn [filter]. rewrite N, IH; auto.
Qed.
Lemma words_blanks i s : words (blanks i ++ s)%string = words s.
Proof. induction i as [|i IH]; cbn [blanks append]; auto. Qed.
Lemma words_out i ws : Forall is_word ws -> words (out i ws) = ws.
Proof. intros F. unfold out. rewrite words_blanks. apply words_join; auto. Qed.
Lemma join_head w ws : is_word w -> exists c r, join (w :: ws) = String c r /\ is_space c = false.
Proof.
  intros [N H]. destruct w as [|c w]; [congruence|]. destruct ws as [|v ws].
  - exists c, w. split; auto. apply (H 0%nat c); auto.
  - exists c, (w ++ String " " (join (v :: ws)))%string. split; auto. apply (H 0%nat c); auto.
Qed.
Lemma indent_out i w ws : is_word w -> indent (out i (w :: ws)) = i.
Proof.
  intros W. destruct (join_head w ws W) as (c & r & E & B). unfold out. rewrite E. clear E. induction i as [|i IH]; cbn [blanks append indent].
  - rewrite B. auto.
  - replace (is_space " ") with true by reflexivity. f_equal. auto.
Qed.
Lemma join_app a b : a <> [] -> b <> [] -> join (a ++ b) = (join a ++ String " " (join b))%string.
Proof.
  intros A B. induction a as [|w a IH]; [congruence|]. destruct a as [|v a].
  - cbn [app]. destruct b; [congruence|]. reflexivity.
  - change (join ((w :: v :: a) ++ b)) with (w ++ String " " (join ((v :: a) ++ b)))%string. rewrite IH by congruence.
    change (join (w :: v :: a)) with (w ++ String " " (join (v :: a)))%string. rewrite <- str_app_assoc. reflexivity.
Qed.

(** ** Blocks *)
(** the node on top has indentation [i]; a stack is as good as another for lines of at most this indentation *)
Definition on (i : nat) (base st : nodes) : Prop := forall j, (j <= i)%nat -> settle j st = settle j base.
Definition sec (e : venv) (i : nat) (n : node) (R : nodes) (ls : list string) (c c' : conf) : Prop :=
  forall st r, on i ((Some i, n) :: R) st -> exists st', on i ((Some i, n) :: R) st' /\ read e (ls ++ r) st c = read e r st' c'.
Lemma sec_nil e i n R c : sec e i n R [] c c.
Proof. intros st r O. exists st. auto. Qed.
Lemma sec_app e i n R a b c c1 c2 : sec e i n R a c c1 -> sec e i n R b c1 c2 -> sec e i n R (a ++ b) c c2.
Proof.
  intros A B st r O. destruct (A st (b ++ r) O) as (s1 & O1 & E1). destruct (B s1 r O1) as (s2 & O2 & E2). exists s2. split; auto.
  rewrite <- app_assoc, E1, E2. auto.
Qed.
Lemma settle_top i n R : settle i ((Some i, n) :: R) = Some ((Some i, n) :: R).
Proof. cbn [settle]. rewrite Nat.eqb_refl. auto. Qed.
Definition push (ch : option node) : nodes := match ch with Some m => [(None, m)] | None => [] end.
Lemma read_line e i n R st w ws r c : on i ((Some i, n) :: R) st -> Forall is_word (w :: ws) -> is_comment w = false ->
  read e (out i (w :: ws) :: r) st c =
  match exec e true n (w :: ws) c with
  | XNo | XWarn _ => Val None
  | XOk c' ch => read e r (push ch ++ (Some i, n) :: R) c'
  | XUb => Bad
  end.
Proof.
  intros O F C. cbn [read]. rewrite words_out by auto. rewrite C. inversion F; subst. rewrite indent_out by auto. rewrite (O i) by lia. rewrite settle_top.
  reflexivity.
Qed.
Lemma on_push i n R ch : on i ((Some i, n) :: R) (push ch ++ (Some i, n) :: R).
Proof.
  intros j L. destruct ch as [m|]; [|reflexivity]. cbn [push app settle]. replace (i <? j)%nat with false by (symmetry; apply Nat.ltb_ge; lia). reflexivity.
Qed.
Lemma on_enter i n m R : on (S i) ((Some (S i), m) :: (Some i, n) :: R) ((None, m) :: (Some i, n) :: R).
Proof.
  intros j Lj. cbn [settle]. destruct (Nat.eqb_spec (S i) j) as [<-|N].
  - replace (i <? S i)%nat with true by (symmetry; apply Nat.ltb_lt; lia). auto.
  - replace (j <? S i)%nat with true by (symmetry; apply Nat.ltb_lt; lia). replace (i <? j)%nat with false by (symmetry; apply Nat.ltb_ge; lia). reflexivity.
Qed.
Lemma on_leave i n m R st : on (S i) ((Some (S i), m) :: (Some i, n) :: R) st -> on i ((Some i, n) :: R) st.
Proof.
  intros O j L. rewrite (O j) by lia. cbn [settle]. replace (S i =? j)%nat with false by (symmetry; apply Nat.eqb_neq; lia).
  replace (j <? S i)%nat with true by (symmetry; apply Nat.ltb_lt; lia). reflexivity.
Qed.
(** a command, and a command with the commands of the node that it enters *)
Lemma sec_line e i n R w ws c c' ch : Forall is_word (w :: ws) -> is_comment w = false -> exec e true n (w :: ws) c = XOk c' ch ->
  sec e i n R [out i (w :: ws)] c c'.
Proof.
  intros F C X st r O. exists (push ch ++ (Some i, n) :: R). split; [apply on_push|]. cbn [app]. rewrite (read_line e i n R st w ws r c O F C), X. auto.
Qed.
Lemma sec_block e i n m R w ws inner c c1 c2 : Forall is_word (w :: ws) -> is_comment w = false -> exec e true n (w :: ws) c = XOk c1 (Some m) ->
  sec e (S i) m ((Some i, n) :: R) inner c1 c2 -> sec e i n R (out i (w :: ws) :: inner) c c2.
Proof.
  intros F C X I st r O. cbn [app]. rewrite (read_line e i n R st w ws _ c O F C), X. cbn [push app].
  destruct (I _ r (on_enter i n m R)) as (st' & O' & E). exists st'. split; [apply (on_leave _ _ _ _ _ O')|auto].
Qed.
Lemma sec_opt e i n R (b : bool) l c c' : (b = true -> sec e i n R [l] c c') -> (b = false -> c' = c) -> sec e i n R (opt b l) c c'.
Proof. unfold opt. destruct b; intros H K; [auto|]. rewrite K by auto. apply sec_nil. Qed.
Lemma sec_read e ls c : sec e 0 NdConfig [] ls conf0 c -> read_file e ls = Val (Some c).
Proof.
  intros H. destruct (H [(Some 0%nat, NdConfig)] []) as (st & _ & E); [intros j _; reflexivity|]. rewrite app_nil_r in E. unfold read_file. rewrite E. reflexivity.
Qed.
