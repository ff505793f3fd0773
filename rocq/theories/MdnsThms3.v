(** Proofs about the answers that make the decoder of mDNS packets leave its buffers (C34). *)
From Verif Require Import Base PeerId Db DbSpec MsLookup MsSpec Mdns MdnsSpec MdnsSpec2 MsThms MdnsThms.
Local Open Scope N_scope.
Local Open Scope list_scope.

Lemma first0 l : ~ In 0 l \/ exists name r, l = name ++ 0 :: r /\ ~ In 0 name.
Proof.
  induction l as [|x l [IH|(n & r & -> & IH)]]; [left; intros []| |].
  - destruct (N.eq_dec x 0) as [->|E]; [right; exists [], l; auto|]. left. intros [H|H]; auto.
  - right. destruct (N.eq_dec x 0) as [->|E]; [exists [], (n ++ 0 :: r); auto|]. exists (x :: n), r. split; auto. intros [H|H]; auto.
Qed.
Lemma strnlen_off l : ~ In 0 l -> strnlen l None = Bad.
Proof.
  induction l as [|x l IH]; intros H; cbn; auto. destruct (N.eqb_spec x 0) as [->|]; [destruct H; left; auto|]. rewrite IH; auto. intros I; apply H; right; auto.
Qed.
Lemma strnlen_lim p q : ~ In 0 p -> strnlen (p ++ q) (Some (length p)) = Val (length p).
Proof.
  induction p as [|x p IH]; intros H; cbn; [destruct q; auto|]. destruct (N.eqb_spec x 0) as [->|]; [destruct H; left; auto|]. rewrite IH; auto. intros I; apply H; right; auto.
Qed.
Lemma spelled_len name d : spelled name d -> length name = S (length d).
Proof. induction 1; cbn; rewrite ?app_length; cbn; lia. Qed.
Lemma no0_app (a b : list N) : ~ In 0 (a ++ b) -> ~ In 0 a /\ ~ In 0 b.
Proof. intros H; split; intros I; apply H, in_app_iff; auto. Qed.
Lemma apn_spelled name d : spelled name d -> forall fuel cap tail out, ~ In 0 name -> (length name <= fuel)%nat -> (length out + length name <= cap)%nat ->
  apn_to_str fuel cap (name ++ tail) (length name) out = Val (Some (out ++ d)).
Proof.
  induction 1 as [x lab Lx Ne|x lab r t Lx Ne Sp IH]; intros fuel cap tail out N0 Lf Lc.
  - destruct fuel as [|fuel]; [cbn in Lf; lia|]. cbn [length app apn_to_str]. assert (X : x <> 0) by (intros ->; apply N0; left; auto). destruct (N.eqb_spec x 0); [contradiction|].
    assert (En : N.to_nat x = length lab) by lia. rewrite En. cbn [length] in Lc. destruct (Nat.ltb_spec (S (length lab)) (length lab + 1)); [lia|]. rewrite app_length. destruct (Nat.ltb_spec (length lab + length tail) (length lab)); [lia|].
    rewrite first_at by auto. rewrite app_length. destruct (Nat.ltb_spec cap (length out + length lab)); [lia|]. replace (S (length lab) - (length lab + 1))%nat with O by lia. cbn [Nat.eqb].
    destruct fuel; cbn [apn_to_str]; unfold put_nul; rewrite app_length; (destruct (Nat.ltb_spec (length out + length lab) cap); [reflexivity|lia]).
  - destruct fuel as [|fuel]; [cbn in Lf; lia|]. cbn [length app apn_to_str] in *. assert (X : x <> 0) by (intros ->; apply N0; left; auto). destruct (N.eqb_spec x 0); [contradiction|].
    assert (N1 : ~ In 0 (lab ++ r)) by (intros I; apply N0; right; auto). apply no0_app in N1 as [_ N1].
    assert (En : N.to_nat x = length lab) by lia. rewrite En. rewrite app_length in *. pose proof (spelled_len _ _ Sp) as LS.
    destruct (Nat.ltb_spec (S (length lab + length r)) (length lab + 1)); [lia|]. rewrite <- app_assoc, app_length. destruct (Nat.ltb_spec (length lab + length (r ++ tail)) (length lab)); [lia|].
    rewrite first_at by auto. rewrite app_length. destruct (Nat.ltb_spec cap (length out + length lab)); [lia|]. replace (S (length lab + length r) - (length lab + 1))%nat with (length r) by lia.
    destruct (Nat.eqb_spec (length r) 0); [lia|]. destruct (Nat.leb_spec cap (length out + length lab)); [lia|]. rewrite skip_at by auto. rewrite IH; auto; [|lia|rewrite !app_length; cbn; lia]. rewrite <- !app_assoc. reflexivity.
Qed.
Lemma apn_inv fuel : forall cap name tail out t, name <> [] -> ~ In 0 name -> apn_to_str fuel cap (name ++ tail) (length name) out = Val (Some t) -> exists d, t = out ++ d /\ spelled name d.
Proof.
  induction fuel as [|fuel IH]; intros cap name tail out t Ne N0 E; (destruct name as [|x name]; [congruence|]); [discriminate|]. cbn [length app apn_to_str] in E.
  destruct (N.eqb_spec x 0) as [->|X]; [destruct N0; left; auto|]. set (n := N.to_nat x) in *. destruct (Nat.ltb_spec (S (length name)) (n + 1)); [discriminate|].
  assert (N1 : ~ In 0 name) by (intros I; apply N0; right; auto). destruct (_ <? n)%nat; [discriminate|]. rewrite <- (firstn_skipn n name) in E, N1. set (lab := firstn n name) in *. set (r := skipn n name) in *.
  assert (Ll : length lab = n) by (unfold lab; rewrite firstn_length; lia). assert (Lr : length r = (length name - n)%nat) by (unfold r; rewrite skipn_length; lia).
  rewrite <- app_assoc, first_at, skip_at in E by auto. apply no0_app in N1 as [_ N1]. replace (S (length (lab ++ r)) - (n + 1))%nat with (length r) in E by (rewrite app_length; lia).
  assert (Hn : name = lab ++ r) by (unfold lab, r; rewrite firstn_skipn; auto). assert (Lx : N.of_nat (length lab) = x) by (unfold n in Ll; lia). assert (Nl : lab <> []) by (intros Z; rewrite Z in Ll; cbn in Ll; unfold n in Ll; lia).
  destruct (_ <? _)%nat; [discriminate|]. destruct (Nat.eqb_spec (length r) 0) as [Z|Z].
  - assert (r = []) as Zr by (destruct r; [auto|cbn in Z; lia]). rewrite Zr in E. cbn [length] in E. assert (E' : put_nul cap (out ++ lab) = Val (Some t)) by (destruct fuel; exact E). unfold put_nul in E'. destruct (_ <? _)%nat; [|discriminate]. injection E' as <-.
    exists lab. split; auto. rewrite Hn, Zr, app_nil_r. constructor; auto.
  - destruct (_ <=? _)%nat; [discriminate|]. apply IH in E as (d & -> & S); auto; [|intros Q; rewrite Q in Z; cbn in Z; lia]. exists (lab ++ 46 :: d). split; [rewrite <- !app_assoc; reflexivity|]. rewrite Hn. constructor; auto.
Qed.

Lemma rd8_off l i : (length l <= i)%nat -> rd8 l i = Bad.
Proof. intros L. unfold rd8. destruct (nth_error l i) eqn:E; auto. apply nth_error_Some_length in E || (assert (X : nth_error l i <> None) by congruence; apply nth_error_Some in X; lia). Qed.
Lemma rd16_off l i : (length l <= S i)%nat -> rd16 l i = Bad.
Proof. intros L. unfold rd16. destruct (rd8 l i); auto. cbn. rewrite rd8_off; auto. Qed.
(** the end of the reading of a record, once the name is read *)
Definition tail_decode (l : list N) (k : nat) (d : list N) : mres (option (list N * mrec * nat)) :=
  let name_len := S k in
  mdo t <- rd16 l name_len;;
  mdo _ <- rd16 l (name_len + 2);;
  mdo _ <- rd16 l (name_len + 4);; mdo _ <- rd16 l (name_len + 6);;
  mdo n <- rd16 l (name_len + 8);;
  let rec_len := (name_len + 10 + N.to_nat n)%nat in
  if (length l <? rec_len)%nat then Val None
  else Val (Some (cut0 d, mk_mrec t (firstn (N.to_nat n) (skipn (name_len + 10) l)), rec_len)).
Lemma tail_short l k d : (length l <= k + 10)%nat -> tail_decode l k d = Bad.
Proof.
  intros L. unfold tail_decode. destruct (rd16 l (S k)); auto. destruct (rd16 l (S k + 2)); auto. destruct (rd16 l (S k + 4)); auto. destruct (rd16 l (S k + 6)); auto. cbn [mbind]. rewrite rd16_off by lia. reflexivity.
Qed.
Lemma record_unfold l k : strnlen l (if (length l <? 10)%nat then None else Some (length l - 10)%nat) = Val k ->
  record_decode l = mdo z <- rd8 l (S k);; if negb (z =? 0) then Val None else mdo r <- apn_to_str k k l k [];; match r with None => Val None | Some d => tail_decode l k d end.
Proof. intros E. unfold record_decode. rewrite E. reflexivity. Qed.
(** a name of [k] octets was found, and the octet after the next *)
Lemma named l name x z r : l = name ++ x :: z :: r -> name <> [] -> ~ In 0 name -> strnlen l (if (length l <? 10)%nat then None else Some (length l - 10)%nat) = Val (length name) ->
  (z <> 0 /\ record_decode l = Val None) \/ (z = 0 /\ (forall d, ~ spelled name d) /\ record_decode l = Val None) \/ (exists d, z = 0 /\ spelled name d /\ record_decode l = tail_decode l (length name) d).
Proof.
  intros -> Ne N0 E. rewrite (record_unfold _ _ E). assert (R : rd8 (name ++ x :: z :: r) (S (length name)) = Val z).
  { change (name ++ x :: z :: r) with (name ++ [x] ++ z :: r). rewrite app_assoc. replace (S (length name)) with (length (name ++ [x]) + 0)%nat by (rewrite app_length; cbn; lia). rewrite rd8_shift by auto. reflexivity. }
  rewrite R. cbn [mbind]. destruct (N.eqb_spec z 0) as [->|Z]; cbn [negb]; [|left; auto]. right.
  assert (L0 : (length name <> 0)%nat) by (destruct name; [congruence|cbn; lia]).
  pose proof (apn_safe (length name) (length name) (name ++ x :: 0 :: r) (length name) [] ltac:(lia) ltac:(rewrite app_length; lia) ltac:(cbn; lia) ltac:(lia)) as A.
  destruct (apn_to_str (length name) (length name) (name ++ x :: 0 :: r) (length name) []) as [[d|]|] eqn:Ap; [| |congruence].
  - right. apply apn_inv in Ap as (d' & Ed & S); auto. cbn in Ed. subst d'. exists d. auto.
  - left. split; auto. split; auto. intros d S. rewrite (apn_spelled _ _ S) in Ap by (auto; cbn; lia). discriminate.
Qed.
Lemma empty_bad m x : strnlen (x :: 0 :: m) (if (length (x :: 0%N :: m) <? 10)%nat then None else Some (length (x :: 0%N :: m) - 10)%nat) = Val 0%nat -> record_decode (x :: 0 :: m) = Bad.
Proof. intros E. rewrite (record_unfold _ _ E). reflexivity. Qed.
Lemma empty_first m : strnlen (0 :: m) (if (length (0%N :: m) <? 10)%nat then None else Some (length (0%N :: m) - 10)%nat) = Val 0%nat.
Proof. destruct (_ <? _)%nat; [reflexivity|]. destruct (length (0%N :: m) - 10)%nat; reflexivity. Qed.
Lemma spelled_ne name d : spelled name d -> name <> [].
Proof. destruct 1; discriminate. Qed.

Lemma fatal_bad l : fatal l -> record_decode l = Bad.
Proof.
  destruct 1 as [m|l Ne L N0|name L N0|name d m S N0 L|name x y S N0 L].
  - apply empty_bad, empty_first.
  - unfold record_decode. destruct (Nat.ltb_spec (length l) 10); [|lia]. rewrite strnlen_off; auto.
  - assert (E : strnlen (name ++ [0]) (if (length (name ++ [0%N]) <? 10)%nat then None else Some (length (name ++ [0%N]) - 10)%nat) = Val (length name)).
    { rewrite app_length. cbn [length]. destruct (Nat.ltb_spec (length name + 1) 10); [|lia]. apply strnlen_at; auto. }
    rewrite (record_unfold _ _ E). rewrite rd8_off; auto. rewrite app_length. cbn. lia.
  - assert (Ll : length (name ++ 0 :: 0 :: m) = (length name + 2 + length m)%nat) by (rewrite app_length; cbn; lia).
    assert (E : strnlen (name ++ 0 :: 0 :: m) (if (length (name ++ 0%N :: 0%N :: m) <? 10)%nat then None else Some (length (name ++ 0%N :: 0%N :: m) - 10)%nat) = Val (length name)).
    { rewrite Ll. destruct (Nat.ltb_spec (length name + 2 + length m) 10); [|lia]. apply strnlen_at; auto. }
    destruct (named _ name 0 0 m eq_refl (spelled_ne _ _ S) N0 E) as [[H _]|[(_ & H & _)|(d' & _ & _ & H)]]; [congruence|destruct (H _ S)|]. rewrite H. apply tail_short. lia.
  - assert (Ll : length (name ++ x :: 0 :: y) = (length name + 10)%nat) by (rewrite app_length; cbn; lia).
    assert (E : strnlen (name ++ x :: 0 :: y) (if (length (name ++ x :: 0%N :: y) <? 10)%nat then None else Some (length (name ++ x :: 0%N :: y) - 10)%nat) = Val (length name)).
    { rewrite Ll. destruct (Nat.ltb_spec (length name + 10) 10); [lia|]. replace (length name + 10 - 10)%nat with (length name) by lia. apply strnlen_lim; auto. }
    destruct S as [->|[d S]]; [apply empty_bad; exact E|].
    destruct (named _ name x 0 y eq_refl (spelled_ne _ _ S) N0 E) as [[H _]|[(_ & H & _)|(d' & _ & _ & H)]]; [congruence|destruct (H _ S)|]. rewrite H. apply tail_short. lia.
Qed.
Lemma spelled_no0 name d : spelled name d -> ~ In 0 name -> ~ In 0 d.
Proof.
  induction 1 as [x lab L Ne|x lab r t L Ne S IH]; intros N0; [intros I; apply N0; right; auto|]. assert (N1 : ~ In 0 (lab ++ r)) by (intros I; apply N0; right; auto). apply no0_app in N1 as [N1 N2].
  rewrite in_app_iff. cbn. intros [I|[I|I]]; [auto|discriminate|]. exact (IH N2 I).
Qed.
(** reading the fixed part of a record that has it *)
Lemma tail_full name d x t1 t2 c1 c2 l1 l2 l3 l4 n1 n2 r : spelled name d -> ~ In 0 name ->
  let l := name ++ x :: t1 :: t2 :: c1 :: c2 :: l1 :: l2 :: l3 :: l4 :: n1 :: n2 :: r in let n := N.to_nat (256 * n1 + n2) in
  tail_decode l (length name) d = if (length r <? n)%nat then Val None else Val (Some (d, mk_mrec (256 * t1 + t2) (firstn n r), (length name + 11 + n)%nat)).
Proof.
  intros S N0 l n. assert (Ll : length l = (length name + 11 + length r)%nat) by (unfold l; rewrite app_length; cbn; lia).
  set (fx := t1 :: t2 :: c1 :: c2 :: l1 :: l2 :: l3 :: l4 :: n1 :: n2 :: r) in *. assert (Sp : l = (name ++ [x]) ++ fx) by (unfold l; rewrite <- app_assoc; reflexivity).
  assert (L1 : (length (name ++ [x]) = Datatypes.S (length name))%nat) by (rewrite app_length; cbn; lia).
  assert (R16 : forall j, rd16 l (Datatypes.S (length name) + j) = rd16 fx j) by (intros j; rewrite Sp; apply rd16_shift; auto).
  assert (R0 : rd16 l (Datatypes.S (length name)) = rd16 fx 0) by (rewrite <- R16, Nat.add_0_r; auto). unfold tail_decode. rewrite R0, !R16. clear R0. unfold fx, rd16, rd8. cbn [nth_error mbind]. fold n.
  rewrite Ll. replace (Datatypes.S (length name) + 10 + n)%nat with (length name + 11 + n)%nat by lia. destruct (Nat.ltb_spec (length name + 11 + length r) (length name + 11 + n)), (Nat.ltb_spec (length r) n); try lia; auto.
  rewrite cut0_id by (eapply spelled_no0; eauto). do 4 f_equal. f_equal. rewrite Sp. change fx with ((t1 :: t2 :: c1 :: c2 :: l1 :: l2 :: l3 :: l4 :: n1 :: [n2]) ++ r). rewrite app_assoc. f_equal. apply skip_at. rewrite app_length, L1. cbn [length]. lia.
Qed.
Lemma one_good l d x rest : one_record l d x rest -> exists n, record_decode l = Val (Some (d, x, n)) /\ skipn n l = rest /\ l <> [] /\ (length rest < length l)%nat.
Proof.
  destruct 1 as [name d t c1 c2 l1 l2 l3 l4 n1 n2 body rest S N0 Lb]. set (l := name ++ _).
  assert (Ll : length l = (length name + 11 + length body + length rest)%nat) by (unfold l; rewrite app_length; cbn; rewrite app_length; lia).
  assert (E : strnlen l (if (length l <? 10)%nat then None else Some (length l - 10)%nat) = Val (length name)).
  { destruct (Nat.ltb_spec (length l) 10); [lia|]. unfold l at 1. apply strnlen_at; auto. lia. }
  destruct (named l name 0 0 _ eq_refl (spelled_ne _ _ S) N0 E) as [[H _]|[(_ & H & _)|(d' & _ & S' & H)]]; [congruence|destruct (H _ S)|]. pose proof (tail_full name d' 0 0 t c1 c2 l1 l2 l3 l4 n1 n2 (body ++ rest) S' N0) as T. cbv zeta in T. fold l in T.
  assert (En : N.to_nat (256 * n1 + n2) = length body) by lia. rewrite En, app_length in T. destruct (Nat.ltb_spec (length body + length rest) (length body)); [lia|]. rewrite first_at in T by auto. rewrite T in H.
  assert (d' = d) as ->. { pose proof (apn_spelled _ _ S (length name) (length name) [] [] N0 (le_n _) (le_n _)) as A1. pose proof (apn_spelled _ _ S' (length name) (length name) [] [] N0 (le_n _) (le_n _)) as A2. rewrite A1 in A2. injection A2. auto. }
  eexists. split; [exact H|]. split; [|split; [unfold l; destruct name; discriminate|lia]].
  unfold l. change (name ++ 0 :: 0 :: t :: c1 :: c2 :: l1 :: l2 :: l3 :: l4 :: n1 :: n2 :: body ++ rest) with (name ++ (0 :: 0 :: t :: c1 :: c2 :: l1 :: l2 :: l3 :: l4 :: n1 :: [n2]) ++ body ++ rest).
  rewrite !app_assoc. apply skip_at. rewrite !app_length. cbn [length]. lia.
Qed.
(** what the reading of a record gives *)
Lemma record_cases l : l <> [] ->
  (record_decode l = Bad /\ fatal l) \/ record_decode l = Val None \/ exists d x n rest, record_decode l = Val (Some (d, x, n)) /\ one_record l d x rest.
Proof.
  intros Ne. destruct (Nat.ltb_spec (length l) 10) as [L|L].
  - destruct (first0 l) as [N0|(name & r & -> & N0)].
    { left. assert (F : fatal l) by (apply fa_off; auto). split; auto. apply fatal_bad; auto. }
    destruct r as [|z r]. { left. assert (F : fatal (name ++ [0])) by (apply fa_end; auto; rewrite app_length in L; cbn in L; lia). split; auto. apply fatal_bad; auto. }
    destruct name as [|y name].
    { cbn [app] in *. destruct (N.eq_dec z 0) as [->|Z]; [left; split; [apply fatal_bad|]; constructor|]. right; left. rewrite (record_unfold _ _ (empty_first (z :: r))). unfold rd8. cbn [nth_error mbind]. rewrite (proj2 (N.eqb_neq _ _) Z). reflexivity. }
    assert (E : strnlen ((y :: name) ++ 0 :: z :: r) (if (length ((y :: name) ++ 0%N :: z :: r) <? 10)%nat then None else Some (length ((y :: name) ++ 0%N :: z :: r) - 10)%nat) = Val (length (y :: name))).
    { destruct (Nat.ltb_spec (length ((y :: name) ++ 0 :: z :: r)) 10); [|lia]. apply strnlen_at; auto. }
    destruct (named _ (y :: name) 0 z r eq_refl ltac:(discriminate) N0 E) as [[_ H]|[(_ & _ & H)|(d & -> & S & H)]]; auto. left. split; [rewrite H; apply tail_short; lia|]. eapply fa_tail; eauto. rewrite app_length in L. cbn in *. lia.
  - assert (Sp : l = firstn (length l - 10) l ++ skipn (length l - 10) l) by (rewrite firstn_skipn; auto). set (p := firstn (length l - 10) l) in *. set (q := skipn (length l - 10) l) in *.
    assert (Lp : length p = (length l - 10)%nat) by (unfold p; rewrite firstn_length; lia). assert (Lq : length q = 10%nat) by (unfold q; rewrite skipn_length; lia). clearbody p q.
    destruct (first0 p) as [N0|(name & p' & Ep & N0)].
    + assert (E : strnlen l (if (length l <? 10)%nat then None else Some (length l - 10)%nat) = Val (length p)).
      { destruct (Nat.ltb_spec (length l) 10); [lia|]. rewrite <- Lp, Sp. apply strnlen_lim; auto. }
      destruct q as [|x [|z q]]; try discriminate. destruct p as [|y p].
      * cbn [app] in Sp. subst l. destruct (N.eq_dec z 0) as [->|Z]; [left; split; [apply empty_bad; exact E|apply (fa_open []); auto; cbn in Lq; lia]|]. right; left. rewrite (record_unfold _ _ E). unfold rd8. cbn [length nth_error mbind]. rewrite (proj2 (N.eqb_neq _ _) Z). reflexivity.
      * destruct (named l (y :: p) x z q Sp ltac:(discriminate) N0 E) as [[_ H]|[(_ & _ & H)|(d & -> & S & H)]]; auto. left. split; [rewrite H; apply tail_short; lia|]. rewrite Sp. apply fa_open; eauto; cbn in Lq; lia.
    + assert (E : strnlen l (if (length l <? 10)%nat then None else Some (length l - 10)%nat) = Val (length name)).
      { destruct (Nat.ltb_spec (length l) 10); [lia|]. rewrite <- Lp, Sp, Ep, <- app_assoc. cbn [app]. apply strnlen_at; auto. rewrite app_length. cbn. lia. }
      assert (Sp' : l = name ++ 0 :: p' ++ q) by (rewrite Sp, Ep, <- app_assoc; reflexivity).
      assert (Lr : (10 <= length (p' ++ q))%nat) by (rewrite app_length; lia). set (r := p' ++ q) in *. clearbody r. clear Sp Ep Lp Lq p q p'.
      destruct r as [|z r]; [cbn in Lr; lia|]. destruct name as [|y name].
      { cbn [app] in *. subst l. destruct (N.eq_dec z 0) as [->|Z]; [left; split; [apply fatal_bad|]; constructor|]. right; left. rewrite (record_unfold _ _ E). unfold rd8. cbn [length nth_error mbind]. rewrite (proj2 (N.eqb_neq _ _) Z). reflexivity. }
      destruct (named l (y :: name) 0 z r Sp' ltac:(discriminate) N0 E) as [[_ H]|[(_ & _ & H)|(d & -> & S & H)]]; auto. right.
      destruct r as [|t [|c1 [|c2 [|l1 [|l2 [|l3 [|l4 [|n1 [|n2 r]]]]]]]]]; try (cbn in Lr; lia).
      pose proof (tail_full (y :: name) d 0 0 t c1 c2 l1 l2 l3 l4 n1 n2 r S N0) as T. cbv zeta in T. rewrite <- Sp' in T. rewrite T in H. destruct (Nat.ltb_spec (length r) (N.to_nat (256 * n1 + n2))) as [|Lb]; [auto|]. right.
      eexists. eexists. eexists. eexists. split; [exact H|]. rewrite Sp'. rewrite <- (firstn_skipn (N.to_nat (256 * n1 + n2)) r) at 1. apply on_rec; auto. rewrite firstn_length. lia.
Qed.
Lemma bad_fatal l : l <> [] -> record_decode l = Bad <-> fatal l.
Proof.
  intros Ne. split; [|apply fatal_bad]. intros B. destruct (record_cases l Ne) as [[_ H]|[H|(d & x & n & rest & H & _)]]; [auto| |]; rewrite B in H; discriminate.
Qed.
Lemma some_one l d x n : l <> [] -> record_decode l = Val (Some (d, x, n)) -> exists rest, one_record l d x rest /\ skipn n l = rest.
Proof.
  intros Ne B. destruct (record_cases l Ne) as [[H _]|[H|(d' & x' & n' & rest & H & R)]]; try (rewrite B in H; discriminate). rewrite B in H. injection H as <- <- <-.
  destruct (one_good _ _ _ _ R) as (n' & H & Sk & _). rewrite B in H. injection H as <-. eauto.
Qed.

(** ** All records *)
Lemma fatal_ne l : fatal l -> l <> [].
Proof. destruct 1; auto; try discriminate; destruct name; discriminate. Qed.
Lemma one_inv l d x rest d' x' n : l <> [] -> one_record l d x rest -> record_decode l = Val (Some (d', x', n)) -> d' = d /\ x' = x /\ skipn n l = rest.
Proof. intros Ne R E. destruct (one_good _ _ _ _ R) as (m & H & Sk & _). rewrite E in H. injection H as -> -> ->. auto. Qed.
Definition may_be (dom : option (list N)) (d : list N) : Prop := dom = None \/ dom = Some d.
Lemma records_step fuel l dom acc : l <> [] -> records_decode (S fuel) l dom acc = mdo x <- record_decode l;;
  match x with None => Val None | Some (d, rc, n) => if match dom with Some d0 => negb (octets_eqb d0 d) | None => false end then Val None else records_decode fuel (skipn n l) (Some (match dom with Some d0 => d0 | None => d end)) (acc ++ [rc]) end.
Proof. destruct l; [congruence|reflexivity]. Qed.
Lemma dom_ok dom d : match dom with Some d0 => negb (octets_eqb d0 d) | None => false end = false <-> may_be dom d.
Proof.
  unfold may_be. destruct dom as [d0|]; [|split; auto]. rewrite negb_false_iff. split; [intros E; apply octets_eqb_eq in E; subst; auto|]. intros [H|H]; [discriminate|]. injection H as ->. apply octets_eqb_refl.
Qed.
Lemma records_bad fuel : forall l dom acc, (length l <= fuel)%nat ->
  records_decode fuel l dom acc = Bad <-> exists d xs rest, may_be dom d /\ many_records d l xs rest /\ fatal rest.
Proof.
  induction fuel as [|fuel IH]; intros l dom acc L.
  - destruct l; [|cbn in L; lia]. cbn. split; [discriminate|]. intros (d & xs & rest & _ & M & F). apply fatal_ne in F. destruct xs; [inversion M; subst; congruence|inversion M; subst; match goal with H : one_record [] _ _ _ |- _ => destruct (one_good _ _ _ _ H) as (n & _ & _ & Z & _) end; congruence].
  - destruct l as [|a l'] eqn:El.
    { cbn. split; [discriminate|]. intros (d & xs & rest & _ & M & F). apply fatal_ne in F. destruct xs; [inversion M; subst; congruence|inversion M; subst; match goal with H : one_record [] _ _ _ |- _ => destruct (one_good _ _ _ _ H) as (n & _ & _ & Z & _) end; congruence]. }
    rewrite <- El in *. assert (Ne : l <> []) by (rewrite El; discriminate). clear El. rewrite records_step by auto. split.
    + intros B. destruct (record_decode l) as [[[[d x] n]|]|] eqn:E; cbn [mbind] in B; [|discriminate|].
      * destruct (match dom with Some d0 => _ | None => false end) eqn:D; [discriminate|]. apply dom_ok in D. destruct (some_one l d x n Ne E) as (rest & R & Sk). rewrite Sk in B. destruct (one_good _ _ _ _ R) as (_ & _ & _ & _ & Lr).
        apply IH in B as (d' & xs & rest' & D' & M & F); [|lia]. assert (d' = d) as ->. { destruct D' as [D'|D']; [discriminate|]. injection D' as <-. destruct D as [->| ->]; auto. }
        exists d, (x :: xs), rest'. split; auto. split; auto. econstructor; eauto.
      * apply bad_fatal in E; auto. exists (match dom with Some d => d | None => [] end), [], l. split; [destruct dom; [right|left]; auto|]. split; [constructor|auto].
    + intros (d & xs & rest & D & M & F). destruct M as [l|l x m xs rest R M].
      * rewrite (fatal_bad _ F). reflexivity.
      * destruct (one_good _ _ _ _ R) as (n & H & Sk & _ & Lr). rewrite H. cbn [mbind]. rewrite (proj2 (dom_ok dom d) D), Sk. apply IH; [lia|]. exists d, xs, rest. split; auto. right. destruct D as [->| ->]; auto.
Qed.
Lemma records_some fuel : forall l dom acc od rs, (length l <= fuel)%nat -> l <> [] ->
  records_decode fuel l dom acc = Val (Some (od, rs)) <-> exists d xs, may_be dom d /\ many_records d l xs [] /\ od = Some d /\ rs = acc ++ xs.
Proof.
  induction fuel as [|fuel IH]; intros l dom acc od rs L Ne; [destruct l; [congruence|cbn in L; lia]|]. rewrite records_step by auto. split.
  - intros B. destruct (record_decode l) as [[[[d x] n]|]|] eqn:E; cbn [mbind] in B; try discriminate.
    destruct (match dom with Some d0 => _ | None => false end) eqn:D; [discriminate|]. apply dom_ok in D. destruct (some_one l d x n Ne E) as (rest & R & Sk). rewrite Sk in B. destruct (one_good _ _ _ _ R) as (_ & _ & _ & _ & Lr).
    assert (Dd : match dom with Some d0 => d0 | None => d end = d) by (destruct D as [->| ->]; auto). rewrite Dd in B. destruct rest as [|b rest].
    + assert (B' : Val (Some (Some d, acc ++ [x])) = Val (Some (od, rs))) by (destruct fuel; exact B). injection B' as <- <-. exists d, [x]. split; auto. split; [econstructor; [exact R|constructor]|auto].
    + apply IH in B as (d' & xs & D' & M & -> & ->); [|lia|discriminate]. assert (d' = d) as -> by (destruct D' as [D'|D']; [discriminate|congruence]). exists d, (x :: xs). split; auto. split; [econstructor; eauto|]. split; auto. rewrite <- app_assoc. reflexivity.
  - intros (d & xs & D & M & -> & ->). inversion M as [l0|l0 x m xs' rest R M']; subst; [congruence|]. destruct (one_good _ _ _ _ R) as (n & H & Sk & _ & Lr). rewrite H. cbn [mbind]. rewrite (proj2 (dom_ok dom d) D), Sk.
    assert (Dd : match dom with Some d0 => d0 | None => d end = d) by (destruct D as [->| ->]; auto). rewrite Dd. destruct m as [|b m].
    + inversion M' as [l1|l1 y m' xs'' rest' R' M'']; subst; [destruct fuel; reflexivity|]. destruct (one_good _ _ _ _ R') as (k & _ & _ & Z & _). congruence.
    + rewrite (proj2 (IH (b :: m) (Some d) (acc ++ [x]) (Some d) ((acc ++ [x]) ++ xs') ltac:(lia) ltac:(discriminate))); [rewrite <- app_assoc; reflexivity|]. exists d, xs'. split; [right; auto|]. auto.
Qed.
Lemma rs_bad s x : rs_step s x = Bad <-> r_type x = RT_TXT /\ r_rdata x = [].
Proof.
  split.
  - intros B. destruct (N.eq_dec (r_type x) 16) as [T|T]; [|exfalso; apply (rs_safe s x); auto; intros Q; contradiction]. split; auto. destruct (r_rdata x) eqn:R; auto. exfalso. apply (rs_safe s x); auto. intros _. congruence.
  - intros [T R]. unfold rs_step. rewrite T. cbn [N.eqb Pos.eqb RT_A RT_AAAA RT_TXT]. unfold txt_decode. rewrite R. reflexivity.
Qed.
Lemma run_bad l : forall s, rs_run s l = Bad <-> exists pre x post s', l = pre ++ x :: post /\ rs_run s pre = Val (Some s') /\ r_type x = RT_TXT /\ r_rdata x = [].
Proof.
  induction l as [|y l IH]; intros s; cbn [rs_run].
  - split; [discriminate|]. intros (pre & x & post & s' & E & _). destruct pre; discriminate.
  - split.
    + intros B. destruct (rs_step s y) as [[s1|]|] eqn:E; cbn [mbind] in B; [|discriminate|].
      * apply IH in B as (pre & x & post & s' & -> & R & T). exists (y :: pre), x, post, s'. split; auto. split; auto. cbn [rs_run]. rewrite E. exact R.
      * apply rs_bad in E. exists [], y, l, s. auto.
    + intros (pre & x & post & s' & E & R & T). destruct pre as [|z pre]; cbn [app] in E; injection E as -> ->.
      * rewrite (proj2 (rs_bad s x) T). reflexivity.
      * cbn [rs_run] in R. destruct (rs_step s z) as [[s1|]|]; cbn [mbind] in *; try discriminate. apply IH. exists pre, x, post, s'. auto.
Qed.
Lemma answer_is packet : (exists c l, answer_of packet c l) \/ (forall suffix, mdns_result_decode packet suffix = Val None /\ forall c l, ~ answer_of packet c l).
Proof.
  destruct packet as [|i1 [|i2 [|f [|g [|q1 [|q2 [|a1 [|a2 [|z1 [|z2 [|z3 [|z4 l]]]]]]]]]]]]; try (right; intros suffix; split; [reflexivity|]; intros c l (j1 & j2 & f' & g' & r1 & r2 & b1 & b2 & y1 & y2 & y3 & y4 & E & _); discriminate).
  destruct (N.leb_spec 128 f) as [L|L]; [left; exists (256 * a1 + a2), l, i1, i2, f, g, q1, q2, a1, a2, z1, z2, z3, z4; auto|]. right. intros suffix. split.
  - unfold mdns_result_decode, answer_decode, header_decode, rd16, rd8. cbn [length Nat.ltb Nat.leb nth_error mbind]. rewrite (proj2 (N.leb_gt _ _) L). reflexivity.
  - intros c l' (j1 & j2 & f' & g' & r1 & r2 & b1 & b2 & y1 & y2 & y3 & y4 & E & L' & _). injection E as -> -> <-. lia.
Qed.
Lemma answer_uniq p c l c' l' : answer_of p c l -> answer_of p c' l' -> c = c' /\ l = l'.
Proof.
  intros (i1 & i2 & f & g & q1 & q2 & a1 & a2 & z1 & z2 & z3 & z4 & -> & _ & ->) (j1 & j2 & f' & g' & r1 & r2 & b1 & b2 & y1 & y2 & y3 & y4 & E & _ & ->). injection E. intros. subst. auto.
Qed.
Theorem exact_bad packet suffix : mdns_result_decode packet suffix = Bad <-> exists count l, answer_of packet count l /\
  ((l = [] /\ count = 0) \/
   (exists d xs rest, many_records d l xs rest /\ fatal rest) \/
   (exists d pre x post q s, many_records d l (pre ++ x :: post) [] /\ count = N.of_nat (length (pre ++ x :: post)) /\ query_from_domain (text_of d) suffix = inl q /\
      rs_run (mk_rs None None None None) pre = Val (Some s) /\ r_type x = RT_TXT /\ r_rdata x = [])).
Proof.
  destruct (answer_is packet) as [(c & l & A)|N]; [|destruct (N suffix) as [-> N']; split; [discriminate|]; intros (c & l & A & _); destruct (N' c l A)].
  assert (E : mdns_result_decode packet suffix = mdo a <- (mdo r <- records_decode (length packet) l None [];; match r with None => Val None | Some (d, rs) => if negb (N.of_nat (length rs) =? c) then Val None else Val (Some (d, rs)) end);;
     match a with None => Val None | Some (None, _) => Bad
     | Some (Some d, rs) => match query_from_domain (text_of d) suffix with inr _ => Val None | inl q => mdo r <- result_from_answer rs;; match r with None => Val None | Some x => Val (Some (256 * hd 0 packet + hd 0 (tl packet), q, x)) end end end).
  { destruct A as (i1 & i2 & f & g & q1 & q2 & a1 & a2 & z1 & z2 & z3 & z4 & -> & L & ->). unfold mdns_result_decode, answer_decode. cbn [length Nat.ltb Nat.leb skipn]. unfold header_decode, rd16, rd8. cbn [nth_error mbind hd tl]. rewrite (proj2 (N.leb_le _ _) L). cbn [negb].
    destruct (records_decode _ l None []) as [[[[d|] rs]|]|]; cbn [mbind]; auto; destruct (negb _); reflexivity. }
  assert (Lp : (length l <= length packet)%nat) by (destruct A as (i1 & i2 & f & g & q1 & q2 & a1 & a2 & z1 & z2 & z3 & z4 & -> & _); cbn; lia).
  rewrite E. clear E. split.
  - intros B. exists c, l. split; [exact A|]. destruct (records_decode (length packet) l None []) as [[[od rs]|]|] eqn:R; cbn [mbind] in B; [|discriminate|].
    + destruct (N.eqb_spec (N.of_nat (length rs)) c) as [C|C]; cbn [negb mbind] in B; [|discriminate]. destruct l as [|b l].
      * assert (R' : Val (Some (@None (list N), @nil mrec)) = Val (Some (od, rs))) by (destruct packet; exact R). injection R' as <- <-. left. cbn in C. auto.
      * apply records_some in R as (d & xs & _ & M & -> & ->); [|lia|discriminate]. cbn [app] in *. right; right. destruct (query_from_domain (text_of d) suffix) as [q|] eqn:Q; [|discriminate].
        unfold result_from_answer in B. destruct (rs_run (mk_rs None None None None) xs) as [[s|]|] eqn:Rr; cbn [mbind] in B; [destruct (s_age s), (s_want s), (s_v4 s), (s_v6 s); discriminate|discriminate|].
        apply run_bad in Rr as (pre & x & post & s & -> & R1 & T1 & T2). exists d, pre, x, post, q, s. auto 10.
    + apply records_bad in R as (d & xs & rest & _ & M & F); [|lia]. right; left. eauto.
  - intros (c' & l' & A' & H). destruct (answer_uniq _ _ _ _ _ A A') as [<- <-]. destruct H as [[-> ->]|[(d & xs & rest & M & F)|(d & pre & x & post & q & s & M & C & Q & R & T1 & T2)]].
    + assert (X : records_decode (length packet) [] None [] = Val (Some (None, []))) by (destruct (length packet); reflexivity). rewrite X. reflexivity.
    + rewrite (proj2 (records_bad _ l None [] Lp)); [reflexivity|]. exists d, xs, rest. split; [left; auto|auto].
    + assert (Ne : l <> []). { inversion M as [l0 E1|l0 y m xs rest R0 M0 E1 E2 E3]; [destruct pre; discriminate|]. destruct (one_good _ _ _ _ R0) as (n & _ & _ & Z & _). exact Z. }
      rewrite (proj2 (records_some _ l None [] (Some d) (pre ++ x :: post) Lp Ne)) by (exists d, (pre ++ x :: post); split; [left; auto|auto]). cbn [mbind]. rewrite C, N.eqb_refl. cbn [negb mbind]. rewrite Q. unfold result_from_answer.
      rewrite (proj2 (run_bad _ _)); [reflexivity|]. exists pre, x, post, s. auto.
Qed.
