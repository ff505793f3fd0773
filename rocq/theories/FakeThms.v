(** Proofs about the fake lookup method. *)
From Verif Require Import Base MsLookup Mdns MsClient FakeMethod FakeSpec.
From Coq Require Import Sorted.
Local Open Scope Z_scope.

(** * Conditions *)
Lemma query_eqb_same a b : query_eqb a b = true <-> same_query a b.
Proof.
  unfold query_eqb, same_query. rewrite !andb_true_iff, String.eqb_eq.
  assert (T : id_type_eqb (lq_type a) (lq_type b) = true <-> lq_type a = lq_type b).
  { destruct (lq_type a), (lq_type b); cbn; split; congruence. }
  rewrite T. destruct (lq_type a); rewrite ?String.eqb_eq; intuition congruence.
Qed.

Lemma due_iff now at_ w : normal now -> normal at_ -> normal w ->
  (timer_lt (timersub now at_) w = false <-> micro w <= micro now - micro at_).
Proof.
  unfold normal, timer_lt, timersub, micro. destruct now as [s1 u1], at_ as [s2 u2], w as [s3 u3]. cbn [tv_sec tv_usec].
  intros N1 N2 N3.
  destruct (Z.ltb_spec (u1 - u2) 0); cbn [tv_sec tv_usec].
  - destruct (Z.eqb_spec (s1 - s2 - 1) s3); rewrite Z.ltb_ge; lia.
  - destruct (Z.eqb_spec (s1 - s2) s3); rewrite Z.ltb_ge; lia.
Qed.

Definition resps_normal (l : list fresp) : Prop := Forall (fun p => normal (p_wait p)) l.

Lemma replies_iff now r p : normal now -> normal (r_at r) -> normal (p_wait p) ->
  (replies now r p = true <-> p_sent p = false /\ same_query (r_query r) (p_for p) /\ due p (r_at r) now).
Proof.
  intros A B C. unfold replies, due. rewrite !andb_true_iff, !negb_true_iff, query_eqb_same, due_iff by auto. tauto.
Qed.

Lemma find_resp_some now r l i : find_resp now r l = Some i ->
  (exists p, nth_error l i = Some p /\ replies now r p = true) /\
  forall j p, (j < i)%nat -> nth_error l j = Some p -> replies now r p = false.
Proof.
  revert i. induction l as [|p l IH]; cbn; intros i H; [discriminate|].
  destruct (replies now r p) eqn:E.
  - injection H as <-. split; [exists p; auto|]. intros j q Hj. lia.
  - destruct (find_resp now r l) as [k|]; [|discriminate]. injection H as <-. destruct (IH k eq_refl) as [A B]. split; [exact A|].
    intros [|j] q Hj Hq; cbn in Hq; [congruence|]. apply (B j q); auto. lia.
Qed.
Lemma find_resp_none now r l : find_resp now r l = None -> forall p, In p l -> replies now r p = false.
Proof.
  induction l as [|p l IH]; cbn; intros H q I; [destruct I|].
  destruct (replies now r p) eqn:E; [discriminate|]. destruct (find_resp now r l); [discriminate|].
  destruct I as [<-|I]; auto.
Qed.

(** marking changes only the mark of one response *)
Definition static (p : fresp) : timeval * query * rcode * lresult := (p_wait p, p_for p, p_rc p, p_res p).
Lemma mark_nth i l j : nth_error (mark i l) j =
  if Nat.eqb i j then option_map (fun p => mk_resp (p_wait p) (p_for p) (p_rc p) (p_res p) true) (nth_error l j) else nth_error l j.
Proof.
  revert i j. induction l as [|p l IH]; intros i j; destruct i, j; cbn; auto.
  - now destruct (Nat.eqb i j).
Qed.

(** * The list of requests *)
Definition older (a b : freq) : Prop := (r_uid a < r_uid b)%N.
Record finv (s : fstate) : Prop := {
  iv_sorted : StronglySorted older (f_reqs s);
  iv_lt : Forall (fun r => (r_uid r < f_uid s)%N) (f_reqs s) }.

Lemma drop_incl h l : incl (drop_handle h l) l.
Proof.
  induction l as [|r l IH]; cbn; [apply incl_refl|]. destruct (_ =? _)%N; [apply incl_tl, incl_refl|].
  intros x [<-|I]; [now left|right; auto].
Qed.
Lemma drop_sorted h l : StronglySorted older l -> StronglySorted older (drop_handle h l).
Proof.
  induction l as [|r l IH]; cbn; intros H; auto. inversion H as [|a b S F]; subst.
  destruct (_ =? _)%N; auto. constructor; auto. apply Forall_forall. intros x I. apply drop_incl in I.
  rewrite Forall_forall in F. auto.
Qed.
Lemma sorted_snoc l x : StronglySorted older l -> Forall (fun r => (r_uid r < r_uid x)%N) l -> StronglySorted older (l ++ [x]).
Proof.
  induction l as [|r l IH]; cbn; intros S F; [repeat constructor|]. inversion S as [|a b S' F']; subst. inversion F; subst.
  constructor; auto. apply Forall_app. split; auto.
Qed.

Lemma move_inv m s : finv s -> finv (do_move s m).
Proof.
  intros [S L]. unfold do_move. destruct (f_alive s); [|now split]. destruct m as [h q t|h|]; split; cbn.
  - apply sorted_snoc; auto.
  - apply Forall_app. split; [|repeat constructor; cbn; lia]. eapply Forall_impl; [|exact L]. cbn. lia.
  - now apply drop_sorted.
  - apply Forall_forall. intros x I. apply drop_incl in I. rewrite Forall_forall in L. auto.
  - constructor.
  - constructor.
Qed.
Lemma moves_inv ms : forall s, finv s -> finv (do_moves ms s).
Proof. induction ms as [|m ms IH]; intros s H; auto. apply IH, move_inv, H. Qed.

(** what the calls of the client do to the rest of the state *)
Lemma moves_resps ms : forall s, f_resps (do_moves ms s) = f_resps s.
Proof.
  induction ms as [|m ms IH]; intros s; auto. change (f_resps (do_moves ms (do_move s m)) = f_resps s). rewrite IH.
  unfold do_move. destruct (f_alive s), m; reflexivity.
Qed.
Lemma moves_uid ms : forall s, (f_uid s <= f_uid (do_moves ms s))%N.
Proof.
  induction ms as [|m ms IH]; intros s; [reflexivity|]. change (f_uid s <= f_uid (do_moves ms (do_move s m)))%N.
  etransitivity; [|apply IH]. unfold do_move. destruct (f_alive s), m; cbn; lia.
Qed.
(** requests that are there afterwards and are not new were there before *)
Lemma moves_old ms : forall s r, In r (f_reqs (do_moves ms s)) -> (r_uid r < f_uid s)%N -> In r (f_reqs s).
Proof.
  induction ms as [|m ms IH]; intros s r I L; auto. change (In r (f_reqs (do_moves ms (do_move s m)))) in I.
  apply IH in I.
  - unfold do_move in I. destruct (f_alive s); auto. destruct m as [h q t|h|]; cbn in I.
    + apply in_app_or in I as [I|[<-|[]]]; auto. cbn in L. lia.
    + now apply drop_incl in I.
    + destruct I.
  - unfold do_move. destruct (f_alive s); auto. destruct m; cbn; lia.
Qed.
Lemma moves_log ms : forall s, exists new, f_log (do_moves ms s) = new ++ f_log s /\ answers new = [].
Proof.
  induction ms as [|m ms IH]; intros s; [exists []; auto|]. change (do_moves (m :: ms) s) with (do_moves ms (do_move s m)).
  destruct (IH (do_move s m)) as (n1 & E1 & A1). unfold do_move in *. destruct (f_alive s).
  2:{ exists n1. auto. }
  destruct m as [h q t|h|]; cbn in *.
  - exists (n1 ++ [FAsked (f_uid s) h q t]). rewrite <- app_assoc. split; auto. unfold answers in *. rewrite flat_map_app, A1. reflexivity.
  - exists n1. auto.
  - exists n1. auto.
Qed.

(** * The cursor *)
Definition from (u : option N) (r : freq) : Prop := match u with None => False | Some u => (u <= r_uid r)%N end.

Lemma seek_some u l r n : StronglySorted older l -> seek u l = Some (r, n) ->
  In r l /\ r_uid r = u /\ (forall x, In x l -> (u < r_uid x)%N <-> from n x) /\
  match n with None => True | Some v => (u < v)%N /\ exists x, In x l /\ r_uid x = v end.
Proof.
  revert r n. induction l as [|a l IH]; cbn; intros r n S H; [discriminate|]. inversion S as [|b c S' F]; subst.
  rewrite Forall_forall in F. unfold older in F.
  destruct (N.eqb_spec (r_uid a) u) as [E|E].
  - injection H as <- <-. split; [now left|]. split; auto. destruct l as [|b l]; cbn.
    + split; auto. intros x [<-|[]]. lia.
    + assert (Fb : (r_uid a < r_uid b)%N) by (apply F; now left). split.
      * inversion S' as [|y z S2 F2]; subst. rewrite Forall_forall in F2. unfold older in F2.
        intros x [<-|[<-|I]]; [lia|lia|]. specialize (F2 x I). lia.
      * split; [lia|]. exists b. auto.
  - destruct (IH r n S' H) as (A & B & C & D). split; auto. split; auto. split.
    + assert (La : (r_uid a < u)%N) by (rewrite <- B; auto).
      intros x [<-|I]; [|auto]. destruct n as [v|]; cbn; [|lia]. lia.
    + destruct n as [v|]; auto. destruct D as (D & x & Ix & Ex). split; auto. exists x. auto.
Qed.
Lemma seek_found l r : StronglySorted older l -> In r l -> exists n, seek (r_uid r) l = Some (r, n).
Proof.
  induction l as [|a l IH]; cbn; intros S I; [destruct I|]. inversion S as [|b c S' F]; subst.
  rewrite Forall_forall in F. unfold older in F. destruct I as [->|I].
  - rewrite N.eqb_refl. eauto.
  - specialize (F r I). destruct (N.eqb_spec (r_uid a) (r_uid r)); [lia|]. auto.
Qed.
