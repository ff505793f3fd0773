(** the line in a packet *)
From Verif Require Import Base Ctrl MsTool MsToolSpec.
Local Open Scope list_scope.

Lemma cstr_end b : exists t, cstr (b ++ ["000"%char]) = Some t.
Proof. induction b as [|c b (t & E)]; cbn; [eauto|]. destruct (c =? "000")%char; [eauto|]. rewrite E. eauto. Qed.
Lemma crlf_iff c : crlf c = true <-> c = "010"%char \/ c = "013"%char.
Proof. unfold crlf. rewrite Bool.orb_true_iff, !Ascii.eqb_eq. tauto. Qed.
Lemma no_end_iff c : no_end c <-> (c =? "000")%char = false /\ crlf c = false.
Proof.
  unfold no_end. rewrite Ascii.eqb_neq. split.
  - intros (A & B & C). split; auto. destruct (crlf c) eqn:E; auto. apply crlf_iff in E. tauto.
  - intros (A & B). split; auto. split; intros ->; discriminate.
Qed.
(** the token at the start *)
Lemma tok_iff b t x : cstr (b ++ ["000"%char]) = Some t ->
  (fst (cut crlf t) = x <-> exists post, b = bytes_of x ++ post /\ Forall no_end (bytes_of x) /\ (post = [] \/ exists c p, post = c :: p /\ ~ no_end c)).
Proof.
  revert t x. induction b as [|c b IH]; intros t x E.
  - cbn in E. injection E as <-. cbn. split.
    + intros <-. exists []. repeat split; auto. constructor.
    + intros (post & A & _). destruct x; [reflexivity|discriminate].
  - cbn in E. destruct (c =? "000")%char eqn:Z.
    + injection E as <-. cbn. split.
      * intros <-. exists (c :: b). split; [reflexivity|]. split; [constructor|]. right. exists c, b. split; auto. rewrite no_end_iff. intros [A _]. congruence.
      * intros (post & A & F & _). destruct x; [reflexivity|]. cbn in A, F. injection A as <- A. inversion F as [|? ? N]. apply no_end_iff in N. destruct N. congruence.
    + destruct (cstr_end b) as (t' & E'). rewrite E' in E. injection E as <-. specialize (IH t'). cbn [cut]. destruct (crlf c) eqn:L.
      * cbn. split.
        -- intros <-. exists (c :: b). split; [reflexivity|]. split; [constructor|]. right. exists c, b. split; auto. rewrite no_end_iff. intros [_ A]. congruence.
        -- intros (post & A & F & _). destruct x; [reflexivity|]. cbn in A, F. injection A as <- A. inversion F as [|? ? N]. apply no_end_iff in N. destruct N. congruence.
      * pose proof (fun x => IH x E') as Q. clear IH. destruct (cut crlf t') as [u v] eqn:C. cbn [fst] in *. split.
        -- intros <-. destruct (proj1 (Q u) eq_refl) as (post & A & F & P). exists post. cbn. rewrite A. repeat split; auto. constructor; auto. apply no_end_iff. auto.
        -- intros (post' & A' & F' & P'). destruct x as [|c' x]; cbn in A', F'.
           ++ subst post'. destruct P' as [P'|(c' & p & P' & N)]; [discriminate|]. injection P' as <- <-. exfalso. apply N. apply no_end_iff. auto.
           ++ injection A' as <- A'. f_equal. inversion F'; subst. apply Q. eauto.
Qed.
Lemma line_iff b x : line_of b = Some x <->
  (length b < 1024)%nat /\ exists pre post, b = pre ++ bytes_of x ++ post /\ Forall (fun c => c = "010"%char \/ c = "013"%char) pre /\ x <> ""%string /\
    Forall no_end (bytes_of x) /\ (post = [] \/ exists c p, post = c :: p /\ ~ no_end c).
Proof.
  unfold line_of. change RX_BUF with 1024%nat. destruct (Nat.lt_ge_cases (length b) 1024) as [L|L].
  2:{ rewrite firstn_length, Nat.min_l by lia. rewrite Nat.leb_refl, Bool.orb_true_r. split; [discriminate|]. intros [A _]. lia. }
  rewrite firstn_all2 by lia. replace (1024 <=? length b)%nat with false by (symmetry; apply Nat.leb_gt; exact L). rewrite Bool.orb_false_r.
  assert (G : match cstr (b ++ ["000"%char]) with Some t => match strtok crlf t with Some (x, _) => Some x | None => None end | None => None end = Some x <->
    exists pre post, b = pre ++ bytes_of x ++ post /\ Forall (fun c => c = "010"%char \/ c = "013"%char) pre /\ x <> ""%string /\
    Forall no_end (bytes_of x) /\ (post = [] \/ exists c p, post = c :: p /\ ~ no_end c)).
  { clear L. induction b as [|c b IH].
    - cbn. split; [discriminate|]. intros (pre & post & A & _ & N & _). destruct pre; [|discriminate]. destruct x; [congruence|discriminate].
    - pose proof (tok_iff (c :: b)) as TK. cbn [app cstr] in *. destruct (c =? "000")%char eqn:Z.
      + cbn. split; [discriminate|]. intros (pre & post & A & P & N & F & _). destruct pre as [|c' pre].
        * destruct x as [|c' x]; [congruence|]. cbn in A, F. injection A as <- A. inversion F as [|? ? E]. apply no_end_iff in E. destruct E. congruence.
        * cbn in A. injection A as <- A. inversion P as [|? ? E]. apply Ascii.eqb_eq in Z. subst c. destruct E; discriminate.
      + destruct (cstr_end b) as (t & E). rewrite E in *. unfold strtok in *. cbn [skip_delim]. destruct (crlf c) eqn:L.
        * rewrite IH. split.
          -- intros (pre & post & A & P & Q). exists (c :: pre), post. split; [cbn; congruence|]. split; [constructor; auto; apply crlf_iff; auto|exact Q].
          -- intros (pre & post & A & P & N & F & Q). destruct pre as [|c' pre].
             ++ destruct x as [|c' x]; [congruence|]. cbn in A, F. injection A as <- A. inversion F as [|? ? E0]. apply no_end_iff in E0. destruct E0. congruence.
             ++ cbn in A. injection A as <- A. inversion P. subst. exists pre, post. auto.
        * specialize (TK (String c t) x eq_refl). destruct (cut crlf (String c t)) as [u v] eqn:C. cbn [fst] in TK. split.
          -- intros [= ->]. destruct (proj1 TK eq_refl) as (post & A & F & P). exists [], post. repeat split; auto. intros ->. cbn [cut] in C. rewrite L in C. destruct (cut crlf t); discriminate.
          -- intros (pre & post & A & P & N & F & Q). destruct pre as [|c' pre].
             ++ f_equal. apply TK. exists post. auto.
             ++ cbn in A. injection A as <- A. inversion P as [|? ? E0]. apply crlf_iff in E0. congruence. }
  destruct (length b =? 0)%nat eqn:Z; [|rewrite G; tauto]. apply Nat.eqb_eq in Z. destruct b; [|discriminate]. rewrite <- G. cbn. split; [discriminate|]. intros [_ A]. discriminate.
Qed.
