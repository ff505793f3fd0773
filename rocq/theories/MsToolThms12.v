(** Proofs about the lookup tool, continued: numbers that are too large (C60). *)
From Verif Require Import Base PeerId DbThms DbProofs Db Auth Gsup Router Ctrl CtrlSpec CtrlThms MsLookup Mdns MsClient MsClientSpec MsClientThms MsClientThms2 MsTool MsToolSpec MsToolThms MsToolThms2 MsToolThms4 MsToolThms5 MsToolThms9 MsToolThms10.
Local Open Scope N_scope.

Lemma numeral_big s n : numeral s (Z.of_N n) -> 4294967295 < n -> parse_u32 s = None.
Proof.
  intros H L. pose proof (numeral_chars _ _ H) as C. destruct (numeral_digits _ _ H) as (E & Ne & _). unfold parse_u32.
  destruct (strtoll_all s) as [i|] eqn:Es; [|reflexivity].
  apply strtoll_integer in Es as [[Hi|(u & -> & _)] _]; auto; [|discriminate C| |intros r ->; discriminate C].
  - destruct (numeral_digits _ _ Hi) as (E' & _). rewrite E in E'. injection E' as <-.
    destruct (Z.leb_spec (Z.of_N n) 4294967295); [lia|]. rewrite andb_false_r. reflexivity.
  - clear - C. unfold spaceless. induction s as [|c s IH]; auto. cbn in C. apply andb_true_iff in C as [A B]. cbn. rewrite (IH B), andb_true_r. clear - A.
    destruct c as [[] [] [] [] [] [] [] []]; cbn in *; auto.
Qed.
Lemma numeral_any s n : numeral s (Z.of_N n) -> parse_u32 s = None \/ (n <= 4294967295 /\ parse_u32 s = Some n).
Proof. intros H. destruct (N.le_gt_cases n 4294967295) as [L|L]; [right; split; auto; now apply numeral_u32|left; eapply numeral_big; eauto]. Qed.

Lemma c60_too_large o s t d mn tm : times t mn tm -> 4294967295 < mn \/ 4294967295 < tm ->
  start_query o s (t ++ "@" ++ d) = Val (respond o s d None).
Proof.
  intros H L. unfold start_query, domain_of. change ("@" ++ d)%string with (String "@" d). rewrite split_at_first by (eapply times_no_at; eauto). cbv zeta.
  replace (handling t) with (@None (N * N)); [reflexivity|]. symmetry. unfold handling. destruct (_ <=? _)%nat; [reflexivity|].
  destruct H as [a b mn tm Ha Hb|b tm Hb|a mn Ha|]; [| | |lia].
  - change ("-" ++ b)%string with (String "-" b). rewrite split_at_first by (apply digits_no; [reflexivity|eapply numeral_chars; eauto]).
    destruct (numeral_digits _ _ Hb) as (_ & Ne & _). destruct (numeral_any _ _ Ha) as [->|[La ->]]; [reflexivity|].
    destruct b; [contradiction|]. rewrite (numeral_big _ _ Hb) by lia. reflexivity.
  - rewrite split_at_none by (apply digits_no; [reflexivity|eapply numeral_chars; eauto]). destruct (numeral_digits _ _ Hb) as (_ & Ne & _).
    destruct b; [contradiction|]. rewrite (numeral_big _ _ Hb) by lia. reflexivity.
  - change "-"%string with (String "-" ""). rewrite split_at_first by (apply digits_no; [reflexivity|eapply numeral_chars; eauto]). rewrite (numeral_big _ _ Ha) by lia. reflexivity.
Qed.
