(** Proofs about the IMEI of any text. *)
From Verif Require Import Base PeerId Db DbSpec DbThms Auth Mdns Proxy Gsup Router Hlr Ctrl CtrlSpec CtrlThms PeerSpec PeerThms PeerThms2 VtySubscr VtySpec VtyThms VtyList VtyListSpec VtyListThms VtyText VtyTextSpec NitbSpec NitbThms2 VtyTextThms VtyTextThms2 VtyTextThms3 VtyTextThms4 VtyTextThms5 VtyTextThms7.

Lemma luhn14_some s a : imei_part s a -> luhn14 s = Some (luhn a) /\ checked a (luhn a).
Proof.
  intros (H & r & ->). pose proof (proj1 (is_imei14_digits a) H) as [L D].
  assert (E : str_take 14 (a ++ r) = a) by (symmetry; apply cut_fun; exists r; split; auto; split; [lia|auto]).
  unfold luhn14. rewrite E. unfold is_n_digits. rewrite L, D. cbn [andb Nat.leb]. split; auto.
  apply check_luhn; [exact H|apply luhn_digit|apply Ascii.eqb_refl].
Qed.
Lemma luhn14_none s : (forall a, ~ imei_part s a) -> luhn14 s = None.
Proof.
  intros N. unfold luhn14. destruct (is_n_digits (str_take 14 s) 14 14) eqn:E; auto. exfalso.
  unfold is_n_digits in E. apply andb_true_iff in E as [E D]. apply andb_true_iff in E as [E1 E2]. apply Nat.leb_le in E1. apply Nat.leb_le in E2.
  destruct (str_take_split 14 s) as (b & Es & _). apply (N (str_take 14 s)). split; [|eauto].
  apply is_imei14_digits. split; [lia|exact D].
Qed.
Lemma c73_imei s :
  (forall a, imei_part s a -> exists x, checked a x /\ imei_line s = ("    IMEI: " ++ s ++ String x "")%string) /\
  ((forall a, ~ imei_part s a) -> imei_line s = ("    IMEI: " ++ s ++ " (INVALID LENGTH!)")%string).
Proof.
  split.
  - intros a H. destruct (luhn14_some _ _ H) as [E C]. exists (luhn a). split; auto. unfold imei_line. now rewrite E.
  - intros N. unfold imei_line. now rewrite (luhn14_none s N).
Qed.
Lemma spaces_get : forall n i c, String.get i (spaces n) = Some c -> c = " "%char.
Proof. induction n as [|n IH]; intros i c; [destruct i; discriminate|]. destruct i as [|i]; [intros [= <-]; reflexivity|]. exact (IH i c). Qed.
Lemma spaces_len n : String.length (spaces n) = n.
Proof. induction n; cbn; auto. Qed.
Lemma c73_imei_cell s : s <> ""%string ->
  (forall a, imei_part s a -> exists x, checked a x /\ imei_cell s = ("  " ++ s ++ String x "")%string) /\
  ((forall a, ~ imei_part s a) -> exists p, (forall i c, String.get i p = Some c -> c = " "%char) /\ String.length p = (14 - String.length s)%nat /\
     imei_cell s = ("  " ++ s ++ p ++ " (INVALID LENGTH!)")%string).
Proof.
  intros N0. unfold imei_cell. rewrite filled_some by exact N0. rewrite pad_spaces. split.
  - intros a H. destruct (luhn14_some _ _ H) as [E C]. exists (luhn a). split; auto. rewrite E.
    destruct H as (Ia & r & ->). pose proof (proj1 (is_imei14_digits a) Ia) as [L _]. rewrite str_len_app.
    replace (14 - (String.length a + String.length r))%nat with 0%nat by lia. change (spaces 0) with ""%string. now rewrite str_app_nil.
  - intros N. rewrite (luhn14_none s N). eexists. split; [apply spaces_get|]. split; [apply spaces_len|]. now rewrite <- ?str_app_assoc.
Qed.
