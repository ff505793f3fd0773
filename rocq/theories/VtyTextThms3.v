(** Proofs about the lines that tell facts: which there are, and that they can be told apart. *)
From Verif Require Import Base PeerId Db DbSpec DbThms Auth Mdns Proxy Gsup Router Hlr Ctrl CtrlSpec CtrlThms VtySubscr VtySpec VtyThms VtyList VtyListSpec VtyListThms VtyText VtyTextSpec NitbThms2 VtyTextThms VtyTextThms2.

(** ** Characters that do not occur *)
Definition free (c : ascii) (s : string) : bool := str_forall (fun x => negb (x =? c)%char) s.
Lemma free_app c a b : free c (a ++ b) = free c a && free c b.
Proof. unfold free. induction a as [|x a IH]; cbn; [reflexivity|]. now rewrite IH, andb_assoc. Qed.
Lemma free_get c s : free c s = true <-> forall n x, String.get n s = Some x -> x <> c.
Proof.
  unfold free. induction s as [|y s IH]; cbn; [split; [intros _ n x; discriminate|reflexivity]|]. rewrite andb_true_iff, IH, negb_true_iff, Ascii.eqb_neq. split.
  - intros [A B] [|n] x H; cbn in H; [injection H as <-; exact A|eapply B; exact H].
  - intros H. split; [apply (H 0%nat); reflexivity|]. intros n x G. apply (H (Datatypes.S n)). exact G.
Qed.
Lemma free_split c a b r s : free c a = true -> free c b = true -> (a ++ String c r = b ++ String c s)%string -> a = b /\ r = s.
Proof.
  revert b. induction a as [|x a IH]; intros [|y b] A B H; cbn in *.
  - injection H as ->. auto.
  - injection H as <- H. now rewrite Ascii.eqb_refl in B.
  - injection H as -> H. now rewrite Ascii.eqb_refl in A.
  - injection H as -> H. apply andb_true_iff in A as [_ A]. apply andb_true_iff in B as [_ B]. destruct (IH b A B H) as [-> ->]. auto.
Qed.
Lemma free_not c a b r : free c a = true -> (a = b ++ String c r)%string -> False.
Proof. intros A ->. rewrite free_app in A. apply andb_true_iff in A as [_ A]. cbn in A. now rewrite Ascii.eqb_refl in A. Qed.
Lemma digit_free c x n : digit x n -> is_digit c = false -> (x =? c)%char = false.
Proof. intros D C. apply digit_is in D as [D _]. apply Ascii.eqb_neq. intros ->. congruence. Qed.
Lemma numeral_free c t n : numeral t n -> is_digit c = false -> free c t = true.
Proof.
  intros H C. induction H as [x n D|s v x n H IH D]; [unfold free; cbn; now rewrite (digit_free c x n D C)|]. rewrite free_app, IH. unfold free. cbn. now rewrite (digit_free c x n D C).
Qed.
Lemma only_digits_free c s : only_digits s -> is_digit c = false -> free c s = true.
Proof. intros H C. apply free_get. intros n x G E. subst x. destruct (H n c G) as [v D]. apply digit_is in D as [D _]. congruence. Qed.
Lemma imei_digits s : is_imei14 s -> only_digits s.
Proof.
  intros H. apply is_imei14_digits in H as [_ H]. intros n c. revert n. induction s as [|x s IH]; intros n G; [destruct n; discriminate|]. cbn in H. apply andb_true_iff in H as [A B].
  destruct n as [|n]; cbn in G; [|apply (IH B n G)]. injection G as <-. exists (digit_val x). now apply is_digit_digit.
Qed.
Lemma date_free c t x : date_of t x -> is_digit c = false -> free c "-T:+" = true -> free c x = true.
Proof.
  intros (y & m & d & hh & mm & ss & ty & tm & td & th & tn & ts & _ & _ & _ & _ & _ & Ny & (Nm & _) & (Nd & _) & (Nh & _) & (Nn & _) & (Ns & _) & ->) D F.
  rewrite !free_app. rewrite (numeral_free c _ _ Ny D), (numeral_free c _ _ Nm D), (numeral_free c _ _ Nd D), (numeral_free c _ _ Nh D), (numeral_free c _ _ Nn D), (numeral_free c _ _ Ns D).
  unfold free in *. cbn [str_forall] in *. rewrite !andb_true_iff in *. destruct F as (F1 & F2 & F3 & F4 & _).
  assert (Z0 : ("0" =? c)%char = false) by (apply Ascii.eqb_neq; intros <-; discriminate). rewrite Z0. repeat split; auto.
Qed.
Lemma unit_free c n u t : unit_word n u t -> is_digit c = false -> free c u = true -> free c t = true.
Proof. intros [v|n0 v s P N] D F; [reflexivity|]. rewrite free_app, (numeral_free c _ _ N D). exact F. Qed.
Lemma duration_free c t n : duration t n -> is_digit c = false -> free c "dhms" = true -> free c t = true.
Proof.
  intros (d & h & m & s & td & th & tm & ts & _ & _ & _ & _ & _ & U1 & U2 & U3 & U4 & ->) D F. unfold free in F. cbn [str_forall] in F. rewrite !andb_true_iff in F. destruct F as (F1 & F2 & F3 & F4 & _).
  rewrite !free_app. rewrite (unit_free c _ _ _ U1 D), (unit_free c _ _ _ U2 D), (unit_free c _ _ _ U3 D), (unit_free c _ _ _ U4 D); [reflexivity|unfold free; cbn [str_forall]; rewrite ?F1, ?F2, ?F3, ?F4; reflexivity..].
Qed.
Lemma age_form now t a : age_shown now t a -> exists b, a = String " " b.
Proof.
  intros [A B]. destruct (Z_le_dec 0 (now - t)) as [L|L]; [|rewrite B by lia; eexists; reflexivity].
  destruct (Z_le_dec (now - t) 4294967295) as [M|M]; [|rewrite B by lia; eexists; reflexivity]. destruct A as (x & -> & _); [lia|]. eexists. reflexivity.
Qed.
Notation lf := (ascii_of_N 10).
Lemma age_free now t a : age_shown now t a -> free lf a = true.
Proof.
  intros [A B]. destruct (Z_le_dec 0 (now - t)) as [L|L]; [|rewrite B by lia; reflexivity].
  destruct (Z_le_dec (now - t) 4294967295) as [M|M]; [|rewrite B by lia; reflexivity]. destruct A as (x & -> & D); [lia|]. rewrite !free_app, (duration_free lf _ _ D) by reflexivity. reflexivity.
Qed.

(** ** Hexadecimal digits and names of algorithms *)
Lemma hex_digit_ok n : (n < 16)%N -> hex_char n (hex_digit_of n).
Proof. intros B. unfold hex_digit_of, hex_char. destruct (N.ltb_spec n 10); [left; split; [lia|reflexivity]|right; split; [lia|f_equal; lia]]. Qed.
Lemma hexdump_ok l : octets l -> hex_of l (hexdump l).
Proof.
  induction 1 as [|b l B _ IH]; [constructor|]. cbn [hexdump]. pose proof (N.div_mod b 16 ltac:(lia)) as D. pose proof (N.mod_upper_bound b 16 ltac:(lia)) as M.
  assert (Q : (b / 16 < 16)%N) by (apply N.div_lt_upper_bound; lia). revert D M Q. generalize (b / 16)%N, (b mod 16)%N. intros q r -> M Q. constructor; [now apply hex_digit_ok..|exact IH].
Qed.
Lemma hex_char_inj n m c : hex_char n c -> hex_char m c -> n = m.
Proof.
  intros [[A ->]|[A ->]] [[B E]|[B E]]; apply (f_equal N_of_ascii) in E; rewrite !N_ascii_embedding in E by lia; lia.
Qed.
Lemma hex_char_bound n c : hex_char n c -> (n < 16)%N.
Proof. intros [[A _]|[A _]]; lia. Qed.
Lemma hex_of_inj l l' x : hex_of l x -> hex_of l' x -> l = l'.
Proof.
  intros H. revert l'. induction H as [|a b x y l t A B _ IH]; intros l' H'; inversion H'; subst; [reflexivity|].
  match goal with P : hex_char ?u x, Q : hex_char ?v y, R : hex_of _ t |- _ => rewrite (hex_char_inj _ _ _ A P), (hex_char_inj _ _ _ B Q), (IH _ R) end. reflexivity.
Qed.
Lemma hex_char_free n c : hex_char n c -> (c =? lf)%char = false.
Proof.
  intros [[A ->]|[A ->]]; apply Ascii.eqb_neq; intros E; apply (f_equal N_of_ascii) in E; rewrite !N_ascii_embedding in E by lia; lia.
Qed.
Lemma hex_free l x : hex_of l x -> free lf x = true.
Proof. induction 1 as [|a b x y l t A B _ IH]; [reflexivity|]. unfold free in *. cbn -[ascii_of_N]. rewrite (hex_char_free _ _ A), (hex_char_free _ _ B). exact IH. Qed.
Lemma alg_named_name a n : alg_named a n -> alg_name a = n.
Proof. intros []; reflexivity. Qed.
Lemma alg_named_inj a b n : alg_named a n -> alg_named b n -> a = b.
Proof. intros A B. destruct A; inversion B; reflexivity. Qed.
Lemma alg_free a n : alg_named a n -> free lf n = true.
Proof. intros []; reflexivity. Qed.
