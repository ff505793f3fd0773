(** Proofs that the text about a subscriber tells it from others. *)
From Verif Require Import Base PeerId Db DbSpec DbThms Auth Mdns Proxy Gsup Router Hlr Ctrl CtrlSpec CtrlThms VtySubscr VtySpec VtyThms VtyList VtyListSpec VtyListThms VtyText VtyTextSpec NitbThms2 VtyTextThms VtyTextThms2 VtyTextThms3 VtyTextThms4.

Definition fact_ok (f : fact) : Prop :=
  match f with
  | FImsi s | FVlr s | FSgsn s => free lf s = true
  | FMsisdn (Some s) => free lf s = true /\ s <> "none"%string
  | _ => True
  end.
Lemma number_free s : number_ok s -> free lf s = true /\ s <> "none"%string.
Proof.
  intros (_ & _ & D). split; [now apply only_digits_free|]. intros ->. destruct (D 0%nat "n"%char eq_refl) as [v V]. apply digit_is in V as [V _]. discriminate.
Qed.
Lemma name_free s : name_ok s -> free lf s = true.
Proof. intros (_ & _ & N). now apply free_get. Qed.
Lemma stored_ok tz now r keys f : row_ok tz now r -> stored r keys f -> fact_ok f.
Proof.
  intros (_ & I & M & _ & V & G & _) H. destruct H; cbn; try exact Logic.I.
  - now apply number_free.
  - destruct (s_msisdn r) as [s|]; [apply number_free, M; reflexivity|exact Logic.I].
  - now apply name_free, V.
  - now apply name_free, G.
Qed.
Lemma free_lit c a b : free c a = true -> free c b = true -> free c (a ++ b) = true.
Proof. intros A B. now rewrite free_app, A, B. Qed.
Local Ltac lit := apply free_lit; [reflexivity|].
Lemma prints_free tz now f c : fact_ok f -> prints tz now f c -> Forall (fun l => free lf l = true) c.
Proof.
  intros F P. destruct P; repeat (constructor; [|]); try constructor; try lit; cbn in F; auto.
  - eapply numeral_free; eauto.
  - tauto.
  - destruct H as [A (l & n & _ & D & _)]. apply free_lit; [apply only_digits_free; [now apply imei_digits|reflexivity]|]. unfold free. cbn [str_forall]. now rewrite (digit_free lf x n D eq_refl).
  - destruct ps; reflexivity.
  - destruct ps; reflexivity.
  - apply free_lit; [destruct ps; reflexivity|]. lit. apply free_lit; [eapply date_free; eauto|eapply age_free; eauto].
  - eapply alg_free; eauto.
  - eapply hex_free; eauto.
  - eapply alg_free; eauto.
  - eapply hex_free; eauto.
  - apply free_lit; [destruct is_op; reflexivity|eapply hex_free; eauto].
  - apply free_lit; [eapply numeral_free; eauto|]. destruct H3 as [[_ ->]|(_ & v & V & ->)]; [reflexivity|]. lit. eapply numeral_free; eauto.
Qed.
Lemma prints_cons tz now f c : prints tz now f c -> c <> [].
Proof. intros []; discriminate. Qed.
Lemma cut_lit (p a b : string) : (p ++ a = p ++ b)%string -> a = b.
Proof. intros H. now apply app_inj_l in H as [_ H]. Qed.
Lemma prints_det tz now f g c e r s : fact_ok f -> fact_ok g -> prints tz now f c -> prints tz now g e -> c ++ r = e ++ s -> f = g /\ r = s.
Proof.
  intros F G P Q H.
  destruct P; destruct Q; cbn [app] in H; injection H; clear H; intros;
    try (repeat match goal with b : bool |- _ => destruct b end; discriminate).
  all: subst.
  - split; [f_equal; eapply numeral_det; eauto|reflexivity].
  - auto.
  - auto.
  - destruct F as [_ F]. now destruct F.
  - destruct G as [_ G]. now destruct G.
  - auto.
  - split; [|reflexivity]. f_equal.
    match goal with A : checked s0 _, B : checked s1 _, E : (s0 ++ _)%string = (s1 ++ _)%string |- _ =>
      pose proof (proj1 (proj1 (is_imei14_digits _) (proj1 A))); pose proof (proj1 (proj1 (is_imei14_digits _) (proj1 B))); apply app_inj_l in E as [E _]; [exact E|congruence] end.
  - auto.
  - auto.
  - destruct ps, ps0; try discriminate; auto.
  - destruct ps, ps0; try discriminate; auto.
  - match goal with E : (domain ps ++ _)%string = (domain ps0 ++ _)%string |- _ => apply app_inj_l in E as [E1 E2]; [|destruct ps, ps0; reflexivity] end.
    assert (ps = ps0) as -> by (destruct ps, ps0; try discriminate; reflexivity). split; [|reflexivity]. f_equal. injection E2; clear E2; intros E2.
    match goal with D : date_of (t - tz) _, D' : date_of (t0 - tz) _, A : age_shown now t _, A' : age_shown now t0 _ |- _ =>
      destruct (age_form _ _ _ A) as [b ->]; destruct (age_form _ _ _ A') as [b' ->];
      apply free_split in E2 as [-> _]; [pose proof (date_of_inj _ _ _ D D'); lia|eapply date_free; [exact D|reflexivity..]|eapply date_free; [exact D'|reflexivity..]] end.
  - auto.
  - split; [|reflexivity]. repeat match goal with A : alg_named ?a ?n, B : alg_named ?b ?n |- _ => rewrite (alg_named_inj _ _ _ A B); clear A end.
    match goal with A : hex_of ki ?n, B : hex_of ki0 ?n |- _ => rewrite (hex_of_inj _ _ _ A B) end. reflexivity.
  - split; [|reflexivity]. repeat match goal with A : alg_named ?a ?n, B : alg_named ?b ?n |- _ => rewrite (alg_named_inj _ _ _ A B); clear A end.
    match goal with A : hex_of k ?n, B : hex_of k0 ?n |- _ => rewrite (hex_of_inj _ _ _ A B); clear A end.
    assert (is_op = is_op0 /\ y = y0) as [-> ->].
    { match goal with E : ((if is_op then _ else _) ++ y)%string = _ |- _ => destruct is_op, is_op0; cbn in E; try discriminate; injection E; auto end. }
    match goal with A : hex_of opc ?n, B : hex_of opc0 ?n |- _ => rewrite (hex_of_inj _ _ _ A B); clear A end.
    match goal with A : numeral b bl, B : numeral b0 bl0, C : sqn = 0%N /\ _ \/ _, D : sqn0 = 0%N /\ _ \/ _, E : (b ++ q)%string = (b0 ++ q0)%string |- _ =>
      pose proof (numeral_free " " _ _ A eq_refl) as FA; pose proof (numeral_free " " _ _ B eq_refl) as FB;
      destruct C as [[-> ->]|(Z1 & v & V & ->)]; destruct D as [[-> ->]|(Z2 & w & W & ->)]; rewrite ?str_app_nil in E;
      [subst b0; rewrite (numeral_det _ _ _ A B); reflexivity
      |exfalso; exact (free_not _ _ _ _ FA E)
      |exfalso; exact (free_not _ _ _ _ FB (eq_sym E))
      |apply (free_split " " b b0) in E as [-> E]; [|exact FA|exact FB]; injection E; intros ->; rewrite (numeral_det _ _ _ A B); f_equal; apply N2Z.inj; eapply numeral_det; eauto] end.
Qed.
Lemma facts_det tz now fs : forall gs cs es, Forall fact_ok fs -> Forall fact_ok gs -> Forall2 (prints tz now) fs cs -> Forall2 (prints tz now) gs es -> concat cs = concat es -> fs = gs.
Proof.
  induction fs as [|f fs IH]; intros gs cs es F G P Q E; inversion P as [|f0 c fs0 cs' P1 P2]; subst; inversion Q as [|g e gs0 es' Q1 Q2]; subst; cbn [concat] in E.
  - reflexivity.
  - symmetry in E. apply app_eq_nil in E as [E _]. now apply prints_cons in Q1.
  - apply app_eq_nil in E as [E _]. now apply prints_cons in P1.
  - inversion F; subst. inversion G; subst. destruct (prints_det tz now f g c e (concat cs') (concat es')) as [-> E']; auto. f_equal. eapply IH; eauto.
Qed.

(** ** From the text to its lines *)
Lemma concat_cons x l : String.concat "" (x :: l) = (x ++ String.concat "" l)%string.
Proof. destruct l; cbn; [now rewrite str_app_nil|reflexivity]. Qed.
Lemma text_inj pre l : free lf pre = true -> forall m, Forall (fun x => free lf x = true) l -> Forall (fun x => free lf x = true) m ->
  vty_text (pre ++ String lf "") l = vty_text (pre ++ String lf "") m -> l = m.
Proof.
  intros P. unfold vty_text. induction l as [|x l IH]; intros [|y m] L M E; cbn [map] in E; rewrite ?concat_cons in E; [reflexivity| | |].
  - exfalso. apply (f_equal String.length) in E. rewrite !str_len_app in E. cbn in E. lia.
  - exfalso. apply (f_equal String.length) in E. rewrite !str_len_app in E. cbn in E. lia.
  - inversion L; subst. inversion M; subst. rewrite <- !str_app_assoc in E. cbn [append] in E. rewrite !str_app_assoc in E.
    apply free_split in E as [E1 E2]; [|rewrite free_app, P, andb_true_r; assumption..]. apply app_inj_r in E1 as [-> _]; [|reflexivity]. f_equal. now apply IH.
Qed.
Lemma shows_free tz now fs ls : Forall fact_ok fs -> shows tz now fs ls -> Forall (fun x => free lf x = true) ls.
Proof.
  intros F (cs & P & ->). revert F. induction P as [|f c fs cs P _ IH]; intros F; cbn; [constructor|]. inversion F; subst. apply Forall_app. split; [eapply prints_free; eauto|auto].
Qed.
Lemma parts_ok tz now r keys : row_ok tz now r -> Forall fact_ok (concat (parts r keys)).
Proof. intros R. apply Forall_forall. intros f I. apply in_parts in I. eapply stored_ok; eauto. Qed.
Lemma apart tz now r keys h ls r' keys' h' ls' nl : row_ok tz now r -> keys_ok keys -> row_ok tz now r' -> keys_ok keys' ->
  sub_of_row tz r = Some h -> sub_of_row tz r' = Some h' -> full_lines tz now h keys = Val ls -> full_lines tz now h' keys' = Val ls' ->
  In nl [String lf ""; String (ascii_of_N 13) (String lf "")] -> vty_text nl ls = vty_text nl ls' -> forall f, stored r keys f <-> stored r' keys' f.
Proof.
  intros R K R' K' S S' E E' NL T. destruct (full_lines_ok tz now r keys h S R K) as (l & L & P). destruct (full_lines_ok tz now r' keys' h' S' R' K') as (l' & L' & P').
  assert (l = ls) as -> by congruence. assert (l' = ls') as -> by congruence.
  assert (X : exists pre, free lf pre = true /\ nl = (pre ++ String lf "")%string).
  { destruct NL as [<-|[<-|[]]]; [exists ""%string|exists (String (ascii_of_N 13) "")]; split; reflexivity. }
  destruct X as (pre & F & ->). apply text_inj in T; [|exact F|exact (shows_free _ _ _ _ (parts_ok _ _ _ _ R) P)|exact (shows_free _ _ _ _ (parts_ok _ _ _ _ R') P')]. subst ls'.
  destruct P as (cs & P & C). destruct P' as (es & P' & C'). assert (Q : concat (parts r keys) = concat (parts r' keys')).
  { apply (facts_det tz now _ _ cs es); [exact (parts_ok _ _ _ _ R)|exact (parts_ok _ _ _ _ R')|exact P|exact P'|congruence]. }
  intros f. rewrite <- !in_parts, Q. reflexivity.
Qed.
