(** Proofs for C71. *)
From Verif Require Import Base Ctrl Mdns Main MainSpec MainThms Cmd CmdSpec.
From Verif Require MsNet MsNetSpec MsNetThms MsTool MsToolSpec.
Local Open Scope string_scope. Local Open Scope N_scope.

Lemma look_tables : tables look_shorts look_longs.
Proof.
  split; [|  |intros [] H; cbn in H; intuition discriminate].
  - cbn. repeat (constructor; [cbn; intuition discriminate|]). constructor.
  - cbn. repeat (constructor; [cbn; intuition discriminate|]). constructor.
Qed.
Lemma known_look e : known look_shorts look_longs e ->
  (exists v, In (fst e) (map RChar ["f"; "m"; "M"; "D"; "t"; "T"; "s"]%char) /\ snd e = Some v) \/ (In (fst e) (map RChar ["H"; "d"; "S"; "q"; "h"; "V"]%char) /\ snd e = None).
Proof.
  destruct e as [r v]. intros [(c & I & E)|(o & I & E & A)]; cbn [fst snd] in *.
  - subst r. destruct v as [v|]; cbn in I; repeat destruct I as [I|I]; try discriminate; try injection I as <-; try destruct I; cbn; eauto 14.
  - cbn in I. repeat destruct I as [<-|I]; try destruct I; cbn in E, A; subst r; destruct v as [v|]; try discriminate; cbn; eauto 16.
Qed.
Lemma zeros a : forallb (fun b => b =? 0) a = false <-> exists b, In b a /\ b <> 0.
Proof.
  induction a as [|x a IH]; cbn.
  - split; [discriminate|intros (b & [] & _)].
  - rewrite andb_false_iff, N.eqb_neq, IH. split.
    + intros [N|(b & I & N)]; eauto.
    + intros (b & [->|I] & N); eauto.
Qed.
Lemma parse_ms t n : MsNet.parse_in 0 4294967295 t = Some n <-> MsNetSpec.writes t (Z.of_N n) /\ (0 <= Z.of_N n < 2 ^ 32)%Z.
Proof. rewrite MsNetThms.parse_in_iff by lia. split; intros [A B]; split; auto; lia. Qed.

Record look_from (o : lopts) (l : list gev) (o' : lopts) : Prop := {
  lf_daemon : k_daemon o' = true <-> k_daemon o = true \/ given l "d"%char;
  lf_head : k_head o' = false <-> k_head o = false \/ given l "H"%char;
  lf_send : k_send o' = true <-> k_send o = true \/ given l "S"%char;
  lf_quiet : k_quiet o' = true <-> k_quiet o = true \/ given l "q"%char;
  lf_fmt : last_given l "f"%char (k_fmt o) (k_fmt o');
  lf_sock : last_given l "s"%char (k_sock o) (k_sock o');
  lf_suffix : last_given l "D"%char (Some (k_suffix o)) (Some (k_suffix o'));
  lf_ip : last_given l "m"%char (Some (k_ip o)) (Some (k_ip o'));
  lf_port : exists x, last_given l "M"%char None x /\ number_of x (k_port o) (k_port o');
  lf_min : exists x, last_given l "t"%char None x /\ number_of x (k_min o) (k_min o');
  lf_tmo : exists x, last_given l "T"%char None x /\ number_of x (k_tmo o) (k_tmo o');
  lf_port0 : k_port o <> 0 -> k_port o' <> 0 }.
Lemma look_from_nil o : look_from o [] o.
Proof.
  pose proof given_nil as G.
  split; try (left; split; [apply G|reflexivity]); try (split; [tauto|intros [H|H]; [exact H|destruct (G _ H)]]); try (exists None; split; [left; split; [apply G|reflexivity]|reflexivity]); auto.
Qed.
Lemma number_cons c t l (n d1 d2 : N) : MsNetSpec.writes t (Z.of_N d1) -> (exists x, last_given l c None x /\ number_of x d1 n) -> exists x, last_given ((RChar c, Some t) :: l) c None x /\ number_of x d2 n.
Proof.
  intros W (x & L & Nm). destruct L as [[N ->]|(l1 & w & l2 & -> & N & V & ->)].
  - cbn in Nm. subst n. exists (Some t). split; auto. apply last_same. left; auto.
  - exists w. split; [right; exists ((RChar c, Some t) :: l1)%list, w, l2; auto|]. destruct w; [auto|tauto].
Qed.
Lemma number_other e c l n d : fst e <> RChar c -> (exists x, last_given l c None x /\ number_of x d n) -> exists x, last_given (e :: l) c None x /\ number_of x d n.
Proof. intros E (x & L & Nm). exists x. split; auto. apply last_other; auto. Qed.

(** one option *)
Lemma option_ok pton o e : known look_shorts look_longs e -> k_port o <> 0 ->
  (exists o1, look_option pton o e = inl o1 /\ ~ stops pton e /\ k_port o1 <> 0 /\ forall l o', look_from o1 l o' -> look_from o (e :: l) o') \/
  (stops pton e /\ exists x m, look_option pton o e = inr (x, m) /\ (fst e = RChar "h" -> x = LHelp /\ m = []) /\ (fst e = RChar "V" -> x = LVersion /\ m = []) /\
     (~ usable pton e -> x = LBad /\ exists c, fst e = RChar c /\ m = say o (MValue c))).
Proof.
  intros K P. apply known_look in K. destruct o as [dm ip port mn tm sock fm sfx hd sn qt]. cbn in P.
  destruct e as [r v]. cbn [fst snd] in K.
  assert (F : forall o1, fst (r, v) <> RChar "h" -> fst (r, v) <> RChar "V" -> look_option pton (mk_lopts dm ip port mn tm sock fm sfx hd sn qt) (r, v) = inl o1 -> usable pton (r, v) -> k_port o1 <> 0 ->
     (forall l o', look_from o1 l o' -> look_from (mk_lopts dm ip port mn tm sock fm sfx hd sn qt) ((r, v) :: l) o') ->
     exists o1, look_option pton (mk_lopts dm ip port mn tm sock fm sfx hd sn qt) (r, v) = inl o1 /\ ~ stops pton (r, v) /\ k_port o1 <> 0 /\ forall l o', look_from o1 l o' -> look_from (mk_lopts dm ip port mn tm sock fm sfx hd sn qt) ((r, v) :: l) o').
  { intros o1 H1 H2 E U Q L. exists o1. split; auto. split; auto. unfold stops. tauto. }
  destruct K as [(a & I & ->)|(I & ->)]; cbn in I.
  - repeat destruct I as [<-|I]; try destruct I.
    + left. eapply F; try reflexivity; try discriminate; [split; cbn; intros; intuition discriminate|exact P|]. intros l o' [].
      split; cbn in *; rewrite ?given_cons; cbn; try (intuition congruence); try (apply last_other; [discriminate|assumption]); try (apply last_same; assumption); try (apply number_other; [discriminate|assumption]).
    + (* m *) destruct (pton a) as [[v6 ad]|] eqn:Pt.
      * destruct (forallb (fun b => b =? 0) ad) eqn:Z.
        -- right. assert (U : ~ usable pton (RChar "m", Some a)). { intros [U _ _]. destruct (U eq_refl) as (t & w & b & [= <-] & Pt' & X). rewrite Pt in Pt'. injection Pt' as <- <-. apply zeros in X. congruence. }
           split; [right; right; exact U|]. do 2 eexists. split; [cbn; rewrite Pt, Z, orb_true_r; reflexivity|]. split; [discriminate|]. split; [discriminate|]. intros _. split; auto. exists "m"%char. auto.
        -- left. eapply F; try discriminate; [cbn; rewrite Pt; cbn; rewrite Z; apply N.eqb_neq in P; rewrite P; reflexivity| |exact P|].
           ++ split; cbn; intros; try (intuition discriminate). exists a, v6, ad. split; auto. split; auto. apply zeros; auto.
           ++ intros l o' [].
      split; cbn in *; rewrite ?given_cons; cbn; try (intuition congruence); try (apply last_other; [discriminate|assumption]); try (apply last_same; assumption); try (apply number_other; [discriminate|assumption]).
      * right. assert (U : ~ usable pton (RChar "m", Some a)). { intros [U _ _]. destruct (U eq_refl) as (t & w & b & [= <-] & Pt' & X). congruence. }
        split; [right; right; exact U|]. do 2 eexists. split; [cbn; rewrite Pt; reflexivity|]. split; [discriminate|]. split; [discriminate|]. intros _. split; auto. exists "m"%char. auto.
    + (* M *) destruct (MsNet.parse_in 1 65535 a) as [n|] eqn:Pi.
      * left. pose proof Pi as Pn. apply MsNetThms.parse_in_iff in Pn as [W R]; [|lia|lia|lia]. eapply F; try discriminate; [cbn; rewrite Pi; reflexivity| |cbn; lia|].
        -- split; cbn; intros; try (intuition discriminate). exists a, (Z.of_N n). auto.
        -- intros l o' [].
      split; cbn in *; rewrite ?given_cons; cbn; try (intuition congruence); try (apply last_other; [discriminate|assumption]); try (eapply number_cons; eassumption); try (apply number_other; [discriminate|assumption]).
           intros _. apply lf_port2. lia.
      * right. assert (U : ~ usable pton (RChar "M", Some a)).
        { intros [_ U _]. destruct (U eq_refl) as (t & v & [= <-] & W & R). assert (X : MsNet.parse_in 1 65535 a = Some (Z.to_N v)); [|congruence]. apply MsNetThms.parse_in_iff; try lia. rewrite Z2N.id by lia. auto. }
        split; [right; right; exact U|]. do 2 eexists. split; [cbn; rewrite Pi; reflexivity|]. split; [discriminate|]. split; [discriminate|]. intros _. split; auto. exists "M"%char. auto.
    + left. eapply F; try reflexivity; try discriminate; [split; cbn; intros; intuition discriminate|exact P|]. intros l o' [].
      split; cbn in *; rewrite ?given_cons; cbn; try (intuition congruence); try (apply last_other; [discriminate|assumption]); try (apply last_same; assumption); try (apply number_other; [discriminate|assumption]).
    + (* t *) destruct (MsNet.parse_in 0 4294967295 a) as [n|] eqn:Pi.
      * left. pose proof Pi as Pn. apply parse_ms in Pn as [W R]. eapply F; try discriminate; [cbn; rewrite Pi; reflexivity| |exact P|].
        -- split; cbn; intros; try (intuition discriminate). exists a, (Z.of_N n). auto.
        -- intros l o' [].
      split; cbn in *; rewrite ?given_cons; cbn; try (intuition congruence); try (apply last_other; [discriminate|assumption]); try (eapply number_cons; eassumption); try (apply number_other; [discriminate|assumption]).
      * right. assert (U : ~ usable pton (RChar "t", Some a)).
        { intros [_ _ U]. destruct (U (or_introl eq_refl)) as (t & v & [= <-] & W & R). assert (X : MsNet.parse_in 0 4294967295 a = Some (Z.to_N v)); [|congruence]. apply parse_ms. rewrite Z2N.id by lia. auto. }
        split; [right; right; exact U|]. do 2 eexists. split; [cbn; rewrite Pi; reflexivity|]. split; [discriminate|]. split; [discriminate|]. intros _. split; auto. exists "t"%char. auto.
    + (* T *) destruct (MsNet.parse_in 0 4294967295 a) as [n|] eqn:Pi.
      * left. pose proof Pi as Pn. apply parse_ms in Pn as [W R]. eapply F; try discriminate; [cbn; rewrite Pi; reflexivity| |exact P|].
        -- split; cbn; intros; try (intuition discriminate). exists a, (Z.of_N n). auto.
        -- intros l o' [].
      split; cbn in *; rewrite ?given_cons; cbn; try (intuition congruence); try (apply last_other; [discriminate|assumption]); try (eapply number_cons; eassumption); try (apply number_other; [discriminate|assumption]).
      * right. assert (U : ~ usable pton (RChar "T", Some a)).
        { intros [_ _ U]. destruct (U (or_intror eq_refl)) as (t & v & [= <-] & W & R). assert (X : MsNet.parse_in 0 4294967295 a = Some (Z.to_N v)); [|congruence]. apply parse_ms. rewrite Z2N.id by lia. auto. }
        split; [right; right; exact U|]. do 2 eexists. split; [cbn; rewrite Pi; reflexivity|]. split; [discriminate|]. split; [discriminate|]. intros _. split; auto. exists "T"%char. auto.
    + left. eapply F; try reflexivity; try discriminate; [split; cbn; intros; intuition discriminate|exact P|]. intros l o' [].
      split; cbn in *; rewrite ?given_cons; cbn; try (intuition congruence); try (apply last_other; [discriminate|assumption]); try (apply last_same; assumption); try (apply number_other; [discriminate|assumption]).
  - repeat destruct I as [<-|I]; try destruct I.
    1-4: left; eapply F; try reflexivity; try discriminate; [split; cbn; intros; intuition discriminate|exact P|]; intros l o' [];
      split; cbn in *; rewrite ?given_cons; cbn; try (intuition congruence); try (apply last_other; [discriminate|assumption]); try (apply number_other; [discriminate|assumption]).
    + right. split; [left; auto|]. do 2 eexists. split; [reflexivity|]. split; auto. split; [discriminate|]. intros U. destruct U. split; cbn; intros; intuition discriminate.
    + right. split; [right; left; auto|]. do 2 eexists. split; [reflexivity|]. split; [discriminate|]. split; auto. intros U. destruct U. split; cbn; intros; intuition discriminate.
Qed.

Lemma port0 : k_port lopts0 <> 0.
Proof. discriminate. Qed.
Lemma options_ok pton l : forall o, Forall (known look_shorts look_longs) l -> k_port o <> 0 -> Forall (fun e => ~ stops pton e) l ->
  exists o', k_port o' <> 0 /\ look_from o l o' /\ forall l2 w, look_options pton o (l ++ l2) w = look_options pton o' l2 w.
Proof.
  induction l as [|e l IH]; intros o K P N.
  - exists o. split; auto. split; auto using look_from_nil.
  - inversion K as [|? ? K1 K2]; subst. inversion N as [|? ? N1 N2]; subst.
    destruct (option_ok pton o e K1 P) as [(o1 & E & _ & P1 & L)|[St _]]; [|tauto].
    destruct (IH o1 K2 P1 N2) as (o' & P' & L' & H). exists o'. split; auto. split; auto. intros l2 w. cbn. rewrite E. apply H.
Qed.
Lemma options_inl pton l : forall o w x, Forall (known look_shorts look_longs) l -> k_port o <> 0 -> look_options pton o l w = inl x -> w <> None /\ Forall (fun e => ~ stops pton e) l.
Proof.
  induction l as [|e l IH]; intros o w x K P E; cbn in E.
  - split; auto. destruct w; [discriminate|discriminate].
  - inversion K as [|? ? K1 K2]; subst.
    destruct (option_ok pton o e K1 P) as [(o1 & E1 & N & P1 & _)|[_ (y & m & E1 & _)]]; rewrite E1 in E; [|discriminate].
    destruct (IH _ _ _ K2 P1 E). auto.
Qed.
Lemma from_asked l o : look_from lopts0 l o -> look_asked l o.
Proof. intros []. cbn in *. split; auto; intuition discriminate. Qed.
Lemma inl_words pton l : forall o w o' ws, look_options pton o l w = inl (o', ws) -> w = Some ws.
Proof.
  induction l as [|e l IH]; intros o w o' ws E; cbn in E.
  - destruct w; [injection E as _ ->; auto|discriminate].
  - destruct (look_option pton o e); [eauto|discriminate].
Qed.
Lemma args_inl e args o ws : look_args e args = inl (o, ws) <->
  exists l, spelled look_shorts look_longs l ws args /\ Forall (fun x => ~ stops (e_pton e) x) l /\ look_asked l o /\ look_options (e_pton e) lopts0 l (Some ws) = inl (o, ws).
Proof.
  unfold look_args. destruct (getopt look_shorts look_longs args) as [l w] eqn:G. split.
  - intros E. pose proof (inl_words _ _ _ _ _ _ E) as ->. apply (getopt_iff _ _ _ _ _ look_tables) in G. exists l. split; auto.
    pose proof (spelled_known _ _ _ _ _ G) as K. destruct (options_inl _ _ _ _ _ K port0 E) as [_ F]. split; auto. split; auto.
    destruct (options_ok _ _ lopts0 K port0 F) as (o' & _ & L & H). specialize (H [] (Some ws)). rewrite app_nil_r in H. rewrite H in E. cbn in E. injection E as <-. apply from_asked; auto.
  - intros (l' & S & F & A & E). apply (getopt_iff _ _ _ _ _ look_tables) in S. rewrite S in G. injection G as <- <-. exact E.
Qed.
Lemma args_accepted e l ws args : spelled look_shorts look_longs l ws args -> Forall (fun x => ~ stops (e_pton e) x) l -> exists o, look_args e args = inl (o, ws) /\ look_asked l o.
Proof.
  intros S F. pose proof (spelled_known _ _ _ _ _ S) as K. destruct (options_ok _ _ lopts0 K port0 F) as (o' & _ & L & H). exists o'. split; [|apply from_asked; auto].
  unfold look_args. rewrite (spelled_getopt _ _ _ _ _ look_tables S). specialize (H [] (Some ws)). rewrite app_nil_r in H. rewrite H. reflexivity.
Qed.
Lemma options_inr pton l : forall o w x m, Forall (known look_shorts look_longs) l -> k_port o <> 0 -> look_options pton o l w = inr (x, m) -> In x [LHelp; LVersion; LBad].
Proof.
  induction l as [|e l IH]; intros o w x m K P E; cbn in E.
  - destruct w; [discriminate|]. injection E as <- _. cbn. auto.
  - inversion K as [|? ? K1 K2]; subst.
    destruct (option_ok pton o e K1 P) as [(o1 & E1 & N & P1 & _)|[St (y & m' & E1 & A & B & C)]]; rewrite E1 in E; [eauto|]. injection E as -> ->.
    destruct St as [H|[H|H]]; [destruct (A H) as [-> _]|destruct (B H) as [-> _]|destruct (C H) as [-> _]]; cbn; auto.
Qed.
