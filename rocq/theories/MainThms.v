(** Proofs for C70. *)
From Verif Require Import Base Upgrade UpgradeSpec UpgradeThms UpgradeThms2 UpgradeThms4 Ctrl Main MainSpec.
Local Open Scope string_scope. Local Open Scope Z_scope.

Lemma prefix_begins p s : prefix p s = true <-> begins p s.
Proof.
  revert s. induction p as [|c p IH]; intros s.
  - split; [exists s; auto|]. destruct s; auto.
  - destruct s as [|d s]; cbn [prefix].
    + split; [discriminate|]. intros [r E]. discriminate.
    + destruct (ascii_dec c d) as [->|N].
      * rewrite IH. split; intros [r E]; exists r; [cbn; congruence|]. cbn in E. congruence.
      * split; [discriminate|]. intros [r E]. cbn in E. congruence.
Qed.
Lemma find_in {A} (f : A -> bool) l x : find f l = Some x -> In x l /\ f x = true.
Proof. apply find_some. Qed.
Lemma filter_single {A} (f : A -> bool) l o : filter f l = [o] -> In o l /\ f o = true /\ forall o', In o' l -> f o' = true -> o' = o.
Proof.
  intros E. assert (I : In o (filter f l)) by (rewrite E; left; auto). apply filter_In in I as [I F]. split; auto. split; auto.
  intros o' I' F'. assert (J : In o' (filter f l)) by (apply filter_In; auto). rewrite E in J. destruct J as [<-|[]]; auto.
Qed.
Lemma find_long_names longs p o : find_long longs p = Some o -> names longs p o.
Proof.
  unfold find_long. destruct (find _ longs) as [y|] eqn:F.
  - intros [= <-]. apply find_in in F as [I E]. apply String.eqb_eq in E. split; auto.
  - destruct (filter _ longs) as [|y [|]] eqn:Fi; try discriminate. intros [= <-]. apply filter_single in Fi as (I & P & U).
    split; auto. right. split; [apply prefix_begins; auto|]. intros o' I' B'. apply U; auto. apply prefix_begins; auto.
Qed.
Lemma begins_refl s : begins s s.
Proof. exists "". induction s; cbn; congruence. Qed.
Lemma filter_nodup_single {A} (f : A -> bool) l o : NoDup l -> In o l -> f o = true -> (forall o', In o' l -> f o' = true -> o' = o) -> filter f l = [o].
Proof.
  intros N I F U. destruct (filter f l) as [|a [|b m]] eqn:E.
  - assert (J : In o (filter f l)) by (apply filter_In; auto). rewrite E in J. destruct J.
  - assert (J : In o (filter f l)) by (apply filter_In; auto). rewrite E in J. destruct J as [->|[]]; auto.
  - exfalso. assert (Na : NoDup (filter f l)) by (apply NoDup_filter; auto). rewrite E in Na. inversion Na as [|? ? X _]; subst. apply X.
    assert (Ia : In a (filter f l)) by (rewrite E; left; auto). assert (Ib : In b (filter f l)) by (rewrite E; right; left; auto).
    apply filter_In in Ia as [? ?], Ib as [? ?]. left. transitivity o; [|symmetry]; apply U; auto.
Qed.
(** the tables that a program uses: no two options alike, no dash *)
Record tables (shorts : list (ascii * bool)) (longs : list lopt) : Prop := {
  tb_short : NoDup (map fst shorts); tb_long : NoDup (map lo_name longs); tb_dash : forall b, ~ In ("-"%char, b) shorts }.
Lemma names_find longs p o : NoDup (map lo_name longs) -> names longs p o -> find_long longs p = Some o.
Proof.
  intros N [I H]. unfold find_long. destruct (find _ longs) as [y|] eqn:F.
  - apply find_in in F as [J E]. apply String.eqb_eq in E. f_equal. destruct H as [H|[_ U]].
    + revert I J H E N. clear. intros I J H E N. induction longs as [|a l IH]; [destruct I|]. cbn in N. inversion N as [|? ? X Y]; subst.
      destruct I as [<-|I], J as [<-|J]; auto; exfalso; apply X; [rewrite <- E|rewrite E]; apply in_map; auto.
    + apply U; auto. rewrite E. apply begins_refl.
  - destruct H as [H|[B U]].
    + pose proof (find_none _ _ F o I) as X. cbn in X. rewrite H, String.eqb_refl in X. discriminate.
    + rewrite (filter_nodup_single _ _ o); auto; [eapply NoDup_map_inv; eauto|apply prefix_begins; auto|]. intros o' I' B'. apply U; auto. apply prefix_begins; auto.
Qed.
Lemma split_eq_none p : without_eq p -> split_eq p = (p, None).
Proof.
  induction p as [|c p IH]; intros H; auto. cbn [split_eq]. destruct (Ascii.eqb_spec c "=") as [->|N]; [destruct (H 0%nat); reflexivity|].
  rewrite IH; auto. intros i. apply (H (S i)).
Qed.
Lemma split_eq_some p v : without_eq p -> split_eq (p ++ "=" ++ v) = (p, Some v).
Proof.
  induction p as [|c p IH]; intros H; auto. cbn [append split_eq]. destruct (Ascii.eqb_spec c "=") as [->|N]; [destruct (H 0%nat); reflexivity|].
  change (p ++ String "=" v) with (p ++ "=" ++ v). rewrite IH; auto. intros i. apply (H (S i)).
Qed.
Lemma split_eq_inv s p v : split_eq s = (p, v) -> without_eq p /\ s = match v with None => p | Some v => p ++ "=" ++ v end.
Proof.
  revert p v. induction s as [|c s IH]; intros p v; cbn [split_eq].
  - intros [= <- <-]. split; auto. intros [|i]; discriminate.
  - destruct (Ascii.eqb_spec c "=") as [->|N].
    + intros [= <- <-]. split; [intros [|i]; discriminate|reflexivity].
    + destruct (split_eq s) as [a w] eqn:E. intros [= <- <-]. destruct (IH _ _ eq_refl) as [A ->]. split.
      * intros [|i]; cbn; [congruence|apply A].
      * destruct w; reflexivity.
Qed.
Lemma short_find shorts c b : NoDup (map fst shorts) -> In (c, b) shorts -> find (fun x : ascii * bool => (fst x =? c)%char) shorts = Some (c, b).
Proof.
  induction shorts as [|[c' b'] l IH]; intros N []; cbn [find fst].
  - injection H as -> ->. rewrite Ascii.eqb_refl. reflexivity.
  - inversion N as [|? ? X Y]; subst. destruct (Ascii.eqb_spec c' c) as [->|]; auto. destruct X. apply (in_map fst) in H. exact H.
Qed.
Lemma cluster_flags shorts cs s : NoDup (map fst shorts) -> (forall c, In c cs -> In (c, false) shorts) ->
  cluster shorts (str_of cs ++ s) = (map (fun c => (RChar c, None)) cs ++ fst (cluster shorts s), snd (cluster shorts s))%list.
Proof.
  intros N. induction cs as [|c cs IH]; intros H; [cbn; destruct (cluster _ _); auto|]. cbn [str_of append cluster]. rewrite (short_find shorts c false) by (auto; apply H; left; auto).
  rewrite IH by (intros; apply H; right; auto). reflexivity.
Qed.
Lemma cluster_inv shorts s l e : cluster shorts s = (l, e) -> e <> None ->
  exists cs, (forall c, In c cs -> In (c, false) shorts) /\
    ((e = Some None /\ s = str_of cs /\ l = map (fun c => (RChar c, None)) cs) \/
     (exists c v, In (c, true) shorts /\ v <> "" /\ e = Some None /\ s = str_of cs ++ String c v /\ l = (map (fun c => (RChar c, None)) cs ++ [(RChar c, Some v)])%list) \/
     (exists c, In (c, true) shorts /\ e = Some (Some c) /\ s = str_of cs ++ String c "" /\ l = map (fun c => (RChar c, None)) cs)).
Proof.
  revert l e. induction s as [|c s IH]; intros l e; cbn [cluster].
  - intros [= <- <-] _. exists []. split; [intros ? []|]. left. auto.
  - destruct (find _ shorts) as [[c' b]|] eqn:F; [|intros [= <- <-] X; tauto]. apply find_in in F as [I E]. cbn in E. apply Ascii.eqb_eq in E. subst c'. destruct b.
    + destruct s as [|d s].
      * intros [= <- <-] _. exists []. split; [intros ? []|]. right; right. exists c. auto.
      * intros [= <- <-] _. exists []. split; [intros ? []|]. right; left. exists c, (String d s). repeat split; auto. discriminate.
    + destruct (cluster shorts s) as [l0 e0] eqn:Cl. intros [= <- <-] Ne. destruct (IH _ _ eq_refl Ne) as (cs & A & B). exists (c :: cs). split; [intros x [<-|X]; auto|].
      destruct B as [(-> & -> & ->)|[(x & v & B1 & B2 & -> & -> & ->)|(x & B1 & -> & -> & ->)]].
      * left. auto.
      * right; left. exists x, v. auto.
      * right; right. exists x. auto.
Qed.
Lemma append_nil_r s : s ++ "" = s.
Proof. induction s; cbn; congruence. Qed.
Lemma append_assoc a b c : (a ++ b) ++ c = a ++ b ++ c.
Proof. induction a; cbn; congruence. Qed.

(** the four kinds of words *)
Lemma getopt_word shorts longs w args : plain_word w -> getopt shorts longs (w :: args) = (fst (getopt shorts longs args), option_map (cons w) (snd (getopt shorts longs args))).
Proof.
  intros [->|[->|(c & r & -> & N)]]; cbn [getopt]; try (destruct (getopt shorts longs args); reflexivity).
  destruct c as [[] [] [] [] [] [] [] []]; try (destruct N; reflexivity); destruct (getopt shorts longs args); reflexivity.
Qed.
Lemma getopt_long shorts longs s rest : s <> "" -> getopt shorts longs (("--" ++ s) :: rest) =
  let '(p, v) := split_eq s in
  match find_long longs p with
  | None => ([], None)
  | Some o =>
      if lo_arg o then
        match v, rest with
        | Some v, _ => let '(l, w) := getopt shorts longs rest in ((lo_ret o, Some v) :: l, w)
        | None, v :: rest' => let '(l, w) := getopt shorts longs rest' in ((lo_ret o, Some v) :: l, w)
        | None, [] => ([], None)
        end
      else
        match v with
        | Some _ => ([], None)
        | None => let '(l, w) := getopt shorts longs rest in ((lo_ret o, None) :: l, w)
        end
  end.
Proof. destruct s as [|c s]; [tauto|]. intros _. reflexivity. Qed.
Lemma getopt_short shorts longs c s rest : c <> "-"%char -> getopt shorts longs (String "-" (String c s) :: rest) =
  let '(l0, e) := cluster shorts (String c s) in
  match e, rest with
  | None, _ => (l0, None)
  | Some None, _ => let '(l, w) := getopt shorts longs rest in ((l0 ++ l)%list, w)
  | Some (Some c), v :: rest' => let '(l, w) := getopt shorts longs rest' in ((l0 ++ (RChar c, Some v) :: l)%list, w)
  | Some (Some _), [] => (l0, None)
  end.
Proof. intros N. destruct c as [[] [] [] [] [] [] [] []]; try (destruct N; reflexivity); reflexivity. Qed.
Lemma word_cases w : plain_word w \/ w = "--" \/ (exists s, s <> "" /\ w = "--" ++ s) \/ exists c s, c <> "-"%char /\ w = String "-" (String c s).
Proof.
  destruct w as [|a w]; [left; left; auto|]. destruct (Ascii.ascii_dec a "-") as [->|N]; [|left; right; right; eauto].
  destruct w as [|b w]; [left; right; left; auto|]. destruct (Ascii.ascii_dec b "-") as [->|N]; [|right; right; right; eauto].
  destruct w as [|c w]; [auto|]. right; right; left. exists (String c w). split; auto. discriminate.
Qed.

(** whatever is spelled is understood, and what follows is looked at in turn *)
Lemma spells_getopt shorts longs l ws a b : tables shorts longs -> spells shorts longs l ws a ->
  getopt shorts longs (a ++ b) = ((l ++ fst (getopt shorts longs b))%list, option_map (app ws) (snd (getopt shorts longs b))).
Proof.
  intros T H. induction H as [|w l ws a W _ IH|p o l ws a P E N A _ IH|p o v l ws a E N A _ IH|p o v l ws a P E N A _ IH|cs l ws a C F _ IH|cs c v l ws a F I V _ IH|cs c v l ws a F I _ IH];
    cbn [List.app].
  - destruct (getopt shorts longs b) as [x [y|]]; reflexivity.
  - rewrite getopt_word, IH by auto. destruct (getopt shorts longs b) as [x [y|]]; reflexivity.
  - rewrite getopt_long, split_eq_none, (names_find longs p o), A, IH by (auto; apply T). reflexivity.
  - rewrite getopt_long, split_eq_some, (names_find longs p o), A, IH by (auto; try apply T; destruct p; discriminate). reflexivity.
  - rewrite getopt_long, split_eq_none, (names_find longs p o), A, IH by (auto; apply T). reflexivity.
  - destruct cs as [|c cs]; [tauto|]. assert (c <> "-"%char) by (intros ->; apply (tb_dash _ _ T false), F; left; auto).
    cbn [str_of append]. rewrite getopt_short by auto. change (String c (str_of cs)) with (str_of (c :: cs)). rewrite <- (append_nil_r (str_of (c :: cs))).
    rewrite cluster_flags by (auto; apply T). cbn [cluster fst snd]. rewrite IH, app_nil_r, app_assoc. reflexivity.
  - assert (exists d s, d <> "-"%char /\ str_of cs ++ String c v = String d s) as (d & s & D & E).
    { destruct cs as [|d cs]; cbn; eexists _, _; (split; [|reflexivity]); intros ->; [apply (tb_dash _ _ T true); auto|apply (tb_dash _ _ T false), F; left; auto]. }
    rewrite E. cbn [append]. rewrite getopt_short, <- E, cluster_flags by (auto; apply T). cbn [cluster]. rewrite (short_find shorts c true) by (auto; apply T).
    destruct v as [|v0 v]; [tauto|]. cbn [fst snd]. rewrite IH, <- !app_assoc. reflexivity.
  - assert (exists d s, d <> "-"%char /\ str_of cs ++ String c "" = String d s) as (d & s & D & E).
    { destruct cs as [|d cs]; cbn; eexists _, _; (split; [|reflexivity]); intros ->; [apply (tb_dash _ _ T true); auto|apply (tb_dash _ _ T false), F; left; auto]. }
    rewrite E. cbn [append]. rewrite getopt_short, <- E, cluster_flags by (auto; apply T). cbn [cluster]. rewrite (short_find shorts c true) by (auto; apply T).
    cbn [fst snd]. rewrite IH, app_nil_r, <- app_assoc. reflexivity.
Qed.
Lemma getopt_end shorts longs ws : getopt shorts longs ("--" :: ws) = ([], Some ws).
Proof. reflexivity. Qed.
Lemma spelled_getopt shorts longs l ws args : tables shorts longs -> spelled shorts longs l ws args -> getopt shorts longs args = (l, Some ws).
Proof.
  intros T [H|(ws1 & ws2 & a & -> & -> & H)].
  - pose proof (spells_getopt shorts longs l ws args [] T H) as E. cbn in E. rewrite !app_nil_r in E. exact E.
  - rewrite (spells_getopt shorts longs l ws1 a _ T H), getopt_end. cbn. rewrite app_nil_r. reflexivity.
Qed.

(** putting something before *)
Lemma spelled_map shorts longs f g (x : list string) l ws args :
  (forall l ws a, spells shorts longs l ws a -> spells shorts longs (f l) (g ++ ws)%list (x ++ a)%list) ->
  spelled shorts longs l ws args -> spelled shorts longs (f l) (g ++ ws)%list (x ++ args)%list.
Proof.
  intros H [K|(ws1 & ws2 & a & -> & -> & K)]; [left; auto|]. right. exists (g ++ ws1)%list, ws2, (x ++ a)%list. split; [apply app_assoc|]. split; [apply app_assoc|auto].
Qed.
Lemma getopt_spelled shorts longs n : forall args l ws, (length args <= n)%nat -> getopt shorts longs args = (l, Some ws) -> spelled shorts longs l ws args.
Proof.
  induction n as [|n IH]; intros args l ws L E.
  { destruct args; [|cbn in L; lia]. injection E as <- <-. left. constructor. }
  destruct args as [|w rest]; [injection E as <- <-; left; constructor|]. cbn in L.
  destruct (word_cases w) as [W|[->|[(s & S0 & ->)|(c & s & C & ->)]]].
  - rewrite getopt_word in E by auto. destruct (getopt shorts longs rest) as [l1 [w1|]] eqn:G; [|discriminate]. cbn in E. injection E as <- <-.
    apply (spelled_map shorts longs (fun l => l) [w] [w]); [intros; constructor; auto|]. apply IH; auto. lia.
  - injection E as <- <-. right. exists [], rest, []. repeat split. constructor.
  - rewrite getopt_long in E by auto. destruct (split_eq s) as [p v] eqn:Sp. apply split_eq_inv in Sp as [Ne Es].
    destruct (find_long longs p) as [o|] eqn:F; [|discriminate]. apply find_long_names in F. destruct (lo_arg o) eqn:A.
    + destruct v as [v|].
      * destruct (getopt shorts longs rest) as [l1 [w1|]] eqn:G; [|discriminate]. injection E as <- <-. subst s.
        apply (spelled_map shorts longs (fun l => (lo_ret o, Some v) :: l) [] ["--" ++ p ++ "=" ++ v]); [intros; constructor; auto|]. apply IH; auto. lia.
      * destruct rest as [|v rest']; [discriminate|]. destruct (getopt shorts longs rest') as [l1 [w1|]] eqn:G; [|discriminate]. injection E as <- <-. subst s.
        apply (spelled_map shorts longs (fun l => (lo_ret o, Some v) :: l) [] ["--" ++ p; v]); [intros; apply sp_long_next; auto|]. apply IH; auto. cbn in L. lia.
    + destruct v as [v|]; [discriminate|]. destruct (getopt shorts longs rest) as [l1 [w1|]] eqn:G; [|discriminate]. injection E as <- <-. subst s.
      apply (spelled_map shorts longs (fun l => (lo_ret o, None) :: l) [] ["--" ++ p]); [intros; constructor; auto|]. apply IH; auto. lia.
  - rewrite getopt_short in E by auto. destruct (cluster shorts (String c s)) as [l0 e] eqn:Cl. assert (Ne : e <> None) by (intros ->; discriminate).
    destruct (cluster_inv _ _ _ _ Cl Ne) as (cs & F & [(-> & Es & ->)|[(d & v & D & V & -> & Es & ->)|(d & D & -> & Es & ->)]]).
    + destruct (getopt shorts longs rest) as [l1 [w1|]] eqn:G; [|discriminate]. injection E as <- <-. rewrite Es.
      apply (spelled_map shorts longs (fun l => map (fun c => (RChar c, None)) cs ++ l)%list [] ["-" ++ str_of cs]); [intros; constructor; auto; intros ->; discriminate|]. apply IH; auto. lia.
    + destruct (getopt shorts longs rest) as [l1 [w1|]] eqn:G; [|discriminate]. injection E as <- <-. rewrite Es, <- app_assoc.
      apply (spelled_map shorts longs (fun l => map (fun c => (RChar c, None)) cs ++ (RChar d, Some v) :: l)%list [] ["-" ++ str_of cs ++ String d v]); [intros; constructor; auto|]. apply IH; auto. lia.
    + destruct rest as [|v rest']; [discriminate|]. destruct (getopt shorts longs rest') as [l1 [w1|]] eqn:G; [|discriminate]. injection E as <- <-. rewrite Es.
      apply (spelled_map shorts longs (fun l => map (fun c => (RChar c, None)) cs ++ (RChar d, Some v) :: l)%list [] ["-" ++ str_of cs ++ String d ""; v]); [intros; constructor; auto|]. apply IH; auto. cbn in L. lia.
Qed.
Lemma getopt_iff shorts longs l ws args : tables shorts longs -> (getopt shorts longs args = (l, Some ws) <-> spelled shorts longs l ws args).
Proof. intros T. split; [apply (getopt_spelled shorts longs (length args)); auto|apply spelled_getopt; auto]. Qed.

(** ** osmo-hlr *)
Lemma hlr_tables : tables hlr_shorts hlr_longs.
Proof.
  split; [|  |intros [] H; cbn in H; intuition discriminate].
  - cbn. repeat (constructor; [cbn; intuition discriminate|]). constructor.
  - cbn. repeat (constructor; [cbn; intuition discriminate|]). constructor.
Qed.
Lemma tool_tables : tables tool_shorts tool_longs.
Proof.
  split; [|  |intros [] H; cbn in H; intuition discriminate].
  - cbn. repeat (constructor; [cbn; intuition discriminate|]). constructor.
  - cbn. repeat (constructor; [cbn; intuition discriminate|]). constructor.
Qed.
(** options come from the tables, and have an argument if they say so *)
Definition known (shorts : list (ascii * bool)) (longs : list lopt) (e : gev) : Prop :=
  (exists c, In (c, match snd e with Some _ => true | None => false end) shorts /\ fst e = RChar c) \/
  exists o, In o longs /\ fst e = lo_ret o /\ lo_arg o = match snd e with Some _ => true | None => false end.
Lemma known_flags shorts longs cs : (forall c, In c cs -> In (c, false) shorts) -> Forall (known shorts longs) (map (fun c => (RChar c, None)) cs).
Proof. intros F. apply Forall_map, Forall_forall. intros c I. left. exists c. auto. Qed.
Lemma spells_known shorts longs l ws a : spells shorts longs l ws a -> Forall (known shorts longs) l.
Proof.
  intros H. induction H as [|w l ws a W _ IH|p o l ws a P E N A _ IH|p o v l ws a E N A _ IH|p o v l ws a P E N A _ IH|cs l ws a C F _ IH|cs c v l ws a F I V _ IH|cs c v l ws a F I _ IH]; auto.
  - constructor; auto. right. exists o. destruct N. auto.
  - constructor; auto. right. exists o. destruct N. auto.
  - constructor; auto. right. exists o. destruct N. auto.
  - apply Forall_app. split; auto using known_flags.
  - apply Forall_app. split; auto using known_flags. constructor; auto. left. exists c. auto.
  - apply Forall_app. split; auto using known_flags. constructor; auto. left. exists c. auto.
Qed.
Lemma spelled_known shorts longs l ws a : spelled shorts longs l ws a -> Forall (known shorts longs) l.
Proof. intros [H|(? & ? & ? & _ & _ & H)]; eapply spells_known; eauto. Qed.
Lemma known_hlr e : known hlr_shorts hlr_longs e ->
  (exists v, In (fst e) (map RChar ["c"; "l"; "d"; "e"]%char) /\ snd e = Some v) \/ (In (fst e) (map RChar ["h"; "D"; "s"; "T"; "U"; "C"; "V"]%char) /\ snd e = None) \/
  (exists v, e = (RFlag 1, Some v)) \/ e = (RFlag 2, None).
Proof.
  destruct e as [r v]. intros [(c & I & E)|(o & I & E & A)]; cbn [fst snd] in *.
  - subst r. destruct v as [v|]; cbn in I; repeat destruct I as [I|I]; try discriminate; try injection I as <-; try destruct I; cbn; eauto 12.
  - cbn in I. repeat destruct I as [<-|I]; try destruct I; cbn in E, A; subst r; destruct v as [v|]; try discriminate; cbn; eauto 14.
Qed.

Lemma given_cons e l c : given (e :: l) c <-> fst e = RChar c \/ given l c.
Proof.
  split.
  - intros [v [->|I]]; [left; reflexivity|right; exists v; auto].
  - destruct e as [r w]. intros [E|[v I]]; [cbn in E; subst r; exists w; left; auto|exists v; right; auto].
Qed.
Lemma given_nil c : ~ given [] c.
Proof. intros [v []]. Qed.
Lemma given_dec l c : given l c \/ ~ given l c.
Proof.
  induction l as [|[r v] l IH]; [right; apply given_nil|]. rewrite given_cons. cbn. destruct r as [d|n].
  - destruct (Ascii.ascii_dec d c) as [->|N]; [tauto|]. destruct IH; [tauto|]. right. intros [E|E]; [congruence|tauto].
  - destruct IH; [tauto|]. right. intros [E|E]; [congruence|tauto].
Qed.
Lemma last_same l c v d x : last_given l c (Some v) x -> last_given ((RChar c, Some v) :: l) c d x.
Proof.
  intros [[N ->]|(l1 & w & l2 & -> & N & V & ->)]; right.
  - exists [], (Some v), l. repeat split; auto. discriminate.
  - exists ((RChar c, Some v) :: l1), w, l2. auto.
Qed.
Lemma last_other e l c d x : fst e <> RChar c -> last_given l c d x -> last_given (e :: l) c d x.
Proof.
  intros E [[N ->]|(l1 & w & l2 & -> & N & V & ->)]; [left|right].
  - split; auto. rewrite given_cons. tauto.
  - exists (e :: l1), w, l2. auto.
Qed.

Record asked_from (o : hopts) (l : list gev) (o' : hopts) : Prop := {
  af_config : last_given l "c"%char (Some (o_config o)) (Some (o_config o'));
  af_db : last_given l "l"%char (o_db o) (o_db o');
  af_daemon : o_daemon o' = true <-> o_daemon o = true \/ given l "D"%char;
  af_upgrade : o_upgrade o' = true <-> o_upgrade o = true \/ given l "U"%char;
  af_check : o_check o' = true <-> o_check o = true \/ given l "C"%char;
  af_debug : exists x, o_debug o' = (o_debug o ++ x)%list /\ all_given "d"%char l x;
  af_color : o_color o' = false <-> o_color o = false \/ given l "s"%char;
  af_level : exists x, last_given l "e"%char None x /\ o_level o' = match x with Some v => Some (atoi v) | None => o_level o end;
  af_time : o_time o' = true <-> o_time o = true \/ given l "T"%char }.
Lemma hlr_options_asked modes l : forall o w o', Forall (known hlr_shorts hlr_longs) l -> hlr_options modes o l w = inl o' ->
  w = Some [] /\ Forall (fun e => ~ ends modes e) l /\ asked_from o l o'.
Proof.
  induction l as [|e l IH]; intros o w o' K E; cbn [hlr_options] in E.
  - destruct w as [[|]|]; try discriminate. injection E as <-. split; auto. split; auto. split; try (left; split; auto; apply given_nil); try (pose proof (given_nil "D"); pose proof (given_nil "U"); pose proof (given_nil "C"); pose proof (given_nil "s"); pose proof (given_nil "T"); tauto).
    + exists []. rewrite app_nil_r. split; auto. constructor.
    + exists None. split; auto. left. split; auto. apply given_nil.
  - inversion K as [|? ? K1 K2]; subst. destruct (hlr_option modes o e) as [o1|x] eqn:O; [|discriminate].
    destruct (IH _ _ _ K2 E) as (W & Fo & A). split; auto. apply known_hlr in K1.
    destruct o as [cf db dm up ck dbg col lev tim mode]. destruct A as [A1 A2 A3 A4 A5 (x6 & A6 & B6) A7 (x8 & A8 & B8) A9].
    assert (H : ~ ends modes e /\ asked_from (mk_hopts cf db dm up ck dbg col lev tim mode) (e :: l) o'); [|destruct H; split; auto].
    destruct e as [r v]. cbn [fst snd] in K1. destruct K1 as [(a & I & ->)|[(I & ->)|[(a & [= -> ->])|[= -> ->]]]].
    + cbn in I. repeat destruct I as [<-|I]; try destruct I; cbn in O; injection O as <-; cbn in *; (split; [unfold ends; cbn; intuition congruence|]); split; cbn [o_config o_db o_daemon o_upgrade o_check o_debug o_color o_level o_time];
        try (apply last_other; [cbn; discriminate|assumption]); try (apply last_same; assumption); try (rewrite given_cons; cbn [fst]; intuition congruence);
        try (exists x6; split; [assumption|apply ag_other; [cbn; discriminate|assumption]]);
        try (exists x8; split; [apply last_other; [cbn; discriminate|assumption]|assumption]).
      * exists (a :: x6). rewrite A6, <- app_assoc. split; auto. constructor; auto.
      * destruct A8 as [[N ->]|(l1 & w1 & l2 & -> & N & V & ->)].
        -- exists (Some a). split; auto. apply last_same. left; auto.
        -- exists w1. split; auto; [right; exists ((RChar "e"%char, Some a) :: l1)%list, w1, l2; auto|]. destruct w1; [auto|tauto].
    + cbn in I. repeat destruct I as [<-|I]; try destruct I; cbn in O; try discriminate; injection O as <-; cbn in *; (split; [unfold ends; cbn; intuition congruence|]); split; cbn [o_config o_db o_daemon o_upgrade o_check o_debug o_color o_level o_time];
        try (apply last_other; [cbn; discriminate|assumption]); try (rewrite given_cons; cbn [fst]; intuition congruence);
        try (exists x6; split; [assumption|apply ag_other; [cbn; discriminate|assumption]]);
        try (exists x8; split; [apply last_other; [cbn; discriminate|assumption]|assumption]).
    + cbn in O. destruct (modes a <? 0) eqn:M; [discriminate|]. injection O as <-. apply Z.ltb_ge in M. cbn in *. split; [unfold ends; cbn; intros [X|[X|[X|[X (v & [= <-] & X2)]]]]; try discriminate; lia|]. split; cbn [o_config o_db o_daemon o_upgrade o_check o_debug o_color o_level o_time];
        try (apply last_other; [cbn; discriminate|assumption]); try (rewrite given_cons; cbn [fst]; intuition congruence);
        try (exists x6; split; [assumption|apply ag_other; [cbn; discriminate|assumption]]);
        try (exists x8; split; [apply last_other; [cbn; discriminate|assumption]|assumption]).
    + discriminate.
Qed.
Lemma mode_cons modes e l d d' m : mode_named modes l d' m -> (fst e <> RFlag 1 /\ d' = d) \/ (exists v, e = (RFlag 1, Some v) /\ d' = modes v) -> mode_named modes (e :: l) d m.
Proof.
  intros [[N ->]|(l1 & v & l2 & -> & N & ->)].
  - intros [[E ->]|(v & -> & ->)].
    + left. split; auto. intros x [<-|X]; auto.
    + right. exists [], v, l. auto.
  - intros _. right. exists (e :: l1), v, l2. auto.
Qed.
Lemma hlr_options_ok modes l : forall o, Forall (known hlr_shorts hlr_longs) l -> Forall (fun e => ~ ends modes e) l ->
  exists o', mode_named modes l (o_mode o) (o_mode o') /\ forall l2 w, hlr_options modes o (l ++ l2) w = hlr_options modes o' l2 w.
Proof.
  induction l as [|e l IH]; intros o K N; [exists o; split; auto; left; split; auto; intros ? []|]. inversion K as [|? ? K1 K2]; subst. inversion N as [|? ? N1 N2]; subst.
  assert (exists o1, hlr_option modes o e = inl o1 /\ ((fst e <> RFlag 1 /\ o_mode o1 = o_mode o) \/ (exists v, e = (RFlag 1, Some v) /\ o_mode o1 = modes v))) as (o1 & E & M).
  { apply known_hlr in K1. destruct o as [cf db dm up ck dbg col lev tim mode]. destruct e as [r v]. cbn [fst snd] in K1. destruct K1 as [(a & I & ->)|[(I & ->)|[(a & [= -> ->])|[= -> ->]]]].
    - cbn in I. repeat destruct I as [<-|I]; try destruct I; cbn; eexists; (split; [reflexivity|]); left; (split; [discriminate|reflexivity]).
    - cbn in I. repeat destruct I as [<-|I]; try destruct I; cbn; try (exfalso; apply N1; unfold ends; cbn; auto; fail); eexists; (split; [reflexivity|]); left; (split; [discriminate|reflexivity]).
    - cbn. destruct (Z.ltb_spec (modes a) 0); [exfalso; apply N1; unfold ends; cbn; eauto 8|]. eexists. split; [reflexivity|]. right. exists a. auto.
    - exfalso. apply N1. unfold ends; cbn; auto. }
  destruct (IH o1 K2 N2) as (o' & M' & H). exists o'. split; [eapply mode_cons; eauto|]. intros l2 w. cbn [List.app hlr_options]. rewrite E. apply H.
Qed.
Lemma handle_settings modes args o : hlr_handle_options modes args = inl o ->
  exists l, spelled hlr_shorts hlr_longs l [] args /\ Forall (fun e => ~ ends modes e) l /\ asked l o.
Proof.
  unfold hlr_handle_options. destruct (getopt hlr_shorts hlr_longs args) as [l w] eqn:G. intros E.
  assert (W : w = Some []).
  { clear G. revert E. generalize hopts0. induction l as [|e l IH]; cbn; intros o1; [destruct w as [[|]|]; try discriminate; auto|]. destruct (hlr_option modes o1 e); [apply IH|discriminate]. }
  subst w. apply (getopt_iff _ _ _ _ _ hlr_tables) in G. exists l. split; auto. destruct (hlr_options_asked _ _ _ _ _ (spelled_known _ _ _ _ _ G) E) as (_ & F & [A1 A2 A3 A4 A5 (x6 & A6 & B6) A7 (x8 & A8 & B8) A9]).
  split; auto. cbn in *. split; auto; try (intuition congruence).
  exists x8. split; auto.
Qed.
Lemma spelled_unique shorts longs l1 w1 l2 w2 args : tables shorts longs -> spelled shorts longs l1 w1 args -> spelled shorts longs l2 w2 args -> l1 = l2 /\ w1 = w2.
Proof. intros T A B. apply (spelled_getopt _ _ _ _ _ T) in A, B. rewrite A in B. injection B. auto. Qed.
Lemma handle_accepts modes l args : spelled hlr_shorts hlr_longs l [] args -> Forall (fun e => ~ ends modes e) l -> exists o, hlr_handle_options modes args = inl o.
Proof.
  intros S N. unfold hlr_handle_options. rewrite (spelled_getopt _ _ _ _ _ hlr_tables S). destruct (hlr_options_ok modes l hopts0 (spelled_known _ _ _ _ _ S) N) as (o' & _ & H).
  exists o'. specialize (H [] (Some [])). rewrite app_nil_r in H. exact H.
Qed.
Lemma handle_ends modes l e l2 ws a b : spells hlr_shorts hlr_longs (l ++ e :: l2) ws a -> Forall (fun e => ~ ends modes e) l -> ends modes e ->
  exists x, hlr_handle_options modes (a ++ b) = inr x /\ (fst e = RChar "h" -> x = EHelp) /\ (fst e = RChar "V" -> x = EVersion) /\
    (fst e = RFlag 2 -> exists m, x = EXml m /\ mode_named modes l 0 m) /\ (fst e = RFlag 1 -> x = EMode).
Proof.
  intros S N E. unfold hlr_handle_options. rewrite (spells_getopt _ _ _ _ _ _ hlr_tables S). pose proof (spells_known _ _ _ _ _ S) as K. apply Forall_app in K as [K1 K2]. inversion K2 as [|? ? K3 _]; subst.
  destruct (hlr_options_ok modes l hopts0 K1 N) as (o' & M0 & H). change (o_mode hopts0) with 0 in M0. rewrite <- app_assoc, H. cbn [List.app hlr_options].
  destruct o' as [cf db dm up ck dbg col lev tim mode]. destruct e as [r v]. destruct E as [E|[E|[E|[E (x & X & M)]]]]; cbn in *; subst.
  - cbn. eexists. split; [reflexivity|]. intuition congruence.
  - cbn. eexists. split; [reflexivity|]. intuition congruence.
  - cbn. eexists. split; [reflexivity|]. repeat split; intros; try discriminate. eauto.
  - cbn. apply Z.ltb_lt in M. rewrite M. eexists. split; [reflexivity|]. intuition congruence.
Qed.

Lemma asked_name l o path n : asked l o -> n = match o_db o with Some n => n | None => opt_default DB_PATH path end -> db_name l path n.
Proof.
  intros A ->. unfold db_name. destruct (ak_db _ _ A) as [[N E]|(l1 & v & l2 & E1 & N & V & E)].
  - rewrite E. left. split; auto. destruct path; reflexivity.
  - rewrite E. right. exists l1, v, l2. destruct v; [auto|tauto].
Qed.
(** what a run looks like *)
Inductive run_of (e : menv) (o : hopts) (k : disk) (n : string) : list act -> disk -> ending -> Prop :=
| ro_config : fst (e_config e (o_config o)) < 0 -> run_of e o k n [AConfig (o_config o)] k (EConfig (fst (e_config e (o_config o))))
| ro_rand : e_rand e < 0 -> run_of e o k n [AConfig (o_config o)] k ERandom
| ro_open r x : db_open (o_upgrade o) (e_fates e) (k n) = r -> is_open r = false -> x = EDb \/ x = EDied ->
    run_of e o k n [AConfig (o_config o); AOpen n (o_upgrade o)] (disk_set k n (op_file r)) x
| ro_check f : db_open (o_upgrade o) (e_fates e) (k n) = Opened f -> o_check o = true ->
    run_of e o k n [AConfig (o_config o); AOpen n (o_upgrade o); AClose] (disk_set k n f) EChecked
| ro_telnet f : db_open (o_upgrade o) (e_fates e) (k n) = Opened f -> o_check o = false -> e_telnet e < 0 ->
    run_of e o k n [AConfig (o_config o); AOpen n (o_upgrade o); ATelnet] (disk_set k n f) (ETelnet (e_telnet e))
| ro_gsup f : db_open (o_upgrade o) (e_fates e) (k n) = Opened f -> o_check o = false -> e_gsup e = false ->
    run_of e o k n [AConfig (o_config o); AOpen n (o_upgrade o); ATelnet; AGsup] (disk_set k n f) EGsup
| ro_fork f : db_open (o_upgrade o) (e_fates e) (k n) = Opened f -> o_check o = false -> o_daemon o = true -> e_daemon e < 0 ->
    run_of e o k n [AConfig (o_config o); AOpen n (o_upgrade o); ATelnet; AGsup; ACtrl; ADgsm; AFork] (disk_set k n f) EFork
| ro_serve f : db_open (o_upgrade o) (e_fates e) (k n) = Opened f -> o_check o = false -> 0 <= fst (e_config e (o_config o)) -> 0 <= e_rand e -> 0 <= e_telnet e -> e_gsup e = true -> (o_daemon o = true -> 0 <= e_daemon e) ->
    run_of e o k n ([AConfig (o_config o); AOpen n (o_upgrade o); ATelnet; AGsup; ACtrl; ADgsm] ++ (if o_daemon o then [AFork] else []) ++ [AServe; AClose])%list (disk_set k n f) EStopped.
Lemma main_run e args k acts k' x : hlr_main e args k = (acts, k', x) ->
  (exists y, hlr_handle_options (e_modes e) args = inr y /\ acts = [] /\ k' = k /\ x = y) \/
  exists l o n, hlr_handle_options (e_modes e) args = inl o /\ spelled hlr_shorts hlr_longs l [] args /\ asked l o /\ db_name l (snd (e_config e (o_config o))) n /\ run_of e o k n acts k' x.
Proof.
  unfold hlr_main. destruct (hlr_handle_options (e_modes e) args) as [o|y] eqn:H; [|intros [= <- <- <-]; left; eauto].
  intros E. right. destruct (handle_settings _ _ _ H) as (l & S & _ & A). destruct (e_config e (o_config o)) as [rc path] eqn:C. cbn [snd].
  exists l, o, (match o_db o with Some n => n | None => opt_default DB_PATH path end). split; auto. split; auto. split; auto. split; [eapply asked_name; [eauto|rewrite C; auto]|].
  assert (C1 : fst (e_config e (o_config o)) = rc) by (rewrite C; auto).
  destruct (Z.ltb_spec rc 0); [injection E as <- <- <-; rewrite <- C1; apply ro_config; lia|]. destruct (Z.ltb_spec (e_rand e) 0); [injection E as <- <- <-; constructor; auto|].
  set (n := match o_db o with Some n => n | None => _ end) in *. destruct (db_open (o_upgrade o) (e_fates e) (k n)) as [f|f|f] eqn:D.
  - cbn [op_file] in E. destruct (o_check o) eqn:Ck; [injection E as <- <- <-; apply ro_check; auto|]. destruct (Z.ltb_spec (e_telnet e) 0); [injection E as <- <- <-; apply ro_telnet; auto|].
    destruct (e_gsup e) eqn:G; [|injection E as <- <- <-; apply ro_gsup; auto]. cbn [negb] in E. destruct (o_daemon o && (e_daemon e <? 0)) eqn:Dm.
    + apply andb_prop in Dm as [D1 D2]. apply Z.ltb_lt in D2. rewrite D1 in E. injection E as <- <- <-. apply ro_fork; auto.
    + assert (X : o_daemon o = true -> 0 <= e_daemon e) by (intros X; rewrite X in Dm; cbn in Dm; apply Z.ltb_ge in Dm; lia).
      assert (R : 0 <= fst (e_config e (o_config o))) by lia. pose proof (ro_serve e o k n f D Ck R ltac:(lia) ltac:(lia) G X) as Y.
      destruct (o_daemon o); injection E as <- <- <-; exact Y.
  - injection E as <- <- <-. change f with (op_file (Refused f)). eapply ro_open; eauto.
  - injection E as <- <- <-. change f with (op_file (Died f)). eapply ro_open; eauto.
Qed.
Lemma run_disk e o k n acts k' x m : run_of e o k n acts k' x -> k' m = k m \/ (m = n /\ k' m = op_file (db_open (o_upgrade o) (e_fates e) (k m)) /\ In (AOpen n (o_upgrade o)) acts).
Proof.
  assert (P : forall f r, r = op_file (db_open (o_upgrade o) (e_fates e) (k n)) -> f = r -> disk_set k n f m = k m \/ (m = n /\ disk_set k n f m = op_file (db_open (o_upgrade o) (e_fates e) (k m)))).
  { intros f r -> ->. unfold disk_set. destruct (String.eqb_spec m n) as [->|]; auto. }
  intros H. destruct H as [| |r x D _ _|f D _|f D _ _|f D _ _|f D _ _ _|f D _ _ _ _ _]; auto.
  - rewrite <- D. destruct (P (op_file (db_open (o_upgrade o) (e_fates e) (k n))) _ eq_refl eq_refl) as [Q|[Q1 Q2]]; auto. right. cbn. auto.
  - destruct (P f (op_file (db_open (o_upgrade o) (e_fates e) (k n))) eq_refl ltac:(rewrite D; reflexivity)) as [Q|[Q1 Q2]]; auto. right. cbn. auto.
  - destruct (P f (op_file (db_open (o_upgrade o) (e_fates e) (k n))) eq_refl ltac:(rewrite D; reflexivity)) as [Q|[Q1 Q2]]; auto. right. cbn. auto.
  - destruct (P f (op_file (db_open (o_upgrade o) (e_fates e) (k n))) eq_refl ltac:(rewrite D; reflexivity)) as [Q|[Q1 Q2]]; auto. right. cbn. auto.
  - destruct (P f (op_file (db_open (o_upgrade o) (e_fates e) (k n))) eq_refl ltac:(rewrite D; reflexivity)) as [Q|[Q1 Q2]]; auto. right. cbn. auto.
  - destruct (P f (op_file (db_open (o_upgrade o) (e_fates e) (k n))) eq_refl ltac:(rewrite D; reflexivity)) as [Q|[Q1 Q2]]; auto. right. cbn. auto.
Qed.

(** Of all files only the database asked for may change; its data is kept; its contents change only if it is older and upgrading was asked for, or if it is no database of the HLR at all. *)
Lemma c70_disk e args k acts k' x m : hlr_main e args k = (acts, k', x) ->
  kept (k m) (k' m) /\
  (same_contents (k m) (k' m) \/
   exists l o, spelled hlr_shorts hlr_longs l [] args /\ asked l o /\ db_name l (snd (e_config e (o_config o))) m /\
     ((given l "U"%char /\ 0 <= f_version (k m) < 7) \/ (f_version (k m) = 0 /\ get_tab (f_tabs (k m)) "subscriber" = None))).
Proof.
  intros H. destruct (main_run _ _ _ _ _ _ H) as [(y & _ & _ & -> & _)|(l & o & n & _ & S & A & N & R)].
  - split; [apply kept_refl|left; repeat split].
  - destruct (run_disk _ _ _ _ _ _ _ m R) as [E|(-> & E & _)]; rewrite E; [split; [apply kept_refl|left; repeat split]|]. split; [apply db_open_kept|].
    destruct (get_tab (f_tabs (k n)) "subscriber") as [t|] eqn:G; [|destruct (Z.eq_dec (f_version (k n)) 0)].
    + destruct (o_upgrade o) eqn:U.
      * destruct (Z_le_dec 0 (f_version (k n))); [destruct (Z_lt_dec (f_version (k n)) 7)|].
        -- right. exists l, o. split; auto. split; auto. split; auto. left. split; [apply (ak_upgrade _ _ A); auto|lia].
        -- left. apply c43_untouched; [right; lia|]. rewrite G. discriminate.
        -- left. apply c43_untouched; [right; lia|]. rewrite G. discriminate.
      * left. apply c43_untouched; [auto|]. rewrite G. discriminate.
    + right. exists l, o. auto 8.
    + destruct (o_upgrade o) eqn:U.
      * destruct (Z_le_dec 0 (f_version (k n))); [destruct (Z_lt_dec (f_version (k n)) 7)|].
        -- right. exists l, o. split; auto. split; auto. split; auto. left. split; [apply (ak_upgrade _ _ A); auto|lia].
        -- left. apply c43_untouched; [right; lia|tauto].
        -- left. apply c43_untouched; [right; lia|tauto].
      * left. apply c43_untouched; [auto|tauto].
Qed.

(** ** osmo-hlr-db-tool *)
Lemma known_tool e : known tool_shorts tool_longs e ->
  (exists v, In (fst e) (map RChar ["l"; "d"; "e"]%char) /\ snd e = Some v) \/ (In (fst e) (map RChar ["h"; "s"; "T"; "U"; "V"]%char) /\ snd e = None).
Proof.
  destruct e as [r v]. intros [(c & I & E)|(o & I & E & A)]; cbn [fst snd] in *.
  - subst r. destruct v as [v|]; cbn in I; repeat destruct I as [I|I]; try discriminate; try injection I as <-; try destruct I; cbn; eauto 12.
  - cbn in I. repeat destruct I as [<-|I]; try destruct I; cbn in E, A; subst r; destruct v as [v|]; try discriminate; cbn; eauto 14.
Qed.
Lemma tool_options_asked l : forall o w o', Forall (known tool_shorts tool_longs) l -> tool_options o l w = inl o' ->
  exists ws o1, w = Some ws /\ tool_words o1 ws = inl o' /\ ~ given l "h"%char /\ ~ given l "V"%char /\ p_import o1 = p_import o /\
    last_given l "l"%char (Some (p_db o)) (Some (p_db o1)) /\ (p_upgrade o1 = true <-> p_upgrade o = true \/ given l "U"%char).
Proof.
  induction l as [|e l IH]; intros o w o' K E; cbn [tool_options] in E.
  - destruct w as [ws|]; [|discriminate]. exists ws, o. repeat split; auto; try apply given_nil; [left; split; auto; apply given_nil|]. intros [X|X]; [auto|]. destruct (given_nil _ X).
  - inversion K as [|? ? K1 K2]; subst. destruct (tool_option o e) as [o1|x] eqn:O; [|discriminate].
    destruct (IH _ _ _ K2 E) as (ws & o2 & W & A & B1 & B2 & B3 & B4 & B5). exists ws, o2. split; auto. split; auto. apply known_tool in K1. destruct o as [db up im].
    destruct e as [r v]. cbn [fst snd] in K1. rewrite !given_cons. cbn [fst]. destruct K1 as [(a & I & ->)|(I & ->)].
    + cbn in I. repeat destruct I as [<-|I]; try destruct I; cbn in O; injection O as <-; cbn in *; (split; [intuition congruence|]); (split; [intuition congruence|]); (split; [assumption|]); (split; [|intuition congruence]);
        try (apply last_other; [cbn; discriminate|assumption]); apply last_same; assumption.
    + cbn in I. repeat destruct I as [<-|I]; try destruct I; cbn in O; try discriminate; injection O as <-; cbn in *; (split; [intuition congruence|]); (split; [intuition congruence|]); (split; [assumption|]); (split; [|intuition congruence]);
        (apply last_other; [cbn; discriminate|assumption]).
Qed.
Lemma tool_options_ok l : forall o, Forall (known tool_shorts tool_longs) l -> ~ given l "h"%char -> ~ given l "V"%char ->
  exists o', p_import o' = p_import o /\ forall l2 w, tool_options o (l ++ l2) w = tool_options o' l2 w.
Proof.
  induction l as [|e l IH]; intros o K N1 N2; [exists o; auto|]. inversion K as [|? ? K1 K2]; subst. rewrite given_cons in N1, N2.
  assert (exists o1, tool_option o e = inl o1 /\ p_import o1 = p_import o) as (o1 & E & P).
  { apply known_tool in K1. destruct o as [db up im]. destruct e as [r v]. cbn [fst snd] in K1. destruct K1 as [(a & I & ->)|(I & ->)]; cbn in I; repeat destruct I as [<-|I]; try destruct I; cbn in *; eauto; intuition congruence. }
  destruct (IH o1 K2) as (o' & P' & H); [tauto|tauto|]. exists o'. split; [congruence|]. intros l2 w. cbn [List.app tool_options]. rewrite E. apply H.
Qed.
Lemma tool_words_ok o ws o' : tool_words o ws = inl o' ->
  p_db o' = p_db o /\ p_upgrade o' = p_upgrade o /\ ((ws = ["create"] /\ p_import o' = p_import o) \/ exists f, ws = ["import-nitb-db"; f] /\ p_import o' = Some f).
Proof.
  unfold tool_words. destruct ws as [|cmd ws]; [discriminate|]. destruct (String.eqb_spec cmd "create") as [->|].
  - destruct ws; [|discriminate]. intros [= <-]. auto.
  - destruct (String.eqb_spec cmd "import-nitb-db") as [->|]; [|discriminate]. destruct ws as [|f [|]]; try discriminate. intros [= <-]. cbn. eauto 8.
Qed.
Lemma tool_settings args o : tool_handle_options args = inl o ->
  exists l ws, spelled tool_shorts tool_longs l ws args /\ ~ given l "h"%char /\ ~ given l "V"%char /\ tool_asked l o /\
    ((ws = ["create"] /\ p_import o = None) \/ exists f, ws = ["import-nitb-db"; f] /\ p_import o = Some f).
Proof.
  unfold tool_handle_options. destruct (getopt tool_shorts tool_longs args) as [l w] eqn:G. intros E.
  assert (W : exists ws, w = Some ws).
  { clear G. revert E. generalize topts0. induction l as [|e l IH]; cbn; intros o1; [destruct w; [eauto|discriminate]|]. destruct (tool_option o1 e); [apply IH|discriminate]. }
  destruct W as [ws ->]. apply (getopt_iff _ _ _ _ _ tool_tables) in G. exists l, ws. split; auto.
  destruct (tool_options_asked _ _ _ _ (spelled_known _ _ _ _ _ G) E) as (ws' & o1 & [= <-] & A & B1 & B2 & B3 & B4 & B5). split; auto. split; auto. apply tool_words_ok in A as (A1 & A2 & A3).
  cbn in B3, B4, B5. split; [split; [rewrite A1; auto|rewrite A2; intuition congruence]|]. destruct A3 as [[-> A3]|A3]; [left; split; congruence|auto].
Qed.
Lemma tool_accepts l ws args : spelled tool_shorts tool_longs l ws args -> ~ given l "h"%char -> ~ given l "V"%char ->
  (ws = ["create"] \/ exists f, ws = ["import-nitb-db"; f]) -> exists o, tool_handle_options args = inl o.
Proof.
  intros S N1 N2 W. unfold tool_handle_options. rewrite (spelled_getopt _ _ _ _ _ tool_tables S). destruct (tool_options_ok l topts0 (spelled_known _ _ _ _ _ S) N1 N2) as (o' & _ & H).
  specialize (H [] (Some ws)). rewrite app_nil_r in H. rewrite H. cbn. destruct W as [->|(f & ->)]; cbn; eauto.
Qed.
Lemma tool_main_ok rand fates imported args k acts k' x : tool_main rand fates imported args k = (acts, k', x) ->
  (acts <> [] \/ k' <> k \/ x = EDone) ->
  0 <= rand /\ exists l ws n u, spelled tool_shorts tool_longs l ws args /\ ~ given l "h"%char /\ ~ given l "V"%char /\
    last_given l "l"%char (Some "hlr.db") (Some n) /\ (u = true <-> given l "U"%char) /\
    let r := db_open u fates (k n) in
    (forall m, m <> n -> k' m = k m) /\
    ((is_open r = false /\ acts = [AOpen n u] /\ k' n = op_file r /\ (x = EDb \/ x = EDied) /\ (ws = ["create"] \/ exists f, ws = ["import-nitb-db"; f])) \/
     (is_open r = true /\ ws = ["create"] /\ acts = [AOpen n u; AClose] /\ k' n = op_file r /\ x = EDone) \/
     (is_open r = true /\ exists f, ws = ["import-nitb-db"; f] /\ acts = [AOpen n u; AImport f; AClose] /\ k' n = snd (imported f (op_file r)) /\
        (x = EDone <-> fst (imported f (op_file r)) = 0))).
Proof.
  unfold tool_main. destruct (tool_handle_options args) as [o|y] eqn:H.
  2:{ intros [= <- <- <-] [X|[X|X]]; try tauto. exfalso. subst y. revert H. unfold tool_handle_options. destruct (getopt _ _ args) as [l w]. generalize topts0. induction l as [|e l IH]; cbn; intros o.
      - destruct w as [ws|]; [|discriminate]. unfold tool_words. destruct ws as [|a ws]; [discriminate|]. destruct (a =? "create")%string; [destruct ws; discriminate|]. destruct (a =? "import-nitb-db")%string; [|discriminate]. destruct ws as [|? [|]]; discriminate.
      - destruct (tool_option o e) as [o'|z] eqn:O; [apply IH|]. intros [= ->]. revert O. unfold tool_option. destruct (fst e) as [c|]; [|discriminate]. destruct c as [[] [] [] [] [] [] [] []]; discriminate. }
  destruct (Z.ltb_spec rand 0); [intros [= <- <- <-] [X|[X|X]]; try tauto; discriminate|].
  intros E _. split; auto. destruct (tool_settings _ _ H) as (l & ws & S & N1 & N2 & [T1 T2] & W). exists l, ws, (p_db o), (p_upgrade o).
  split; auto. split; auto. split; auto. split; auto. split; auto. cbv zeta.
  assert (Ds : forall f, disk_set k (p_db o) f (p_db o) = f) by (intros; unfold disk_set; rewrite String.eqb_refl; auto).
  assert (Do : forall f m, m <> p_db o -> disk_set k (p_db o) f m = k m) by (intros f m M; unfold disk_set; destruct (String.eqb_spec m (p_db o)); tauto).
  assert (W' : ws = ["create"] \/ exists f, ws = ["import-nitb-db"; f]) by (destruct W as [[-> _]|(f & -> & _)]; eauto).
  destruct (db_open (p_upgrade o) fates (k (p_db o))) as [f|f|f]; cbn [op_file is_open] in *.
  - destruct (p_import o) as [n|] eqn:I.
    + destruct W as [[_ X]|(f' & -> & [= ->])]; [discriminate|]. destruct (imported f' f) as [rc f2] eqn:Im. injection E as <- <- <-. split.
      * intros m M. unfold disk_set. destruct (String.eqb_spec m (p_db o)); tauto.
      * right; right. split; auto. exists f'. rewrite Im. cbn. split; auto. split; auto. split; [unfold disk_set; rewrite String.eqb_refl; auto|].
        destruct (Z.eqb_spec rc 0); split; auto; try discriminate; tauto.
    + destruct W as [[-> _]|(f' & _ & X)]; [|discriminate]. injection E as <- <- <-. split; auto. right; left. auto.
  - injection E as <- <- <-. split; auto. left. auto 8.
  - injection E as <- <- <-. split; auto. left. auto 8.
Qed.
Lemma handle_status modes args y : hlr_handle_options modes args = inr y -> In (status y) [0; 2; 255].
Proof.
  unfold hlr_handle_options. destruct (getopt _ _ args) as [l w]. generalize hopts0. induction l as [|e l IH]; cbn [hlr_options]; intros o.
  - destruct w as [[|]|]; intros [= <-]; cbn; auto.
  - destruct (hlr_option modes o e) as [o'|z] eqn:O; [apply IH|]. intros [= <-]. revert O. unfold hlr_option. destruct o as [cf db dm up ck dbg col lev tim mode].
    destruct (fst e) as [c|n].
    + destruct c as [[] [] [] [] [] [] [] []]; intros [= <-]; cbn; auto.
    + destruct n as [|p|p]; [intros [= <-]; cbn; auto|destruct p as [p|p|]; try destruct p; try (intros [= <-]; cbn; auto; fail)|]; try (destruct (modes _ <? 0); [|discriminate]); intros [= <-]; cbn; auto.
Qed.
