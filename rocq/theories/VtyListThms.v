(** The lists of subscribers on the VTY. *)
From Coq Require Import Sorted Permutation.
From Verif Require Import Base PeerId Db DbSpec DbProofs DbThms DbThms2 Mdns Proxy MsThms Gsup Router Hlr Ctrl CtrlSpec CtrlThms CtrlThms2 VtySubscr VtySpec VtyThms VtyThms3 VtyList VtyListSpec.
Local Open Scope string_scope.
Local Open Scope list_scope.
Local Open Scope Z_scope.

Lemma str_app_assoc a b c : (a ++ (b ++ c) = (a ++ b) ++ c)%string.
Proof. induction a; cbn; congruence. Qed.
Lemma str_app_nil a : (a ++ "" = a)%string.
Proof. induction a; cbn; congruence. Qed.
(** ** LIKE *)
Lemma like_pc p s : like ("%"%char :: p) s = like p s || match s with [] => false | _ :: t => like ("%"%char :: p) t end.
Proof. destruct s; reflexivity. Qed.
Lemma like_any p s : like ("%"%char :: p) s = true <-> exists a b, s = a ++ b /\ like p b = true.
Proof.
  induction s as [|x s IH]; rewrite like_pc, orb_true_iff.
  - split; [intros [H|H]; [exists [], []; auto|discriminate]|]. intros (a & b & E & H). symmetry in E. apply app_eq_nil in E as [-> ->]. auto.
  - rewrite IH. split.
    + intros [H|(a & b & -> & H)]; [exists [], (x :: s); auto|exists (x :: a), b; auto].
    + intros ([|y a] & b & E & H); cbn in E; [subst b; auto|]. injection E as <- ->. right. eauto.
Qed.
Lemma lower_digit c x : is_digit x = true -> lower c = lower x -> c = x.
Proof.
  intros D. unfold lower. unfold is_digit in D. rewrite andb_true_iff, !N.leb_le in D. destruct (N.leb_spec 65 (acode x)); [lia|]. cbn [andb].
  destruct (N.leb_spec 65 (acode c)); cbn [andb]; [|auto]. destruct (N.leb_spec (acode c) 90); [|auto].
  intros E. apply (f_equal N_of_ascii) in E. rewrite N_ascii_embedding in E by lia. unfold acode in *. lia.
Qed.
Lemma like_plain f p s : Forall (fun c => c <> "%"%char /\ c <> "_"%char) f -> Forall (fun x => is_digit x = true) s ->
  like (f ++ p) s = true <-> exists b, s = f ++ b /\ like p b = true.
Proof.
  intros F. revert s. induction F as [|c f [N1 N2] F IH]; intros s D.
  - cbn [app]. split; [intros H; exists s; auto|intros (b & -> & H); exact H].
  - cbn [app like]. destruct (Ascii.eqb_spec c "%"); [contradiction|]. destruct (Ascii.eqb_spec c "_"); [contradiction|].
    destruct s as [|x s]; [split; [discriminate|intros (b & E & _); discriminate E]|]. inversion D as [|? ? D1 D2]; subst. rewrite andb_true_iff, (IH s D2). split.
    + intros [E (b & -> & H)]. apply Ascii.eqb_eq, (lower_digit c x D1) in E as ->. eauto.
    + intros (b & E & H). injection E as -> ->. split; [apply Ascii.eqb_refl|eauto].
Qed.

Lemma get_forall (P : ascii -> Prop) s : (forall n x, String.get n s = Some x -> P x) -> Forall P (bytes_of s).
Proof. induction s as [|c s IH]; intros H; cbn; [constructor|]. constructor; [exact (H 0%nat c eq_refl)|]. apply IH. intros n x E. exact (H (Datatypes.S n) x E). Qed.
Lemma like_holds f v : (forall n x, String.get n f = Some x -> x <> "%"%char /\ x <> "_"%char) -> (forall n x, String.get n v = Some x -> (48 <= N_of_ascii x <= 57)%N) ->
  like_text ("%" ++ f ++ "%") v = true <-> holds_text f v.
Proof.
  intros P D. unfold like_text. rewrite bytes_app, bytes_app. change (bytes_of "%") with ["%"%char]. change (["%"%char] ++ bytes_of f ++ ["%"%char]) with ("%"%char :: bytes_of f ++ ["%"%char]).
  apply get_forall in P. apply get_forall in D.
  assert (D' : Forall (fun x => is_digit x = true) (bytes_of v)) by (eapply Forall_impl; [|exact D]; intros x [A1 A2]; unfold is_digit; rewrite andb_true_iff, !N.leb_le; auto).
  rewrite like_any. unfold holds_text. split.
  - intros (a & b & E & L). rewrite E in D'. apply Forall_app in D' as [_ D']. apply (like_plain _ _ _ P D') in L as (e & -> & _).
    exists (str_of a), (str_of e). apply bytes_inj. rewrite !bytes_app, !bytes_str. exact E.
  - intros (a & b & ->). exists (bytes_of a), (bytes_of (f ++ b)). rewrite !bytes_app in *. split; [auto|]. apply Forall_app in D' as [_ D'].
    apply (like_plain _ _ _ P D'). exists (bytes_of b). split; [auto|]. apply like_any. exists (bytes_of b), []. split; [now rewrite app_nil_r|reflexivity].
Qed.

(** ** ORDER BY *)
Lemma text_le_iff a b : String.leb a b = true <-> text_le a b.
Proof.
  unfold String.leb. revert b. induction a as [|c a IH]; intros [|e b]; cbn [String.compare].
  - split; [constructor|auto].
  - split; [constructor|auto].
  - split; [discriminate|intros H; inversion H].
  - unfold Ascii.compare. destruct (N.compare_spec (N_of_ascii c) (N_of_ascii e)) as [E|E|E].
    + assert (c = e) by (rewrite <- (ascii_N_embedding c), <- (ascii_N_embedding e); congruence). subst e. rewrite IH. split; [now constructor|]. intros H. inversion H; subst; [lia|auto].
    + split; [intros _; now constructor|auto].
    + split; [discriminate|]. intros H. inversion H; subst; lia.
Qed.
Lemma text_le_trans a b c : text_le a b -> text_le b c -> text_le a c.
Proof.
  intros H. revert c. induction H as [s|x y s t L|x s t H IH]; intros c G; [constructor| |].
  - inversion G; subst; apply tl_less; [lia|assumption].
  - inversion G; subst; [now apply tl_less|apply tl_same; auto].
Qed.
Lemma text_le_total a b : text_le a b \/ text_le b a.
Proof. rewrite <- !text_le_iff. apply String.leb_total. Qed.
Lemma opt_le_iff {A} (leb : A -> A -> bool) (le : A -> A -> Prop) a b : (forall a b, leb a b = true <-> le a b) -> le_opt leb a b = true <-> opt_le le a b.
Proof. intros H. destruct a, b; cbn; auto; try tauto. split; [discriminate|contradiction]. Qed.
Lemma opt_le_trans {A} (le : A -> A -> Prop) : (forall a b c, le a b -> le b c -> le a c) -> forall a b c, opt_le le a b -> opt_le le b c -> opt_le le a c.
Proof. intros H [a|] [b|] [c|]; cbn; auto; try tauto. apply H. Qed.
Lemma opt_le_total {A} (le : A -> A -> Prop) : (forall a b, le a b \/ le b a) -> forall a b, opt_le le a b \/ opt_le le b a.
Proof. intros H [a|] [b|]; cbn; auto. Qed.
Lemma insert_perm le r l : Permutation (insert le r l) (r :: l).
Proof. induction l as [|x l IH]; cbn; [auto|]. destruct (le r x); [auto|]. rewrite IH. constructor. Qed.
Lemma order_perm le l : Permutation (order le l) l.
Proof. induction l as [|x l IH]; cbn; [auto|]. rewrite insert_perm. now constructor. Qed.
Lemma insert_sorted leb (le : sub_row -> sub_row -> Prop) r l : (forall a b, leb a b = true <-> le a b) -> (forall a b, le a b \/ le b a) -> (forall a b c, le a b -> le b c -> le a c) ->
  StronglySorted le l -> StronglySorted le (insert leb r l).
Proof.
  intros R T TR. induction l as [|x l IH]; intros H; cbn; [repeat constructor|]. inversion H as [|? ? H1 H2]; subst. destruct (leb r x) eqn:E.
  - apply R in E. constructor; [exact H|]. constructor; [exact E|]. eapply Forall_impl; [|exact H2]. intros y. now apply TR.
  - assert (G : le x r) by (destruct (T x r) as [G|G]; [exact G|]; apply R in G; congruence).
    constructor; [auto|]. apply Forall_forall. intros y I. apply (Permutation_in _ (insert_perm leb r l)) in I as [<-|I]; [exact G|]. rewrite Forall_forall in H2. auto.
Qed.
Lemma order_sorted leb (le : sub_row -> sub_row -> Prop) l : (forall a b, leb a b = true <-> le a b) -> (forall a b, le a b \/ le b a) -> (forall a b c, le a b -> le b c -> le a c) ->
  StronglySorted le (order leb l).
Proof. intros R T TR. induction l as [|x l IH]; cbn; [constructor|]. now apply insert_sorted. Qed.

(** ** Durations *)
Lemma dec_upto_numeral f : forall n acc, (n < 10 ^ N.of_nat f)%N -> (1 <= f)%nat -> exists t, dec_upto f n acc = (t ++ acc)%string /\ numeral t (Z.of_N n).
Proof.
  induction f as [|f IH]; intros n acc B F; [lia|]. cbn [dec_upto].
  assert (DG : digit (ascii_of_N (n mod 10 + 48)) (Z.of_N (n mod 10))).
  { assert (MB : (n mod 10 < 10)%N) by (apply N.mod_upper_bound; discriminate). revert MB. generalize (n mod 10)%N. intros q MB. split; [lia|]. f_equal. lia. }
  destruct (N.ltb_spec n 10) as [L|L].
  - exists (String (ascii_of_N (n mod 10 + 48)) ""). split; [reflexivity|]. rewrite (N.mod_small n 10 L) in *. now constructor.
  - destruct f as [|f]; [cbn in B; lia|].
    destruct (IH (n / 10)%N (String (ascii_of_N (n mod 10 + 48)) acc)) as (t & E & Nt); [|lia|].
    { apply N.div_lt_upper_bound; [lia|]. replace (10 * 10 ^ N.of_nat (Datatypes.S f))%N with (10 ^ N.of_nat (Datatypes.S (Datatypes.S f)))%N; [exact B|]. rewrite (Nat2N.inj_succ (Datatypes.S f)), N.pow_succ_r'. reflexivity. }
    exists (t ++ String (ascii_of_N (n mod 10 + 48)) "")%string. split; [rewrite E, <- str_app_assoc; reflexivity|].
    replace (Z.of_N n) with (10 * Z.of_N (n / 10) + Z.of_N (n mod 10)) by (pose proof (N.div_mod n 10 ltac:(lia)); lia). now constructor.
Qed.
Lemma dec_text_numeral n : (n < 10000000000)%N -> numeral (dec_text n) (Z.of_N n).
Proof. intros B. destruct (dec_upto_numeral 10 n "" B) as (t & E & H); [lia|]. unfold dec_text. rewrite E, str_app_nil. exact H. Qed.
Lemma unit_ago_step u name age t : 0 < u -> 0 <= age <= 4294967295 -> exists w, unit_word (age / u) name w /\ unit_ago u name (age, t) = (age mod u, (t ++ w)%string).
Proof.
  intros U B. unfold unit_ago. destruct (Z.leb_spec u age) as [L|L].
  - assert (1 <= age / u) by (apply Z.div_le_lower_bound; lia). assert (age / u <= age) by (apply Z.div_le_upper_bound; nia).
    exists (dec_text (Z.to_N (age / u)) ++ name)%string. split; [|auto]. constructor; [lia|]. replace (age / u) with (Z.of_N (Z.to_N (age / u))) at 2 by lia. apply dec_text_numeral. lia.
  - rewrite Z.div_small, Z.mod_small by lia. exists ""%string. split; [constructor|]. now rewrite str_app_nil.
Qed.
Lemma age_duration age : 0 <= age <= 4294967295 -> duration (age_text age) age.
Proof.
  intros B. unfold age_text.
  destruct (unit_ago_step 86400 "d" age "") as (wd & Wd & ->); [lia|lia|]. pose proof (Z.mod_pos_bound age 86400 eq_refl). set (a1 := age mod 86400) in *.
  destruct (unit_ago_step 3600 "h" a1 ("" ++ wd)) as (wh & Wh & ->); [lia|lia|]. pose proof (Z.mod_pos_bound a1 3600 eq_refl). set (a2 := a1 mod 3600) in *.
  destruct (unit_ago_step 60 "m" a2 (("" ++ wd) ++ wh)) as (wm & Wm & ->); [lia|lia|]. pose proof (Z.mod_pos_bound a2 60 eq_refl). set (a3 := a2 mod 60) in *.
  destruct (unit_ago_step 1 "s" a3 ((("" ++ wd) ++ wh) ++ wm)) as (ws & Ws & ->); [lia|lia|]. cbn [snd].
  exists (age / 86400), (a1 / 3600), (a2 / 60), (a3 / 1), wd, wh, wm, ws. rewrite Z.div_1_r in *.
  assert (D1 : age = 86400 * (age / 86400) + a1) by (apply Z.div_mod; lia). assert (D2 : a1 = 3600 * (a1 / 3600) + a2) by (apply Z.div_mod; lia). assert (D3 : a2 = 60 * (a2 / 60) + a3) by (apply Z.div_mod; lia).
  split; [lia|]. split; [apply Z.div_pos; lia|]. split; [split; [apply Z.div_pos; lia|apply Z.div_lt_upper_bound; lia]|]. split; [split; [apply Z.div_pos; lia|apply Z.div_lt_upper_bound; lia]|].
  split; [lia|]. split; [exact Wd|]. split; [exact Wh|]. split; [exact Wm|]. split; [exact Ws|]. cbn. now rewrite <- !str_app_assoc.
Qed.

(** ** Which rows *)
Definition cmd_type (c : lcmd) : option string := match c with LAll => None | LFilter t _ => Some t | LLastSeen => Some "last_lu_seen"%string end.
Definition cmd_text (c : lcmd) : option string := match c with LFilter _ f => Some f | _ => None end.
Lemma run_cmd tz now x d c : list_run tz now x d c = get_subscrs tz now x d (cmd_type c) (cmd_text c).
Proof. destruct c; reflexivity. Qed.
(** the rows that a command reads *)
Definition cmd_rows (d : db) (c : lcmd) (rows : list sub_row) : Prop :=
  match c with
  | LFilter t f => exists s, search_text f = Some s /\ select d (Some t) s = Some rows
  | _ => select d (cmd_type c) "" = Some rows
  end.
Definition is_seen (c : lcmd) : bool := match c with LLastSeen => true | _ => false end.
Lemma get_rows tz x d c rows : typed c -> cmd_rows d c rows ->
  db_subscrs_get tz x d (cmd_type c) (cmd_text c) =
  (if match c with LFilter _ _ => lf_bind x | _ => false end then Val (- EIO, [], Some (Some (lf_msg x)))
   else match lf_step x with
        | Some n => if (n <=? length rows)%nat then Val (1, map (lsub_of_row tz (is_seen c)) (firstn n rows), Some (Some (lf_msg x)))
                    else match rows with [] => Val (- ENOENT, [], Some (Some "No matching subscriber(s)"%string)) | _ => Val (0, map (lsub_of_row tz (is_seen c)) rows, Some None) end
        | None => match rows with [] => Val (- ENOENT, [], Some (Some "No matching subscriber(s)"%string)) | _ => Val (0, map (lsub_of_row tz (is_seen c)) rows, Some None) end
        end).
Proof.
  intros T R. unfold db_subscrs_get. destruct T as [| |t f I|t f I J]; cbn [cmd_type cmd_text is_seen cmd_rows] in *.
  - injection R as <-. reflexivity.
  - rewrite R. cbn [mbind]. rewrite R. reflexivity.
  - destruct R as (s & S & R).
    assert (Q : (t =? "last_lu_seen")%string = false /\ exists l, select d (Some t) "" = Some l).
    { destruct I as [<-|[<-|[<-|[]]]]; (split; [reflexivity|]); unfold select; cbn; eauto. }
    destruct Q as [Q (l & ->)]. rewrite Q, S. cbn [mbind]. rewrite R. reflexivity.
  - destruct R as (s & S & R).
    assert (Q : (t =? "last_lu_seen")%string = false /\ exists l, select d (Some t) "" = Some l).
    { destruct I as [<-|[<-|[]]]; (split; [reflexivity|]); unfold select; cbn; eauto. }
    destruct Q as [Q (l & ->)]. rewrite Q, S. cbn [mbind]. rewrite R. reflexivity.
Qed.
Lemma ordered_rows leb (le : sub_row -> sub_row -> Prop) (p : sub_row -> bool) (W : sub_row -> Prop) d : NoDup (d_sub d) ->
  (forall a b, leb a b = true <-> le a b) -> (forall a b, le a b \/ le b a) -> (forall a b c, le a b -> le b c -> le a c) -> (forall r, In r (d_sub d) -> p r = true <-> W r) ->
  let rows := order leb (filter p (d_sub d)) in
  NoDup rows /\ (forall r, In r rows <-> In r (d_sub d) /\ W r) /\ StronglySorted le rows.
Proof.
  intros ND R T TR P. cbv zeta. pose proof (order_perm leb (filter p (d_sub d))) as PM. split; [|split].
  - apply (Permutation_NoDup (Permutation_sym PM)). now apply NoDup_filter.
  - intros r. split.
    + intros I. apply (Permutation_in _ PM), filter_In in I as [I H]. split; [exact I|]. now apply P.
    + intros [I H]. apply (Permutation_in _ (Permutation_sym PM)), filter_In. split; [exact I|]. now apply P.
  - now apply order_sorted.
Qed.
Lemma inv_nodup d : db_inv d -> NoDup (d_sub d).
Proof. intros V. eapply NoDup_map_inv, iv_imsi; eauto. Qed.
Lemma rows_exist d c : db_ok d -> imeis_ok d -> typed c -> plain c -> exists rows, cmd_rows d c rows /\ NoDup rows /\
  (forall r, In r rows <-> In r (d_sub d) /\ wanted c r) /\ StronglySorted (ordered c) rows.
Proof.
  intros OK IM T P. apply db_ok_inv in OK. pose proof (inv_nodup d OK) as ND. pose proof (proj1 (Forall_forall _ _) (iv_wf d OK)) as WF.
  assert (LU : forall p W, (forall r, In r (d_sub d) -> p r = true <-> W r) -> let rows := order by_lu (filter p (d_sub d)) in
    NoDup rows /\ (forall r, In r rows <-> In r (d_sub d) /\ W r) /\ StronglySorted (fun a b => opt_le Z.le (s_lu_cs a) (s_lu_cs b)) rows).
  { intros p W H. apply ordered_rows; auto.
    - intros a b. apply opt_le_iff. intros; apply Z.leb_le.
    - intros a b. apply opt_le_total. intros; lia.
    - intros a b e. apply opt_le_trans. intros; lia. }
  destruct T as [| |t f I|t f I J]; cbn [plain cmd_rows cmd_type ordered] in *.
  - exists (d_sub d). split; [reflexivity|]. split; [exact ND|]. split; [intros r; split; [intros I; split; [exact I|constructor]|tauto]|].
    clear. induction (d_sub d); constructor; auto. apply Forall_forall. intros x _. exact I.
  - eexists. split; [reflexivity|]. apply LU. intros r _. destruct (s_lu_cs r) as [t|] eqn:E; cbn.
    + split; [intros _; econstructor; eauto|auto].
    + split; [discriminate|]. intros H. inversion H; subst. congruence.
  - destruct (P I) as (LF & N1 & N2 & PL).
    assert (S : search_text f = Some ("%" ++ f ++ "%")%string).
    { unfold search_text. destruct (String.eqb_spec f "on"); [contradiction|]. destruct (String.eqb_spec f "off"); [contradiction|]. destruct (Nat.leb_spec 254 (String.length f)); [lia|reflexivity]. }
    destruct I as [<-|[<-|[<-|[]]]].
    + eexists. split; [exists ("%" ++ f ++ "%")%string; split; [exact S|reflexivity]|]. apply ordered_rows; auto.
      * intros a b. apply opt_le_iff, text_le_iff.
      * intros a b. apply opt_le_total, text_le_total.
      * intros a b e. apply opt_le_trans, text_le_trans.
      * intros r Ir. destruct (s_imei r) as [m|] eqn:E; cbn [like_col].
        -- rewrite like_holds; [|exact PL|exact (proj2 (IM r m Ir E))]. split; [intros H; econstructor; eauto|]. intros H. remember "imei" as ty eqn:Q. inversion H; subst; try discriminate. congruence.
        -- split; [discriminate|]. intros H. inversion H; subst; congruence.
    + eexists. split; [exists ("%" ++ f ++ "%")%string; split; [exact S|reflexivity]|]. apply ordered_rows; auto.
      * intros a b. apply text_le_iff.
      * intros a b. apply text_le_total.
      * intros a b e. apply text_le_trans.
      * intros r Ir. destruct (WF r Ir) as [WI _]. apply imsi_valid_spec in WI. rewrite like_holds; [|exact PL|exact (proj2 WI)]. split; [intros H; now constructor|]. intros H. inversion H; subst; auto.
    + eexists. split; [exists ("%" ++ f ++ "%")%string; split; [exact S|reflexivity]|]. apply ordered_rows; auto.
      * intros a b. apply opt_le_iff, text_le_iff.
      * intros a b. apply opt_le_total, text_le_total.
      * intros a b e. apply opt_le_trans, text_le_trans.
      * intros r Ir. destruct (WF r Ir) as [_ WM]. destruct (s_msisdn r) as [m|] eqn:E; cbn [like_col].
        -- rewrite like_holds; [|exact PL|exact (proj2 (proj1 (msisdn_valid_spec m) (WM m eq_refl)))]. split; [intros H; econstructor; eauto|]. intros H. inversion H; subst. congruence.
        -- split; [discriminate|]. intros H. inversion H; subst; congruence.
  - destruct I as [<-|[<-|[]]]; destruct J as [<-|[<-|[]]]; (eexists; split; [eexists; split; [reflexivity|reflexivity]|]); apply LU; intros r _;
      match goal with |- bool_is ?b _ = true <-> _ => destruct b eqn:E end; cbn; (split; [try discriminate; intros _; now constructor|intros H; auto; inversion H; subst; congruence]).
Qed.

(** ** What is printed *)
Lemma last_seen_ok tz now t : t <> tz -> - 2 ^ 63 <= now - t < 2 ^ 63 -> exists x, last_seen tz now (t - tz) = Val x /\ age_shown now t x.
Proof.
  intros N R. unfold last_seen. destruct (Z.eqb_spec (t - tz) 0); [lia|]. unfold timestamp_age, timestamp_now.
  replace (now - tz - (t - tz)) with (now - t) by lia.
  assert (I : int64 (now - t) = true) by (unfold int64; apply andb_true_intro; split; [apply Z.leb_le|apply Z.ltb_lt]; lia). rewrite I. cbn [negb].
  change UINT32_MAX with 4294967295.
  destruct (Z.ltb_spec (now - t) 0) as [L|L]; cbn [orb mbind].
  - eexists. split; [reflexivity|]. split; [lia|reflexivity].
  - destruct (Z.ltb_spec 4294967295 (now - t)) as [L'|L']; cbn [mbind]; (eexists; split; [reflexivity|]).
    + split; [lia|reflexivity].
    + split; [|lia]. intros _. eexists. split; [reflexivity|]. apply age_duration. lia.
Qed.
Lemma line_of_ok tz now d c r : db_inv d -> imeis_ok d -> times_ok tz now d -> In r (d_sub d) ->
  exists l, line_of tz now (lsub_of_row tz (is_seen c) r) = Val l /\ line_shows now c r l.
Proof.
  intros V IM TO I. destruct (proj1 (Forall_forall _ _) (iv_wf d V) r I) as [WI WM]. apply imsi_valid_spec in WI.
  assert (LI : text_to_buf 16 (Some (s_imsi r)) = s_imsi r /\ s_imsi r <> ""%string).
  { split; [apply str_take_all; cbn; destruct WI; lia|]. intros E. rewrite E in WI. destruct WI as [L _]; cbn in L; lia. }
  assert (LM : forall m, s_msisdn r = Some m -> text_to_buf 16 (Some m) = m /\ m <> ""%string).
  { intros m E. apply WM, msisdn_valid_spec in E. destruct E as [L _]. split; [apply str_take_all; cbn; lia|]. intros ->. cbn in L; lia. }
  assert (LE : forall m, s_imei r = Some m -> is_imei14 m /\ text_to_buf 16 (Some m) = m /\ m <> ""%string).
  { intros m E. pose proof (IM r m I E) as J. pose proof (proj1 J) as L. split; [exact J|]. split; [apply str_take_all; cbn; lia|]. intros ->. cbn in L; lia. }
  assert (A : exists x, last_seen tz now (if is_seen c then match s_lu_cs r with Some t => t - tz | None => 0 end else 0) = Val x /\
                        match c, s_lu_cs r with LLastSeen, Some t => age_shown now t x | _, _ => x = ""%string end).
  { destruct c; cbn [is_seen]; try (exists ""%string; split; reflexivity). destruct (s_lu_cs r) as [t|] eqn:E; [|exists ""%string; split; reflexivity].
    destruct (TO r t I E) as [N R]. now apply last_seen_ok. }
  destruct A as (x & EX & SX). unfold line_of, lsub_of_row. cbn [ls_lu ls_id ls_msisdn ls_imsi ls_imei ls_cs ls_ps]. rewrite EX. cbn [mbind]. eexists. split; [reflexivity|].
  unfold line_shows. cbn [n_id n_imsi n_msisdn n_imei n_cs n_ps n_age]. destruct LI as [-> NI].
  split; [reflexivity|]. split; [destruct (String.eqb_spec (s_imsi r) ""); [contradiction|reflexivity]|].
  split; [destruct (s_msisdn r) as [m|] eqn:E; [destruct (LM m eq_refl) as [-> NM]; destruct (String.eqb_spec m ""); [contradiction|reflexivity]|reflexivity]|].
  split; [|repeat (split; [reflexivity|]); exact SX].
  destruct (s_imei r) as [m|] eqn:E; [|reflexivity]. destruct (LE m eq_refl) as (J & -> & NM).
  destruct (String.eqb_spec m ""); [contradiction|]. exists (luhn m). split; [|reflexivity].
  apply (check_luhn m (luhn m) J (proj1 (luhn_digit m))). apply Ascii.eqb_refl.
Qed.
Lemma lines_ok tz now d c rows : db_inv d -> imeis_ok d -> times_ok tz now d -> (forall r, In r rows -> In r (d_sub d)) ->
  exists p, lines tz now (map (lsub_of_row tz (is_seen c)) rows) = Val p /\ Forall2 (line_shows now c) rows p.
Proof.
  intros V IM TO. induction rows as [|r rows IH]; intros I; cbn [map lines]; [exists []; split; [reflexivity|constructor]|].
  destruct (line_of_ok tz now d c r V IM TO (I r (or_introl eq_refl))) as (l & -> & S). destruct IH as (p & -> & F); [intros q Q; apply I; now right|].
  cbn [mbind]. exists (l :: p). split; [reflexivity|]. now constructor.
Qed.
Lemma lines_firstn tz now l : forall n p, lines tz now l = Val p -> lines tz now (firstn n l) = Val (firstn n p).
Proof.
  induction l as [|h l IH]; intros n p; cbn [lines].
  - intros E. injection E as <-. destruct n; reflexivity.
  - destruct (line_of tz now h) as [x|] eqn:EX; cbn [mbind]; [|discriminate]. destruct (lines tz now l) as [q|] eqn:EQ; cbn [mbind]; [|discriminate].
    intros E. injection E as <-. destruct n; cbn [firstn lines]; [reflexivity|]. rewrite EX. cbn [mbind]. rewrite (IH n q eq_refl). reflexivity.
Qed.
Lemma lines_length tz now l : forall p, lines tz now l = Val p -> length p = length l.
Proof.
  induction l as [|h l IH]; intros p; cbn [lines]; [intros E; injection E as <-; reflexivity|].
  destruct (line_of tz now h) as [x|]; cbn [mbind]; [|discriminate]. destruct (lines tz now l) as [q|]; cbn [mbind]; [|discriminate].
  intros E. injection E as <-. cbn. f_equal. now apply IH.
Qed.
Theorem list_ok tz now d c : db_ok d -> imeis_ok d -> times_ok tz now d -> typed c -> plain c ->
  exists rows tb, list_run tz now no_lfault d c = Val tb /\
    NoDup rows /\ (forall r, In r rows <-> In r (d_sub d) /\ wanted c r) /\ StronglySorted (ordered c) rows /\ Forall2 (line_shows now c) rows (tb_lines tb) /\
    (rows <> [] -> tb_count tb = Some (length rows) /\ tb_warning tb = None) /\
    (rows = [] -> tb_count tb = None /\ tb_warning tb = Some "No matching subscriber(s)"%string) /\
    (tb_again tb = true <-> (40 < length rows)%nat).
Proof.
  intros OK IM TO T P. destruct (rows_exist d c OK IM T P) as (rows & CR & ND & IN & SS).
  apply db_ok_inv in OK. destruct (lines_ok tz now d c rows OK IM TO) as (p & EP & F); [intros r H; exact (proj1 (proj1 (IN r) H))|].
  exists rows. rewrite run_cmd. unfold get_subscrs. rewrite (get_rows tz no_lfault d c rows T CR). cbn [no_lfault lf_bind lf_step].
  assert (B : match c with LFilter _ _ => false | _ => false end = false) by now destruct c. rewrite B.
  destruct rows as [|r rows]; cbn [mbind].
  - cbn [lines mbind]. change (- ENOENT =? 0) with false. cbv iota. cbn [mbind]. eexists. split; [reflexivity|]. cbn [tb_lines tb_count tb_warning tb_again length].
    split; [exact ND|]. split; [exact IN|]. split; [exact SS|]. split; [constructor|]. split; [congruence|]. split; [auto|]. split; [discriminate|cbn; lia].
  - rewrite EP. cbn [mbind]. change (0 =? 0) with true. cbv iota. cbn [mbind]. eexists. split; [reflexivity|]. cbn [tb_lines tb_count tb_warning tb_again]. rewrite map_length.
    split; [exact ND|]. split; [exact IN|]. split; [exact SS|]. split; [exact F|]. split; [auto|]. split; [discriminate|]. apply Nat.ltb_lt.
Qed.
(** with faults of the database: the printed lines are the first ones of those without, and all of them unless a warning follows *)
Theorem list_fault tz now d c x : db_ok d -> imeis_ok d -> times_ok tz now d -> typed c -> plain c ->
  exists tb full n, list_run tz now x d c = Val tb /\ list_run tz now no_lfault d c = Val full /\
    tb_lines tb = firstn n (tb_lines full) /\ (tb_warning tb = None -> tb = full) /\
    (tb_warning tb = tb_warning full \/ tb_warning tb = Some (lf_msg x)) /\
    tb_count tb = match tb_lines tb with [] => None | l => Some (length l) end.
Proof.
  intros OK IM TO T P. destruct (rows_exist d c OK IM T P) as (rows & CR & ND & IN & SS).
  apply db_ok_inv in OK. destruct (lines_ok tz now d c rows OK IM TO) as (p & EP & F); [intros r H; exact (proj1 (proj1 (IN r) H))|].
  rewrite !run_cmd. unfold get_subscrs. rewrite (get_rows tz no_lfault d c rows T CR), (get_rows tz x d c rows T CR). cbn [no_lfault lf_bind lf_step].
  assert (B : match c with LFilter _ _ => false | _ => false end = false) by now destruct c. rewrite B.
  set (full := mk_table p (40 <? length rows)%nat (if (0 <? length rows)%nat then Some (length rows) else None) (match rows with [] => Some "No matching subscriber(s)"%string | _ => None end)).
  pose proof (lines_length _ _ _ _ EP) as LP. rewrite map_length in LP.
  assert (FULL : (mdo (rc, l, err) <- match rows with [] => Val (- ENOENT, [], Some (Some "No matching subscriber(s)"%string)) | _ :: _ => Val (0, map (lsub_of_row tz (is_seen c)) rows, Some None) end;;
                  mdo p <- lines tz now l;; mdo w <- (if rc =? 0 then Val None else match err with Some (Some e) => Val (Some e) | _ => Bad end);;
                  Val (mk_table p (40 <? length l)%nat (if (0 <? length l)%nat then Some (length l) else None) w)) = Val full).
  { destruct rows as [|r rows]; cbn [mbind].
    - destruct p; [|discriminate LP]. reflexivity.
    - rewrite EP. cbn [mbind]. change (0 =? 0) with true. cbv iota. cbn [mbind]. unfold full. rewrite map_length. reflexivity. }
  assert (NIL : forall e rc, rc <> 0 -> exists tb n, (mdo p <- lines tz now [];; mdo w <- (if rc =? 0 then Val None else match Some (Some e) with Some (Some e) => Val (Some e) | _ => Bad end);;
                  Val (mk_table p (40 <? @length lsub [])%nat (if (0 <? @length lsub [])%nat then Some (@length lsub []) else None) w)) = Val tb /\ tb_lines tb = firstn n (tb_lines full) /\
                  (tb_warning tb = None -> tb = full) /\ tb_warning tb = Some e /\ tb_count tb = match tb_lines tb with [] => None | l => Some (length l) end).
  { intros e rc N. cbn [lines mbind]. destruct (Z.eqb_spec rc 0); [contradiction|]. cbn [mbind]. eexists. exists 0%nat. split; [reflexivity|].
    cbn [tb_lines tb_warning tb_count firstn]. split; [reflexivity|]. split; [discriminate|]. split; [reflexivity|reflexivity]. }
  assert (CF : tb_count full = match tb_lines full with [] => None | l => Some (length l) end).
  { unfold full. cbn [tb_count tb_lines]. destruct p; cbn [length] in *; rewrite <- LP; reflexivity. }
  assert (SAME : exists tb full' n, Val full = Val tb /\ Val full = Val full' /\ tb_lines tb = firstn n (tb_lines full') /\ (tb_warning tb = None -> tb = full') /\
                 (tb_warning tb = tb_warning full' \/ tb_warning tb = Some (lf_msg x)) /\ tb_count tb = match tb_lines tb with [] => None | l => Some (length l) end).
  { exists full, full, (length (tb_lines full)). rewrite firstn_all. auto 10. }
  rewrite FULL.
  destruct (match c with LFilter _ _ => lf_bind x | _ => false end).
  { cbn [mbind]. destruct (NIL (lf_msg x) (- EIO)) as (tb & n & E & A); [discriminate|]. rewrite E. exists tb, full, n. intuition. }
  destruct (lf_step x) as [n|]; [|rewrite FULL; exact SAME].
  destruct (Nat.leb_spec n (length rows)) as [LE|]; [|rewrite FULL; exact SAME].
  cbn [mbind]. rewrite <- firstn_map, (lines_firstn _ _ _ n p EP). cbn [mbind]. change (1 =? 0) with false. cbv iota. cbn [mbind].
  eexists. exists full, n. split; [reflexivity|]. cbn [tb_lines tb_warning tb_count]. split; [reflexivity|]. split; [reflexivity|]. split; [discriminate|]. split; [auto|].
  assert (L : length (firstn n (map (lsub_of_row tz (is_seen c)) rows)) = length (firstn n p)) by (rewrite !firstn_length, map_length; lia).
  rewrite L. destruct (firstn n p); reflexivity.
Qed.
