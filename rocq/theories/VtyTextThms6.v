(** Proofs about the info texts of the control interface. *)
From Verif Require Import Base PeerId Db DbSpec DbThms Auth Mdns Proxy Gsup Router Hlr Ctrl CtrlSpec CtrlThms VtySubscr VtySpec VtyThms VtyList VtyListSpec VtyListThms VtyText VtyTextSpec NitbThms2 VtyTextThms VtyTextThms2 VtyTextThms3 VtyTextThms4 VtyTextThms5.

Definition opt_pair (n : string) (o : option string) : list (string * string) := match o with Some v => [(n, v)] | None => [] end.
Definition pairs_row (r : sub_row) : list (string * string) :=
  [("id", dec64 (s_id r)); ("imsi", s_imsi r)]%string ++ opt_pair "msisdn" (s_msisdn r) ++ [("nam_cs", bit (s_nam_cs r)); ("nam_ps", bit (s_nam_ps r))]%string
  ++ opt_pair "vlr_number" (s_vlr r) ++ opt_pair "sgsn_number" (s_sgsn r)
  ++ [("ms_purged_cs", bit (s_purged_cs r)); ("ms_purged_ps", bit (s_purged_ps r)); ("periodic_lu_timer", "0"); ("periodic_rau_tau_timer", "0"); ("lmsi", "00000000")]%string.
Definition pairs_2g (a : aud2) : list (string * string) := [("aud2g.algo", alg_name (g_algo a)); ("aud2g.ki", hexdump (g_ki a))]%string.
Definition pairs_3g (u : aud3) : list (string * string) :=
  [("aud3g.algo", alg_name (u_algo u)); ("aud3g.k", hexdump (u_k u)); ((if u_is_op u then "aud3g.op" else "aud3g.opc"), hexdump (u_opc u));
   ("aud3g.ind_bitlen", dec_text (to_uint (u_bitlen u))); ("aud3g.sqn", dec64 (Z.of_N (u_sqn u)))]%string.
Definition opt_pairs {A} (f : A -> list (string * string)) (o : option A) : list (string * string) := match o with Some x => f x | None => [] end.
Definition pairs (r : option sub_row) (a2 : option aud2) (a3 : option aud3) : list (string * string) := opt_pairs pairs_row r ++ opt_pairs pairs_2g a2 ++ opt_pairs pairs_3g a3.

Lemma arg_s_entry size n (o : option string) : on_opt (fun s => s <> ""%string /\ (String.length s <= size - 1)%nat) o ->
  arg_s n (text_to_buf size o) = map entry (opt_pair n o).
Proof. intros H. destruct o as [s|]; [|reflexivity]. destruct (H s eq_refl) as [N L]. rewrite buf_some by exact L. unfold arg_s. rewrite filled_some by exact N. reflexivity. Qed.
Lemma arg_bool_entry n b : arg_bool n b = entry (n, bit b).
Proof. destruct b; reflexivity. Qed.
Lemma info_lines_entries tz now r h : sub_of_row tz r = Some h -> row_ok tz now r -> info_lines h = map entry (pairs_row r).
Proof.
  intros E (I & (M0 & M1 & M2) & MS & IM & VL & SG & LC & LP). unfold sub_of_row in E.
  destruct (ipa_set_str ipa_empty (s_vlr_proxy r)); [|discriminate]. destruct (ipa_set_str ipa_empty (s_sgsn_proxy r)); [|discriminate]. match type of E with Some ?x = _ => assert (h = x) as -> by congruence end. clear E.
  unfold info_lines. cbn [h_id h_imsi h_msisdn h_vlr h_sgsn h_nam_cs h_nam_ps h_purged_cs h_purged_ps]. rewrite !arg_bool_entry.
  rewrite (arg_s_entry 16 "imsi" (Some (s_imsi r))) by (intros s [= <-]; split; [exact M0|lia]).
  rewrite (arg_s_entry 16 "msisdn") by (intros s X; destruct (MS s X) as (A & B & _); split; [exact A|lia]).
  rewrite (arg_s_entry 32 "vlr_number") by (intros s X; destruct (VL s X) as (A & B & _); split; [exact A|lia]).
  rewrite (arg_s_entry 32 "sgsn_number") by (intros s X; destruct (SG s X) as (A & B & _); split; [exact A|lia]).
  unfold pairs_row. rewrite !map_app. reflexivity.
Qed.
Lemma info_3g_entries u : info_3g u = map entry (pairs_3g u).
Proof. unfold info_3g, pairs_3g. destruct (u_is_op u); reflexivity. Qed.
Lemma in_opt_pair n o p : In p (opt_pair n o) <-> exists v, o = Some v /\ p = (n, v).
Proof. destruct o as [v|]; cbn; [|firstorder discriminate]. split; [intros [<-|[]]; eauto|]. intros (x & [= ->] & ->). auto. Qed.
Lemma pairs_row_told tz now r n v : row_ok tz now r -> In (n, v) (pairs_row r) -> told r n v /\ free lf v = true.
Proof.
  intros (I & M & MS & IM & VL & SG & _) H. unfold pairs_row in H. rewrite !in_app_iff, !in_opt_pair in H. cbn [In] in H.
  assert (BF : forall b, free lf (bit b) = true) by (intros []; reflexivity).
  destruct H as [[H|[H|[]]]|[(x & E & H)|[[H|[H|[]]]|[(x & E & H)|[(x & E & H)|[H|[H|[H|[H|[H|[]]]]]]]]]]]; inversion H; subst n v; clear H; try (split; [constructor; auto; fail|]); auto.
  - assert (N : numeral (dec64 (s_id r)) (s_id r)) by (apply dec64_numeral; lia). split; [now constructor|]. now apply (numeral_free lf _ _ N).
  - now apply number_free.
  - now apply number_free, MS.
  - now apply name_free, VL.
  - now apply name_free, SG.
Qed.
Lemma pairs_2g_told a n v : aud2_ok a -> In (n, v) (pairs_2g a) -> told_2g a n v /\ free lf v = true.
Proof.
  intros [[m M] O] [H|[H|[]]]; inversion H; subst n v; clear H.
  - rewrite (alg_named_name _ _ M). split; [now constructor|now apply alg_free in M].
  - pose proof (hexdump_ok _ O) as X. split; [now constructor|now apply hex_free in X].
Qed.
Lemma pairs_3g_told u n v : aud3_ok u -> In (n, v) (pairs_3g u) -> told_3g u n v /\ free lf v = true.
Proof.
  intros ([m M] & O1 & O2 & B & Q) [H|[H|[H|[H|[H|[]]]]]]; inversion H; subst n v; clear H.
  - rewrite (alg_named_name _ _ M). split; [now constructor|now apply alg_free in M].
  - pose proof (hexdump_ok _ O1) as X. split; [now constructor|now apply hex_free in X].
  - pose proof (hexdump_ok _ O2) as X. split; [destruct (u_is_op u) eqn:E; now constructor|now apply hex_free in X].
  - pose proof (dec_text_numeral (to_uint (u_bitlen u))) as D. rewrite to_uint_ok in D by exact B. specialize (D ltac:(pose proof (to_uint_ok _ B); lia)). split; [now constructor|]. now apply (numeral_free lf _ _ D).
  - pose proof (dec64_numeral (Z.of_N (u_sqn u)) ltac:(lia)) as D. split; [now constructor|]. now apply (numeral_free lf _ _ D).
Qed.
Lemma in_opt_pairs {A} (f : A -> list (string * string)) o p : In p (opt_pairs f o) <-> exists x, o = Some x /\ In p (f x).
Proof. destruct o as [a|]; cbn; [|firstorder discriminate]. split; [eauto|]. intros (x & [= ->] & H). exact H. Qed.
Lemma pairs_tell tz now r a2 a3 n v : on_opt (row_ok tz now) r -> on_opt aud2_ok a2 -> on_opt aud3_ok a3 -> In (n, v) (pairs r a2 a3) -> tells r a2 a3 n v /\ free lf v = true.
Proof.
  intros R A B H. unfold pairs in H. rewrite !in_app_iff, !in_opt_pairs in H. unfold tells. destruct H as [(x & E & H)|[(x & E & H)|(x & E & H)]].
  - destruct (pairs_row_told tz now x n v (R x E) H). split; [left; eauto|assumption].
  - destruct (pairs_2g_told x n v (A x E) H). split; [right; left; eauto|assumption].
  - destruct (pairs_3g_told x n v (B x E) H). split; [right; right; eauto|assumption].
Qed.
Lemma told_named r n v : told r n v -> In n (map fst (pairs_row r)).
Proof.
  intros H. unfold pairs_row. rewrite !map_app, !in_app_iff. destruct H; cbn [map fst In]; try tauto;
    match goal with E : _ = Some _ |- _ => rewrite E; cbn [opt_pair map fst In]; tauto end.
Qed.
Lemma told_2g_named a n v : told_2g a n v -> In n (map fst (pairs_2g a)).
Proof. intros []; cbn; tauto. Qed.
Lemma told_3g_named u n v : told_3g u n v -> In n (map fst (pairs_3g u)).
Proof. intros []; cbn; try tauto; match goal with E : u_is_op u = _ |- _ => rewrite E; tauto end. Qed.
Lemma tells_named r a2 a3 n v : tells r a2 a3 n v -> In n (map fst (pairs r a2 a3)).
Proof.
  unfold pairs. rewrite !map_app, !in_app_iff. intros [(x & -> & H)|[(x & -> & H)|(x & -> & H)]]; [left; eapply told_named; eauto|right; left; eapply told_2g_named; eauto|right; right; eapply told_3g_named; eauto].
Qed.
Fixpoint nodupb (l : list string) : bool := match l with [] => true | x :: l => negb (existsb (String.eqb x) l) && nodupb l end.
Lemma nodupb_ok l : nodupb l = true -> NoDup l.
Proof.
  induction l as [|x l IH]; intros H; [constructor|]. cbn in H. apply andb_true_iff in H as [A B]. constructor; [|auto]. intros I. apply negb_true_iff in A.
  assert (existsb (String.eqb x) l = true) by (apply existsb_exists; exists x; split; [exact I|apply String.eqb_refl]). congruence.
Qed.
Lemma pairs_nodup r a2 a3 : NoDup (map fst (pairs r a2 a3)).
Proof.
  apply nodupb_ok. destruct r as [x|]; [destruct x as [? ? [] ? [] [] ? ? ? ? ? ? ? ?]|]; destruct a2; destruct a3 as [[? ? ? [] ? ? ? ?]|]; reflexivity.
Qed.
Lemma info_ok tz now r h a2 a3 : on_opt (row_ok tz now) r -> match r with Some x => exists y, h = Some y /\ sub_of_row tz x = Some y | None => h = None end ->
  on_opt aud2_ok a2 -> on_opt aud3_ok a3 -> pairs r a2 a3 <> [] ->
  exists text, info_text h a2 a3 = Some text /\ text_lines text (map entry (pairs r a2 a3)).
Proof.
  intros R H A B NE.
  assert (E : opt_lines info_lines h ++ opt_lines info_2g a2 ++ opt_lines info_3g a3 = map entry (pairs r a2 a3)).
  { unfold pairs. rewrite !map_app. f_equal; [|f_equal].
    - destruct r as [x|]; [|subst h; reflexivity]. destruct H as (y & -> & S). apply (info_lines_entries tz now); [exact S|now apply R].
    - destruct a2; reflexivity.
    - destruct a3 as [u|]; [apply info_3g_entries|reflexivity]. }
  unfold info_text. rewrite E. destruct (map entry (pairs r a2 a3)) as [|x l] eqn:M; [apply map_eq_nil in M; contradiction|]. rewrite <- M. eexists. split; [reflexivity|]. split; [reflexivity|].
  apply Forall_forall. intros y I. apply in_map_iff in I as ([n v] & <- & I). destruct (pairs_tell tz now r a2 a3 n v R A B I) as [T F]. refine (proj1 (free_get lf (entry (n, v))) _). unfold entry. cbn [fst snd]. rewrite !free_app, F.
  assert (N : free lf n = true) by (destruct T as [(z & _ & [])|[(z & _ & [])|(z & _ & [])]]; reflexivity). rewrite N. reflexivity.
Qed.
