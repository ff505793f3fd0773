(** Proofs about the whole text about a subscriber. *)
From Verif Require Import Base PeerId Db DbSpec DbThms Auth Mdns Proxy Gsup Router Hlr Ctrl CtrlSpec CtrlThms VtySubscr VtySpec VtyThms VtyList VtyListSpec VtyListThms VtyText VtyTextSpec NitbThms2 VtyTextThms VtyTextThms2 VtyTextThms3.

(** ** Parts *)
Definition shows (tz now : Z) (fs : list fact) (ls : list string) : Prop := exists cs, Forall2 (prints tz now) fs cs /\ ls = concat cs.
Lemma shows_nil tz now : shows tz now [] [].
Proof. exists []. split; [constructor|reflexivity]. Qed.
Lemma shows_app tz now fs ls gs ms : shows tz now fs ls -> shows tz now gs ms -> shows tz now (fs ++ gs) (ls ++ ms).
Proof. intros (cs & A & ->) (ds & B & ->). exists (cs ++ ds). split; [now apply Forall2_app|now rewrite concat_app]. Qed.
Lemma shows_one tz now f ls : prints tz now f ls -> shows tz now [f] ls.
Proof. intros P. exists [ls]. split; [constructor; [exact P|constructor]|cbn; now rewrite app_nil_r]. Qed.
(** the facts in the order of the lines *)
Definition opt_fact {A} (f : A -> fact) (o : option A) : list fact := match o with Some x => [f x] | None => [] end.
Definition if_fact (b : bool) (f : fact) : list fact := if b then [f] else [].
Definition f3g (u : aud3) : fact := F3g (u_algo u) (u_k u) (u_opc u) (u_is_op u) (u_bitlen u) (u_sqn u).
Definition parts (r : sub_row) (keys : option (option aud2 * option aud3)) : list (list fact) :=
  [[FId (s_id r)]; [FImsi (s_imsi r)]; [FMsisdn (s_msisdn r)]; opt_fact FImei (s_imei r); opt_fact FVlr (s_vlr r); opt_fact FSgsn (s_sgsn r);
   if_fact (negb (s_nam_cs r)) (FDisabled false); if_fact (s_purged_cs r) (FPurged false); if_fact (negb (s_nam_ps r)) (FDisabled true); if_fact (s_purged_ps r) (FPurged true);
   opt_fact (FSeen false) (s_lu_cs r); opt_fact (FSeen true) (s_lu_ps r);
   if_fact (match keys with None => true | _ => false end) FUnread;
   opt_fact F2g (match keys with Some (a, _) => a | None => None end); opt_fact f3g (match keys with Some (_, b) => b | None => None end)].
Definition rank (f : fact) : nat :=
  match f with
  | FId _ => 0 | FImsi _ => 1 | FMsisdn _ => 2 | FImei _ => 3 | FVlr _ => 4 | FSgsn _ => 5 | FDisabled false => 6 | FPurged false => 7 | FDisabled true => 8 | FPurged true => 9
  | FSeen false _ => 10 | FSeen true _ => 11 | FUnread => 12 | F2g _ => 13 | F3g _ _ _ _ _ _ => 14
  end%nat.
Fixpoint ranked (i : nat) (l : list (list fact)) : Prop :=
  match l with [] => True | p :: l => ((length p <= 1)%nat /\ forall f, In f p -> rank f = i) /\ ranked (Datatypes.S i) l end.
Lemma ranked_nodup l : forall i, ranked i l -> NoDup (concat l) /\ forall f, In f (concat l) -> (i <= rank f)%nat.
Proof.
  induction l as [|p l IH]; intros i H; cbn in *; [split; [constructor|tauto]|]. destruct H as [[L R] H]. destruct (IH _ H) as [N B]. split.
  - destruct p as [|a [|b p]]; cbn in *; [exact N| |lia]. constructor; [|exact N]. intros I. specialize (B a I). rewrite (R a) in B by auto. lia.
  - intros f I. apply in_app_or in I as [I|I]; [rewrite (R f I); lia|]. specialize (B f I). lia.
Qed.
Lemma opt_ranked {A} (g : A -> fact) o i : (forall x, rank (g x) = i) -> (length (opt_fact g o) <= 1)%nat /\ forall f, In f (opt_fact g o) -> rank f = i.
Proof. intros H. destruct o; cbn; (split; [lia|]); [intros f [<-|[]]; apply H|tauto]. Qed.
Lemma if_ranked b g i : rank g = i -> (length (if_fact b g) <= 1)%nat /\ forall f, In f (if_fact b g) -> rank f = i.
Proof. intros H. destruct b; cbn; (split; [lia|]); [intros f [<-|[]]; exact H|tauto]. Qed.
Lemma parts_ranked r keys : ranked 0 (parts r keys).
Proof.
  unfold parts. cbn [ranked]. repeat (split; [first [apply opt_ranked; intros; reflexivity|apply if_ranked; reflexivity|split; [cbn; lia|intros f [<-|[]]; reflexivity]]|]). exact I.
Qed.
Lemma in_opt {A} (g : A -> fact) o f : In f (opt_fact g o) <-> exists x, o = Some x /\ f = g x.
Proof. destruct o as [a|]; cbn; [|firstorder discriminate]. split; [intros [<-|[]]; eauto|]. intros (x & [= ->] & ->). auto. Qed.
Lemma in_if b g f : In f (if_fact b g) <-> b = true /\ f = g.
Proof. destruct b; cbn; [intuition|]. intuition discriminate. Qed.
Lemma in_parts r keys f : In f (concat (parts r keys)) <-> stored r keys f.
Proof.
  unfold parts. cbn [concat]. rewrite !in_app_iff, !in_opt, !in_if. cbn [In]. split.
  - intros [[<-|[]]|H]; [apply st_id|]. destruct H as [[<-|[]]|H]; [apply st_imsi|]. destruct H as [[<-|[]]|H]; [apply st_msisdn|].
    destruct H as [(x & E & ->)|H]; [now apply st_imei|]. destruct H as [(x & E & ->)|H]; [now apply st_vlr|]. destruct H as [(x & E & ->)|H]; [now apply st_sgsn|].
    destruct H as [[E ->]|H]; [apply st_off_cs; now apply negb_true_iff|]. destruct H as [[E ->]|H]; [now apply st_purged_cs|].
    destruct H as [[E ->]|H]; [apply st_off_ps; now apply negb_true_iff|]. destruct H as [[E ->]|H]; [now apply st_purged_ps|].
    destruct H as [(x & E & ->)|H]; [now apply st_seen_cs|]. destruct H as [(x & E & ->)|H]; [now apply st_seen_ps|].
    destruct H as [[E ->]|H]; [destruct keys; [discriminate|now apply st_unread]|].
    destruct H as [(x & E & ->)|H]; [destruct keys as [[a b]|]; [subst a; now apply st_2g with b|discriminate]|].
    destruct H as [(x & E & ->)|H]; [destruct keys as [[a b]|]; [subst b; now apply st_3g with a|discriminate]|destruct H].
  - intros H. destruct H as [| | |s E|s E|s E|E|E|E|E|t E|t E|E|a b E|a u E].
    + left. auto.
    + do 1 right. left. auto.
    + do 2 right. left. auto.
    + do 3 right. left. eauto.
    + do 4 right. left. eauto.
    + do 5 right. left. eauto.
    + do 6 right. left. rewrite E. auto.
    + do 8 right. left. rewrite E. auto.
    + do 7 right. left. auto.
    + do 9 right. left. auto.
    + do 10 right. left. eauto.
    + do 11 right. left. eauto.
    + do 12 right. left. rewrite E. auto.
    + do 13 right. left. rewrite E. eauto.
    + do 14 right. left. rewrite E. exists u. auto.
Qed.

(** ** Rows *)
Lemma buf_some n s : (String.length s <= n - 1)%nat -> text_to_buf n (Some s) = s.
Proof. intros L. unfold text_to_buf. now apply str_take_all. Qed.
Lemma filled_some s : s <> ""%string -> filled s = true.
Proof. intros H. unfold filled. apply negb_true_iff, String.eqb_neq. exact H. Qed.
Lemma or_none_some s : s <> ""%string -> or_none s = s.
Proof. intros H. unfold or_none. apply String.eqb_neq in H. now rewrite H. Qed.
Lemma seen_ok tz now ps t : time_ok tz now t -> exists l, seen_line tz now (domain ps) (t - tz) = Val l /\ prints tz now (FSeen ps t) l.
Proof.
  intros [B S]. unfold seen_line. destruct (Z.eqb_spec (t - tz) 0); [lia|]. destruct (date_text_some (t - tz) ltac:(lia)) as [x X]. rewrite X. cbn [mbind].
  destruct (last_seen_ok tz now t ltac:(lia) S) as (a & -> & A). cbn [mbind]. eexists. split; [reflexivity|]. constructor; [now apply date_text_is|exact A].
Qed.
Lemma seen_opt tz now ps o : on_opt (time_ok tz now) o -> exists l, seen_line tz now (domain ps) (match o with Some t => t - tz | None => 0 end) = Val l /\ shows tz now (opt_fact (FSeen ps) o) l.
Proof.
  intros H. destruct o as [t|]; [|exists []; split; [reflexivity|apply shows_nil]]. destruct (seen_ok tz now ps t (H t eq_refl)) as (l & E & P). exists l. split; [exact E|]. now apply shows_one.
Qed.
Lemma shows_if tz now b f t : prints tz now f [t] -> shows tz now (if_fact b f) (line_if b t).
Proof. intros P. destruct b; [now apply shows_one|apply shows_nil]. Qed.
Lemma shows_imei tz now o : on_opt is_imei14 o -> shows tz now (opt_fact FImei o) (line_if (filled (text_to_buf 16 o)) (imei_line (text_to_buf 16 o))).
Proof.
  intros H. destruct o as [s|]; [|apply shows_nil]. specialize (H s eq_refl). pose proof (proj1 (is_imei14_digits s) H) as [L D].
  rewrite buf_some by lia. rewrite filled_some by (intros ->; discriminate). apply shows_one. unfold imei_line, luhn14. rewrite str_take_all by lia. unfold is_n_digits. rewrite L, D. cbn [andb Nat.leb].
  constructor. apply check_luhn; [exact H|apply luhn_digit|apply Ascii.eqb_refl].
Qed.
Lemma shows_name tz now (g : string -> fact) label o : (forall s, prints tz now (g s) [label ++ s]%string) -> on_opt name_ok o ->
  shows tz now (opt_fact g o) (line_if (filled (text_to_buf 32 o)) (label ++ text_to_buf 32 o)%string).
Proof.
  intros P H. destruct o as [s|]; [|apply shows_nil]. destruct (H s eq_refl) as (N & L & _). rewrite buf_some by lia. rewrite filled_some by exact N. apply shows_one, P.
Qed.
Lemma to_uint_ok z : 0 <= z < 4294967296 -> Z.of_N (to_uint z) = z.
Proof. intros B. unfold to_uint. rewrite Z2N.id by (apply Z.mod_pos_bound; reflexivity). now apply Z.mod_small. Qed.
Lemma lines_2g_ok tz now a : aud2_ok a -> prints tz now (F2g a) (lines_2g a).
Proof. destruct a as [al ki]. intros [[n N] O]. cbn in *. unfold lines_2g. cbn [g_algo g_ki]. rewrite (alg_named_name _ _ N). constructor; [exact N|now apply hexdump_ok]. Qed.
Lemma lines_3g_ok tz now u : aud3_ok u -> prints tz now (f3g u) (lines_3g u).
Proof.
  intros ([n N] & O1 & O2 & B & Q). unfold lines_3g, f3g. rewrite (alg_named_name _ _ N).
  replace ((if u_is_op u then "OP" else "OPC") ++ "=" ++ hexdump (u_opc u))%string with ((if u_is_op u then "OP=" else "OPC=") ++ hexdump (u_opc u))%string by (destruct (u_is_op u); reflexivity).
  apply p_3g; auto using hexdump_ok.
  - pose proof (dec_text_numeral (to_uint (u_bitlen u))) as D. rewrite to_uint_ok in D by exact B. apply D. pose proof (to_uint_ok _ B). lia.
  - destruct (N.eqb_spec (u_sqn u) 0) as [E|E]; [left; auto|]. right. split; [exact E|]. exists (dec64 (Z.of_N (u_sqn u))). split; [apply dec64_numeral; lia|reflexivity].
Qed.
Lemma key_lines_ok tz now keys : keys_ok keys ->
  shows tz now (if_fact (match keys with None => true | _ => false end) FUnread ++ opt_fact F2g (match keys with Some (a, _) => a | None => None end)
                ++ opt_fact f3g (match keys with Some (_, b) => b | None => None end)) (key_lines keys).
Proof.
  intros K. destruct keys as [[a b]|]; [|apply (shows_one tz now FUnread); constructor]. destruct (K _ eq_refl) as [A B]. cbn [if_fact app key_lines fst snd] in *. apply shows_app.
  - destruct a as [a|]; [|apply shows_nil]. apply shows_one, lines_2g_ok, A. reflexivity.
  - destruct b as [u|]; [|apply shows_nil]. apply shows_one, lines_3g_ok, B. reflexivity.
Qed.
Lemma full_lines_ok tz now r keys h : sub_of_row tz r = Some h -> row_ok tz now r -> keys_ok keys ->
  exists ls, full_lines tz now h keys = Val ls /\ shows tz now (concat (parts r keys)) ls.
Proof.
  intros E (I & (M0 & M1 & M2) & MS & IM & VL & SG & LC & LP) K. unfold sub_of_row in E. destruct (ipa_set_str ipa_empty (s_vlr_proxy r)); [|discriminate]. destruct (ipa_set_str ipa_empty (s_sgsn_proxy r)); [|discriminate]. match type of E with Some ?x = _ => assert (h = x) as -> by congruence end. clear E.
  unfold full_lines. cbn [h_lu_cs h_lu_ps h_id h_imsi h_msisdn h_imei h_vlr h_sgsn h_nam_cs h_nam_ps h_purged_cs h_purged_ps].
  destruct (seen_opt tz now false _ LC) as (lc & EC & SC). destruct (seen_opt tz now true _ LP) as (lp & EP & SP). cbn [domain] in *. rewrite EC, EP. cbn [mbind]. eexists. split; [reflexivity|].
  rewrite !buf_some by lia. rewrite (filled_some _ M0), (or_none_some _ M0).
  unfold parts. cbn [concat]. rewrite app_nil_r.
  match goal with |- shows _ _ _ ([?a; ?b; ?c] ++ _) => change ([a; b; c]) with ([a] ++ [b] ++ [c]) end. rewrite <- !app_assoc.
  apply shows_app; [apply shows_one; constructor; apply dec64_numeral; lia|]. apply shows_app; [apply shows_one; constructor|].
  apply shows_app.
  { apply shows_one. destruct (s_msisdn r) as [s|]; [|apply p_no_msisdn]. destruct (MS s eq_refl) as (N & L & _). rewrite buf_some by lia. rewrite or_none_some by exact N. constructor. }
  apply shows_app; [now apply shows_imei|]. apply shows_app; [apply shows_name; [intros; constructor|exact VL]|]. apply shows_app; [apply shows_name; [intros; constructor|exact SG]|].
  apply shows_app; [apply shows_if, (p_off tz now false)|]. apply shows_app; [apply shows_if, (p_purged tz now false)|]. apply shows_app; [apply shows_if, (p_off tz now true)|]. apply shows_app; [apply shows_if, (p_purged tz now true)|].
  apply shows_app; [exact SC|]. apply shows_app; [exact SP|]. now apply key_lines_ok.
Qed.
