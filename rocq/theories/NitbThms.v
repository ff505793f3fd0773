(** Proofs for the import from OsmoNITB. *)
From Verif Require Import Base PeerId Db DbSpec DbProofs DbThms Mdns Dbd DbdSpec DbdThms DbdProperties Auth AuthSpec AuthThms Gsup Router Hlr Ctrl CtrlSpec CtrlThms CtrlThms4 VtySubscr VtySpec VtyThms VtyList VtyListSpec VtyListThms Nitb NitbSpec.
Local Open Scope Z_scope.

(** ** Numbers *)
Lemma numeral_len i v : numeral i v -> 0 <= v < 10 ^ Z.of_nat (String.length i) /\ i <> ""%string.
Proof.
  induction 1 as [c n [R ->]|s v c n H IH [R ->]].
  - cbn. split; [lia|discriminate].
  - assert (L : String.length (s ++ String (ascii_of_N (Z.to_N (48 + n))) "")%string = Datatypes.S (String.length s)).
    { clear. generalize (ascii_of_N (Z.to_N (48 + n))). intros c. induction s; cbn; [reflexivity|now rewrite IHs]. }
    rewrite L, Nat2Z.inj_succ, Z.pow_succ_r by lia. split; [lia|]. destruct s; discriminate.
Qed.
Lemma numeral_pos i v : numeral i v -> String.get 0 i <> Some "0"%char -> 0 < v.
Proof.
  induction 1 as [c n [R ->]|s v c n H IH [R ->]]; intros Z.
  - cbn in Z. destruct (Z.eq_dec n 0) as [->|]; [exfalso; now apply Z|lia].
  - assert (0 < v); [|lia]. apply IH. destruct s; [exfalso; now apply (numeral_len _ _ H)|]. exact Z.
Qed.
Lemma dec_upto_text i v : numeral i v -> String.get 0 i <> Some "0"%char -> forall f acc, (String.length i <= f)%nat -> dec_upto f (Z.to_N v) acc = (i ++ acc)%string.
Proof.
  induction 1 as [c n [R ->]|s v c n H IH [R ->]]; intros Z f acc L.
  - destruct f; [cbn in L; lia|]. cbn [dec_upto append]. destruct (N.ltb_spec (Z.to_N n) 10) as [B|B]; [|lia]. rewrite N.mod_small by exact B. f_equal. f_equal. lia.
  - assert (Z' : String.get 0 s <> Some "0"%char).
    { destruct s; [exfalso; now apply (numeral_len _ _ H)|]. exact Z. }
    pose proof (numeral_pos _ _ H Z') as P.
    assert (LN : String.length (s ++ String (ascii_of_N (Z.to_N (48 + n))) "")%string = Datatypes.S (String.length s)).
    { clear. generalize (ascii_of_N (Z.to_N (48 + n))). intros c. induction s; cbn; [reflexivity|now rewrite IHs]. }
    destruct f; [lia|]. cbn [dec_upto].
    assert (Q : Z.to_N (10 * v + n) = (Z.to_N n + Z.to_N v * 10)%N) by lia. rewrite Q.
    rewrite N.mod_add by lia. rewrite N.mod_small by lia. rewrite N.div_add by lia. rewrite N.div_small by lia.
    destruct (N.ltb_spec (Z.to_N n + Z.to_N v * 10) 10); [lia|]. rewrite N.add_0_l, (IH Z' f) by lia.
    rewrite <- str_app_assoc. cbn [append]. do 3 f_equal. lia.
Qed.
Lemma number_int64 v z : number_in v z -> 0 <= z <= 9223372036854775807 -> column_int64 v = z.
Proof. destruct v as [x|s|]; cbn; [intros -> _; reflexivity| |contradiction]. intros H B. apply atoll_integer; [now left|lia]. Qed.
Lemma number_int v z : number_in v z -> 0 <= z < 2147483648 -> column_int v = z.
Proof.
  intros H B. unfold column_int. rewrite (number_int64 v z H) by lia. unfold to_int. rewrite Z.mod_small by lia. destruct (Z.ltb_spec z 2147483648); lia.
Qed.
Lemma imsi_text n i : imsi_in n i -> is_imsi i -> String.get 0 i <> Some "0"%char -> int_text (column_int64 (nr_imsi n)) = i.
Proof.
  intros (z & H & N) [L _] Z. pose proof (numeral_len i z N) as [B _]. pose proof (numeral_pos i z N Z) as P.
  assert (B' : z < 10 ^ 15) by (eapply Z.lt_le_trans; [apply B|]; apply Z.pow_le_mono_r; lia).
  rewrite (number_int64 _ z H) by lia. unfold int_text. destruct (Z.ltb_spec z 0); [lia|]. rewrite (dec_upto_text i z N Z) by lia. apply str_app_nil.
Qed.

(** ** One subscriber, without faults *)
Lemma upd_last {R} (cond : R -> bool) f l r : (forall x, In x l -> cond x = false) -> cond r = true -> upd cond f (l ++ [r]) = l ++ [f r].
Proof.
  intros A B. unfold upd. rewrite map_app. cbn. rewrite B. f_equal. rewrite <- (map_id l) at 2. apply map_ext_in. intros x I. now rewrite A.
Qed.
Lemma find_last {R} (cond : R -> bool) l r : (forall x, In x l -> cond x = false) -> cond r = true -> find cond (l ++ [r]) = Some r.
Proof. intros A B. induction l as [|x l IH]; cbn; [now rewrite B|]. rewrite (A x (or_introl eq_refl)). apply IH. intros y I. apply A. now right. Qed.
Lemma del_none {R} (cond : R -> bool) l : (forall x, In x l -> cond x = false) -> del cond l = l.
Proof. intros A. unfold del. induction l as [|x l IH]; cbn; [reflexivity|]. rewrite (A x (or_introl eq_refl)). cbn. f_equal. apply IH. intros y I. apply A. now right. Qed.
Lemma hexdump_spells l : Forall octet l -> spells (hexdump l) l.
Proof.
  assert (H : forall v, (v < 16)%N -> digit_value (hex_digit_of v) v).
  { intros v B. assert (I : (v = 0 \/ v = 1 \/ v = 2 \/ v = 3 \/ v = 4 \/ v = 5 \/ v = 6 \/ v = 7 \/ v = 8 \/ v = 9 \/ v = 10 \/ v = 11 \/ v = 12 \/ v = 13 \/ v = 14 \/ v = 15)%N) by lia.
    repeat (destruct I as [->|I]; [left; reflexivity|]). rewrite I. left; reflexivity. }
  induction 1 as [|b l B F IH]; cbn [hexdump]; [constructor|]. unfold octet in B.
  replace b with (16 * (b / 16) + b mod 16)%N at 3 by (symmetry; apply N.div_mod; lia).
  constructor; [apply H, N.div_lt_upper_bound; lia|apply H, N.mod_upper_bound; lia|exact IH].
Qed.
Lemma hexdump_len l : String.length (hexdump l) = (2 * length l)%nat.
Proof. induction l; cbn; [reflexivity|]. rewrite IHl. lia. Qed.
Lemma str_take_app n a b : String.length a = n -> str_take n (a ++ b) = a.
Proof.
  intros <-. induction a as [|c a IH]; [reflexivity|]. cbn [append String.length]. change (str_take (Datatypes.S (String.length a)) (String c (a ++ b))) with (String c (str_take (String.length a) (a ++ b))). now rewrite IH.
Qed.
Lemma import_one tz n i d : db_inv d -> clean n i -> ~ has_imsi d i -> (forall m, nr_ext n = Some m -> ~ has_msisdn d m) -> (forall a, In a (d_auc2 d) -> has_id d (a2_id a)) ->
  exists r ks, import_nitb_subscr tz n d [] = (Fin tt, mk_db (d_sub d ++ [r]) (d_auc2 d ++ ks) (d_auc3 d) (d_ind d), []) /\ expected n i r /\
    s_id r = next_rowid (map s_id (d_sub d)) /\ (forall a, In a ks -> a2_id a = s_id r) /\
    match nr_keys n with [] => ks = [] | k :: _ => exists algo l s, key_in k algo l /\ spells s l /\ ks = [mk_auc2 (s_id r) algo s] end.
Proof.
  intros V C NI NM OR. set (id := next_rowid (map s_id (d_sub d))).
  assert (OLD : forall x, In x (d_sub d) -> by_imsi i x = false).
  { intros x I. unfold by_imsi. apply String.eqb_neq. intros E. apply NI. now exists x. }
  assert (NEW : forall a, In a (d_auc2 d) -> (a2_id a =? id) = false).
  { intros a I. apply Z.eqb_neq. intros E. destruct (OR a I) as (x & Ix & Ex). apply (next_rowid_fresh (map s_id (d_sub d))). fold id. rewrite <- E, <- Ex. now apply in_map. }
  destruct C as [CI CF CZ CX CM CA (t & CT & BT) CK].
  unfold import_nitb_subscr. rewrite (imsi_text n i CI CF CZ), (number_int _ t CT) by lia.
  destruct (Z.ltb_spec (t - 3660) (- 2147483648)); [lia|].
  assert (A : exists a : bool, number_in (nr_auth n) (if a then 1 else 0) /\ negb (column_int (nr_auth n) =? 0) = a).
  { destruct CA as [CA|CA]; [exists false|exists true]; (split; [exact CA|]); rewrite (number_int _ _ CA) by lia; reflexivity. }
  destruct A as (a & CA' & ->). clear CA.
  assert (M : exists m, text_to_buf 16 match nr_imei n with Some m => Some (str_take 14 m) | None => None end = m /\
    match nr_imei n with Some x => imei_part x m | None => m = ""%string end).
  { eexists. split; [reflexivity|]. destruct (nr_imei n) as [x|]; [|reflexivity]. destruct (CM x eq_refl) as (m14 & I14 & rest & ->).
    rewrite (str_take_app 14 m14 rest) by (destruct I14 as [[] _]; lia). unfold text_to_buf. rewrite str_take_all by (destruct I14 as [[] _]; cbn; lia). split; [exact I14|now exists rest]. }
  destruct M as (m & -> & PM).
  (* creation *)
  unfold db_subscr_create. rewrite (proj2 (imsi_valid_spec i) CF). cbn [negb run exec].
  assert (X : existsb (by_imsi i) (d_sub d) = false) by (apply existsb_false; exact OLD). rewrite X. clear X. fold id. cbn [after_run run].
  change (N.testbit 6 1) with true. change (N.testbit 6 2) with true.
  (* MSISDN *)
  set (r0 := new_row id i true true).
  assert (BI : forall x, s_imsi x = i -> by_imsi i x = true) by (intros x <-; apply String.eqb_refl).
  assert (UP : forall f x, s_imsi x = i -> upd (by_imsi i) f (d_sub d ++ [x]) = d_sub d ++ [f x]) by (intros f x E; apply upd_last; auto).
  rewrite run_bind.
  assert (S1 : exists z, run (db_subscr_update_msisdn_by_imsi i (Some (text_to_buf 16 (nr_ext n)))) [] (with_sub d (d_sub d ++ [r0])) = (Fin z, with_sub d (d_sub d ++ [set_msisdn (nr_ext n) r0]), [])).
  { destruct (nr_ext n) as [e|] eqn:EX.
    - pose proof (CX e eq_refl) as VE. pose proof VE as [LE _]. unfold text_to_buf. rewrite str_take_all by (cbn; lia). unfold db_subscr_update_msisdn_by_imsi.
      rewrite (proj2 (msisdn_valid_spec e) VE). cbn [negb run exec].
      assert (X : existsb (fun r => by_msisdn e r && negb (by_imsi i r)) (d_sub (with_sub d (d_sub d ++ [r0]))) = false).
      { apply existsb_false. intros x I. cbn [with_sub d_sub] in I. apply in_app_or in I as [I|[<-|[]]]; [|rewrite (BI r0 eq_refl); apply andb_false_r].
        destruct (by_msisdn e x) eqn:Q; [|reflexivity]. exfalso. apply (NM e eq_refl). exists x. split; [exact I|]. now apply str_opt_is_spec. }
      rewrite X, andb_false_r. unfold upd_sub. cbn [with_sub d_sub d_auc2 d_auc3 d_ind]. rewrite (UP _ r0 eq_refl). eexists. reflexivity.
    - eexists. reflexivity. }
  destruct S1 as (z1 & ->). set (r1 := set_msisdn (nr_ext n) r0).
  (* IMEI *)
  assert (S2 : exists z, run (if (String.length m =? 14)%nat then db_subscr_update_imei_by_imsi i (Some m) else Ret 0) [] (with_sub d (d_sub d ++ [r1])) =
                         (Fin z, with_sub d (d_sub d ++ [set_imei match nr_imei n with Some _ => Some m | None => None end r1]), [])).
  { destruct (nr_imei n) as [x|].
    - destruct PM as [I14 _]. pose proof I14 as [[L1 L2] _]. destruct (Nat.eqb_spec (String.length m) 14); [|lia]. unfold db_subscr_update_imei_by_imsi. rewrite (proj2 (imei_valid_spec m) I14).
      cbn [negb run exec]. unfold upd_sub. cbn [with_sub d_sub d_auc2 d_auc3 d_ind]. rewrite (UP _ r1 eq_refl). eexists. reflexivity.
    - rewrite PM. eexists. reflexivity. }
  destruct S2 as (z2 & ->). cbn [after_run]. set (r2 := set_imei _ r1).
  (* location update *)
  unfold update_lu_by_imsi, upd_sub. cbn [with_sub d_sub d_auc2 d_auc3 d_ind]. rewrite (UP _ r2 eq_refl). destruct (Z.eqb_spec (t - 3660) 0); [lia|]. cbn [after_run].
  set (r3 := set_lu_cs (Some (t - 3660)) r2).
  (* access *)
  rewrite run_bind. unfold db_subscr_nam at 1. cbn [run exec]. unfold upd_sub. cbn [with_sub d_sub d_auc2 d_auc3 d_ind]. rewrite (UP _ r3 eq_refl).
  rewrite run_bind. unfold db_subscr_nam at 1. cbn [run exec]. unfold upd_sub. cbn [with_sub d_sub d_auc2 d_auc3 d_ind]. rewrite (UP _ (set_nam_ps a r3) eq_refl).
  set (r4 := set_nam_cs a (set_nam_ps a r3)).
  (* keys *)
  rewrite run_bind. unfold db_subscr_get_by_imsi, db_sel. cbn [run exec]. unfold sel. cbn [with_sub d_sub].
  rewrite (find_last (by_imsi i) (d_sub d) r4 OLD (BI r4 eq_refl)).
  change (sub_of_row tz r4) with (Some (mk_subscriber id (text_to_buf 16 (Some i)) (text_to_buf 16 (s_msisdn r4)) (text_to_buf 16 (s_imei r4)) "" "" a a false false (t - 3660 - tz) 0 ipa_empty ipa_empty)).
  cbn [run h_imsi h_id]. unfold text_to_buf at 1. rewrite str_take_all by (destruct CF as [[] _]; cbn; lia). rewrite String.eqb_refl. cbn [negb].
  assert (EX : expected n i r4).
  { exists (match nr_imei n with Some _ => Some m | None => None end), a, t, id. split; [reflexivity|]. split; [|auto]. destruct (nr_imei n) as [x|]; [exists m; auto|reflexivity]. }
  destruct (nr_keys n) as [|k ks] eqn:EK.
  - cbn [import_nitb_subscr_aud run after_run]. exists r4, []. rewrite app_nil_r. split; [reflexivity|]. split; [exact EX|]. split; [reflexivity|]. split; [intros x []|reflexivity].
  - destruct (CK k (or_introl eq_refl)) as (algo & l & KI). pose proof KI as (KA & KB & KL & KO & e & rest & KE & KM & KS). cbn [import_nitb_subscr_aud].
    assert (EL : (length (encode e l) <= 4096)%nat).
    { unfold encode. cbn [length]. assert (G : forall l, (length (flat_map (encode1 e) l) <= 2 * length l)%nat).
      { clear. induction l as [|x l IH]; cbn [flat_map length]; [lia|]. rewrite app_length. unfold encode1 at 1. destruct (_ || _); cbn [length]; lia. }
      specialize (G l). lia. }
    destruct (N.ltb_spec 4096 (nk_size k)); [lia|]. rewrite KM, (C45_encoder e l rest KE KO EL).
    rewrite (number_int _ algo KA) by (cbn in KB; intuition lia). pose proof (hexdump_len l) as HL. rewrite str_take_all by lia.
    pose proof (hexdump_spells l KO) as SP. unfold db_subscr_update_aud_by_id.
    assert (HX : is_hexstr (hexdump l) 32 32 = true).
    { apply is_hexstr_spec. split; [lia|]. split; [exists (length l); lia|]. clear - SP. intros j c. revert j. induction SP as [|c1 c2 s v1 v2 l D1 D2 SP IH]; intros j; [destruct j; discriminate|].
      assert (D : forall c v, digit_value c v -> hex_digit c).
      { intros c0 v D. pose proof (digit_value_in c0 v D) as I. unfold digit_value in D. unfold hex_digit. cbn in I. repeat (destruct I as [<-|I]; [destruct D as [D|D]; cbn in D; injection D as <-; cbn; lia|]). contradiction. }
      destruct j as [|[|j]]; cbn; [intros E; injection E as <-; eapply D; eauto..|apply IH]. }
    rewrite HX. assert (AL : ((algo =? ALG_NONE) || (algo =? ALG_COMP128v1) || (algo =? ALG_COMP128v2) || (algo =? ALG_COMP128v3) || (algo =? ALG_XOR_2G)) = true /\ (algo =? ALG_NONE) = false).
    { cbn in KB. destruct KB as [<-|[<-|[<-|[<-|[]]]]]; split; reflexivity. }
    destruct AL as [-> ->]. cbn [negb andb run exec with_sub d_auc2]. unfold cnt. 
    assert (F0 : filter (fun a0 : auc2_row => a2_id a0 =? id) (d_auc2 d) = []).
    { clear - NEW. induction (d_auc2 d) as [|x q IH]; cbn; [reflexivity|]. rewrite (NEW x (or_introl eq_refl)). apply IH. intros y I. apply NEW. now right. }
    rewrite F0. cbn [length aud_del_rc]. change (- ENOENT =? 0) with false. change (- ENOENT =? - ENOENT) with true. cbn [negb andb run exec with_sub with_auc2 d_auc2 d_sub d_auc3 d_ind].
    rewrite (del_none _ _ NEW). assert (X : existsb (fun a0 : auc2_row => a2_id a0 =? id) (d_auc2 d) = false) by (apply existsb_false; exact NEW). rewrite X.
    cbn [run after_run]. exists r4, [mk_auc2 id algo (hexdump l)]. split; [reflexivity|]. split; [exact EX|]. split; [reflexivity|]. split; [intros x [<-|[]]; reflexivity|].
    exists algo, l, (hexdump l). auto.
Qed.
