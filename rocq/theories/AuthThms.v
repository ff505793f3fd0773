(** Proofs about stored authentication data (C06, C07). *)
From Verif Require Import Base PeerId Db DbSpec DbProofs DbThms DbThms2 DbThms3 Auth AuthSpec.

Global Arguments read_2g : simpl never.
Global Arguments read_3g : simpl never.
Global Arguments hexparse_stmt : simpl never.

Lemma xdigit_value c : is_xdigit c = true -> exists v, hex_val c = Some v /\ is_hex_space c = false /\ digit_value c v.
Proof.
  intros H. destruct c as [[] [] [] [] [] [] [] []]; try discriminate H; eexists;
    (split; [reflexivity|]); (split; [reflexivity|]); ((left; reflexivity) || (right; reflexivity)).
Qed.

Lemma nibbles_hex s : str_forall is_xdigit s = true ->
  exists l, nibbles s = Some l /\ length l = String.length s.
Proof.
  induction s as [|c s IH]; cbn; intros H; [now exists []|].
  apply andb_true_iff in H as [Hc Hs]. destruct (IH Hs) as (l & -> & L).
  destruct (xdigit_value c Hc) as (v & -> & -> & _). exists (v :: l). cbn. auto.
Qed.

Lemma even_str_ind (P : string -> Prop) :
  P EmptyString -> (forall a b s, P s -> P (String a (String b s))) ->
  forall s, Nat.even (String.length s) = true -> P s.
Proof.
  intros P0 P2. fix IH 1. intros [|a [|b s]] H; [exact P0|discriminate H|]. apply P2, IH. exact H.
Qed.

Lemma pair_up_hex s : Nat.even (String.length s) = true -> str_forall is_xdigit s = true ->
  exists nl l, nibbles s = Some nl /\ pair_up nl = Some l /\ spells s l /\
               length nl = String.length s /\ (2 * length l = String.length s)%nat.
Proof.
  intros He. revert s He. refine (even_str_ind _ _ _).
  - intros _. exists [], []. cbn. repeat split; auto. constructor.
  - intros a b s IH H. cbn in H. apply andb_true_iff in H as [Ha H]. apply andb_true_iff in H as [Hb H].
    destruct (IH H) as (nl & l & E1 & E2 & Hs & L1 & L2).
    destruct (xdigit_value a Ha) as (va & Ea & Sa & Da). destruct (xdigit_value b Hb) as (vb & Eb & Sb & Db).
    exists (va :: vb :: nl), ((16 * va + vb)%N :: l). cbn [nibbles String.length]. rewrite Sa, Ea, Sb, Eb, E1.
    split; auto. cbn [pair_up]. rewrite E2. split; auto. split; [now constructor|].
    cbn [length]. lia.
Qed.

Lemma hexparse_stmt_hex s mn mx :
  (mn <= mx)%nat -> hex_string (2 * mn) (2 * mx) s ->
  exists l, hexparse_stmt mn mx (Some s) = Some l /\ spells s l /\ (2 * length l = String.length s)%nat.
Proof.
  intros Hm H. apply is_hexstr_spec in H. unfold is_hexstr in H.
  apply andb_true_iff in H as [H Hx]. apply andb_true_iff in H as [H He]. apply andb_true_iff in H as [H1 H2].
  apply Nat.leb_le in H1, H2.
  destruct (pair_up_hex s He Hx) as (nl & l & E1 & E2 & Hs & L1 & L2).
  exists l. split; auto. unfold hexparse_stmt, hexparse. rewrite E1.
  assert (D : (String.length s / 2 = length l)%nat).
  { rewrite <- L2, Nat.mul_comm, Nat.div_mul; auto. }
  rewrite D.
  destruct (Nat.ltb_spec (length l) mn); [lia|]. destruct (Nat.ltb_spec mx (length l)); [lia|]. cbn [orb].
  destruct (Nat.ltb_spec (mx * 2) (length nl)); [lia|]. rewrite E2, Nat.eqb_refl. reflexivity.
Qed.

(** the reading is determined by the spelling *)
Lemma digit_value_inj c v w : digit_value c v -> digit_value c w -> v = w.
Proof.
  assert (B : forall v, digit_value c v -> (v < 16)%N).
  { intros x [H|H].
    - destruct (N.lt_ge_cases x 16) as [?|G]; auto. exfalso.
      assert (G' : (16 <= N.to_nat x)%nat) by lia.
      remember (N.to_nat x) as k. do 16 (destruct k as [|k]; [lia|]). cbn in H. now destruct k.
    - destruct (N.lt_ge_cases x 16) as [?|G]; auto. exfalso.
      assert (G' : (16 <= N.to_nat x)%nat) by lia.
      remember (N.to_nat x) as k. do 16 (destruct k as [|k]; [lia|]). cbn in H. now destruct k. }
  assert (V : forall v, digit_value c v -> hex_val c = Some v).
  { intros x Hx. pose proof (B x Hx) as Hb.
    assert (E : In x [0;1;2;3;4;5;6;7;8;9;10;11;12;13;14;15]%N).
    { cbn. destruct x as [|p]; auto. do 4 (destruct p as [p|p|]; try lia); auto 20. }
    cbn in E. repeat (destruct E as [<-|E]; [destruct Hx as [Hx|Hx]; cbn in Hx; injection Hx as <-; reflexivity|]).
    contradiction. }
  intros Hv Hw. apply V in Hv, Hw. congruence.
Qed.

Lemma spells_inj s l l' : spells s l -> spells s l' -> l = l'.
Proof.
  intros H. revert l'. induction H as [|c1 c2 r v1 v2 l D1 D2 H IH]; intros l' H'; inversion H' as [|? ? ? w1 w2 m E1 E2 H2]; subst; auto.
  rewrite (digit_value_inj _ _ _ D1 E1), (digit_value_inj _ _ _ D2 E2). f_equal. auto.
Qed.

(** ** keys_wellformed is an invariant *)
Definition stmt_keys_ok (s : stmt) : Prop :=
  match s with
  | AUC_2G_INSERT _ _ ki => hex_string 32 32 ki
  | AUC_3G_INSERT _ _ k op opc b => hex_string 32 64 k /\ 0 <= b <= 28 /\
      ((exists o, op = Some o /\ opc = None /\ hex_string 32 64 o) \/
       (exists o, op = None /\ opc = Some o /\ hex_string 32 64 o))
  | _ => True
  end.

Lemma keys_exec s d : stmt_keys_ok s -> keys_wellformed d -> keys_wellformed (snd (exec s d)).
Proof.
  intros Hs H. destruct s; try exact H; cbn [exec];
    try (unfold sel; destruct (find _ _); exact H);
    try (destruct (existsb _ _); exact H); try (destruct (_ && _); exact H);
    try (destruct (find _ _); exact H).
  - destruct H as [H2 H3]. split; [exact H2|]. intros a Ha. cbn in Ha. unfold upd in Ha.
    apply in_map_iff in Ha as (x & <- & Hx). destruct (a3_id x =? id); [|auto]. apply (H3 x Hx).
  - destruct (existsb _ _); [exact H|]. destruct H as [H2 H3]. split; [|exact H3].
    intros a Ha. cbn in Ha. apply in_app_or in Ha as [Ha|[<-|[]]]; auto.
  - destruct H as [H2 H3]. split; [|exact H3]. intros a Ha. cbn in Ha. apply filter_In in Ha as [Ha _]. auto.
  - destruct (existsb _ _); [exact H|]. destruct H as [H2 H3]. split; [exact H2|].
    intros a Ha. cbn in Ha. apply in_app_or in Ha as [Ha|[<-|[]]]; auto.
  - destruct H as [H2 H3]. split; [exact H2|]. intros a Ha. cbn in Ha. apply filter_In in Ha as [Ha _]. auto.
Qed.

Lemma aud_keys_ok id aud : all_stmts stmt_keys_ok (db_subscr_update_aud_by_id id aud).
Proof.
  destruct aud as [algo ki|algo k opc op bl|]; cbn [db_subscr_update_aud_by_id]; [| |exact I].
  - destruct (negb _); [exact I|]. destruct (negb (algo =? ALG_NONE)) eqn:En; cbn [andb].
    + destruct (is_hexstr ki 32 32) eqn:Eh; cbn [negb]; [|exact I].
      apply is_hexstr_spec in Eh.
      cbn [all_stmts]. split; [exact I|]. intros r. destruct (_ && _); [exact I|].
      destruct (algo =? ALG_NONE); cbn; auto.
    + apply negb_false_iff in En. cbn [all_stmts]. split; [exact I|]. intros r. rewrite En. destruct (_ && _); exact I.
  - destruct (negb _); [exact I|]. destruct (negb (algo =? ALG_NONE)) eqn:En; cbn [andb].
    + destruct (is_hexstr k 32 64) eqn:Ek; cbn [negb orb]; [|exact I].
      destruct (is_hexstr opc 32 64) eqn:Eo; cbn [negb orb]; [|exact I].
      destruct (0 <=? bl) eqn:E0; cbn [andb negb]; [|exact I].
      destruct (bl <=? IND_BITLEN_MAX) eqn:E1; cbn [negb]; [|exact I].
      apply is_hexstr_spec in Ek, Eo. unfold IND_BITLEN_MAX in E1.
      cbn [all_stmts]. split; [exact I|]. intros r. destruct (_ && _); [exact I|].
      destruct (algo =? ALG_NONE); [exact I|]. cbn [all_stmts]. split; [|exact (fun _ => I)].
      cbn. split; auto. split; [lia|]. destruct op; [left|right]; eauto.
    + apply negb_false_iff in En. cbn [all_stmts]. split; [exact I|]. intros r. rewrite En. destruct (_ && _); exact I.
Qed.

Lemma api_keys_ok a : all_stmts stmt_keys_ok (api_prog a).
Proof.
  destruct a; cbn [api_prog].
  - unfold db_subscr_create. destruct (imsi_valid imsi); cbn; auto.
  - unfold db_subscr_delete_by_id. cbn. split; auto. intros [| |n| | | |]; cbn; auto.
    split; auto. intros [| |[|[|]]| | | |]; cbn; auto; split; auto; intros [| |[|[|]]| | | |]; cbn; auto.
  - destruct msisdn as [m|]; cbn; auto. destruct (msisdn_valid m); cbn; auto.
  - apply aud_keys_ok.
  - destruct imei as [m|]; cbn; auto. destruct (imei_valid14 m); cbn; auto.
  - destruct is_ps; cbn; auto.
  - destruct is_ps; cbn; auto.
  - unfold db_subscr_lu. destruct (ipa_cstr vlr); cbn; auto.
    destruct (lu_proxy via); cbn; auto.
    split; [destruct is_ps; exact I|]. intros r. destruct (upd_rc r =? 0); cbn; auto.
    destruct now; cbn; auto. split; [destruct is_ps; exact I|auto].
  - cbn; auto.
  - unfold db_ind. destruct (ind_vlr_name vlr); cbn; auto. split; auto.
    intros [| |n| | |i|]; cbn; auto; (split; [exact I|]); intros [| |m| | |j|]; cbn; auto;
      (split; [exact I|]); intros []; cbn; auto.
  - unfold db_ind_del. destruct (ind_vlr_name vlr); cbn; auto.
  - cbn. split; auto. intros []; cbn; auto. destruct (sub_of_row _ _); cbn; auto.
  - cbn. split; auto. intros []; cbn; auto. destruct (sub_of_row _ _); cbn; auto.
  - cbn. split; auto. intros []; cbn; auto. destruct (sub_of_row _ _); cbn; auto.
  - cbn. split; auto. intros []; cbn; auto. destruct (sub_of_row _ _); cbn; auto.
  - cbn; auto.
  - cbn; auto.
Qed.

Lemma keys_hist h d : keys_wellformed d -> keys_wellformed (db_hist h d).
Proof.
  revert d. induction h as [|[a c] h IH]; intros d H; [exact H|]. unfold db_hist in *. cbn [fold_left]. apply IH.
  unfold db_step. cbn [fst snd]. apply (run_inv keys_wellformed stmt_keys_ok); auto using keys_exec, api_keys_ok.
Qed.

Lemma keys_init : keys_wellformed db_init.
Proof. split; intros a []. Qed.

(** ** The two statements of an accepted key update *)
Definition two_step (dl : stmt) (ins : option stmt) : prog Z :=
  Exec dl (fun r => let ret := aud_del_rc r in
    if negb (ret =? 0) && negb (ret =? - ENOENT) then Ret ret
    else match ins with None => Ret ret | Some s => Exec s (fun r => Ret (ins_rc r)) end).

Definition aud_del_stmt (id : Z) (a : aud_str) : stmt :=
  match a with AudGsm _ _ => AUC_2G_DELETE id | _ => AUC_3G_DELETE id end.
Definition aud_algo (a : aud_str) : Z :=
  match a with AudGsm al _ => al | AudUmts al _ _ _ _ => al | AudOther => 0 end.
Definition aud_ins_stmt (id : Z) (a : aud_str) : option stmt :=
  if aud_algo a =? 0 then None else
  match a with
  | AudGsm al ki => Some (AUC_2G_INSERT id al ki)
  | AudUmts al k o b bl => Some (AUC_3G_INSERT id al k (if b then Some o else None) (if b then None else Some o) bl)
  | AudOther => None
  end.

Lemma aud_shape id a :
  (acceptable a /\ db_subscr_update_aud_by_id id a = two_step (aud_del_stmt id a) (aud_ins_stmt id a)) \/
  (~ acceptable a /\ db_subscr_update_aud_by_id id a = Ret (- EINVAL)).
Proof.
  destruct a as [algo ki|algo k opc op bl|]; cbn [db_subscr_update_aud_by_id acceptable aud_del_stmt];
    unfold aud_ins_stmt; cbn [aud_algo]; unfold ALG_NONE, ALG_COMP128v1, ALG_COMP128v2, ALG_COMP128v3, ALG_XOR_2G, ALG_MILENAGE, ALG_XOR_3G, IND_BITLEN_MAX.
  - destruct (algo =? 0) eqn:E0; cbn [orb negb andb].
    + left. split; [left; lia|reflexivity].
    + destruct ((algo =? 1) || (algo =? 2) || (algo =? 3) || (algo =? 6)) eqn:Ea; cbn [negb].
      2:{ right. split; auto. intros [H|[H _]]; lia. }
      destruct (is_hexstr ki 32 32) eqn:Eh; cbn [negb].
      2:{ right. split; auto. intros [H|[_ H]]; [lia|]. apply is_hexstr_spec in H. congruence. }
      apply is_hexstr_spec in Eh. left. split; auto. right. split; auto. lia.
  - destruct (algo =? 0) eqn:E0; cbn [orb negb andb].
    + left. split; [left; lia|reflexivity].
    + destruct ((algo =? 5) || (algo =? 4)) eqn:Ea; cbn [negb].
      2:{ right. split; auto. intros [H|[H _]]; lia. }
      destruct (is_hexstr k 32 64) eqn:Ek; cbn [negb orb].
      2:{ right. split; auto. intros [H|[_ [H _]]]; [lia|]. apply is_hexstr_spec in H. congruence. }
      destruct (is_hexstr opc 32 64) eqn:Eo; cbn [negb orb].
      2:{ right. split; auto. intros [H|[_ [_ [H _]]]]; [lia|]. apply is_hexstr_spec in H. congruence. }
      destruct ((0 <=? bl) && (bl <=? 28)) eqn:Eb; cbn [negb].
      2:{ right. split; auto. intros [H|[_ [_ [_ H]]]]; lia. }
      apply is_hexstr_spec in Ek, Eo. left. split; auto. right. split; [lia|]. split; auto. split; auto. lia.
  - right. split; auto.
Qed.

(** all ways the two statements can end *)
Lemma two_step_cases dl ins c d :
  let r := run (two_step dl ins) c d in let rc := fst (fst r) in let d' := snd (fst r) in
  let d1 := snd (exec dl d) in let del_rc := aud_del_rc (fst (exec dl d)) in
  ((rc = Fin (- EIO) \/ rc = Crashed) /\ d' = d) \/
  (rc = Fin del_rc /\ d' = d1 /\ (ins = None \/ (del_rc <> 0 /\ del_rc <> - ENOENT))) \/
  (exists s, ins = Some s /\ (del_rc = 0 \/ del_rc = - ENOENT) /\
     (((rc = Fin (- EIO) \/ rc = Crashed) /\ d' = d1) \/
      (rc = Fin (ins_rc (fst (exec s d1))) /\ d' = snd (exec s d1)))).
Proof.
  cbv zeta. unfold two_step. cbn [run].
  assert (G : forall c', let d1 := snd (exec dl d) in
     let x := run (let ret := aud_del_rc (fst (exec dl d)) in
        if negb (ret =? 0) && negb (ret =? - ENOENT) then Ret ret
        else match ins with None => Ret ret | Some s => Exec s (fun r => Ret (ins_rc r)) end) c' d1 in
     (fst (fst x) = Fin (aud_del_rc (fst (exec dl d))) /\ snd (fst x) = d1 /\
        (ins = None \/ (aud_del_rc (fst (exec dl d)) <> 0 /\ aud_del_rc (fst (exec dl d)) <> - ENOENT))) \/
     (exists s, ins = Some s /\ (aud_del_rc (fst (exec dl d)) = 0 \/ aud_del_rc (fst (exec dl d)) = - ENOENT) /\
     (((fst (fst x) = Fin (- EIO) \/ fst (fst x) = Crashed) /\ snd (fst x) = d1) \/
      (fst (fst x) = Fin (ins_rc (fst (exec s d1))) /\ snd (fst x) = snd (exec s d1))))).
  { intros c' d1. cbv zeta. generalize (aud_del_rc (fst (exec dl d))). intros q.
    destruct (negb (q =? 0) && negb (q =? - ENOENT)) eqn:Eq.
    - left. cbn [run fst snd]. split; auto. split; auto. right. unfold ENOENT in *. lia.
    - destruct ins as [s|]; [|left; cbn; auto].
      right. exists s. split; auto. split; [lia|]. cbn [run].
      destruct c' as [|[] c'']; cbn; auto; destruct (exec s d1); cbn; auto. }
  cbv zeta in G. destruct c as [|[] c']; cbn [fst snd].
  - specialize (G []). right. destruct (exec dl d) as [x y]. exact G.
  - specialize (G c'). right. destruct (exec dl d) as [x y]. exact G.
  - left. auto.
  - left. auto.
Qed.

Lemma del_rc_ne r : aud_del_rc r <> -22.
Proof. destruct r as [| |[|[|]]| | | |]; discriminate. Qed.
Lemma ins_rc_ne r : ins_rc r <> -22.
Proof. destruct r; discriminate. Qed.

Lemma c06_refused id a c d :
  (run_out (db_subscr_update_aud_by_id id a) c d = Fin (-22) <-> ~ acceptable a) /\
  (~ acceptable a -> run_db (db_subscr_update_aud_by_id id a) c d = d).
Proof.
  destruct (aud_shape id a) as [[Ha ->]|[Ha ->]]; [|now repeat split].
  split; [|contradiction]. split; [|contradiction]. intros H. exfalso.
  unfold run_out in H.
  destruct (two_step_cases (aud_del_stmt id a) (aud_ins_stmt id a) c d)
    as [[[E|E] _]|[[E _]|(s & _ & _ & [[[E|E] _]|[E _]])]]; rewrite E in H; try discriminate; injection H.
  - apply del_rc_ne.
  - apply ins_rc_ne.
Qed.

(** ** Reading a stored key back *)
Definition stored2 (d : db) (id : Z) := find (fun a => a2_id a =? id) (d_auc2 d).
Definition stored3 (d : db) (id : Z) := find (fun a => a3_id a =? id) (d_auc3 d).

Lemma find_by_imsi d imsi id : db_inv d -> is_subscriber d imsi id ->
  exists r, find (by_imsi imsi) (d_sub d) = Some r /\ s_id r = id.
Proof.
  intros Hd (r & Hr & Ei & <-). exists r. split; auto. apply find_unique; auto.
  - unfold by_imsi. now rewrite Ei, String.eqb_refl.
  - intros y Hy E. unfold by_imsi in E. apply String.eqb_eq in E.
    apply (NoDup_key_inj s_imsi (d_sub d)); auto; [apply Hd|congruence].
Qed.

Lemma run_get d imsi id c : db_inv d -> is_subscriber d imsi id -> no_fault c ->
  run_out (db_get_auth_data imsi) c d =
  Fin (match read_3g (stored3 d id) with
       | None => inl (- EIO)
       | Some u => match read_2g (stored2 d id), u with
                   | None, None => inl (- ENOKEY)
                   | g, u => inr (mk_auth g u id)
                   end
       end).
Proof.
  intros Hd Hs Hc. rewrite (proj1 (run_no_fault _ c d Hc)).
  destruct (find_by_imsi d imsi id Hd Hs) as (r & Hf & <-).
  unfold run_out. cbn. rewrite Hf. fold (stored2 d (s_id r)) (stored3 d (s_id r)).
  destruct (read_3g _) as [[u|]|]; [| |reflexivity]; destruct (read_2g _); reflexivity.
Qed.

Lemma read_2g_row a : hex_string 32 32 (a2_ki a) ->
  exists l, spells (a2_ki a) l /\ length l = 16%nat /\ read_2g (Some a) = Some (mk_aud2 (a2_algo a) l).
Proof.
  intros H. destruct (hexparse_stmt_hex (a2_ki a) 16 16) as (l & E & Hs & L); auto.
  exists l. split; auto. destruct H as [H _]. split; [lia|]. unfold read_2g. now rewrite E.
Qed.

Lemma read_3g_row a k o (is_op : bool) : hex_string 32 64 k -> hex_string 32 64 o -> a3_k a = k ->
  a3_op a = (if is_op then Some o else None) -> (is_op = false -> a3_opc a = Some o) ->
  exists lk lo, spells k lk /\ spells o lo /\
    read_3g (Some a) = Some (Some (mk_aud3 (a3_algo a) lk lo is_op (a3_sqn a) (a3_ind_bitlen a) 0 false)).
Proof.
  intros Hk Ho Ek Eo Ec.
  destruct (hexparse_stmt_hex k 16 32) as (lk & E1 & S1 & _); auto; [lia|].
  destruct (hexparse_stmt_hex o 16 32) as (lo & E2 & S2 & _); auto; [lia|].
  exists lk, lo. split; auto. split; auto. unfold read_3g. rewrite Ek, E1, Eo. destruct is_op.
  - now rewrite E2.
  - rewrite (Ec eq_refl), E2. reflexivity.
Qed.

Lemma read_3g_total d id : keys_wellformed d -> exists u, read_3g (stored3 d id) = Some u.
Proof.
  intros [_ H]. unfold stored3. destruct (find _ _) as [a|] eqn:E; [|now exists None].
  apply find_some in E as [Ha _]. destruct (H a Ha) as (Hk & _ & [(o & E1 & E2 & Ho)|(o & E1 & E2 & Ho)]).
  - destruct (read_3g_row a _ o true Hk Ho eq_refl E1) as (lk & lo & _ & _ & E); [discriminate|]. eauto.
  - destruct (read_3g_row a _ o false Hk Ho eq_refl E1) as (lk & lo & _ & _ & E); [auto|]. eauto.
Qed.

(** what a successful provisioning leaves behind *)
Lemma aud_success id a c d :
  run_out (db_subscr_update_aud_by_id id a) c d = Fin 0 -> aud_algo a <> 0 ->
  acceptable a /\ exists s d1, aud_ins_stmt id a = Some s /\ d1 = snd (exec (aud_del_stmt id a) d) /\
    ins_rc (fst (exec s d1)) = 0 /\ run_db (db_subscr_update_aud_by_id id a) c d = snd (exec s d1).
Proof.
  intros H Hal. destruct (aud_shape id a) as [[Ha E]|[Ha E]]; rewrite E in *; [|discriminate H].
  split; auto.
  assert (Hi : aud_ins_stmt id a <> None).
  { unfold aud_ins_stmt. destruct (aud_algo a =? 0) eqn:E0; [lia|]. destruct a; try discriminate; now cbn in Hal. }
  unfold run_out, run_db in *.
  destruct (two_step_cases (aud_del_stmt id a) (aud_ins_stmt id a) c d)
    as [[[E1|E1] _]|[(E1 & _ & [Ei|[F1 F2]])|(s & Es & _ & [[[E1|E1] _]|[E1 E2]])]]; rewrite E1 in H; try discriminate; try congruence.
  exists s, (snd (exec (aud_del_stmt id a) d)). repeat split; auto. congruence.
Qed.

Lemma find_snoc_del {R} (key : R -> Z) id (l : list R) x : key x = id ->
  find (fun a => key a =? id) (del (fun a => key a =? id) l ++ [x]) = Some x.
Proof.
  intros E. rewrite find_app_none.
  - cbn. now rewrite E, Z.eqb_refl.
  - destruct (find _ _) eqn:F; auto. apply find_some in F as [F1 F2]. apply del_not_in in F1. congruence.
Qed.

Lemma sub_same d d' imsi id : d_sub d' = d_sub d -> is_subscriber d imsi id -> is_subscriber d' imsi id.
Proof. unfold is_subscriber. now intros ->. Qed.

Lemma c06_2g d imsi id algo ki c c' :
  db_ok d -> keys_wellformed d -> is_subscriber d imsi id -> no_fault c' ->
  run_out (db_subscr_update_aud_by_id id (AudGsm algo ki)) c d = Fin 0 -> algo <> 0 ->
  exists l u, spells ki l /\ length l = 16%nat /\
    run_out (db_get_auth_data imsi) c' (run_db (db_subscr_update_aud_by_id id (AudGsm algo ki)) c d) =
      Fin (inr (mk_auth (Some (mk_aud2 algo l)) u id)) /\
    (forall g3, run_out (db_get_auth_data imsi) c' d = Fin (inr g3) -> u = ad_3g g3).
Proof.
  intros Hd Hk Hs Hc H Hal. apply db_ok_inv in Hd.
  assert (Hd' : db_inv (run_db (db_subscr_update_aud_by_id id (AudGsm algo ki)) c d))
    by (eapply run_inv; eauto using inv_exec, aud_stmts_ok).
  destruct (aud_success id _ c d H Hal) as (Ha & s & d1 & Es & E1 & Hi & E2). rewrite E2 in Hd' |- *.
  unfold aud_ins_stmt in Es. cbn [aud_algo] in Es. destruct (algo =? 0) eqn:E0; [lia|]. injection Es as <-.
  cbn [aud_del_stmt exec snd] in E1. subst d1. cbn [exec] in *.
  destruct (existsb _ _) eqn:Ex; [discriminate Hi|]. cbn [snd] in *.
  assert (Hh : hex_string 32 32 ki) by (destruct Ha as [Ha|[_ Ha]]; [lia|exact Ha]).
  destruct (read_2g_row (mk_auc2 id algo ki) Hh) as (l & Sl & Ll & Rl).
  destruct (read_3g_total d id Hk) as (u & Eu).
  exists l, u. split; auto. split; auto. split.
  - rewrite (run_get _ imsi id); auto.
    replace (stored3 _ id) with (stored3 d id) by reflexivity. rewrite Eu.
    unfold stored2. cbn. rewrite (find_snoc_del a2_id); auto. rewrite Rl. reflexivity.
  - intros g3. rewrite (run_get d imsi id); auto. rewrite Eu. destruct (read_2g (stored2 d id)), u; intros E; try discriminate E; inversion E; auto.
Qed.

Lemma c06_3g d imsi id algo k opc is_op bl c c' :
  db_ok d -> keys_wellformed d -> is_subscriber d imsi id -> no_fault c' ->
  run_out (db_subscr_update_aud_by_id id (AudUmts algo k opc is_op bl)) c d = Fin 0 -> algo <> 0 ->
  exists lk lo g, spells k lk /\ spells opc lo /\
    run_out (db_get_auth_data imsi) c' (run_db (db_subscr_update_aud_by_id id (AudUmts algo k opc is_op bl)) c d) =
      Fin (inr (mk_auth g (Some (mk_aud3 algo lk lo is_op 0 bl 0 false)) id)) /\
    (forall a, run_out (db_get_auth_data imsi) c' d = Fin (inr a) -> g = ad_2g a).
Proof.
  intros Hd Hk Hs Hc H Hal. apply db_ok_inv in Hd.
  assert (Hd' : db_inv (run_db (db_subscr_update_aud_by_id id (AudUmts algo k opc is_op bl)) c d))
    by (eapply run_inv; eauto using inv_exec, aud_stmts_ok).
  destruct (aud_success id _ c d H Hal) as (Ha & s & d1 & Es & E1 & Hi & E2). rewrite E2 in Hd' |- *.
  unfold aud_ins_stmt in Es. cbn [aud_algo] in Es. destruct (algo =? 0) eqn:E0; [lia|]. injection Es as <-.
  cbn [aud_del_stmt exec snd] in E1. subst d1. cbn [exec] in *.
  destruct (existsb _ _) eqn:Ex; [discriminate Hi|]. cbn [snd] in *.
  assert (Hh : hex_string 32 64 k /\ hex_string 32 64 opc) by (destruct Ha as [Ha|(_ & Ha & Hb & _)]; [lia|auto]).
  destruct Hh as [Hhk Hho].
  destruct (read_3g_row (mk_auc3 id algo k (if is_op then Some opc else None) (if is_op then None else Some opc) 0 bl)
              k opc is_op Hhk Hho eq_refl eq_refl) as (lk & lo & Sk & So & R).
  { now intros ->. }
  exists lk, lo, (read_2g (stored2 d id)). split; auto. split; auto. split.
  - rewrite (run_get _ imsi id); auto.
    replace (stored2 _ id) with (stored2 d id) by reflexivity.
    unfold stored3. cbn. rewrite (find_snoc_del a3_id); auto. cbn in R. rewrite R.
    destruct (read_2g _); reflexivity.
  - intros g3. rewrite (run_get d imsi id); auto. destruct (read_3g (stored3 d id)) as [[]|]; destruct (read_2g (stored2 d id)); intros E; try discriminate E; inversion E; auto.
Qed.

(** ** removal *)
Lemma cnt_upd_key {R} (key : R -> Z) l i : NoDup (map key l) ->
  (exists a, In a l /\ key a = i) -> cnt (fun a => key a =? i) l = 1%nat.
Proof.
  intros Hn (a & Ha & E). pose proof (cnt_le1 key l i Hn) as L.
  assert (P : (0 < cnt (fun a => (key a =? i)%Z) l)%nat) by (apply cnt_pos_iff; exists a; split; auto; lia).
  lia.
Qed.

Lemma c06_remove d id c (three : bool) :
  db_ok d -> no_fault c ->
  let a := if three then AudUmts 0 "" "" false 0 else AudGsm 0 "" in
  let had := if three then has_auc3 d id else has_auc2 d id in
  let d' := run_db (db_subscr_update_aud_by_id id a) c d in
  (had -> run_out (db_subscr_update_aud_by_id id a) c d = Fin 0) /\
  (~ had -> run_out (db_subscr_update_aud_by_id id a) c d = Fin (- ENOENT)) /\
  (if three then ~ has_auc3 d' id else ~ has_auc2 d' id).
Proof.
  intros Hd Hc a had d'. apply db_ok_inv in Hd.
  subst had d'. rewrite (proj1 (run_no_fault _ c d Hc)), (proj2 (run_no_fault _ c d Hc)).
  subst a. unfold run_out, run_db. destruct three.
  - change (AudUmts 0 "" "" false 0) with (AudUmts ALG_NONE "" "" false 0). rewrite run_aud3_none. cbn [run exec fst snd].
    split; [|split].
    + intros H. rewrite (cnt_upd_key a3_id); [reflexivity|apply Hd|exact H].
    + intros H. destruct (cnt _ _) eqn:E; [reflexivity|]. exfalso. apply H.
      assert (P : (0 < cnt (fun a => (a3_id a =? id)%Z) (d_auc3 d))%nat) by lia.
      apply cnt_pos_iff in P as (a & Ha & Ea). exists a. split; auto. lia.
    + intros (a & Ha & Ea). cbn in Ha. apply del_not_in in Ha. lia.
  - change (AudGsm 0 "") with (AudGsm ALG_NONE ""). rewrite run_aud2_none. cbn [run exec fst snd].
    split; [|split].
    + intros H. rewrite (cnt_upd_key a2_id); [reflexivity|apply Hd|exact H].
    + intros H. destruct (cnt _ _) eqn:E; [reflexivity|]. exfalso. apply H.
      assert (P : (0 < cnt (fun a => (a2_id a =? id)%Z) (d_auc2 d))%nat) by lia.
      apply cnt_pos_iff in P as (a & Ha & Ea). exists a. split; auto. lia.
    + intros (a & Ha & Ea). cbn in Ha. apply del_not_in in Ha. lia.
Qed.

(** ** C07: the states a key update can leave behind *)
Definition new2 (id : Z) (a : aud_str) (r : auc2_row) : Prop :=
  match a with AudGsm al ki => al <> 0 /\ r = mk_auc2 id al ki | _ => False end.
Definition new3 (id : Z) (a : aud_str) (r : auc3_row) : Prop :=
  match a with
  | AudUmts al k o b bl => al <> 0 /\ r = mk_auc3 id al k (if b then Some o else None) (if b then None else Some o) 0 bl
  | _ => False
  end.

Lemma in_del {R} (key : R -> Z) id l x : In x (del (fun a => key a =? id) l) <-> In x l /\ key x <> id.
Proof. unfold del. rewrite filter_In. destruct (Z.eqb_spec (key x) id); cbn; intuition congruence. Qed.

(** the key rows of [id] in [d'] are those of [d] / none / exactly the new ones *)
Definition keys_old (three : bool) (id : Z) (d d' : db) : Prop :=
  if three then forall r, key3 d' id r <-> key3 d id r else forall r, key2 d' id r <-> key2 d id r.
Definition keys_none (three : bool) (id : Z) (d' : db) : Prop :=
  if three then ~ has_auc3 d' id else ~ has_auc2 d' id.
Definition keys_new (three : bool) (id : Z) (a : aud_str) (d' : db) : Prop :=
  if three then forall r, key3 d' id r <-> new3 id a r else forall r, key2 d' id r <-> new2 id a r.
(** everything but the 2G (3G) rows of [id] is the same *)
Definition others_same (three : bool) (id : Z) (d d' : db) : Prop :=
  d_sub d' = d_sub d /\ d_ind d' = d_ind d /\
  (if three then d_auc2 d' = d_auc2 d else d_auc3 d' = d_auc3 d) /\
  (forall j, j <> id -> (forall r, key2 d' j r <-> key2 d j r) /\ (forall r, key3 d' j r <-> key3 d j r)).
Definition is_3g (a : aud_str) : bool := match a with AudGsm _ _ => false | _ => true end.

Ltac osplit := split; [auto|split; [auto|split; [auto|intros j Hj; split; intros r]]].

Lemma others_refl t id d : others_same t id d d.
Proof. destruct t; osplit; tauto. Qed.

Lemma del_state id a d : let d1 := snd (exec (aud_del_stmt id a) d) in
  others_same (is_3g a) id d d1 /\ keys_none (is_3g a) id d1.
Proof.
  assert (A2 : forall j, j <> id -> forall r, key2 (with_auc2 d (del (fun a => a2_id a =? id) (d_auc2 d))) j r <-> key2 d j r).
  { intros j Hj r. unfold key2. cbn. rewrite (in_del a2_id). intuition congruence. }
  assert (A3 : forall j, j <> id -> forall r, key3 (with_auc3 d (del (fun a => a3_id a =? id) (d_auc3 d))) j r <-> key3 d j r).
  { intros j Hj r. unfold key3. cbn. rewrite (in_del a3_id). intuition congruence. }
  destruct a; cbn.
  - split; [osplit; auto; tauto|].
    intros (r & Hr & E). cbn in Hr. apply (in_del a2_id) in Hr. tauto.
  - split; [osplit; auto; tauto|].
    intros (r & Hr & E). cbn in Hr. apply (in_del a3_id) in Hr. tauto.
  - split; [osplit; auto; tauto|].
    intros (r & Hr & E). cbn in Hr. apply (in_del a3_id) in Hr. tauto.
Qed.

Lemma ins_state id a s d : let d1 := snd (exec (aud_del_stmt id a) d) in
  aud_ins_stmt id a = Some s ->
  others_same (is_3g a) id d (snd (exec s d1)) /\ keys_new (is_3g a) id a (snd (exec s d1)) /\ ins_rc (fst (exec s d1)) = 0.
Proof.
  intros d1. destruct (del_state id a d) as [Ho Hn]. fold d1 in Ho, Hn. clearbody d1.
  unfold aud_ins_stmt. destruct (aud_algo a =? 0) eqn:E0; [discriminate|].
  destruct a as [al ki|al k o b bl|]; intros E; inversion E; subst s; clear E; cbn in E0, Hn, Ho; cbn [exec is_3g].
  - destruct (existsb _ _) eqn:Ex.
    { exfalso. apply Hn. apply existsb_exists in Ex as (r & Hr & Er). exists r. split; auto. lia. }
    cbn [fst snd]. split; [|split; auto].
    + destruct Ho as (H1 & H2 & H3 & H4). osplit; [auto..| | ].
      * rewrite <- (proj1 (H4 j Hj) r). unfold key2. cbn. rewrite in_app_iff. cbn. split; [|tauto].
        intros [[H|[<-|[]]] H']; auto. cbn in H'. congruence.
      * apply (proj2 (H4 j Hj)).
    + intros r. unfold key2. cbn. rewrite in_app_iff. cbn. split.
      * intros [[H|[<-|[]]] H']; [exfalso; apply Hn; exists r; auto|]. split; auto; lia.
      * intros [_ ->]. cbn. auto.
  - destruct (existsb _ _) eqn:Ex.
    { exfalso. apply Hn. apply existsb_exists in Ex as (r & Hr & Er). exists r. split; auto. lia. }
    cbn [fst snd]. split; [|split; auto].
    + destruct Ho as (H1 & H2 & H3 & H4). osplit; [auto..| | ].
      * apply (proj1 (H4 j Hj)).
      * rewrite <- (proj2 (H4 j Hj) r). unfold key3. cbn. rewrite in_app_iff. cbn. split; [|tauto].
        intros [[H|[<-|[]]] H']; auto. cbn in H'. congruence.
    + intros r. unfold key3. cbn. rewrite in_app_iff. cbn. split.
      * intros [[H|[<-|[]]] H']; [exfalso; apply Hn; exists r; auto|]. split; auto; lia.
      * intros [_ ->]. cbn. auto.
Qed.

Lemma c07_states id a c d :
  let p := db_subscr_update_aud_by_id id a in
  let d' := run_db p c d in
  others_same (is_3g a) id d d' /\
  (keys_old (is_3g a) id d d' \/ keys_none (is_3g a) id d' \/ keys_new (is_3g a) id a d') /\
  (run_out p c d = Fin 0 -> keys_new (is_3g a) id a d').
Proof.
  cbv zeta. destruct (aud_shape id a) as [[Ha ->]|[Ha ->]].
  2:{ split; [apply others_refl|]. split; [left; destruct a; cbn; tauto|discriminate]. }
  unfold run_out, run_db.
  destruct (del_state id a d) as [Ho Hn].
  destruct (two_step_cases (aud_del_stmt id a) (aud_ins_stmt id a) c d)
    as [[H1 ->]|[(H1 & -> & H2)|(s & Hs & H1 & [[H2 ->]|[H2 ->]])]].
  - split; [apply others_refl|]. split; [left; destruct a; cbn; tauto|].
    intros E. rewrite E in H1. destruct H1; discriminate.
  - split; auto. split; auto. intros E. rewrite H1 in E. injection E as E.
    destruct H2 as [H2|[H2 _]]; [|congruence].
    assert (Hz : aud_algo a = 0).
    { unfold aud_ins_stmt in H2. destruct (aud_algo a =? 0) eqn:E0; [lia|]. destruct a; try discriminate H2. contradiction. }
    destruct a as [al ki|al k o b bl|]; cbn in *; try contradiction; subst al; intros r; split; try tauto;
      intros Hr; exfalso; apply Hn; exists r; exact Hr.
  - split; auto. split; auto. intros E. rewrite E in H2. destruct H2; discriminate.
  - destruct (ins_state id a s d Hs) as (A & B & _). auto.
Qed.

Lemma c07_first_time id a c d :
  keys_none (is_3g a) id d ->
  let d' := run_db (db_subscr_update_aud_by_id id a) c d in
  keys_old (is_3g a) id d d' \/ keys_new (is_3g a) id a d'.
Proof.
  intros H d'. destruct (c07_states id a c d) as (_ & [A|[A|A]] & _); auto.
  left. fold d' in A. destruct (is_3g a); cbn in *; intros r; split; intros Hr; exfalso; [apply A|apply H|apply A|apply H]; exists r; exact Hr.
Qed.

Lemma c07_no_fault id a c d : no_fault c -> acceptable a -> aud_algo a <> 0 -> db_ok d ->
  run_out (db_subscr_update_aud_by_id id a) c d = Fin 0 /\
  keys_new (is_3g a) id a (run_db (db_subscr_update_aud_by_id id a) c d).
Proof.
  intros Hc Ha Hal Hd. apply db_ok_inv in Hd.
  assert (H : run_out (db_subscr_update_aud_by_id id a) c d = Fin 0).
  { rewrite (proj1 (run_no_fault _ c d Hc)). destruct (aud_shape id a) as [[_ E]|[N _]]; [|contradiction]. rewrite E.
    assert (Hi : exists s, aud_ins_stmt id a = Some s).
    { unfold aud_ins_stmt. destruct (aud_algo a =? 0) eqn:E0; [lia|]. destruct a; eauto. contradiction. }
    destruct Hi as (s & Hs). pose proof (ins_state id a s d Hs) as (_ & _ & R). 
    assert (L : aud_del_rc (fst (exec (aud_del_stmt id a) d)) = 0 \/ aud_del_rc (fst (exec (aud_del_stmt id a) d)) = - ENOENT).
    { destruct a; cbn.
      - assert (L := cnt_le1 a2_id (d_auc2 d) id ltac:(apply Hd)). destruct (cnt _ _) as [|[|]]; auto. lia.
      - assert (L := cnt_le1 a3_id (d_auc3 d) id ltac:(apply Hd)). destruct (cnt _ _) as [|[|]]; auto. lia.
      - assert (L := cnt_le1 a3_id (d_auc3 d) id ltac:(apply Hd)). destruct (cnt _ _) as [|[|]]; auto. lia. }
    unfold run_out, two_step. cbn [run]. destruct (exec (aud_del_stmt id a) d) as [r1 d1]. cbn [fst snd] in *. cbv zeta.
    replace (negb (aud_del_rc r1 =? 0) && negb (aud_del_rc r1 =? - ENOENT)) with false by lia.
    rewrite Hs. cbn [run]. destruct (exec s d1) as [r2 d2]. cbn in *. now rewrite R. }
  split; auto. now apply c07_states.
Qed.
