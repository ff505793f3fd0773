(** Proofs for C33: sizes of packets, names with empty labels, suffixes that end with a dot. *)
From Verif Require Import Base PeerId Db DbSpec MsLookup MsSpec MsThms Hlr Mdns MdnsSpec MdnsThms MdnsSpec2 MdnsThms3.
Local Open Scope string_scope.
Local Open Scope N_scope.
Local Open Scope list_scope.

(** ** Sizes *)
Lemma domain_is q suffix : good_query q -> exists d, domain_from_query q suffix = Some d /\ d = (lq_service q ++ "." ++ lq_id q ++ "." ++ id_type_name (lq_type q) ++ "." ++ suffix)%string /\ String.length d = name_size q suffix.
Proof.
  intros [_ Gi]. exists (lq_service q ++ "." ++ lq_id q ++ "." ++ id_type_name (lq_type q) ++ "." ++ suffix)%string. split; [unfold domain_from_query; destruct (lq_type q); [destruct Gi|reflexivity|reflexivity]|]. split; [reflexivity|].
  rewrite <- octets_len. repeat rewrite ?octets_app, ?app_length. rewrite !octets_len. unfold name_size. destruct (lq_type q); [destruct Gi| |]; cbn [String.length id_type_name]; lia.
Qed.
Lemma fits_bad l : fits l = Bad <-> (1024 < length l)%nat.
Proof. unfold fits. destruct (Nat.leb_spec (length l) 1024); split; try discriminate; try lia; auto. Qed.
Lemma request_size id q suffix d : String.length d = name_size q suffix -> length (request_encode id (octets_of d) RT_ALL) = query_size q suffix.
Proof. intros E. unfold request_encode, question_encode, query_size. rewrite !app_length, apn_len, header_len, octets_len, E. cbn [length be16]. lia. Qed.
Lemma query_abort id q suffix : good_query q -> mdns_query_encode id q suffix = Bad <-> (1024 < query_size q suffix)%nat.
Proof. intros G. destruct (domain_is q suffix G) as (d & E & _ & L). unfold mdns_query_encode. rewrite E, fits_bad, (request_size id q suffix) by auto. tauto. Qed.
Lemma record_size dom r : length (record_encode dom r) = (length dom + 12 + length (r_rdata r))%nat.
Proof. unfold record_encode. rewrite !app_length, apn_len. cbn [length be16]. lia. Qed.
Lemma txt_size k v r : txt_encode k v = Some r -> length (r_rdata r) = (2 + String.length k + String.length v)%nat.
Proof. unfold txt_encode. destruct (_ <? _)%nat; [discriminate|]. intros E. injection E as <-. cbn [r_rdata length]. rewrite octets_len. assert (A : forall a b, String.length (a ++ b)%string = (String.length a + String.length b)%nat) by (intros a b; rewrite <- !octets_len, octets_app, app_length; auto). rewrite !A. cbn. lia. Qed.
Lemma host_size n t h dom : good_host n h -> (length (flat_map (record_encode dom) (host_records t h)) = host_part n (length dom) h)%nat.
Proof.
  destruct h as [[a p]|]; [|reflexivity]. intros (La & _ & Lp). cbn [host_records]. destruct (N.eqb_spec p 0); [lia|]. destruct (port_enc p Lp) as (r & E & _ & _). rewrite E. cbn [flat_map]. rewrite !app_length, !record_size, (txt_size _ _ _ E). cbn [r_rdata length String.length host_part]. lia.
Qed.
Lemma result_abort id q r suffix : good_query q -> good_result r -> mdns_result_encode id q r suffix = Bad <-> (1024 < result_size q r suffix)%nat.
Proof.
  intros G (G4 & G6 & _ & La). destruct (domain_is q suffix G) as (d & E & _ & L). unfold mdns_result_encode. rewrite E. destruct (age_enc _ La) as (a & Ea & _ & _). rewrite Ea, fits_bad.
  unfold answer_encode. cbn [flat_map]. rewrite flat_map_app, !app_length, header_len, record_size, (txt_size _ _ _ Ea), (host_size 4), (host_size 16), octets_len, L by auto. unfold result_size. cbn [String.length]. split; intros H; lia.
Qed.

(** ** Names with empty labels *)
Lemma loose_labels ls : ls <> [] -> Forall loose ls -> labels (join ls) = ls.
Proof.
  induction ls as [|x r IH]; intros N F; [congruence|]. apply Forall_cons_iff in F as [(_ & D & _) F]. destruct r as [|y r].
  - apply labels_one; auto.
  - rewrite join_cons by discriminate. rewrite labels_app by auto. rewrite IH; [reflexivity|discriminate|auto].
Qed.
Lemma apn_loose ls : ls <> [] -> Forall loose ls -> apn_from_str (join ls) = flat_map pre ls.
Proof.
  intros N F. unfold apn_from_str. rewrite loose_labels by auto. clear N. induction F as [|x r (L & _) F IH]; [auto|]. cbn [flat_map]. rewrite IH.
  unfold pre at 2. rewrite N.mod_small by lia. reflexivity.
Qed.
Definition dotted (ls : list (list N)) : list N := flat_map (fun x => x ++ [46]) ls.
Lemma apn_stops ls : forall fuel cap out tail rest, Forall label ls -> (length ls < fuel)%nat -> (length out + length (dotted ls) < cap)%nat -> (length (flat_map pre ls) < rest)%nat ->
  apn_to_str fuel cap (flat_map pre ls ++ 0 :: tail) rest out = Val (Some (out ++ dotted ls)).
Proof.
  induction ls as [|x r IH]; intros fuel cap out tail rest F Lf Lc Lr.
  - destruct fuel as [|fuel]; [lia|]. destruct rest as [|rest]; [cbn in Lr; lia|]. cbn [flat_map app apn_to_str]. cbn [N.eqb]. unfold put_nul, dotted in *. cbn [flat_map length] in *. destruct (Nat.ltb_spec (length out) cap) as [_|]; [rewrite app_nil_r; auto|lia].
  - apply Forall_cons_iff in F as [(L & _) F]. destruct fuel as [|fuel]; [lia|]. rewrite flat_pre in *. cbn [pre app length] in *. rewrite app_length in *. destruct rest as [|rest]; [lia|]. cbn [apn_to_str].
    unfold dotted in *. cbn [flat_map] in *. rewrite !app_length in *. cbn [length] in *.
    destruct (N.eqb_spec (N.of_nat (length x)) 0) as [|_]; [lia|]. rewrite Nat2N.id. destruct (Nat.ltb_spec (S rest) (length x + 1)) as [|_]; [lia|].
    rewrite <- app_assoc. match goal with |- context [if (?a <? length x)%nat then _ else _] => destruct (Nat.ltb_spec a (length x)) as [|_]; [rewrite ?app_length in *; cbn [length] in *; lia|] end.
    rewrite first_at by auto. rewrite skip_at by auto. destruct (Nat.ltb_spec cap (length out + length x)) as [|_]; [lia|].
    destruct (Nat.eqb_spec (S rest - (length x + 1)) 0) as [|_]; [lia|]. destruct (Nat.leb_spec cap (length out + length x)) as [|_]; [lia|].
    rewrite IH; [rewrite <- !app_assoc; reflexivity|auto|lia|rewrite !app_length; cbn [length]; lia|lia].
Qed.
Lemma first_empty ls : Forall loose ls -> Forall label ls \/ exists a b, Forall label a /\ ls = a ++ [] :: b.
Proof.
  induction 1 as [|x r Lx F [IH|(a & b & IH & ->)]]; [left; constructor| |].
  - destruct x as [|c x]; [right; exists [], r; auto|]. left. constructor; auto. destruct Lx as (L & D & Z). split; [cbn in *; lia|auto].
  - destruct x as [|c x]; [right; exists [], (a ++ [] :: b); auto|]. right. exists ((c :: x) :: a), b. split; [constructor; auto|auto]. destruct Lx as (L & D & Z). split; [cbn in *; lia|auto].
Qed.
Lemma join_dotted a b : b <> [] -> join (a ++ b) = dotted a ++ join b.
Proof. intros N. induction a as [|x a IH]; [reflexivity|]. cbn [app]. rewrite join_cons by (destruct a; [auto|discriminate]). rewrite IH. unfold dotted. cbn [flat_map]. rewrite <- !app_assoc. reflexivity. Qed.
Lemma dotted_no0 a : Forall label a -> ~ In 0 (dotted a).
Proof. induction 1 as [|x r (_ & _ & Z) F IH]; [auto|]. unfold dotted in *. cbn [flat_map]. rewrite !in_app_iff. intros [[I|[I|[]]]|I]; try tauto. discriminate. Qed.
Lemma pre_dotted a : length (flat_map pre a) = length (dotted a).
Proof. induction a as [|x a IH]; [auto|]. unfold dotted in *. cbn [flat_map]. rewrite !app_length. cbn [pre length]. lia. Qed.
Lemma few_labels a : (length a <= length (dotted a))%nat.
Proof. induction a as [|x a IH]; [auto|]. unfold dotted in *. cbn [flat_map length]. rewrite !app_length. cbn [length]. lia. Qed.
Lemma request_stops id a b : id < 65536 -> Forall label a -> Forall loose b -> request_decode (request_encode id (join (a ++ [] :: b)) RT_ALL) = Val (Some (id, dotted a, RT_ALL)).
Proof.
  intros Li Fa Fb. unfold request_decode, request_encode. rewrite app_length, header_len. destruct (Nat.ltb_spec (12 + length (question_encode (join (a ++ [] :: b)) RT_ALL 1)) 12) as [|_]; [lia|].
  rewrite header_rt by (auto; lia). cbn [mbind]. rewrite skip_at by (rewrite header_len; auto).
  assert (Fl : Forall loose (a ++ [] :: b)). { apply Forall_app. split; [eapply Forall_impl; [|exact Fa]; intros x (L & D & Z); split; [lia|auto]|]. constructor; [split; [cbn; lia|split; auto]|auto]. }
  assert (Ne : a ++ [] :: b <> []) by (destruct a; discriminate).
  unfold question_encode. rewrite apn_loose by auto. rewrite flat_map_app. cbn [flat_map pre length app]. change (N.of_nat 0) with 0.
  unfold question_decode. set (tl := flat_map pre b ++ [0] ++ be16 RT_ALL ++ be16 1). replace ((flat_map pre a ++ 0 :: flat_map pre b) ++ 0 :: be16 RT_ALL ++ be16 1) with (flat_map pre a ++ 0 :: tl) by (unfold tl; rewrite <- app_assoc; reflexivity).
  assert (Ll : length (flat_map pre a ++ 0 :: tl) = (length (dotted a) + length (flat_map pre b) + 6)%nat) by (unfold tl; rewrite !app_length, pre_dotted; cbn [length]; rewrite !app_length; cbn [length be16]; lia).
  rewrite Ll. destruct (Nat.ltb_spec (length (dotted a) + length (flat_map pre b) + 6) 6) as [|_]; [lia|].
  pose proof (few_labels a). replace (length (dotted a) + length (flat_map pre b) + 6 - 4 - 1)%nat with (S (length (dotted a) + length (flat_map pre b))) by lia.
  rewrite apn_stops; [|auto|lia|cbn [length]; lia|rewrite pre_dotted; lia]. cbn [mbind app].
  replace (length (dotted a) + length (flat_map pre b) + 6 - 4)%nat with (length (flat_map pre a ++ 0%N :: flat_map pre b ++ [0%N]) + 0)%nat by (rewrite app_length, pre_dotted; cbn [length]; rewrite app_length; cbn [length]; lia).
  replace (flat_map pre a ++ 0 :: tl) with ((flat_map pre a ++ 0 :: flat_map pre b ++ [0]) ++ be16 RT_ALL ++ be16 1) by (unfold tl; rewrite <- !app_assoc; cbn [app]; rewrite <- !app_assoc; reflexivity).
  rewrite rd16_shift by auto. rewrite rd16_be by reflexivity. cbn [mbind]. rewrite <- Nat.add_assoc. rewrite rd16_shift by auto. cbn [Nat.add be16 app]. cbn [mbind rd16 rd8 nth_error]. rewrite cut0_id by (apply dotted_no0; auto). reflexivity.
Qed.

Definition type_label (q : query) : list N := octets_of (id_type_name (lq_type q)).
Lemma type_is q : good_query q -> label (type_label q).
Proof. intros [_ G]. unfold type_label. destruct (lq_type q); [destruct G| |]; (split; [cbn; lia|split; cbn; lia]). Qed.
(** the labels of a domain *)
Lemma domain_labels q suffix a b : good_query q -> octets_of (lq_service q) = join a -> octets_of suffix = join b -> a <> [] -> b <> [] -> exists d, domain_from_query q suffix = Some d /\
  String.length d = name_size q suffix /\ octets_of d = join (a ++ octets_of (lq_id q) :: type_label q :: b).
Proof.
  intros G Ea Eb Na Nb. destruct (domain_is q suffix G) as (d & E & Ed & L). exists d. split; auto. split; auto. rewrite Ed. rewrite !octets_app, Ea, Eb. change (octets_of ".") with [46]. cbn [app].
  rewrite join_app by (auto; discriminate). rewrite join_cons by discriminate. rewrite join_cons by auto. reflexivity.
Qed.
Lemma is_loose x : label x -> loose x.
Proof. intros (L & D & Z). split; [lia|auto]. Qed.
Lemma f2_len {A B} (R : A -> B -> Prop) a b : Forall2 R a b -> length a = length b.
Proof. induction 1; cbn; auto. Qed.
Lemma from_size d suffix q : query_from_domain d suffix = inl q -> String.length d = name_size q suffix.
Proof.
  intros E. apply from_domain_iff in E as (e & (G & w & W & ->) & ->). rewrite <- octets_len. repeat rewrite ?octets_app, ?app_length. rewrite !octets_len. apply f2_len in W. rewrite !bytes_length in W. rewrite W. destruct G as [_ G]. unfold name_size.
  destruct (lq_type q); [destruct G| |]; cbn [String.length]; lia.
Qed.
Lemma text_size l : String.length (text_of l) = length l.
Proof. unfold text_of. rewrite str_length, map_length. reflexivity. Qed.
Lemma octets_inj a b : octets_of a = octets_of b -> a = b.
Proof. intros E. rewrite <- (text_octets a), <- (text_octets b), E. reflexivity. Qed.
Lemma label_join_ne x r : label x -> join (x :: r) <> [].
Proof. intros (L & _) E. destruct r; cbn [join] in E; [subst; cbn in L; lia|]. destruct x; discriminate. Qed.
Lemma octets_text l : Forall (fun x => x < 256) l -> octets_of (text_of l) = l.
Proof. unfold octets_of, text_of. rewrite bytes_str. intros F. rewrite map_map. induction F as [|x r H F IH]; [reflexivity|]. cbn [map]. rewrite IH, N_ascii_embedding by auto. reflexivity. Qed.
Lemma octets_small s : Forall (fun x => x < 256) (octets_of s).
Proof. unfold octets_of. apply Forall_map. apply Forall_forall. intros c _. pose proof (N_ascii_bounded c). lia. Qed.

Lemma loose_nil : loose [].
Proof. split; [cbn; lia|split; auto]. Qed.
Lemma query_exact id q suffix : good_query q -> loose_name (lq_service q) -> loose_name suffix -> id < 65536 -> (query_size q suffix <= 1024)%nat ->
  exists p, mdns_query_encode id q suffix = Val (Some p) /\ (mdns_query_decode p suffix = Val (Some (id, q)) <-> dns_name (lq_service q) /\ (suffix = ""%string \/ dns_name suffix \/ exists s, dns_name s /\ suffix = (s ++ ".")%string)).
Proof.
  intros G (la & Na & Fa & Ea) (lb & Nb & Fb & Eb) Li Ls. destruct (domain_labels q suffix la lb G Ea Eb Na Nb) as (d & Ed & Ld & Eo).
  set (mid := [octets_of (lq_id q); type_label q]) in *. assert (Fm : Forall label mid) by (unfold mid; constructor; [eapply id_label; exact (proj2 G)|constructor; [apply type_is; auto|constructor]]).
  change (la ++ octets_of (lq_id q) :: type_label q :: lb) with (la ++ mid ++ lb) in Eo.
  assert (Fl : Forall loose (la ++ mid ++ lb)) by (repeat (apply Forall_app; split); auto; eapply Forall_impl; [|exact Fm]; apply is_loose).
  exists (request_encode id (octets_of d) RT_ALL). split.
  { unfold mdns_query_encode. rewrite Ed. unfold fits. rewrite (request_size id q suffix) by auto. apply Nat.leb_le in Ls. rewrite Ls. auto. }
  destruct (c32_round q suffix G) as (d' & Ed' & Eq). rewrite Ed in Ed'. injection Ed' as <-.
  unfold mdns_query_decode. destruct (first_empty _ Fl) as [A|(a & b & A & El)].
  - rewrite Eo, request_rt; [|auto|exists (la ++ mid ++ lb); split; [destruct la; discriminate|auto]|reflexivity]. cbn [mbind]. rewrite <- Eo, text_octets, Eq. apply Forall_app in A as [A1 A2]. apply Forall_app in A2 as [_ A2]. split; auto. intros _. split; [exists la; auto|]. right; left. exists lb. auto.
  - rewrite Eo, El. assert (Flb : Forall loose b) by (rewrite El in Fl; apply Forall_app in Fl as [_ Fl]; inversion Fl; auto). rewrite request_stops by auto. cbn [mbind].
    destruct b as [|y b].
    + assert (E0 : join (a ++ [[]]) = dotted a) by (rewrite join_dotted by discriminate; cbn [join]; apply app_nil_r). rewrite <- E0, <- El, <- Eo, text_octets, Eq. split; auto. intros _.
      assert (exists f, lb = f ++ [[]] /\ a = la ++ mid ++ f) as (f & -> & ->).
      { destruct (exists_last Nb) as (f & z & ->). rewrite app_assoc in El. rewrite app_assoc in El. apply app_inj_tail in El as [El ->]. exists f. split; auto. rewrite <- app_assoc in El. auto. }
      apply Forall_app in A as [A1 A2]. apply Forall_app in A2 as [_ A2]. split; [exists la; auto|]. destruct f as [|z f].
      * left. apply octets_inj. exact Eb.
      * right; right. rewrite join_app in Eb by discriminate. cbn [join] in Eb. exists (text_of (join (z :: f))). pose proof (octets_small suffix) as Sm. rewrite Eb in Sm. apply Forall_app in Sm as [Sm _]. split.
        -- exists (z :: f). split; [discriminate|]. split; auto. apply octets_text. exact Sm.
        -- apply octets_inj. rewrite octets_app, octets_text by auto. exact Eb.
    + split.
      * intros H. exfalso. destruct (query_from_domain (text_of (dotted a)) suffix) as [q'|] eqn:Q; [|discriminate]. injection H as ->. apply from_size in Q. rewrite text_size in Q. assert (X : length (octets_of d) = name_size q suffix) by (rewrite octets_len; auto).
        rewrite Eo, El, join_dotted, app_length in X by discriminate. rewrite join_cons in X by discriminate. cbn [app length] in X. lia.
      * intros ((sa & Nsa & Fsa & Esa) & S). exfalso.
        assert (Hl : forall ls ls', Forall loose ls -> Forall loose ls' -> ls <> [] -> ls' <> [] -> join ls = join ls' -> ls = ls') by (intros ls ls' F1 F2 N1 N2 E; rewrite <- (loose_labels ls), <- (loose_labels ls'), E; auto).
        assert (Lo : forall ls, Forall label ls -> Forall loose ls) by (intros ls; apply Forall_impl; apply is_loose).
        assert (Ela : la = sa) by (apply Hl; auto; congruence). subst sa.
        assert (Nn : ~ In [] (la ++ mid)). { intros I. apply in_app_iff in I as [I|I]; [rewrite Forall_forall in Fsa; destruct (Fsa _ I) as (Z & _)|rewrite Forall_forall in Fm; destruct (Fm _ I) as (Z & _)]; cbn in Z; lia. }
        assert (El2 : exists g, lb = g ++ [] :: y :: b).
        { clear - El Nn. rewrite app_assoc in El. revert a El. induction (la ++ mid) as [|x r IH]; intros a El; [exists a; exact El|]. destruct a as [|x' a]; cbn [app] in El; injection El as -> El; [exfalso; apply Nn; left; auto|]. apply (IH ltac:(intros I; apply Nn; right; auto) a El). }
        destruct El2 as (g & ->). destruct S as [->|[(sb & Nsb & Fsb & Esb)|(s & (sb & Nsb & Fsb & Esb) & ->)]].
        -- cbn in Eb. assert (X : @nil N :: nil = g ++ [] :: y :: b) by (apply Hl; auto; [constructor; [apply loose_nil|constructor]|discriminate]). destruct g as [|x [|x2 g]]; discriminate.
        -- assert (X : sb = g ++ [] :: y :: b) by (apply Hl; auto; congruence). subst sb. rewrite Forall_forall in Fsb. destruct (Fsb [] ltac:(apply in_app_iff; right; left; auto)) as (Z & _). cbn in Z. lia.
        -- rewrite octets_app, Esb in Eb. change (octets_of ".") with [46] in Eb.
           assert (X : sb ++ [[]] = g ++ [] :: y :: b). { apply Hl; auto; [apply Forall_app; split; [auto|constructor; [apply loose_nil|constructor]]|destruct sb; discriminate|]. rewrite join_app by (auto; discriminate). exact Eb. }
           destruct (exists_last (l := y :: b)) as (b' & z & E2); [discriminate|]. rewrite E2 in X. change ([] :: b' ++ [z]) with (([] :: b') ++ [z]) in X. rewrite app_assoc in X. apply app_inj_tail in X as [-> _].
           rewrite Forall_forall in Fsb. destruct (Fsb [] ltac:(apply in_app_iff; right; left; auto)) as (Z & _). cbn in Z. lia.
Qed.

(** ** Answers to names that end with a dot *)
Lemma record_dot ls t n body : ls <> [] -> Forall label ls ->
  record_decode (flat_map pre ls ++ 0 :: 0 :: 0 :: t :: 0 :: 1 :: 0 :: 0 :: 0 :: 0 :: 0 :: n :: body) = Val (Some (join ls, mk_mrec 0 [], (length (flat_map pre ls) + 11)%nat)).
Proof.
  intros Ne F. unfold record_decode. set (k := length (flat_map pre ls)). assert (Lk : k = S (length (join ls))) by (apply pre_len; auto).
  rewrite app_length. cbn [length]. fold k. destruct (Nat.ltb_spec (k + S (S (S (S (S (S (S (S (S (S (S (S (length body))))))))))))) 10) as [|_]; [lia|].
  rewrite strnlen_at; [|apply pre_no0; auto|fold k; lia]. fold k. cbn [mbind].
  assert (R : forall i x, nth_error (0 :: 0 :: 0 :: t :: 0 :: 1 :: 0 :: 0 :: 0 :: 0 :: 0 :: n :: body) i = Some x -> rd8 (flat_map pre ls ++ 0 :: 0 :: 0 :: t :: 0 :: 1 :: 0 :: 0 :: 0 :: 0 :: 0 :: n :: body) (k + i) = Val x).
  { intros i x E. rewrite rd8_shift by auto. unfold rd8. rewrite E. reflexivity. }
  replace (S k) with (k + 1)%nat by lia. rewrite (R 1%nat 0) by reflexivity. cbn [mbind N.eqb negb]. 
  pose proof (len_labels ls Ne F). rewrite (apn_to_join ls k k [] _ Ne F ltac:(lia) ltac:(cbn [length]; lia)). cbn [mbind app]. unfold rd16.
  rewrite <- !Nat.add_assoc. cbn [Nat.add]. replace (S (k + 1)) with (k + 2)%nat by lia. replace (S (k + 3)) with (k + 4)%nat by lia. replace (S (k + 5)) with (k + 6)%nat by lia. replace (S (k + 7)) with (k + 8)%nat by lia. replace (S (k + 9)) with (k + 10)%nat by lia.
  rewrite (R 1%nat 0), (R 2%nat 0), (R 3%nat t), (R 4%nat 0), (R 5%nat 1), (R 6%nat 0), (R 7%nat 0), (R 8%nat 0), (R 9%nat 0), (R 10%nat 0) by reflexivity. cbn [mbind]. change (N.to_nat (256 * 0 + 0)) with 0%nat. cbn [firstn].
  replace (k + 11 + 0)%nat with (k + 11)%nat by lia. destruct (Nat.ltb_spec (k + S (S (S (S (S (S (S (S (S (S (S (S (length body))))))))))))) (k + 11)) as [|_]; [lia|]. rewrite cut0_id by (apply join_no0; auto). reflexivity.
Qed.
Lemma encode_dot ls r : ls <> [] -> Forall label ls -> r_type r < 256 -> (length (r_rdata r) < 256)%nat ->
  record_encode (join (ls ++ [[]])) r = flat_map pre ls ++ 0 :: 0 :: 0 :: r_type r :: 0 :: 1 :: 0 :: 0 :: 0 :: 0 :: 0 :: N.of_nat (length (r_rdata r)) :: r_rdata r.
Proof.
  intros Ne F Lt Lr. unfold record_encode. rewrite apn_loose; [|destruct ls; discriminate|apply Forall_app; split; [eapply Forall_impl; [|exact F]; apply is_loose|constructor; [apply loose_nil|constructor]]].
  rewrite flat_map_app. unfold be16. rewrite (N.div_small (r_type r)), (N.mod_small (r_type r)) by auto. rewrite (N.div_small (N.of_nat (length (r_rdata r)))), (N.mod_small (N.of_nat (length (r_rdata r)))) by lia.
  cbn [flat_map pre length app]. rewrite <- app_assoc. reflexivity.
Qed.
Lemma dot_answers fuel ls a r2 more : ls <> [] -> Forall label ls -> r_type a < 256 -> label (r_rdata a) -> r_type r2 < 256 -> (length (r_rdata r2) < 256)%nat -> (2 <= fuel)%nat ->
  records_decode fuel (flat_map (record_encode (join (ls ++ [[]]))) (a :: r2 :: more)) None [] = Val None.
Proof.
  intros Ne F Ta La T2 L2 Lf. destruct fuel as [|[|fuel]]; [lia|lia|]. cbn [flat_map]. assert (L : (length (r_rdata a) < 256)%nat) by (destruct La as (La & _); lia).
  rewrite (encode_dot ls a), (encode_dot ls r2) by auto. set (tl := flat_map _ more). rewrite <- !app_assoc. cbn [app]. rewrite records_step by (destruct ls; [congruence|discriminate]).
  rewrite record_dot by auto. cbn [mbind]. 
  assert (Sk : forall x, skipn (length (flat_map pre ls) + 11) (flat_map pre ls ++ 0 :: 0 :: 0 :: r_type a :: 0 :: 1 :: 0 :: 0 :: 0 :: 0 :: 0 :: x) = x).
  { intros x. replace (flat_map pre ls ++ 0 :: 0 :: 0 :: r_type a :: 0 :: 1 :: 0 :: 0 :: 0 :: 0 :: 0 :: x) with ((flat_map pre ls ++ [0; 0; 0; r_type a; 0; 1; 0; 0; 0; 0; 0]) ++ x) by (rewrite <- app_assoc; reflexivity). apply skip_at. rewrite app_length. reflexivity. }
  rewrite Sk. rewrite app_comm_cons. change (N.of_nat (length (r_rdata a)) :: r_rdata a) with (pre (r_rdata a)).
  rewrite app_assoc. change (pre (r_rdata a) ++ flat_map pre ls) with (flat_map pre (r_rdata a :: ls)). rewrite records_step by discriminate. rewrite record_dot; [|discriminate|constructor; auto]. cbn [mbind].
  destruct (octets_eqb (join ls) (join (r_rdata a :: ls))) eqn:E; [|reflexivity]. apply octets_eqb_eq in E. apply (f_equal (@length N)) in E. rewrite join_cons, app_length in E by auto. cbn [length] in E. lia.
Qed.
Lemma age_label n : n < 4294967296 -> exists a, txt_encode "age" (dec n) = Some a /\ r_type a = 16 /\ label (r_rdata a).
Proof.
  intros L. destruct (dec_spec n L) as (Dg & _ & Ld). rewrite Forall_forall in Dg. unfold txt_encode. set (t := octets_of ("age" ++ "=" ++ dec n)).
  assert (Et : t = 97 :: 103 :: 101 :: 61 :: octets_of (dec n)) by reflexivity. assert (Lt : length t = (4 + String.length (dec n))%nat) by (rewrite Et; cbn [length]; rewrite octets_len; reflexivity). clearbody t.
  destruct (Nat.ltb_spec 255 (length t)) as [|_]; [lia|]. eexists. split; [reflexivity|]. split; [reflexivity|]. cbn [r_rdata]. rewrite Lt. split; [cbn [length]; lia|]. subst t.
  split; intros [I|[I|[I|[I|[I|I]]]]]; try lia; apply Dg in I; unfold digit in I; lia.
Qed.
Lemma answer_dot id q r s : good_query q -> good_result r -> dns_name (lq_service q) -> dns_name s -> id < 65536 -> (result_size q r (s ++ ".") <= 1024)%nat ->
  exists p, mdns_result_encode id q r (s ++ ".") = Val (Some p) /\ forall suffix, mdns_result_decode p suffix = Val None.
Proof.
  intros G Gr (la & Na & Fa & Ea) (lb & Nb & Fb & Eb) Li Ls. assert (Ef : octets_of (s ++ ".") = join (lb ++ [[]])) by (rewrite octets_app, Eb, join_app by (auto; discriminate); reflexivity).
  destruct (domain_labels q (s ++ ".") la (lb ++ [[]]) G Ea Ef Na ltac:(destruct lb; discriminate)) as (d & Ed & Ld & Eo).
  set (ls := la ++ octets_of (lq_id q) :: type_label q :: lb) in *. assert (Els : la ++ octets_of (lq_id q) :: type_label q :: lb ++ [[]] = ls ++ [[]]) by (unfold ls; rewrite <- app_assoc; reflexivity). rewrite Els in Eo.
  assert (Fl : Forall label ls) by (apply Forall_app; split; [auto|]; constructor; [eapply id_label; exact (proj2 G)|constructor; [apply type_is; auto|auto]]). assert (Nl : ls <> []) by (unfold ls; destruct la; discriminate).
  pose proof Gr as (G4 & G6 & Some46 & La). destruct (age_label _ La) as (a & Eage & Ta & Lab).
  assert (B : mdns_result_encode id q r (s ++ ".") <> Bad) by (rewrite result_abort by auto; lia). unfold mdns_result_encode in *. rewrite Ed, Eage in *. unfold fits in *.
  destruct (Nat.leb_spec (length (answer_encode id (octets_of d) (a :: host_records RT_A (lr_v4 r) ++ host_records RT_AAAA (lr_v6 r)))) 1024) as [_|]; [|congruence]. eexists. split; [reflexivity|]. intros suffix.
  assert (exists r2 more, host_records RT_A (lr_v4 r) ++ host_records RT_AAAA (lr_v6 r) = r2 :: more /\ r_type r2 < 256 /\ (length (r_rdata r2) < 256)%nat) as (r2 & more & Eh & T2 & L2).
  { destruct (lr_v4 r) as [[x p]|].
    - destruct G4 as (Lx & _ & Lp). cbn [host_records]. destruct (N.eqb_spec p 0); [lia|]. eexists. eexists. split; [reflexivity|]. cbn. split; [reflexivity|lia].
    - destruct (lr_v6 r) as [[x p]|]; [|exfalso; apply Some46; auto]. destruct G6 as (Lx & _ & Lp). cbn [host_records app]. destruct (N.eqb_spec p 0); [lia|]. eexists. eexists. split; [reflexivity|]. cbn. split; [reflexivity|lia]. }
  rewrite Eh. unfold mdns_result_decode, answer_decode, answer_encode. rewrite app_length, header_len. destruct (Nat.ltb_spec (12 + length (flat_map (record_encode (octets_of d)) (a :: r2 :: more))) 12) as [|_]; [lia|].
  assert (Nr : N.of_nat (length (a :: r2 :: more)) < 65536). { rewrite <- Eh. cbn [length]. rewrite app_length. destruct (host_ok 4 RT_A (lr_v4 r)) as (_ & L4 & _); [lia|reflexivity|auto|]. destruct (host_ok 16 RT_AAAA (lr_v6 r)) as (_ & L6 & _); [lia|reflexivity|auto|]. lia. }
  rewrite header_rt by auto. cbn [mbind negb]. rewrite skip_at by (rewrite header_len; auto). rewrite Eo, dot_answers; auto; [rewrite Ta; lia|lia].
Qed.
(** ** Answers to names that start with two dots *)
Lemma answer_dots id q r suffix s p : lq_service q = (".." ++ s)%string -> mdns_result_encode id q r suffix = Val (Some p) -> forall suffix', mdns_result_decode p suffix' = Bad.
Proof.
  intros E H suffix'. unfold mdns_result_encode in H. destruct (domain_from_query q suffix) as [d|] eqn:D; [|discriminate]. destruct (txt_encode "age" (dec (lr_age r))) as [a|]; [|discriminate]. unfold fits in H. destruct (_ <=? _)%nat; [|discriminate]. injection H as <-.
  assert (exists l, octets_of d = 46 :: 46 :: l) as (l & Eo). { unfold domain_from_query in D. rewrite E in D. destruct (lq_type q); [discriminate| |]; injection D as <-; eexists; cbn; reflexivity. }
  unfold answer_encode. cbn [flat_map]. unfold record_encode at 1. rewrite Eo. unfold apn_from_str. cbn [labels N.eqb Pos.eqb flat_map length app]. change (N.of_nat 0 mod 256) with 0. unfold header_encode, be16. cbn [app].
  apply exact_bad. eexists. eexists. split; [unfold answer_of; do 12 eexists; split; [reflexivity|split; [lia|reflexivity]]|]. right; left. exists [], []. eexists. split; [constructor|constructor].
Qed.
