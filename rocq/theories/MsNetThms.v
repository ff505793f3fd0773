(** Lookups over the network: packets, answers of servers, --send. *)
From Verif Require Import Base PeerId Db DbSpec DbProofs Ctrl CtrlSpec CtrlThms MsLookup MsSpec MsThms Mdns MdnsSpec MdnsThms Proxy MsServer MsServerSpec MsServerThms MsServerThms2 MsClient MsClientSpec MsNet MsNetSpec.
Local Open Scope string_scope.
Local Open Scope list_scope.
Local Open Scope N_scope.

(** ** Packets *)
Lemma fits_eq l p : fits l = Val (Some p) -> p = l /\ (length l <= 1024)%nat.
Proof. unfold fits. destruct (Nat.leb_spec (length l) 1024); [|discriminate]. intros [= <-]. auto. Qed.
Lemma whole (p : list N) : (length p <= 1024)%nat -> firstn RX_BUF p = p.
Proof. intros L. apply firstn_all2. exact L. Qed.
Lemma query_len id q suffix p : mdns_query_encode id q suffix = Val (Some p) -> (length p <= 1024)%nat.
Proof. unfold mdns_query_encode. destruct (domain_from_query q suffix); [|discriminate]. intros H. apply fits_eq in H as [-> L]. exact L. Qed.
Lemma result_len id q x suffix p : mdns_result_encode id q x suffix = Val (Some p) -> (length p <= 1024)%nat.
Proof.
  unfold mdns_result_encode. destruct (domain_from_query q suffix); [|discriminate]. destruct (txt_encode _ _); [|discriminate].
  intros H. apply fits_eq in H as [-> L]. exact L.
Qed.
(** a client does not take a question for an answer, nor a server an answer for a question *)
Lemma query_no_result id q suffix p suffix' : id < 65536 -> mdns_query_encode id q suffix = Val (Some p) -> mdns_result_decode p suffix' = Val None.
Proof.
  intros Li. unfold mdns_query_encode. destruct (domain_from_query q suffix) as [d|]; [|discriminate]. intros H. apply fits_eq in H as [-> L].
  unfold mdns_result_decode, answer_decode, request_encode. destruct (Nat.ltb_spec (length (header_encode id false 1 0 ++ question_encode (octets_of d) RT_ALL 1)) 12); [reflexivity|].
  rewrite header_rt by (auto; reflexivity). reflexivity.
Qed.
Lemma answer_no_request id d rs : id < 65536 -> N.of_nat (length rs) < 65536 -> request_decode (answer_encode id d rs) = Val None.
Proof.
  intros Li Lr. unfold request_decode, answer_encode. destruct (Nat.ltb_spec (length (header_encode id true 0 (N.of_nat (length rs)) ++ flat_map (record_encode d) rs)) 12); [reflexivity|].
  rewrite header_rt by auto. reflexivity.
Qed.
Lemma host_few t h : (length (host_records t h) <= 2)%nat.
Proof. destruct h as [[a p]|]; cbn; [|lia]. destruct (p =? 0); cbn; [lia|]. destruct (txt_encode _ _); cbn; lia. Qed.
Lemma result_no_query id q x suffix p suffix' : id < 65536 -> mdns_result_encode id q x suffix = Val (Some p) -> mdns_query_decode p suffix' = Val None.
Proof.
  intros Li. unfold mdns_result_encode. destruct (domain_from_query q suffix) as [d|]; [|discriminate]. destruct (txt_encode _ _) as [a|]; [|discriminate]. intros H. apply fits_eq in H as [-> L].
  unfold mdns_query_decode. rewrite answer_no_request; [reflexivity|auto|]. cbn [length]. rewrite app_length. pose proof (host_few RT_A (lr_v4 x)). pose proof (host_few RT_AAAA (lr_v6 x)). lia.
Qed.
(** an answer without any address is not understood *)
Lemma bare_result id q n suffix : good_query q -> dns_name (lq_service q) -> suffix_fits suffix -> id < 65536 -> n < 4294967296 ->
  exists p, mdns_result_encode id q (mk_result None None n) suffix = Val (Some p) /\ mdns_result_decode p suffix = Val None.
Proof.
  intros G Ns [Nf L] Li Ln. destruct (c32_round q suffix G) as (d & Ed & Eq). pose proof (domain_len q suffix d G Ed) as Ld. pose proof (domain_name q suffix d G Ns Nf Ed) as Nd.
  unfold mdns_result_encode. rewrite Ed. cbn [lr_age lr_v4 lr_v6 host_records app]. destruct (age_enc _ Ln) as (a & Ea & Ra & Ll). rewrite Ea.
  exists (answer_encode id (octets_of d) [a]). split.
  - unfold fits. assert (length (answer_encode id (octets_of d) [a]) <= 1024)%nat as H.
    { unfold answer_encode. cbn [flat_map]. rewrite !app_length, header_len. unfold record_encode. rewrite !app_length, apn_len. cbn [length be16]. rewrite octets_len. lia. }
    apply Nat.leb_le in H. rewrite H. reflexivity.
  - unfold mdns_result_decode. rewrite answer_rt; auto; [|discriminate|reflexivity]. cbn [mbind]. rewrite text_octets, Eq. unfold result_from_answer. cbn [rs_run].
    rewrite (age_step n a Ln Ea) by reflexivity. reflexivity.
Qed.

(** ** Answers of servers *)
(** what every run that comes to an end returns *)
Fixpoint returns {A} (P : A -> Prop) (p : prog A) : Prop :=
  match p with Ret a => P a | Undef => True | Exec s k => forall r, returns P (k r) end.
Lemma returns_run {A} (P : A -> Prop) p : returns P p -> forall f d a, run_out p f d = Fin a -> P a.
Proof.
  unfold run_out. induction p as [x|s k IH|]; cbn [returns run]; intros H f d a.
  - intros [= <-]. exact H.
  - destruct f as [|[| |] f]; [destruct (exec s d) as [r d']|destruct (exec s d) as [r d']| |]; try (intros E; eapply IH; [apply H|exact E]). discriminate.
  - discriminate.
Qed.
Lemma returns_bind {A B} (P : B -> Prop) (p : prog A) (f : A -> prog B) : returns (fun a => returns P (f a)) p -> returns P (bind p f).
Proof. induction p as [x|s k IH|]; cbn [returns bind]; auto. Qed.
Lemma returns_all {A} (P : A -> Prop) (p : prog A) : (forall a, P a) -> returns P p.
Proof. intros H. induction p; cbn [returns]; auto. Qed.
Lemma returns_weak {A} (P Q : A -> Prop) (p : prog A) : (forall a, P a -> Q a) -> returns P p -> returns Q p.
Proof. intros H. induction p; cbn [returns]; auto. Qed.

Definition age_fits (x : option (Z * ipa_name)) : Prop := match x with Some (a, _) => (0 <= a <= 4294967295)%Z | None => True end.
Lemma age_range now ts a : timestamp_age now ts = Val (Some a) -> (0 <= a <= 4294967295)%Z.
Proof.
  unfold timestamp_age. destruct (negb _); [discriminate|]. destruct (Z.ltb_spec (now - ts) 0); [discriminate|]. cbn [orb]. change UINT32_MAX with 4294967295%Z. destruct (Z.ltb_spec 4294967295 (now - ts)); [discriminate|].
  intros E. injection E as <-. lia.
Qed.
Lemma here_age y now c q : returns age_fits (lu_here y now c q).
Proof.
  unfold lu_here. apply returns_bind. apply returns_weak with (P := age_fits).
  - intros h Hh. destruct (lu_here_proxy y now c q) as [p|] eqn:Ep; [|exact Logic.I]. cbn [returns].
    assert (Hp : age_fits p).
    { unfold lu_here_proxy in Ep. assert (G : forall s : option psub, match s with
        | None => Val None
        | Some s => mdo a <- timestamp_age (timestamp_now (y_tz y) now) (pd_lu (ps_cs s));;
            match a with None => Val None | Some age => if (y_max y <? age)%Z then Val None else if negb (in_len (pd_via (ps_cs s)) =? 0)%nat then Val None else Val (Some (age, pd_name (ps_cs s))) end
        end = Val p -> age_fits p).
      { intros [s|]; [|intros [= <-]; exact Logic.I]. destruct (timestamp_age _ _) as [[a|]|] eqn:Ea; cbn [mbind]; [|intros [= <-]; exact Logic.I|discriminate].
        destruct (_ <? _)%Z; [intros [= <-]; exact Logic.I|]. destruct (negb _); [intros [= <-]; exact Logic.I|]. intros [= <-]. exact (age_range _ _ _ Ea). }
      destruct (lq_type q); [injection Ep as <-; exact Logic.I| |]; eapply G; exact Ep. }
    destruct p as [[a n]|], h as [[b m]|]; cbn [age_fits] in *; repeat match goal with |- context [if ?x then _ else _] => destruct x end; cbn [age_fits]; auto.
  - unfold lu_here_hlr. destruct (lq_type q); [exact Logic.I| |]; apply returns_bind; apply returns_all; intros [rc [h|]]; try exact Logic.I;
      (destruct (h_vlr h =? "")%string; [exact Logic.I|]; destruct (negb _); [exact Logic.I|]; destruct (timestamp_age _ _) as [[a|]|] eqn:Ea; [|exact Logic.I|exact Logic.I];
       destruct (_ <? _)%Z; [exact Logic.I|]; destruct (ipa_set_str _ _); [|exact Logic.I]; exact (age_range _ _ _ Ea)).
Qed.
Lemma host4 a : sa_fits false a -> good_host 4 (host_of a).
Proof. destruct a; cbn [sa_fits host_of]; [intros; exact Logic.I|intros [_ H]; exact H|intros [? _]; discriminate]. Qed.
Lemma host6 a : sa_fits true a -> good_host 16 (host_of a).
Proof. destruct a; cbn [sa_fits host_of]; [intros; exact Logic.I|intros [? _]; discriminate|intros [_ H]; exact H]. Qed.
Definition answer_fits (x : msrv * answer) : Prop :=
  match snd x with NotFound => True | Found v4 v6 age => good_result (mk_result (host_of v4) (host_of v6) (Z.to_N age)) end.
Lemma set_fits y v4 v6 age : sa_fits false v4 -> sa_fits true v6 -> (0 <= age <= 4294967295)%Z -> answer_fits (y, set_result v4 v6 age).
Proof.
  intros A B C. unfold answer_fits, set_result. cbn [snd]. destruct (negb (sa_nonzero v4) && negb (sa_nonzero v6)) eqn:E; [exact Logic.I|]. split; [apply host4; auto|]. split; [apply host6; auto|].
  cbn [lr_v4 lr_v6 lr_age]. split; [|lia]. intros [X Y]. destruct v4; try discriminate. destruct v6; discriminate.
Qed.
Lemma get_fits y n s e : server_fits y -> service_get (y_cfg y) n s = Some e -> sa_fits false (sv_v4 e) /\ sa_fits true (sv_v6 e).
Proof.
  intros (H & _) E. unfold service_get, msc_get in E. destruct (find _ (y_cfg y)) as [m|] eqn:F; [|discriminate]. apply find_some in F as [I _]. unfold svc_get in E. apply find_some in E as [J _]. eauto.
Qed.
Lemma server_good y now c q : server_fits y -> returns answer_fits (mslookup_server_rx y now c q).
Proof.
  intros W. unfold mslookup_server_rx. destruct (lq_service q =? HLR_GSUP)%string.
  - unfold rx_hlr_gsup. destruct (local_gsup_addr y) as [[v4 v6] st] eqn:L.
    assert (G : answer_fits (with_static y st, set_result v4 v6 0)).
    { apply set_fits; [| |lia]; unfold local_gsup_addr in L; destruct (service_get _ _ _) as [e|] eqn:E.
      - injection L as <- <- _. apply (get_fits _ _ _ _ W E).
      - destruct W as (_ & B & _). destruct (y_bind y); injection L as <- <- _; cbn; auto. destruct B as [B|[? _]]; [exact B|discriminate].
      - injection L as <- <- _. apply (get_fits _ _ _ _ W E).
      - destruct W as (_ & B & _ & S). destruct (y_bind y); injection L as <- <- _; auto. destruct B as [[? _]|B]; [discriminate|exact B]. }
    destruct (lq_type q); [exact Logic.I| |]; apply returns_bind; apply returns_all; intros rc; (destruct (negb (rc =? 0)%Z); [exact Logic.I|exact G]).
  - apply returns_bind. eapply returns_weak; [|apply here_age]. intros [[a n]|] Ha; [|exact Logic.I]. cbn [returns age_fits] in *.
    destruct (service_get (y_cfg y) n (lq_service q)) as [e|] eqn:E1; [apply set_fits; auto; apply (get_fits _ _ _ _ W E1)|].
    destruct (service_get (y_cfg y) ipa_empty (lq_service q)) as [e|] eqn:E2; [|exact Logic.I]. apply set_fits; auto; apply (get_fits _ _ _ _ W E2).
Qed.
Lemma answers_good y now c f d q x : server_fits y -> answers y now c f d q x -> good_result x.
Proof. intros W (y' & v4 & v6 & age & R & ->). exact (returns_run _ _ (server_good y now c q W) _ _ _ R). Qed.
(** a server that reads a question: what it sends in return *)
Lemma server_out y now c f d suffix id q p : server_fits y -> good_query q -> dns_name (lq_service q) -> suffix_fits suffix -> id < 65536 ->
  mdns_query_decode p suffix = Val (Some (id, q)) ->
  match run_out (mslookup_server_rx y now c q) f d with
  | Fin (y', Found v4 v6 age) => exists p', run_out (mdns_server_rx y now c suffix p) f d = Fin (y', Some p') /\
      mdns_result_encode id q (mk_result (host_of v4) (host_of v6) (Z.to_N age)) suffix = Val (Some p') /\ answers y now c f d q (mk_result (host_of v4) (host_of v6) (Z.to_N age))
  | Fin (y', NotFound) => run_out (mdns_server_rx y now c suffix p) f d = Fin (y', None)
  | Crashed => run_out (mdns_server_rx y now c suffix p) f d = Crashed
  | Ub => run_out (mdns_server_rx y now c suffix p) f d = Ub
  end.
Proof.
  intros W G Ns [Nf L] Li D. destruct (run_out (mslookup_server_rx y now c q) f d) as [[y' a]| |] eqn:R.
  - pose proof (returns_run _ _ (server_good y now c q W) _ _ _ R) as GR. unfold answer_fits in GR. cbn [snd] in GR.
    assert (An : forall v4 v6 age, a = Found v4 v6 age -> answers y now c f d q (mk_result (host_of v4) (host_of v6) (Z.to_N age))) by (intros v4 v6 age ->; exists y', v4, v6, age; auto). unfold mdns_server_rx. rewrite D. unfold run_out in *. rewrite run_bind.
    destruct (run (mslookup_server_rx y now c q) f d) as [[o d'] f']. cbn [fst] in R. subst o. destruct a as [|v4 v6 age]; [reflexivity|].
    destruct (c33_result id q _ suffix G GR Ns Nf L Li) as (p' & E & _). rewrite E. exists p'. split; [reflexivity|]. split; [reflexivity|]. apply An. reflexivity.
  - unfold mdns_server_rx. rewrite D. unfold run_out in *. rewrite run_bind. destruct (run (mslookup_server_rx y now c q) f d) as [[o d'] f']. cbn [fst] in R. subst o. reflexivity.
  - unfold mdns_server_rx. rewrite D. unfold run_out in *. rewrite run_bind. destruct (run (mslookup_server_rx y now c q) f d) as [[o d'] f']. cbn [fst] in R. subst o. reflexivity.
Qed.

(** ** --send *)
Lemma skip_blanks_split s : exists b, s = (b ++ skip_space s)%string /\ Forall blank (bytes_of b).
Proof.
  induction s as [|c s (b & E & F)]; [exists ""; split; [reflexivity|constructor]|]. cbn [skip_space]. destruct (is_space c) eqn:S.
  - exists (String c b). split; [cbn; congruence|]. constructor; auto. unfold is_space in S. apply orb_true_iff in S as [S|S].
    + left. apply N.eqb_eq in S. unfold acode in S. rewrite <- (ascii_N_embedding c), S. reflexivity.
    + right. apply andb_true_iff in S as [A B]. apply N.leb_le in A, B. unfold acode in *. lia.
  - exists "". split; [reflexivity|constructor].
Qed.
Lemma strtoll_writes s v : strtoll_all s = Some v -> writes s v.
Proof.
  intros H. destruct s as [|c s]; [injection H as <-; left; auto|]. right. unfold strtoll_all in H. destruct (skip_blanks_split (String c s)) as (b & E & F).
  destruct (skip_space (String c s)) as [|a r] eqn:K; [discriminate|]. cbn [sign_of] in H.
  destruct (Ascii.eqb_spec a "-") as [->|N1]; [|destruct (Ascii.eqb_spec a "+") as [->|N2]].
  - destruct r as [|x r]; [discriminate|]. destruct (all_digits (String x r) 0) as [w|] eqn:D; [|discriminate]. destruct (_ && _); [|discriminate]. injection H as <-.
    exists b, "-", (String x r). split; [exact E|]. split; [exact F|]. left. split; [reflexivity|]. rewrite Z.opp_involutive. apply digits_numeral; [discriminate|exact D].
  - destruct r as [|x r]; [discriminate|]. destruct (all_digits (String x r) 0) as [w|] eqn:D; [|discriminate]. destruct (_ && _); [|discriminate]. injection H as <-.
    exists b, "+", (String x r). split; [exact E|]. split; [exact F|]. right. split; [auto|]. apply digits_numeral; [discriminate|exact D].
  - destruct (all_digits (String a r) 0) as [w|] eqn:D; [|discriminate]. destruct (_ && _); [|discriminate]. injection H as <-.
    exists b, "", (String a r). split; [exact E|]. split; [exact F|]. right. split; [auto|]. apply digits_numeral; [discriminate|exact D].
Qed.
Lemma skip_blank_all b t : Forall blank (bytes_of b) -> skip_space (b ++ t)%string = skip_space t.
Proof.
  induction b as [|c b IH]; [reflexivity|]. intros H. inversion H as [|? ? B R]; subst. cbn [String.append skip_space].
  assert (S : is_space c = true).
  { unfold is_space, acode. destruct B as [->|B]; [reflexivity|]. apply orb_true_iff. right. apply andb_true_iff. split; apply N.leb_le; lia. }
  rewrite S. apply IH. exact R.
Qed.
Lemma digit_no_space c n : CtrlSpec.digit c n -> is_space c = false /\ c <> "-"%char /\ c <> "+"%char.
Proof.
  intros [R ->]. assert (n = 0 \/ n = 1 \/ n = 2 \/ n = 3 \/ n = 4 \/ n = 5 \/ n = 6 \/ n = 7 \/ n = 8 \/ n = 9)%Z as H by lia.
  repeat (destruct H as [->|H]; [repeat split; discriminate|]). subst. repeat split; discriminate.
Qed.
Lemma numeral_head s v : numeral s v -> exists c r n, s = String c r /\ CtrlSpec.digit c n.
Proof.
  induction 1 as [c n D|s v c n H (x & r & m & E & D') D]; [exists c, "", n; auto|]. subst s. exists x, (r ++ String c "")%string, m. auto.
Qed.
Lemma numeral_pos s v : numeral s v -> (0 <= v)%Z.
Proof. induction 1 as [c n [D _]|s v c n H IH [D _]]; lia. Qed.
Lemma writes_strtoll s v : writes s v -> (- 9223372036854775808 <= v <= 9223372036854775807)%Z -> strtoll_all s = Some v.
Proof.
  intros [[-> ->]|(b & g & t & -> & F & K)] B; [reflexivity|]. assert (NE : (b ++ g ++ t)%string <> "").
  { intros E. destruct b as [|c b]; [|discriminate]. destruct K as [[-> _]|[[->| ->] K]]; try discriminate. destruct (numeral_head _ _ K) as (c & r & n & -> & _). discriminate. }
  unfold strtoll_all. destruct ((b ++ g ++ t)%string) as [|c0 s0] eqn:E0; [congruence|]. rewrite <- E0. rewrite skip_blank_all by exact F. clear E0 NE.
  destruct K as [[-> K]|[G K]]; destruct (numeral_head _ _ K) as (c & r & n & -> & D); destruct (digit_no_space _ _ D) as (S & N1 & N2); destruct (numeral_digits _ _ K) as (A & _).
  - change (("-" ++ String c r)%string) with (String "-" (String c r)). cbn [skip_space]. change (is_space "-") with false. cbn [sign_of]. change ("-" =? "-")%char with true. cbv iota beta. rewrite A. cbv zeta. rewrite Z.opp_involutive.
    destruct (Z.leb_spec (-9223372036854775808) v); [|lia]. destruct (Z.leb_spec v 9223372036854775807); [|lia]. reflexivity.
  - assert (X : sign_of (skip_space (g ++ String c r)%string) = (false, String c r)).
    { destruct G as [->| ->].
      - change (("" ++ String c r)%string) with (String c r). cbn [skip_space]. rewrite S. cbn [sign_of]. destruct (Ascii.eqb_spec c "-"); [congruence|]. destruct (Ascii.eqb_spec c "+"); [congruence|]. reflexivity.
      - reflexivity. }
    rewrite X. rewrite A. cbv zeta iota beta. destruct (Z.leb_spec (-9223372036854775808) v); [|lia]. destruct (Z.leb_spec v 9223372036854775807); [|lia]. reflexivity.
Qed.
Lemma parse_in_iff lo hi s n : (- 9223372036854775808 <= lo)%Z -> (0 <= lo)%Z -> (hi <= 9223372036854775807)%Z ->
  parse_in lo hi s = Some n <-> writes s (Z.of_N n) /\ (lo <= Z.of_N n <= hi)%Z.
Proof.
  intros L0 L1 L2. unfold parse_in. split.
  - destruct (strtoll_all s) as [v|] eqn:E; [|discriminate]. destruct (Z.leb_spec lo v); [|discriminate]. destruct (Z.leb_spec v hi); [|discriminate]. intros [= <-].
    rewrite Z2N.id by lia. split; [apply strtoll_writes; exact E|lia].
  - intros [W R]. rewrite (writes_strtoll _ _ W) by lia. destruct (Z.leb_spec lo (Z.of_N n)); [|lia]. destruct (Z.leb_spec (Z.of_N n) hi); [|lia]. cbn [andb]. rewrite N2Z.id. reflexivity.
Qed.
Lemma writes_unique s v w : writes s v -> writes s w -> (- 9223372036854775808 <= v <= 9223372036854775807)%Z -> (- 9223372036854775808 <= w <= 9223372036854775807)%Z -> v = w.
Proof. intros A B C D. apply writes_strtoll in A, B; auto. congruence. Qed.
Definition arg_set (r : lresult) (v6 : bool) (a : list N) (p : N) : lresult :=
  if v6 then mk_result (lr_v4 r) (Some (a, p)) (lr_age r) else mk_result (Some (a, p)) (lr_v6 r) (lr_age r).
Lemma send_arg pton argv i r :
  (nth_error argv i = None /\ send_addr pton (nth_error argv i) (nth_error argv (S i)) r = Some r) \/
  (exists v6 a p, addr_arg pton argv i v6 a p /\ send_addr pton (nth_error argv i) (nth_error argv (S i)) r = Some (arg_set r v6 a p)) \/
  (nth_error argv i <> None /\ (forall v6 a p, ~ addr_arg pton argv i v6 a p) /\ send_addr pton (nth_error argv i) (nth_error argv (S i)) r = None).
Proof.
  unfold send_addr. destruct (nth_error argv i) as [ip|] eqn:E; [right|left; auto].
  destruct (parse_in 1 65535 (match nth_error argv (S i) with Some p => p | None => "2342" end)) as [p|] eqn:P.
  - apply parse_in_iff in P; [|lia|lia|lia]. destruct P as [W R]. destruct (pton ip) as [[v6 a]|] eqn:T.
    + left. exists v6, a, p. split.
      * exists ip. split; [exact E|]. split; [exact T|]. split; [lia|]. destruct (nth_error argv (S i)); [exact W|].
        assert (W2 : writes "2342" 2342). { apply strtoll_writes. reflexivity. }
        pose proof (writes_unique _ _ _ W W2 ltac:(lia) ltac:(lia)). lia.
      * destruct v6; reflexivity.
    + right. split; [discriminate|]. split; [|reflexivity]. intros v6 a p' (ip' & E' & T' & _). congruence.
  - right. split; [discriminate|]. split; [|reflexivity]. intros v6 a p (ip' & E' & T' & R & W).
    assert (X : parse_in 1 65535 (match nth_error argv (S i) with Some p => p | None => "2342" end) = Some p); [|congruence].
    apply parse_in_iff; [lia|lia|lia|]. split; [|lia]. destruct (nth_error argv (S i)); [exact W|]. subst p. apply strtoll_writes. reflexivity.
Qed.
Lemma arg_unique pton argv i v a p v' a' p' : addr_arg pton argv i v a p -> addr_arg pton argv i v' a' p' -> v' = v /\ a' = a /\ p' = p.
Proof.
  intros (ip & E & T & R & W) (ip' & E' & T' & R' & W'). assert (ip' = ip) by congruence. subst. assert (v' = v /\ a' = a) as [-> ->] by (split; congruence). split; [auto|]. split; [auto|].
  destruct (nth_error argv (S i)); [|congruence]. pose proof (writes_unique _ _ _ W W' ltac:(lia) ltac:(lia)). lia.
Qed.
Lemma arg_present pton argv i v a p : addr_arg pton argv i v a p -> nth_error argv i <> None.
Proof. intros (ip & E & _). congruence. Qed.
(** the two addresses one after the other *)
Definition both_addrs (pton : string -> option (bool * list N)) (argv : list string) (age : N) : option lresult :=
  match send_addr pton (nth_error argv 2) (nth_error argv 3) (mk_result None None age) with
  | None => None
  | Some r => send_addr pton (nth_error argv 4) (nth_error argv 5) r
  end.
Lemma both_spec pton argv age :
  match both_addrs pton argv age with
  | Some x => addrs_valid pton argv /\ lr_age x = age /\ addr_given pton argv false (lr_v4 x) /\ addr_given pton argv true (lr_v6 x)
  | None => ~ addrs_valid pton argv
  end.
Proof.
  unfold both_addrs. destruct (send_arg pton argv 2 (mk_result None None age)) as [[E2 ->]|[(v & a & p & A2 & ->)|(N2 & A2 & ->)]].
  - destruct (send_arg pton argv 4 (mk_result None None age)) as [[E4 ->]|[(w & b & r & A4 & ->)|(N4 & A4 & ->)]].
    + split; [intros i [->| ->] N; congruence|]. split; [reflexivity|]. split; intros i b r [->| ->] A; apply arg_present in A; congruence.
    + split; [intros i [->| ->] N; [congruence|eauto]|]. split; [destruct w; reflexivity|].
      split; destruct w; cbn; auto; intros i x y [->| ->] A; solve [apply arg_present in A; congruence|destruct (arg_unique _ _ _ _ _ _ _ _ _ A4 A) as (? & _); discriminate].
    + intros V. destruct (V 4%nat (or_intror eq_refl) N4) as (w & b & r & A). exact (A4 _ _ _ A).
  - destruct (send_arg pton argv 4 (arg_set (mk_result None None age) v a p)) as [[E4 ->]|[(w & b & r & A4 & ->)|(N4 & A4 & ->)]].
    + split; [intros i [->| ->] N; [eauto|congruence]|]. split; [destruct v; reflexivity|].
      split; destruct v; cbn; try (right; split; [exact A2|intros x y A; apply arg_present in A; congruence]);
        intros i x y [->| ->] A; solve [apply arg_present in A; congruence|destruct (arg_unique _ _ _ _ _ _ _ _ _ A2 A) as (? & _); discriminate].
    + split; [intros i [->| ->] N; eauto|]. split; [destruct v, w; reflexivity|].
      assert (X : forall u, u <> w -> forall x y, ~ addr_arg pton argv 4 u x y) by (intros u Nu x y A; destruct (arg_unique _ _ _ _ _ _ _ _ _ A4 A) as (? & _); congruence).
      assert (Y : forall u, u <> v -> forall x y, ~ addr_arg pton argv 2 u x y) by (intros u Nu x y A; destruct (arg_unique _ _ _ _ _ _ _ _ _ A2 A) as (? & _); congruence).
      split; destruct v, w; cbn; auto; try (right; split; [exact A2|apply X; discriminate]); intros i x y [->| ->]; (apply X || apply Y); discriminate.
    + intros V. destruct (V 4%nat (or_intror eq_refl) N4) as (w & b & r & A). exact (A4 _ _ _ A).
  - intros V. destruct (V 2%nat (or_introl eq_refl) N2) as (w & b & r & A). exact (A2 _ _ _ A).
Qed.
Lemma given_good pton argv q x : reads_addrs pton -> given pton argv q x -> good_query q /\ good_host 4 (lr_v4 x) /\ good_host 16 (lr_v6 x) /\ lr_age x < 4294967296.
Proof.
  intros R (qs & age & _ & _ & [G _] & _ & L & A & B). split; [exact G|].
  assert (H : forall i v a p, addr_arg pton argv i v a p -> good_host (if v then 16 else 4)%nat (Some (a, p))).
  { intros i v a p (ip & _ & T & Rp & _). destruct (R _ _ _ T) as [La Fa]. split; [destruct v; exact La|]. split; [exact Fa|lia]. }
  split; [|split; [|exact L]].
  - destruct (lr_v4 x) as [[a p]|]; [|exact Logic.I]. destruct A as [A|[A _]]; apply H in A; exact A.
  - destruct (lr_v6 x) as [[a p]|]; [|exact Logic.I]. destruct B as [B|[B _]]; apply H in B; exact B.
Qed.
Lemma result_packet id q x suffix : good_query q -> dns_name (lq_service q) -> suffix_fits suffix -> id < 65536 -> good_host 4 (lr_v4 x) -> good_host 16 (lr_v6 x) -> lr_age x < 4294967296 ->
  exists p, mdns_result_encode id q x suffix = Val (Some p) /\
    mdns_result_decode p suffix = Val (match lr_v4 x, lr_v6 x with None, None => None | _, _ => Some (id, q, x) end).
Proof.
  intros G Ns Sf Li G4 G6 La. destruct x as [[h4|] [h6|] n]; cbn [lr_v4 lr_v6 lr_age] in *; try (destruct Sf as [Nf L]; apply c33_result; auto; split; [exact G4|split; [exact G6|split; [|exact La]]]; intros [? ?]; discriminate).
  apply bare_result; auto.
Qed.
Lemma given_unique pton argv q x q' x' : given pton argv q x -> given pton argv q' x' -> q' = q /\ x' = x.
Proof.
  intros (qs & age & E0 & E1 & Nq & W & L & A & B) (qs' & age' & E0' & E1' & Nq' & W' & L' & A' & B'). assert (qs' = qs /\ age' = age) as [-> ->] by (split; congruence).
  split; [exact (names_unique _ _ _ Nq' Nq)|]. assert (lr_age x' = lr_age x) as Ea by (pose proof (writes_unique _ _ _ W W' ltac:(lia) ltac:(lia)); lia).
  assert (H : forall v h h', addr_given pton argv v h -> addr_given pton argv v h' -> h' = h).
  { intros v [[a p]|] [[a' p']|]; cbn; auto.
    - intros [X|[X NX]] [Y|[Y NY]]; [destruct (arg_unique _ _ _ _ _ _ _ _ _ X Y) as (_ & -> & ->); auto|destruct (NY _ _ X)|destruct (NX _ _ Y)|destruct (arg_unique _ _ _ _ _ _ _ _ _ X Y) as (_ & -> & ->); auto].
    - intros [X|[X _]] NY; exfalso; eapply NY; [|exact X| |exact X]; auto.
    - intros NX [Y|[Y _]]; exfalso; eapply NX; [|exact Y| |exact Y]; auto. }
  destruct x as [h4 h6 n], x' as [h4' h6' n']. cbn in *. rewrite (H _ _ _ A A'), (H _ _ _ B B'), Ea. reflexivity.
Qed.
(** what --send does: it sends what is given, or gives up *)
Lemma send_cases pton suffix argv :
  (exists q x, given pton argv q x /\ addrs_valid pton argv /\ do_send pton suffix argv = mdo p <- mdns_result_encode 0 q x suffix;; match p with None => Val (1%Z, None) | Some p => Val (0%Z, Some p) end) \/
  (do_send pton suffix argv = Val (1%Z, None) /\ ~ (addrs_valid pton argv /\ exists q x, given pton argv q x)).
Proof.
  unfold do_send. destruct (nth_error argv 0) as [qs|] eqn:E0; [|right; split; [reflexivity|intros (_ & q & x & qs & age & E & _); congruence]].
  destruct (query_init qs) as [q|e] eqn:Eq.
  2: { right. split; [reflexivity|]. intros (_ & q & x & qs' & age & E & _ & Nq & _). assert (qs' = qs) by congruence. subst. apply init_iff in Nq. congruence. }
  destruct (nth_error argv 1) as [age|] eqn:E1; [|right; split; [reflexivity|intros (_ & q' & x & qs' & age & _ & E & _); congruence]].
  destruct (parse_in 0 4294967295 age) as [n|] eqn:P.
  2: { right. split; [reflexivity|]. intros (_ & q' & x & qs' & age' & _ & E & _ & W & L & _). assert (age' = age) by congruence. subst.
       assert (parse_in 0 4294967295 age = Some (lr_age x)); [|congruence]. apply parse_in_iff; [lia|lia|lia|]. split; [exact W|lia]. }
  apply parse_in_iff in P; [|lia|lia|lia]. destruct P as [W R]. pose proof (both_spec pton argv n) as B. unfold both_addrs in B.
  destruct (send_addr pton (nth_error argv 2) (nth_error argv 3) (mk_result None None n)) as [r|]; [|right; split; [reflexivity|intros [V _]; exact (B V)]].
  destruct (send_addr pton (nth_error argv 4) (nth_error argv 5) r) as [x|]; [|right; split; [reflexivity|intros [V _]; exact (B V)]].
  left. exists q, x. destruct B as (V & Ea & A4 & A6). split; [|split; [exact V|reflexivity]]. exists qs, age. rewrite Ea. repeat split; auto; try lia; apply init_iff in Eq; apply Eq.
Qed.
