(** C33 (mDNS packets round trip) and C34 (decoding is memory safe): theorems and cases. *)
From Verif Require Import Base PeerId Db DbSpec MsLookup MsSpec MsThms Hlr Mdns MdnsSpec MdnsThms MdnsThms2 MdnsSpec2 MdnsThms3 MdnsThms4.
Local Open Scope string_scope.
Local Open Scope N_scope.
Local Open Scope list_scope.

(** ** C33 *)
(** The full statement is: for every valid query, result, packet id and suffix. Missing here: names with an empty label and long
    suffixes, for which it is false (below). *)
Theorem C33_query_partial : forall id q suffix, good_query q -> dns_name (lq_service q) -> dns_name suffix -> (String.length suffix <= 918)%nat -> id < 65536 ->
  exists p, mdns_query_encode id q suffix = Val (Some p) /\ mdns_query_decode p suffix = Val (Some (id, q)).
Proof. exact c33_query. Qed.
Print Assumptions C33_query_partial.
Theorem C33_result_partial : forall id q r suffix, good_query q -> good_result r -> dns_name (lq_service q) -> dns_name suffix -> (String.length suffix <= 91)%nat -> id < 65536 ->
  exists p, mdns_result_encode id q r suffix = Val (Some p) /\ mdns_result_decode p suffix = Val (Some (id, q, r)).
Proof. exact c33_result. Qed.
Print Assumptions C33_result_partial.

Definition ex_query : query := mk_query "sip.voice" IdMsisdn "1234567".
Definition ex_suffix : string := "mdns.osmocom.org".
Definition ex_both : lresult := mk_result (Some ([42; 42; 42; 42], 444)) (Some ([17; 17; 34; 34; 51; 51; 68; 68; 85; 85; 102; 102; 119; 119; 136; 136], 666)) 3.
Example C33_case_good : good_query ex_query /\ good_result ex_both /\ dns_name (lq_service ex_query) /\ dns_name ex_suffix.
Proof.
  assert (L : forall s, s <> ""%string -> (String.length s <= 255)%nat -> forallb (fun c => negb (c =? 46) && negb (c =? 0)) (octets_of s) = true -> label (octets_of s)).
  { intros s Ne Ls F. assert (I : forall c, In c (octets_of s) -> c <> 46 /\ c <> 0). { intros c I. rewrite forallb_forall in F. apply F in I. apply andb_true_iff in I as [A B]. apply negb_true_iff, N.eqb_neq in A, B. auto. }
    split; [rewrite octets_len; destruct s; [congruence|cbn in *; lia]|]. split; intros H; apply I in H; lia. }
  split; [split; [cbn; lia|apply id_valid_spec; reflexivity]|]. split.
  - split; [split; [reflexivity|split; [repeat constructor; lia|lia]]|]. split; [split; [reflexivity|split; [repeat constructor; lia|lia]]|]. split; [intros [H _]; discriminate|reflexivity].
  - split.
    + exists [octets_of "sip"; octets_of "voice"]. split; [discriminate|]. split; [repeat constructor; apply L; (discriminate || (cbn; lia) || reflexivity)|reflexivity].
    + exists [octets_of "mdns"; octets_of "osmocom"; octets_of "org"]. split; [discriminate|]. split; [repeat constructor; apply L; (discriminate || (cbn; lia) || reflexivity)|reflexivity].
Qed.
Example C33_case_query : exists p, mdns_query_encode 1337 ex_query ex_suffix = Val (Some p) /\ length p = 59%nat /\ firstn 24 p = [5; 57; 0; 0; 0; 1; 0; 0; 0; 0; 0; 0; 3; 115; 105; 112; 5; 118; 111; 105; 99; 101; 7; 49] /\
  mdns_query_decode p ex_suffix = Val (Some (1337, ex_query)).
Proof. eexists. split; [vm_compute; reflexivity|]. vm_compute. repeat split. Qed.
Example C33_case_result : exists p, mdns_result_encode 1337 ex_query ex_both ex_suffix = Val (Some p) /\ length p = 321%nat /\ mdns_result_decode p ex_suffix = Val (Some (1337, ex_query, ex_both)).
Proof. eexists. split; [vm_compute; reflexivity|]. vm_compute. repeat split. Qed.

(** A service name that mslookup accepts but that has an empty label is lost: the packet says something else. *)
Theorem C33_empty_label_refuted : exists id q p, good_query q /\ id < 65536 /\ mdns_query_encode id q ex_suffix = Val (Some p) /\ mdns_query_decode p ex_suffix = Val None.
Proof.
  exists 1, (mk_query "sip..voice" IdImsi "901700000002"). eexists. split; [split; [cbn; lia|apply id_valid_spec; reflexivity]|]. split; [lia|]. split; [vm_compute; reflexivity|]. vm_compute. reflexivity.
Qed.
Print Assumptions C33_empty_label_refuted.
(** The domain suffix is configured with any length (dgsm_vty.c:108-118); 92 characters are enough for a valid result not to fit into
    the message buffer, which aborts the process. The bound of 91 above is exact. *)
Definition long_text (n : nat) : string := str_of (repeat "a"%char n).
Definition ex_max : lresult := mk_result (Some ([255; 255; 255; 255], 65535)) (Some (repeat 255 16, 65535)) 4294967295.
Theorem C33_long_suffix_refuted : exists q suffix, good_query q /\ good_result ex_max /\ dns_name (lq_service q) /\ dns_name suffix /\ String.length suffix = 92%nat /\ mdns_result_encode 1 q ex_max suffix = Bad.
Proof.
  assert (L : forall n, (1 <= n <= 255)%nat -> dns_name (long_text n)).
  { intros n Ln. apply label_name. unfold long_text, octets_of. rewrite bytes_str. assert (E : forall k, map N_of_ascii (repeat "a"%char k) = repeat 97 k) by (induction k as [|k IH]; cbn [repeat map]; [auto|rewrite IH; auto]). rewrite E.
    split; [rewrite repeat_length; auto|]. split; intros I; apply repeat_spec in I; discriminate. }
  exists (mk_query (long_text 64) IdMsisdn "123456789012345"), (long_text 92). split; [split; [vm_compute; lia|apply id_valid_spec; reflexivity]|]. split.
  - split; [split; [reflexivity|split; [repeat constructor; lia|lia]]|]. split; [split; [reflexivity|split; [repeat constructor; lia|lia]]|]. split; [intros [H _]; discriminate|reflexivity].
  - split; [apply L; lia|]. split; [apply L; lia|]. split; [reflexivity|]. vm_compute. reflexivity.
Qed.
Print Assumptions C33_long_suffix_refuted.

(** The first twelve octets of what is sent (RFC 1035 4.1.1): the packet id, whether it is an answer, one question or none, as many answers as records, nothing else. *)
Theorem C33_header : forall id q r suffix p, id < 65536 ->
  (mdns_query_encode id q suffix = Val (Some p) -> firstn 12 p = [id / 256; id mod 256; 0; 0; 0; 1; 0; 0; 0; 0; 0; 0]) /\
  (good_result r -> mdns_result_encode id q r suffix = Val (Some p) -> exists n, firstn 12 p = [id / 256; id mod 256; 128; 0; 0; 0; 0; n; 0; 0; 0; 0] /\
     n = 1 + (match lr_v4 r with Some _ => 2 | None => 0 end) + (match lr_v6 r with Some _ => 2 | None => 0 end)).
Proof. exact c33_header. Qed.
Print Assumptions C33_header.
Example C33_header_case : exists p, mdns_result_encode 1337 ex_query ex_both ex_suffix = Val (Some p) /\ firstn 12 p = [5; 57; 128; 0; 0; 0; 0; 5; 0; 0; 0; 0].
Proof. eexists. split; vm_compute; reflexivity. Qed.

(** ** C34 *)
(** requests: every packet *)
Theorem C34_request : forall packet suffix, mdns_query_decode packet suffix <> Bad.
Proof. exact c34_request. Qed.
Print Assumptions C34_request.
(** The full statement for answers is: mdns_result_decode packet suffix <> Bad for every packet; it is false (below). Shown for packets whose
    records can be told apart, and for packets that are too short or no answers. *)
Theorem C34_answer_partial : forall packet suffix, skipn 12 packet <> [] -> framed (skipn 12 packet) -> mdns_result_decode packet suffix <> Bad.
Proof. exact c34_answer. Qed.
Print Assumptions C34_answer_partial.
Theorem C34_no_answer_partial : forall packet suffix, (length packet < 12)%nat \/ (exists f, nth_error packet 2 = Some f /\ f < 128) -> mdns_result_decode packet suffix <> Bad.
Proof. exact c34_no_answer. Qed.
Print Assumptions C34_no_answer_partial.
(** the condition holds for a packet with garbage in name, type and data followed by one with too little data *)
Example C34_case_framed : framed ([200; 1; 2; 0; 9; 9; 9; 9; 9; 9; 9; 9; 0; 3; 0; 0; 0] ++ [255; 0; 0; 16; 0; 1; 0; 0; 0; 0; 255; 255; 7]).
Proof.
  apply (fr_rec [200; 1; 2] 9 9 9 9 9 9 9 9 0 3 [0; 0; 0]); [discriminate|cbn; lia|reflexivity|discriminate|].
  apply (fr_cut [255] 0 16 0 1 0 0 0 0 255 255 [7]); [discriminate|cbn; lia|reflexivity].
Qed.

Definition ex_header (n : N) : list N := [0; 1; 132; 0; 0; 0; 0; n; 0; 0; 0; 0].
(** An answer without records: the missing name is followed. *)
Theorem C34_no_record_refuted : exists suffix, mdns_result_decode (ex_header 0) suffix = Bad.
Proof. exists ex_suffix. reflexivity. Qed.
Print Assumptions C34_no_record_refuted.
(** A record with an empty name: one octet is written to a buffer of no octets. *)
Theorem C34_empty_name_refuted : exists suffix, mdns_result_decode (ex_header 1 ++ [0; 0; 16; 0; 1; 0; 0; 0; 0; 0; 1; 0]) suffix = Bad.
Proof. exists ex_suffix. reflexivity. Qed.
Print Assumptions C34_empty_name_refuted.
(** Fewer than ten octets: the name is looked for far behind the packet. *)
Theorem C34_short_refuted : exists suffix, mdns_result_decode (ex_header 1 ++ [3; 97; 98; 99]) suffix = Bad.
Proof. exists ex_suffix. reflexivity. Qed.
Print Assumptions C34_short_refuted.
(** A name that does not end, in a packet of 1024 octets, which is the size of the receive buffers: one octet behind the buffer is read. *)
Theorem C34_unterminated_refuted : exists packet suffix, length packet = 1024%nat /\ mdns_result_decode packet suffix = Bad.
Proof. exists (ex_header 1 ++ flat_map (fun _ => [1; 65]) (repeat tt 501) ++ repeat 0 10), ex_suffix. split; vm_compute; reflexivity. Qed.
Print Assumptions C34_unterminated_refuted.
(** A TXT record without data: its first octet is read. *)
Theorem C34_empty_txt_refuted : exists p d, domain_from_query ex_query ex_suffix = Some d /\ p = answer_encode 1 (octets_of d) [mk_mrec RT_TXT []] /\ mdns_result_decode p ex_suffix = Bad.
Proof. eexists. eexists. split; [vm_compute; reflexivity|]. split; [reflexivity|]. vm_compute. reflexivity. Qed.
Print Assumptions C34_empty_txt_refuted.

(** ** C34, exactly *)
(** The decoder of answers leaves its buffers for these packets and no others: answers that have and announce no record; answers where, after any
    number of whole records of one name, octets follow that cannot be told to be a record (fatal, in MdnsSpec2.v); and answers of whole records of one
    name, as many as announced, with a name that is a query, where a TXT record without data follows records that were understood. *)
Theorem C34_exact : forall packet suffix, mdns_result_decode packet suffix = Bad <-> exists count l, answer_of packet count l /\
  ((l = [] /\ count = 0) \/
   (exists d xs rest, many_records d l xs rest /\ fatal rest) \/
   (exists d pre x post q s, many_records d l (pre ++ x :: post) [] /\ count = N.of_nat (length (pre ++ x :: post)) /\ query_from_domain (text_of d) suffix = inl q /\
      rs_run (mk_rs None None None None) pre = Val (Some s) /\ r_type x = RT_TXT /\ r_rdata x = [])).
Proof. exact exact_bad. Qed.
Print Assumptions C34_exact.
(** An attacker on the network needs to know nothing: such octets after the header of any answer do it, whatever the suffix. *)
Theorem C34_any_refuted : forall i1 i2 f g q1 q2 a1 a2 z1 z2 z3 z4 l suffix, 128 <= f -> fatal l -> mdns_result_decode (i1 :: i2 :: f :: g :: q1 :: q2 :: a1 :: a2 :: z1 :: z2 :: z3 :: z4 :: l) suffix = Bad.
Proof.
  intros. apply exact_bad. exists (256 * a1 + a2), l. split; [repeat eexists; auto|]. right; left. exists [], [], l. split; [constructor|auto].
Qed.
Print Assumptions C34_any_refuted.
(** a whole record, and after it one with an empty name *)
Definition ex_rec (n : N) (b : list N) : list N := [3; 97; 98; 99; 1; 100; 0; 0; 16; 0; 1; 0; 0; 0; 0; 0; n] ++ b.
Example C34_exact_case : many_records [97; 98; 99; 46; 100] (ex_rec 2 [1; 65] ++ [0; 0; 9]) [mk_mrec 16 [1; 65]] [0; 0; 9] /\ fatal [0; 0; 9]
  /\ (forall suffix, mdns_result_decode (ex_header 1 ++ ex_rec 2 [1; 65] ++ [0; 0; 9]) suffix = Bad)
  /\ (exists suffix, mdns_result_decode (ex_header 1 ++ ex_rec 2 [1; 65] ++ [0; 1; 9]) suffix = Val None).
Proof.
  assert (M : many_records [97; 98; 99; 46; 100] (ex_rec 2 [1; 65] ++ [0; 0; 9]) [mk_mrec 16 [1; 65]] [0; 0; 9]).
  { econstructor; [|constructor]. apply (on_rec [3; 97; 98; 99; 1; 100] [97; 98; 99; 46; 100] 16 0 1 0 0 0 0 0 2 [1; 65] [0; 0; 9]); [|cbn; intuition discriminate|reflexivity].
    apply (sp_more 3 [97; 98; 99] [1; 100] [100]); [reflexivity|discriminate|]. apply (sp_one 1 [100]); [reflexivity|discriminate]. }
  split; [exact M|]. split; [constructor|]. split.
  - intros suffix. apply C34_exact. exists 1, (ex_rec 2 [1; 65] ++ [0; 0; 9]). split; [repeat eexists; lia|]. right; left. do 3 eexists. split; [exact M|constructor].
  - exists ex_suffix. vm_compute. reflexivity.
Qed.
(** each kind of octets *)
Example C34_fatal_cases : fatal [0; 0] /\ fatal [7; 7; 7] /\ fatal [7; 7; 0] /\ fatal [1; 65; 0; 0; 16] /\ fatal (5 :: 0 :: repeat 9 8) /\ ~ fatal [1; 0; 65].
Proof.
  split; [constructor|]. split; [apply fa_off; [discriminate|cbn; lia|cbn; intuition discriminate]|]. split; [apply (fa_end [7; 7]); [cbn; lia|cbn; intuition discriminate]|].
  split; [apply (fa_tail [1; 65] [65] [16]); [apply (sp_one 1 [65]); [reflexivity|discriminate]|cbn; intuition discriminate|cbn; lia]|].
  split; [apply (fa_open [] 5 (repeat 9 8)); [auto|intros []|reflexivity]|]. intros F. apply fatal_bad in F. vm_compute in F. discriminate.
Qed.

(** ** C33, exactly *)
(** The process is aborted for packets of more than 1024 octets and no others. *)
Theorem C33_abort_refuted : forall id q r suffix, good_query q -> (mdns_query_encode id q suffix = Bad <-> (1024 < query_size q suffix)%nat) /\
  (good_result r -> mdns_result_encode id q r suffix = Bad <-> (1024 < result_size q r suffix)%nat).
Proof. intros id q r suffix G. split; [exact (query_abort id q suffix G)|]. intros Gr. exact (result_abort id q r suffix G Gr). Qed.
Print Assumptions C33_abort_refuted.
(** A query is read back as it was exactly if its service has no empty label, nor its suffix, but for one at its end. *)
Theorem C33_query_exact : forall id q suffix, good_query q -> loose_name (lq_service q) -> loose_name suffix -> id < 65536 -> (query_size q suffix <= 1024)%nat ->
  exists p, mdns_query_encode id q suffix = Val (Some p) /\
    (mdns_query_decode p suffix = Val (Some (id, q)) <-> dns_name (lq_service q) /\ (suffix = ""%string \/ dns_name suffix \/ exists s, dns_name s /\ suffix = (s ++ ".")%string)).
Proof. exact query_exact. Qed.
Print Assumptions C33_query_exact.
(** With a suffix that ends with a dot, queries are understood, but no result is. *)
Theorem C33_dot_refuted : forall id q r s, good_query q -> good_result r -> dns_name (lq_service q) -> dns_name s -> id < 65536 -> (result_size q r (s ++ ".") <= 1024)%nat ->
  exists p, mdns_result_encode id q r (s ++ ".") = Val (Some p) /\ forall suffix, mdns_result_decode p suffix = Val None.
Proof. exact answer_dot. Qed.
Print Assumptions C33_dot_refuted.
(** A result for a service whose name starts with two dots makes everybody who decodes it leave a buffer. *)
Theorem C33_dots_refuted : forall id q r suffix s p, lq_service q = (".." ++ s)%string -> mdns_result_encode id q r suffix = Val (Some p) -> forall suffix', mdns_result_decode p suffix' = Bad.
Proof. exact answer_dots. Qed.
Print Assumptions C33_dots_refuted.
Example C33_exact_case : query_size ex_query ex_suffix = 59%nat /\ result_size ex_query ex_both ex_suffix = 321%nat /\ (exists p, mdns_result_encode 1337 ex_query ex_both ex_suffix = Val (Some p) /\ length p = 321%nat) /\
  (exists p, mdns_query_encode 7 ex_query "mdns.osmocom.org." = Val (Some p) /\ mdns_query_decode p "mdns.osmocom.org." = Val (Some (7, ex_query))) /\
  (exists p, mdns_result_encode 7 ex_query ex_both "mdns.osmocom.org." = Val (Some p) /\ mdns_result_decode p "mdns.osmocom.org." = Val None) /\
  (exists p, mdns_result_encode 7 (mk_query "..voice" IdMsisdn "1002") ex_both ex_suffix = Val (Some p) /\ mdns_result_decode p ex_suffix = Bad) /\ loose_name "sip..voice" /\ ~ dns_name "sip..voice".
Proof.
  split; [vm_compute; reflexivity|]. split; [vm_compute; reflexivity|]. split; [eexists; split; vm_compute; reflexivity|]. split; [eexists; split; vm_compute; reflexivity|]. split; [eexists; split; vm_compute; reflexivity|]. split; [eexists; split; vm_compute; reflexivity|].
  assert (L : Forall loose [[115; 105; 112]; []; [118; 111; 105; 99; 101]]) by (repeat (constructor; [split; [cbn; lia|split; cbn; intuition discriminate]|]); constructor).
  split; [exists [[115; 105; 112]; []; [118; 111; 105; 99; 101]]; split; [discriminate|]; split; [exact L|reflexivity]|].
  intros (ls & Ne & F & E). assert (X : [[115; 105; 112]; []; [118; 111; 105; 99; 101]] = ls).
  { transitivity (labels (join ls)); [rewrite <- E; reflexivity|]. apply loose_labels; [exact Ne|]. eapply Forall_impl; [exact is_loose|exact F]. }
  subst ls. inversion F as [|x1 r1 _ F1]. inversion F1 as [|x2 r2 (Z & _) _]. cbn in Z. lia.
Qed.
(** The length of a label is kept in one octet: a suffix of 255 characters is understood, of one with 256 the length is sent as 0. *)
Definition long_label (n : nat) : string := string_of_list_ascii (repeat "a"%char n).
Example C33_label_case : (exists p, mdns_query_encode 7 ex_query (long_label 255) = Val (Some p) /\ nth 37 p 1 = 255 /\ mdns_query_decode p (long_label 255) = Val (Some (7, ex_query))) /\
  (exists p, mdns_query_encode 7 ex_query (long_label 256) = Val (Some p) /\ nth 37 p 1 = 0 /\ mdns_query_decode p (long_label 256) = Val None).
Proof. split; (eexists; split; [vm_compute; reflexivity|split; vm_compute; reflexivity]). Qed.
