(** Property C55: the import of subscribers from an OsmoNITB database. *)
From Verif Require Import Base PeerId Db DbSpec DbProofs DbThms DbProperties Mdns Dbd DbdSpec DbdProperties Auth AuthSpec AuthThms AuthProperties Ctrl CtrlSpec CtrlThms CtrlThms3 CtrlProperties VtySubscr VtySpec Nitb NitbSpec NitbThms NitbThms2.
Local Open Scope string_scope.
Local Open Scope list_scope.
Local Open Scope Z_scope.

(** ** The case *)
(** one subscriber with everything, one without extension, IMEI and key, who may not use the network *)
Definition ex_nkey : nkey := mk_nkey (NInt 3) 21 (encode 3 ex_key ++ [0%N]).
Definition ex_n1 : nrow := mk_nrow (NInt 901700000050) (Some "2001") (NInt 1) (Some "356851031010107") (NText "1600003660") [ex_nkey].
Definition ex_n2 : nrow := mk_nrow (NText "901700000051") None (NInt 0) None (NText "1600000000") [].
Definition ex_i1 : sub_row := mk_sub 3 "901700000050" (Some "2001") (Some "35685103101010") None None true true false false (Some 1600000000) None None None.
Definition ex_i2 : sub_row := mk_sub 4 "901700000051" None None None None false false false false (Some 1599996340) None None None.
(** the key in hexadecimal *)
Definition ex_khex : string := "03042a00ff02c8031112131415161718".
Definition imported (n : nrow) (d : db) : db := snd (fst (import_nitb_db 0 true false [n] d [])).
Lemma numeral_of s z : all_digits s 0 = Some z -> s <> "" -> numeral s z.
Proof. intros A B. now apply digits_numeral. Qed.
Example clean_case : Forall2 clean [ex_n1; ex_n2] ["901700000050"; "901700000051"].
Proof.
  constructor; [constructor|constructor; [constructor|constructor]].
  - exists 901700000050. split; [reflexivity|]. apply numeral_of; [reflexivity|discriminate].
  - apply imsi_valid_spec. reflexivity.
  - discriminate.
  - intros m E. injection E as <-. apply msisdn_valid_spec. reflexivity.
  - intros m E. injection E as <-. exists "35685103101010". split; [|exists "7"; reflexivity]. apply imei_valid_spec. reflexivity.
  - right. reflexivity.
  - exists 1600003660. split; [apply numeral_of; [reflexivity|discriminate]|lia].
  - intros k [<-|[]]. exists 3, ex_key. split; [reflexivity|]. split; [cbn; auto|]. split; [reflexivity|]. split; [repeat constructor|]. exists 3%N, []. repeat split.
  - exists 901700000051. split; [apply numeral_of; [reflexivity|discriminate]|]. apply numeral_of; [reflexivity|discriminate].
  - apply imsi_valid_spec. reflexivity.
  - discriminate.
  - discriminate.
  - discriminate.
  - left. reflexivity.
  - exists 1600000000. split; [apply numeral_of; [reflexivity|discriminate]|lia].
  - intros k [].
Qed.

(** ** Import *)
(** Full statement: every subscriber of the OsmoNITB database is imported, with its IMSI, extension, IMEI, authorization, time of the last
    location update and key; others are left alone; failure is reported. Missing: rows that are not [clean], see the refutations; reports of
    failure, see [C55_status_refuted].
    Without faults, clean rows of new subscribers are all added, in their order, with exactly what they say. *)
Theorem C55_import_partial : forall tz f l is d, db_ok d -> (forall a, In a (d_auc2 d) -> has_id d (a2_id a)) -> Forall2 clean l is -> NoDup is ->
  (forall i, In i is -> ~ has_imsi d i) -> NoDup (exts l) -> (forall m, In m (exts l) -> ~ has_msisdn d m) ->
  exists rows d', import_nitb_db tz true f l d [] = (Fin 0, d', []) /\ d_sub d' = d_sub d ++ rows /\
    Forall2 (fun ni r => expected (fst ni) (snd ni) r /\ expected_keys (fst ni) (s_id r) d') (combine l is) rows.
Proof. exact import_list. Qed.
Print Assumptions C55_import_partial.
Example C55_import_case :
  (forall a, In a (d_auc2 ex_db2) -> has_id ex_db2 (a2_id a)) /\ (forall i, In i ["901700000050"; "901700000051"] -> ~ has_imsi ex_db2 i) /\
  (forall m, In m (exts [ex_n1; ex_n2]) -> ~ has_msisdn ex_db2 m) /\
  import_nitb_db 0 true false [ex_n1; ex_n2] ex_db2 [] =
    (Fin 0, mk_db (d_sub ex_db2 ++ [ex_i1; ex_i2]) (d_auc2 ex_db2 ++ [mk_auc2 3 3 ex_khex]) (d_auc3 ex_db2) (d_ind ex_db2), []).
Proof.
  split; [intros a [<-|[<-|[]]]; eexists; first [split; [left; reflexivity|reflexivity]|split; [right; left; reflexivity|reflexivity]]|].
  split; [intros i [<-|[<-|[]]] (r & [<-|[<-|[]]] & E); discriminate E|].
  split; [intros m [<-|[]] (r & [<-|[<-|[]]] & E); discriminate E|]. vm_compute. reflexivity.
Qed.

(** Whatever the rows, and whatever fails: a subscriber whose IMSI is not the number of a row stays as it is, with its keys; no 3G keys and
    no assignments of IND are touched. *)
Theorem C55_others : forall tz o f l d c r, db_ok d -> In r (d_sub d) ->
  (forall n, In n l -> exists z, number_in (nr_imsi n) z /\ 0 <= z <= 9223372036854775807 /\ ~ numeral (s_imsi r) z) ->
  kept r d (snd (fst (import_nitb_db tz o f l d c))) /\ d_auc3 (snd (fst (import_nitb_db tz o f l d c))) = d_auc3 d /\ d_ind (snd (fst (import_nitb_db tz o f l d c))) = d_ind d.
Proof. exact import_others. Qed.
Print Assumptions C55_others.
Example C55_others_case : (exists z, number_in (nr_imsi ex_n1) z /\ 0 <= z <= 9223372036854775807 /\ ~ numeral (s_imsi ex_r1) z) /\
  In ex_r1 (d_sub ex_db2) /\ kept ex_r1 ex_db2 (snd (fst (import_nitb_db 0 true false [ex_n1] ex_db2 [EvOk; EvFail; EvOk; EvCrash]))).
Proof.
  assert (X : exists z, number_in (nr_imsi ex_n1) z /\ 0 <= z <= 9223372036854775807 /\ ~ numeral (s_imsi ex_r1) z).
  { exists 901700000050. split; [reflexivity|]. split; [lia|]. intros N. apply numeral_digits in N as [N _]. vm_compute in N. discriminate N. }
  split; [exact X|]. split; [left; reflexivity|]. apply C55_others; [exact (proj1 ex_db2_ok)|left; reflexivity|]. intros n [<-|[]]. exact X.
Qed.

(** Whatever the rows and whatever fails, the database stays consistent. *)
Theorem C55_consistent : forall tz o f l d c, db_ok d -> db_ok (snd (fst (import_nitb_db tz o f l d c))).
Proof. intros tz o f l d c OK. apply db_ok_inv. apply db_ok_inv in OK. exact (import_ok tz o f l d c OK). Qed.
Print Assumptions C55_consistent.
Example C55_consistent_case : length (d_sub (snd (fst (import_nitb_db 0 true true [ex_n1; ex_n2] ex_db2 [EvOk; EvFail; EvFail; EvFail])))) = 4%nat /\
  db_ok (snd (fst (import_nitb_db 0 true true [ex_n1; ex_n2] ex_db2 [EvOk; EvFail; EvFail; EvFail]))).
Proof. split; [vm_compute; reflexivity|]. apply C55_consistent, ex_db2_ok. Qed.

(** Nothing undefined happens, whatever fails, if the rows are harmless; the assertion on the IMSI never fails. *)
Theorem C55_defined_partial : forall tz o f l d c, db_ok d -> (forall r, In r (d_sub d) -> readable r) -> Forall harmless l ->
  fst (fst (import_nitb_db tz o f l d c)) <> Ub.
Proof. exact import_harmless. Qed.
Print Assumptions C55_defined_partial.
Example C55_defined_case : Forall harmless [ex_n1; ex_n2] /\ (forall r, In r (d_sub ex_db2) -> readable r).
Proof.
  split.
  - constructor; [split|constructor; [split|constructor]].
    + right. exists 1600003660. split; [apply numeral_of; [reflexivity|discriminate]|lia].
    + intros k t E. injection E as <- <-. right. exists 3%N, (tl (encode 3 ex_key)), []. split; [reflexivity|]. split; [|cbn; lia].
      vm_compute. repeat first [apply unbroken_nil|apply unbroken_escape|apply unbroken_direct; [discriminate|discriminate|]].
    + right. exists 1600000000. split; [apply numeral_of; [reflexivity|discriminate]|lia].
    + discriminate.
  - intros r [<-|[<-|[]]] p [E|E]; discriminate E.
Qed.

(** ** Refutations *)
(** The IMSI goes through an integer: leading zeros are lost, so that the subscriber is imported under another IMSI. *)
Theorem C55_zero_refuted : exists d n i j d', db_ok d /\ imsi_in n i /\ is_imsi i /\ is_imsi j /\ i <> j /\
  import_nitb_db 0 true false [n] d [] = (Fin 0, d', []) /\ ~ has_imsi d' i /\ ~ has_imsi d j /\ has_imsi d' j.
Proof.
  exists ex_db2, (mk_nrow (NText "001010000000001") (Some "2001") (NInt 1) None (NText "1600003660") []), "001010000000001", "1010000000001". eexists.
  split; [exact (proj1 ex_db2_ok)|]. split; [exists 1010000000001; split; apply numeral_of; [reflexivity|discriminate|reflexivity|discriminate]|].
  split; [apply imsi_valid_spec; reflexivity|]. split; [apply imsi_valid_spec; reflexivity|]. split; [discriminate|]. split; [vm_compute; reflexivity|].
  split; [intros (r & [<-|[<-|[<-|[]]]] & E); discriminate E|]. split; [intros (r & [<-|[<-|[]]] & E); discriminate E|].
  eexists. split; [right; right; left; reflexivity|reflexivity].
Qed.
Print Assumptions C55_zero_refuted.
(** A subscriber that is there already is overwritten, though it could not be created, and success is returned. *)
Theorem C55_existing_refuted : exists d n i r d', db_ok d /\ clean n i /\ In r (d_sub d) /\ s_imsi r = i /\
  import_nitb_db 0 true false [n] d [] = (Fin 0, d', []) /\ ~ In r (d_sub d').
Proof.
  exists ex_db2, (mk_nrow (NInt 901700000001) (Some "2001") (NInt 0) None (NText "1600003660") []), "901700000001", ex_r1. eexists.
  split; [exact (proj1 ex_db2_ok)|]. split.
  { constructor; cbn; try discriminate.
    - exists 901700000001. split; [reflexivity|]. apply numeral_of; [reflexivity|discriminate].
    - apply imsi_valid_spec. reflexivity.
    - intros m E. injection E as <-. apply msisdn_valid_spec. reflexivity.
    - now left.
    - exists 1600003660. split; [apply numeral_of; [reflexivity|discriminate]|lia].
    - intros k []. }
  split; [left; reflexivity|]. split; [reflexivity|]. split; [vm_compute; reflexivity|]. intros [E|[E|[]]]; discriminate E.
Qed.
Print Assumptions C55_existing_refuted.
(** A subscriber that was never seen gets a time of the last location update, an hour and a minute before 1970. *)
Theorem C55_never_refuted : exists d n r d', db_ok d /\ nr_expire n = NNull /\ import_nitb_db 0 true false [n] d [] = (Fin 0, d', []) /\
  In r (d_sub d') /\ ~ has_imsi d (s_imsi r) /\ s_lu_cs r = Some (-3660).
Proof.
  exists ex_db2, (mk_nrow (NInt 901700000050) (Some "2001") (NInt 0) None NNull []). eexists. eexists.
  split; [exact (proj1 ex_db2_ok)|]. split; [reflexivity|]. split; [vm_compute; reflexivity|]. split; [right; right; left; reflexivity|].
  split; [intros (r & [<-|[<-|[]]] & E); discriminate E|reflexivity].
Qed.
Print Assumptions C55_never_refuted.
(** Times from 2^31 on (the year 2038) are taken for times before 1970, or overflow. *)
Theorem C55_time_refuted :
  (exists d n t r d', db_ok d /\ number_in (nr_expire n) t /\ t = 2147490000 /\ import_nitb_db 0 true false [n] d [] = (Fin 0, d', []) /\ In r (d_sub d') /\ s_lu_cs r = Some (-2147480956)) /\
  (exists d n t, db_ok d /\ number_in (nr_expire n) t /\ t = 2147483648 /\ fst (fst (import_nitb_db 0 true false [n] d [])) = Ub).
Proof.
  split.
  - exists ex_db2, (mk_nrow (NInt 901700000050) (Some "2001") (NInt 0) None (NText "2147490000") []), 2147490000. eexists. eexists.
    split; [exact (proj1 ex_db2_ok)|]. split; [apply numeral_of; [reflexivity|discriminate]|]. split; [reflexivity|]. split; [vm_compute; reflexivity|]. split; [right; right; left; reflexivity|reflexivity].
  - exists ex_db2, (mk_nrow (NInt 901700000050) (Some "2001") (NInt 0) None (NText "2147483648") []), 2147483648.
    split; [exact (proj1 ex_db2_ok)|]. split; [apply numeral_of; [reflexivity|discriminate]|]. split; [reflexivity|]. vm_compute. reflexivity.
Qed.
Print Assumptions C55_time_refuted.
(** An empty key is decoded from a NULL pointer, in every database that has no such subscriber. *)
Theorem C55_empty_key_refuted : exists d n k, db_ok d /\ nr_keys n = [k] /\ nk_size k = 0%N /\ nk_mem k = [] /\ fst (fst (import_nitb_db 0 true false [n] d [])) = Ub.
Proof.
  exists ex_db2, (mk_nrow (NInt 901700000050) (Some "2001") (NInt 1) None (NText "1600003660") [mk_nkey (NInt 3) 0 []]). eexists.
  split; [exact (proj1 ex_db2_ok)|]. repeat split.
Qed.
Print Assumptions C55_empty_key_refuted.
(** A longer extension is cut to another number. *)
Theorem C55_extension_refuted : exists d n m m' r d', db_ok d /\ nr_ext n = Some m /\ import_nitb_db 0 true false [n] d [] = (Fin 0, d', []) /\
  In r (d_sub d') /\ ~ has_imsi d (s_imsi r) /\ s_msisdn r = Some m' /\ m' <> m.
Proof.
  exists ex_db2, (mk_nrow (NInt 901700000050) (Some "4930123456789012") (NInt 0) None (NText "1600003660") []), "4930123456789012", "493012345678901". eexists. eexists.
  split; [exact (proj1 ex_db2_ok)|]. split; [reflexivity|]. split; [vm_compute; reflexivity|]. split; [right; right; left; reflexivity|].
  split; [intros (r & [<-|[<-|[]]] & E); discriminate E|]. split; [reflexivity|discriminate].
Qed.
Print Assumptions C55_extension_refuted.
(** Success is returned though the subscribers could not be read, though one could not be written, and though an extension was taken. *)
Theorem C55_status_refuted :
  (forall tz d c, import_nitb_db tz true true [] d c = (Fin 0, d, c)) /\
  (exists n i c d', clean n i /\ import_nitb_db 0 true false [n] ex_db2 c = (Fin 0, d', []) /\ ~ has_imsi d' i) /\
  (exists n i m d' r, clean n i /\ nr_ext n = Some m /\ import_nitb_db 0 true false [n] ex_db2 [] = (Fin 0, d', []) /\ In r (d_sub d') /\ s_imsi r = i /\ s_msisdn r = None).
Proof.
  assert (CL : forall e, msisdn_valid e = true -> clean (mk_nrow (NInt 901700000050) (Some e) (NInt 0) None (NText "1600003660") []) "901700000050").
  { intros e V. constructor; cbn; try discriminate.
    - exists 901700000050. split; [reflexivity|]. apply numeral_of; [reflexivity|discriminate].
    - apply imsi_valid_spec. reflexivity.
    - intros m E. injection E as <-. apply msisdn_valid_spec. exact V.
    - now left.
    - exists 1600003660. split; [apply numeral_of; [reflexivity|discriminate]|lia].
    - intros k []. }
  split; [reflexivity|]. split.
  - eexists. eexists. exists [EvFail]. eexists. split; [apply (CL "2001"); reflexivity|]. split; [vm_compute; reflexivity|].
    intros (r & [<-|[<-|[]]] & E); discriminate E.
  - eexists. eexists. exists "1001". eexists. eexists. split; [apply (CL "1001"); reflexivity|]. split; [reflexivity|]. split; [vm_compute; reflexivity|].
    split; [right; right; left; reflexivity|]. split; reflexivity.
Qed.
Print Assumptions C55_status_refuted.
(** an IMSI stored as a negative number is not taken over; a subscription that ends at the time 3660 gives no time at all *)
Example C55_edge_case : d_sub (imported (mk_nrow (NInt (-901700000050)) (Some "2001") (NInt 1) None (NInt 1600003660) []) ex_db2) = d_sub ex_db2 /\
  (exists r, In r (d_sub (imported (mk_nrow (NInt 901700000050) (Some "2001") (NInt 1) None (NInt 3660) []) ex_db2)) /\ s_imsi r = "901700000050"%string /\ s_lu_cs r = None) /\
  (exists r, In r (d_sub (imported (mk_nrow (NInt 901700000050) (Some "2001") (NInt 1) None (NInt 3661) []) ex_db2)) /\ s_imsi r = "901700000050"%string /\ s_lu_cs r = Some 1).
Proof. split; [vm_compute; reflexivity|]. split; (eexists; split; [vm_compute; right; right; left; reflexivity|split; reflexivity]). Qed.
