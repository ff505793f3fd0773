(** C32 lookup queries as domain names: theorems and cases. *)
From Verif Require Import Base PeerId Db DbSpec MsLookup MsSpec MsThms.

(** every valid query survives, with every suffix *)
Theorem C32_round_trip : forall q suffix, good_query q -> exists d, domain_from_query q suffix = Some d /\ query_from_domain d suffix = inl q.
Proof. exact c32_round. Qed.
Print Assumptions C32_round_trip.
(** exactly the well-formed names are accepted, as the query they stand for *)
Theorem C32_decode : forall d suffix q, query_from_domain d suffix = inl q <-> exists e, names_query e q /\ d = (e ++ "." ++ suffix)%string.
Proof. exact from_domain_iff. Qed.
Print Assumptions C32_decode.
Theorem C32_decode_plain : forall d q, query_init d = inl q <-> names_query d q.
Proof. exact init_iff. Qed.
Print Assumptions C32_decode_plain.
Theorem C32_one_query : forall d q q', names_query d q -> names_query d q' -> q = q'.
Proof. exact names_unique. Qed.
Print Assumptions C32_one_query.
(** an id or service that is not valid is never sent out as one that decodes *)
Theorem C32_no_other : forall q suffix d q', domain_from_query q suffix = Some d -> query_from_domain d suffix = inl q' -> good_query q'.
Proof. intros q suffix d q' _ E. apply from_domain_iff in E as (e & [G _] & _). exact G. Qed.
Print Assumptions C32_no_other.

Example C32_case : let q := mk_query "sip..voice." IdMsisdn "1234567" in
  domain_from_query q "mdns.osmocom.org" = Some "sip..voice..1234567.msisdn.mdns.osmocom.org"%string /\ query_from_domain "sip..voice..1234567.msisdn.mdns.osmocom.org" "mdns.osmocom.org" = inl q.
Proof. split; reflexivity. Qed.
Example C32_case_good : good_query (mk_query "sip..voice." IdMsisdn "1234567").
Proof. split; [cbn; lia|]. apply id_valid_spec. reflexivity. Qed.
Example C32_case_refused : query_init "hlr.12345.imsi" = inr (-5) /\ query_init "1234567.imsi" = inr (-3) /\ query_init "hlr.1234567.imsi." = inr (-4) /\
  query_init "hlr.1234567.imei" = inr (-7) /\ query_init "hlr.1234567.ImSi" = inl (mk_query "hlr" IdImsi "1234567") /\ query_init ".1234567.imsi" = inr (-3) /\
  query_from_domain "hlr.1234567.imsi.org" "osmocom.org" = inr (- EINVAL) /\ query_init "hlr.1234567890123456.imsi" = inr (-11) /\ query_init "hlr..imsi" = inr (-10).
Proof. repeat split. Qed.
