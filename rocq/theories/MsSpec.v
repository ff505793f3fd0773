(** Vocabulary for lookup queries (C32). *)
From Verif Require Import Base PeerId Db DbSpec MsLookup.

(** digits only, of a length that fits the type *)
Definition good_id (t : id_type) (i : string) : Prop :=
  match t with IdNone => False | IdImsi => is_imsi i | IdMsisdn => is_msisdn i end.
Definition good_query (q : query) : Prop := (1 <= String.length (lq_service q) <= 64)%nat /\ good_id (lq_type q) (lq_id q).
(** [w] is the word for type [t], in capital or small letters *)
Definition same_letter (a b : ascii) : Prop := a = b \/ (65 <= N_of_ascii a <= 90 /\ N_of_ascii b = N_of_ascii a + 32)%N.
Definition word_for (t : id_type) (w : string) : Prop := Forall2 same_letter (bytes_of w) (bytes_of (match t with IdNone => "none" | IdImsi => "imsi" | IdMsisdn => "msisdn" end)).
(** [d] names query [q] *)
Definition names_query (d : string) (q : query) : Prop :=
  good_query q /\ exists w, word_for (lq_type q) w /\ d = (lq_service q ++ "." ++ lq_id q ++ "." ++ w)%string.
