(** Specification side of C77: the script and the file that fill a database for tests. *)
From Verif Require Import Base PeerId Db DbSpec.

(** The number that a text of decimal digits stands for; the text has the length [w]. *)
Inductive stands_for : nat -> string -> N -> Prop :=
| sf_none : stands_for 0 "" 0
| sf_more w t i c k : stands_for w t i -> (k < 10)%N -> N_of_ascii c = (48 + k)%N ->
    stands_for (S w) (t ++ String c "") (10 * i + k).
(** Subscriber number [i] of the script: IMSI and MSISDN *)
Definition nth_subscr (i : N) (imsi msisdn : string) : Prop :=
  exists t, stands_for 10 t i /\ imsi = ("90179" ++ t)%string /\ msisdn = ("49" ++ t)%string.

(** Rows are only added. *)
Definition only_added (d d' : db) : Prop :=
  exists a b c, d_sub d' = d_sub d ++ a /\ d_auc2 d' = d_auc2 d ++ b /\ d_auc3 d' = d_auc3 d ++ c /\ d_ind d' = d_ind d.

(** Every key is that of a subscriber. *)
Definition keys_owned (d : db) : Prop :=
  (forall a, In a (d_auc2 d) -> exists r, In r (d_sub d) /\ s_id r = a2_id a) /\
  (forall a, In a (d_auc3 d) -> exists r, In r (d_sub d) /\ s_id r = a3_id a).
(** None of the first [n] IMSIs and MSISDNs is in use. *)
Definition unused (n : N) (d : db) : Prop :=
  forall i imsi msisdn r, (i < n)%N -> nth_subscr i imsi msisdn -> In r (d_sub d) -> s_imsi r <> imsi /\ s_msisdn r <> Some msisdn.
