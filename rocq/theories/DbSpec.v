(** Declarative vocabulary for the database properties; independent of how the model computes. *)
From Verif Require Import Base PeerId Db.

(** a string of mn..mx decimal digits *)
Definition digit_string (mn mx : nat) (s : string) : Prop :=
  (mn <= String.length s <= mx)%nat /\
  forall n c, String.get n s = Some c -> (48 <= N_of_ascii c <= 57)%N.

Definition is_imsi : string -> Prop := digit_string 6 15.
Definition is_msisdn : string -> Prop := digit_string 1 15.
Definition is_imei14 : string -> Prop := digit_string 14 14.

(** a hexadecimal digit and its value *)
Definition hex_digit (c : ascii) : Prop :=
  let n := N_of_ascii c in (48 <= n <= 57 \/ 97 <= n <= 102 \/ 65 <= n <= 70)%N.
(** hex string of an even number, mn..mx, of digits *)
Definition hex_string (mn mx : nat) (s : string) : Prop :=
  (mn <= String.length s <= mx)%nat /\ Nat.Even (String.length s) /\
  forall n c, String.get n s = Some c -> hex_digit c.

(** No two different positions of the subscriber table share an id, an IMSI or an MSISDN. *)
Definition identities_unique (d : db) : Prop :=
  forall i j r r',
    nth_error (d_sub d) i = Some r -> nth_error (d_sub d) j = Some r' ->
    (s_id r = s_id r' \/ s_imsi r = s_imsi r' \/
     exists m, s_msisdn r = Some m /\ s_msisdn r' = Some m) ->
    i = j.

Definition identities_wellformed (d : db) : Prop :=
  forall r, In r (d_sub d) ->
    is_imsi (s_imsi r) /\ (forall m, s_msisdn r = Some m -> is_msisdn m).

(** subscriber [r] is in the database under its IMSI *)
Definition has_imsi (d : db) (i : string) : Prop := exists r, In r (d_sub d) /\ s_imsi r = i.
Definition has_msisdn (d : db) (m : string) : Prop := exists r, In r (d_sub d) /\ s_msisdn r = Some m.
Definition has_id (d : db) (i : Z) : Prop := exists r, In r (d_sub d) /\ s_id r = i.
Definition has_auc2 (d : db) (i : Z) : Prop := exists a, In a (d_auc2 d) /\ a2_id a = i.
Definition has_auc3 (d : db) (i : Z) : Prop := exists a, In a (d_auc3 d) /\ a3_id a = i.

(** everything about a subscriber that does not belong to the PS (resp. CS) domain *)
Definition not_ps (r : sub_row) :=
  (s_id r, s_imsi r, s_msisdn r, s_imei r, (s_vlr r, s_nam_cs r, s_purged_cs r, s_lu_cs r, s_vlr_proxy r)).
Definition not_cs (r : sub_row) :=
  (s_id r, s_imsi r, s_msisdn r, s_imei r, (s_sgsn r, s_nam_ps r, s_purged_ps r, s_lu_ps r, s_sgsn_proxy r)).
(** the two domains *)
Inductive domain := CS | PS.
Definition is_ps (x : domain) : bool := match x with PS => true | CS => false end.
Definition same_other_domain (x : domain) (r r' : sub_row) : Prop :=
  match x with PS => not_ps r = not_ps r' | CS => not_cs r = not_cs r' end.

(** Only rows satisfying [tgt] may differ, and only in fields of domain [x]; no row appears,
    disappears or moves; the other tables are the same. *)
Definition only_domain_changed (x : domain) (tgt : sub_row -> Prop) (d d' : db) : Prop :=
  Forall2 (fun r r' => same_other_domain x r r' /\ (tgt r \/ r = r')) (d_sub d) (d_sub d') /\
  d_auc2 d' = d_auc2 d /\ d_auc3 d' = d_auc3 d /\ d_ind d' = d_ind d.
