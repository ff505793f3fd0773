(** Vocabulary for the import from OsmoNITB. *)
From Verif Require Import Base PeerId Db DbSpec Auth AuthSpec CtrlSpec DbdSpec Nitb.

(** the number in a column *)
Definition number_in (v : ncol) (z : Z) : Prop := match v with NInt x => x = z | NText s => numeral s z | NNull => False end.
(** [i] is the IMSI of the subscriber: its digits make the number in the column *)
Definition imsi_in (n : nrow) (i : string) : Prop := exists z, number_in (nr_imsi n) z /\ numeral i z.
(** the key: 16 octets, encoded by libdbi with any offset, and an algorithm for 2G *)
Definition key_in (k : nkey) (algo : Z) (l : list N) : Prop :=
  number_in (nk_algo k) algo /\ In algo [1; 2; 3; 6] /\ length l = 16%nat /\ Forall octet l /\
  exists e rest, octet e /\ nk_mem k = encode e l ++ 0%N :: rest /\ nk_size k = N.of_nat (length (encode e l)).
(** the first 14 digits of an IMEI *)
Definition imei_part (m m14 : string) : Prop := is_imei14 m14 /\ exists rest, m = (m14 ++ rest)%string.
(** a subscriber with the IMSI [i] that can be imported as it is *)
Record clean (n : nrow) (i : string) : Prop := {
  cl_imsi : imsi_in n i;
  cl_form : is_imsi i;
  cl_zero : String.get 0 i <> Some "0"%char;
  cl_ext : forall m, nr_ext n = Some m -> is_msisdn m;
  cl_imei : forall m, nr_imei n = Some m -> exists m14, imei_part m m14;
  cl_auth : number_in (nr_auth n) 0 \/ number_in (nr_auth n) 1;
  cl_seen : exists t, number_in (nr_expire n) t /\ 3660 < t < 2147483648;
  cl_key : forall k, In k (nr_keys n) -> exists algo l, key_in k algo l }.
(** what is to be stored about it, but for the id *)
Definition expected (n : nrow) (i : string) (r : sub_row) : Prop :=
  exists imei a t id, r = mk_sub id i (nr_ext n) imei None None a a false false (Some (t - 3660)) None None None /\
    match nr_imei n with Some m => exists m14, imei = Some m14 /\ imei_part m m14 | None => imei = None end /\
    number_in (nr_auth n) (if a : bool then 1 else 0) /\ number_in (nr_expire n) t.
(** the keys to be stored under an id *)
Definition expected_keys (n : nrow) (id : Z) (d : db) : Prop :=
  match nr_keys n with
  | [] => ~ has_auc2 d id
  | k :: _ => exists algo l s, key_in k algo l /\ spells s l /\ forall a, key2 d id a <-> a = mk_auc2 id algo s
  end.
(** the subscriber of row [r], with its keys, is the same in both databases *)
Definition kept (r : sub_row) (d d' : db) : Prop :=
  In r (d_sub d) /\ In r (d_sub d') /\ (forall a, key2 d' (s_id r) a <-> key2 d (s_id r) a) /\ (forall a, key3 d' (s_id r) a <-> key3 d (s_id r) a).
(** the extensions *)
Definition exts (l : list nrow) : list string := flat_map (fun n => match nr_ext n with Some m => [m] | None => [] end) l.
(** a row that cannot make the import fail: no time, or one that fits into 31 bits; no key, or one that is too large, or the first one is
    followed by a zero octet within what can be read, and does not end within an escape *)
Definition harmless (n : nrow) : Prop :=
  (nr_expire n = NNull \/ exists t, number_in (nr_expire n) t /\ 0 <= t < 2147483648) /\
  forall k t, nr_keys n = k :: t -> (4096 < nk_size k)%N \/ exists e m rest, nk_mem k = (e :: m) ++ 0%N :: rest /\ unbroken m /\ (length m <= 4096)%nat.
