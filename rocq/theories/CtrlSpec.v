(** Vocabulary for the control interface: which subscriber a selector names, and what changes are confined to it. *)
From Verif Require Import Base PeerId Db DbSpec.

(** a decimal numeral and its number *)
Definition digit (c : ascii) (n : Z) : Prop := 0 <= n <= 9 /\ c = ascii_of_N (Z.to_N (48 + n)).
Inductive numeral : string -> Z -> Prop :=
| num_one c n : digit c n -> numeral (String c "") n
| num_more s v c n : numeral s v -> digit c n -> numeral (s ++ String c "")%string (10 * v + n).
Definition integer (t : string) (i : Z) : Prop := numeral t i \/ exists u, t = ("-" ++ u)%string /\ numeral u (- i).

(** the selector [sel] names the subscriber of row [r] *)
Inductive names : string -> sub_row -> Prop :=
| names_imsi v r : s_imsi r = v -> names ("by-imsi-" ++ v)%string r
| names_msisdn v r : s_msisdn r = Some v -> names ("by-msisdn-" ++ v)%string r
| names_id t r : integer t (s_id r) -> names ("by-id-" ++ t)%string r.

(** ids are 64 bit numbers in SQLite *)
Definition ids_fit (d : db) : Prop := forall r, In r (d_sub d) -> s_id r <= 9223372036854775807.

(** From [d] to [d'] no subscriber appears, disappears, moves or changes id or IMSI; only what belongs to subscribers in [P] may
    differ. *)
Definition confined (P : sub_row -> Prop) (d d' : db) : Prop :=
  Forall2 (fun r r' => r = r' \/ (P r /\ s_id r' = s_id r /\ s_imsi r' = s_imsi r)) (d_sub d) (d_sub d') /\
  (forall a, (forall r, In r (d_sub d) -> P r -> s_id r <> a2_id a) -> (In a (d_auc2 d') <-> In a (d_auc2 d))) /\
  (forall a, (forall r, In r (d_sub d) -> P r -> s_id r <> a3_id a) -> (In a (d_auc3 d') <-> In a (d_auc3 d))) /\
  d_ind d' = d_ind d.

(** [d'] is [d] without some of the data of the subscriber with the IMSI [v] *)
Definition removed (v : string) (d d' : db) : Prop :=
  (forall r, In r (d_sub d') -> In r (d_sub d)) /\
  (forall a, In a (d_auc2 d') -> In a (d_auc2 d)) /\ (forall a, In a (d_auc3 d') -> In a (d_auc3 d)) /\
  (forall r, In r (d_sub d) -> s_imsi r <> v -> In r (d_sub d')) /\
  (forall a, In a (d_auc2 d) -> (forall r, In r (d_sub d) -> s_imsi r = v -> s_id r <> a2_id a) -> In a (d_auc2 d')) /\
  (forall a, In a (d_auc3 d) -> (forall r, In r (d_sub d) -> s_imsi r = v -> s_id r <> a3_id a) -> In a (d_auc3 d')) /\
  d_ind d' = d_ind d.
(** [d'] is [d] with a subscriber of IMSI [v] and a new id at the end *)
Definition added (v : string) (d d' : db) : Prop :=
  exists r, s_imsi r = v /\ (forall x, In x (d_sub d) -> s_id x <> s_id r /\ s_imsi x <> v) /\
  d' = mk_db (d_sub d ++ [r]) (d_auc2 d) (d_auc3 d) (d_ind d).

(** a subscriber that can be read: db_sel() uses the stored proxy names as format strings *)
Definition readable (r : sub_row) : Prop :=
  forall p, s_vlr_proxy r = Some p \/ s_sgsn_proxy r = Some p -> forall n, String.get n p <> Some "%"%char.
(** part of a variable: no white space and no dot *)
Definition part (s : string) : Prop :=
  s <> ""%string /\ forall n c, String.get n s = Some c -> ~ In (N_of_ascii c) [9; 10; 11; 12; 13; 32; 46]%N.

(** what GET of a variable of the subscriber says *)
Inductive reports (r : sub_row) : string -> string -> Prop :=
| rep_imsi : reports r "imsi" (s_imsi r)
| rep_msisdn m : s_msisdn r = Some m -> reports r "msisdn" m
| rep_no_msisdn : s_msisdn r = None -> reports r "msisdn" "none"
| rep_cs_on : s_nam_cs r = true -> reports r "cs-enabled" "1"
| rep_cs_off : s_nam_cs r = false -> reports r "cs-enabled" "0"
| rep_ps_on : s_nam_ps r = true -> reports r "ps-enabled" "1"
| rep_ps_off : s_nam_ps r = false -> reports r "ps-enabled" "0".

(** what SET of a variable of the subscriber makes of its row *)
Inductive writes : sub_row -> string -> string -> sub_row -> Prop :=
| wr_cs b v i im ms ie vl sg cs ps pc pp lc lp vp sp : v = (if b : bool then "1" else "0")%string ->
    writes (mk_sub i im ms ie vl sg cs ps pc pp lc lp vp sp) "cs-enabled" v (mk_sub i im ms ie vl sg b ps pc pp lc lp vp sp)
| wr_ps b v i im ms ie vl sg cs ps pc pp lc lp vp sp : v = (if b : bool then "1" else "0")%string ->
    writes (mk_sub i im ms ie vl sg cs ps pc pp lc lp vp sp) "ps-enabled" v (mk_sub i im ms ie vl sg cs b pc pp lc lp vp sp)
| wr_msisdn m i im ms ie vl sg cs ps pc pp lc lp vp sp : is_msisdn m ->
    writes (mk_sub i im ms ie vl sg cs ps pc pp lc lp vp sp) "msisdn" m (mk_sub i im (Some m) ie vl sg cs ps pc pp lc lp vp sp)
| wr_none i im ms ie vl sg cs ps pc pp lc lp vp sp :
    writes (mk_sub i im ms ie vl sg cs ps pc pp lc lp vp sp) "msisdn" "none" (mk_sub i im None ie vl sg cs ps pc pp lc lp vp sp).
(** one row replaced, everything else the same *)
Definition replaced (r r' : sub_row) (d d' : db) : Prop :=
  exists a b, d_sub d = a ++ r :: b /\ d' = mk_db (a ++ r' :: b) (d_auc2 d) (d_auc3 d) (d_ind d).

(** ** Keys *)
(** [t] is [s] in lower case *)
Inductive lowercase : string -> string -> Prop :=
| lc_nil : lowercase "" ""
| lc_same c s t : ~ (65 <= N_of_ascii c <= 90)%N -> lowercase s t -> lowercase (String c s) (String c t)
| lc_upper c s t : (65 <= N_of_ascii c <= 90)%N -> lowercase s t -> lowercase (String c s) (String (ascii_of_N (N_of_ascii c + 32)) t).
(** 2G algorithms: name (lower case), name shown, number *)
Inductive gsm_algorithm : string -> string -> Z -> Prop :=
| ga_1 : gsm_algorithm "comp128v1" "COMP128v1" 1
| ga_2 : gsm_algorithm "comp128v2" "COMP128v2" 2
| ga_3 : gsm_algorithm "comp128v3" "COMP128v3" 3
| ga_x : gsm_algorithm "xor-2g" "XOR-2G" 6.
(** the non-empty comma separated fields of a text *)
Definition field (s : string) : Prop := s <> ""%string /\ forall n, String.get n s <> Some ","%char.
Inductive fields : string -> list string -> Prop :=
| fl_end : fields "" []
| fl_comma s l : fields s l -> fields ("," ++ s)%string l
| fl_last w : field w -> fields w [w]
| fl_more w s l : field w -> fields s l -> fields (w ++ "," ++ s)%string (w :: l).

(** ** Complaints *)
(** what is answered to a selector that names nobody *)
Inductive complaint : string -> string -> Prop :=
| cp_imsi v : is_imsi v -> complaint ("by-imsi-" ++ v)%string "No such subscriber."
| cp_msisdn v : is_msisdn v -> complaint ("by-msisdn-" ++ v)%string "No such subscriber."
| cp_id t i : integer t i -> - 9223372036854775808 <= i <= 9223372036854775807 -> complaint ("by-id-" ++ t)%string "No such subscriber."
| cp_no_imsi v : ~ is_imsi v -> complaint ("by-imsi-" ++ v)%string "Invalid value part of 'by-xxx-value' selector."
| cp_no_msisdn v : ~ is_msisdn v -> complaint ("by-msisdn-" ++ v)%string "Invalid value part of 'by-xxx-value' selector."
| cp_no_id t : t <> ""%string -> (forall i, integer t i -> ~ - 9223372036854775808 <= i <= 9223372036854775807) ->
    complaint ("by-id-" ++ t)%string "Invalid value part of 'by-xxx-value' selector."
| cp_other t : (forall k v, In k ["by-imsi-"; "by-msisdn-"; "by-id-"]%string -> t <> (k ++ v)%string) -> complaint t "Not a known subscriber 'by-xxx-' selector.".
(** the variables of a subscriber *)
Definition variables : list string := ["info"; "info-aud"; "info-all"; "ps-enabled"; "cs-enabled"; "imsi"; "msisdn"; "aud2g"; "aud3g"]%string.
(** a value that a variable does not take, whoever the subscriber is *)
Inductive wrong_value : string -> string -> Prop :=
| wv_cs v : v <> "0"%string -> v <> "1"%string -> wrong_value "cs-enabled" v
| wv_ps v : v <> "0"%string -> v <> "1"%string -> wrong_value "ps-enabled" v
| wv_msisdn v : v <> "none"%string -> ~ is_msisdn v -> wrong_value "msisdn" v
| wv_aud k v : In k ["aud2g"; "aud3g"]%string -> ~ lowercase v "none" -> (forall n, String.get n v <> Some ","%char) -> wrong_value k v.
