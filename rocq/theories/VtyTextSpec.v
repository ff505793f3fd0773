(** Vocabulary for the texts about a subscriber. *)
From Verif Require Import Base PeerId Db DbSpec Auth CtrlSpec VtySubscr VtySpec VtyList VtyListSpec.

(** ** The calendar *)
Definition leap (y : Z) : Prop := (y mod 4 = 0 /\ y mod 100 <> 0) \/ y mod 400 = 0.
Inductive month_len (y : Z) : Z -> Z -> Prop :=
| ml_31 m : In m [1; 3; 5; 7; 8; 10; 12] -> month_len y m 31
| ml_30 m : In m [4; 6; 9; 11] -> month_len y m 30
| ml_29 : leap y -> month_len y 2 29
| ml_28 : ~ leap y -> month_len y 2 28.
(** the day after a day *)
Inductive next_day : Z * Z * Z -> Z * Z * Z -> Prop :=
| nd_day y m d l : month_len y m l -> d < l -> next_day (y, m, d) (y, m, d + 1)
| nd_month y m l : month_len y m l -> m < 12 -> next_day (y, m, l) (y, m + 1, 1)
| nd_year y l : month_len y 12 l -> next_day (y, 12, l) (y + 1, 1, 1).
(** the date so many days after 1970-01-01 *)
Inductive day_at : Z -> Z * Z * Z -> Prop :=
| da_first : day_at 0 (1970, 1, 1)
| da_next n a b : day_at n a -> next_day a b -> day_at (n + 1) b.
(** a number in two digits *)
Definition two_digits (t : string) (n : Z) : Prop := numeral t n /\ String.length t = 2%nat.
(** [text] is the date of a time in seconds since 1970, in UTC *)
Definition date_of (t : Z) (text : string) : Prop :=
  exists y m d hh mm ss ty tm td th tn ts,
    day_at (t / 86400) (y, m, d) /\ 0 <= hh < 24 /\ 0 <= mm < 60 /\ 0 <= ss < 60 /\ t = 86400 * (t / 86400) + 3600 * hh + 60 * mm + ss /\
    numeral ty y /\ two_digits tm m /\ two_digits td d /\ two_digits th hh /\ two_digits tn mm /\ two_digits ts ss /\
    text = (ty ++ "-" ++ tm ++ "-" ++ td ++ "T" ++ th ++ ":" ++ tn ++ ":" ++ ts ++ "+00:00")%string.

(** ** What is told about a subscriber *)
Inductive fact :=
| FId (i : Z)
| FImsi (s : string)
| FMsisdn (m : option string)
| FImei (s : string)
| FVlr (s : string)
| FSgsn (s : string)
| FDisabled (ps : bool)
| FPurged (ps : bool)
| FSeen (ps : bool) (t : Z)
| FUnread
| F2g (a : aud2)
| F3g (algo : Z) (k opc : list N) (is_op : bool) (bitlen : Z) (sqn : N).

Definition domain (ps : bool) : string := if ps then "PS" else "CS".
(** the names of the algorithms *)
Inductive alg_named : Z -> string -> Prop :=
| an_c1 : alg_named 1 "COMP128v1" | an_c2 : alg_named 2 "COMP128v2" | an_c3 : alg_named 3 "COMP128v3" | an_x3 : alg_named 4 "XOR-3G"
| an_mil : alg_named 5 "MILENAGE" | an_x2 : alg_named 6 "XOR-2G" | an_tuak : alg_named 7 "TUAK".
(** octets in hexadecimal digits *)
Definition hex_char (n : N) (c : ascii) : Prop :=
  ((n < 10)%N /\ c = ascii_of_N (n + 48)) \/ ((10 <= n < 16)%N /\ c = ascii_of_N (n - 10 + 97)).
Inductive hex_of : list N -> string -> Prop :=
| ho_nil : hex_of [] ""
| ho_cons a b x y l t : hex_char a x -> hex_char b y -> hex_of l t -> hex_of ((16 * a + b)%N :: l) (String x (String y t)).

(** the lines that tell a fact, on the VTY; [now] is the time, [tz] the offset of the time zone: the date is early by it *)
Inductive prints (tz now : Z) : fact -> list string -> Prop :=
| p_id i t : numeral t i -> prints tz now (FId i) ["    ID: " ++ t]%string
| p_imsi s : prints tz now (FImsi s) ["    IMSI: " ++ s]%string
| p_msisdn s : prints tz now (FMsisdn (Some s)) ["    MSISDN: " ++ s]%string
| p_no_msisdn : prints tz now (FMsisdn None) ["    MSISDN: none"]%string
| p_imei s x : checked s x -> prints tz now (FImei s) ["    IMEI: " ++ s ++ String x ""]%string
| p_vlr s : prints tz now (FVlr s) ["    VLR number: " ++ s]%string
| p_sgsn s : prints tz now (FSgsn s) ["    SGSN number: " ++ s]%string
| p_off ps : prints tz now (FDisabled ps) ["    " ++ domain ps ++ " disabled"]%string
| p_purged ps : prints tz now (FPurged ps) ["    " ++ domain ps ++ " purged"]%string
| p_seen ps t x a : date_of (t - tz) x -> age_shown now t a -> prints tz now (FSeen ps t) ["    last LU seen on " ++ domain ps ++ ": " ++ x ++ a]%string
| p_unread : prints tz now FUnread ["% Error retrieving data from database (-5)"]%string
| p_2g algo ki n x : alg_named algo n -> hex_of ki x -> prints tz now (F2g (mk_aud2 algo ki)) ["    2G auth: " ++ n; "             KI=" ++ x]%string
| p_3g algo k opc is_op bl sqn n x y b q : alg_named algo n -> hex_of k x -> hex_of opc y -> numeral b bl ->
    (sqn = 0%N /\ q = ""%string \/ sqn <> 0%N /\ exists v, numeral v (Z.of_N sqn) /\ q = (" last-SQN=" ++ v)%string) ->
    prints tz now (F3g algo k opc is_op bl sqn)
      ["    3G auth: " ++ n; "             K=" ++ x; "             " ++ (if is_op then "OP=" else "OPC=") ++ y;
       "             IND-bitlen=" ++ b ++ q]%string.

(** the facts about the subscriber of a row, with what was read of its keys *)
Inductive stored (r : sub_row) (keys : option (option aud2 * option aud3)) : fact -> Prop :=
| st_id : stored r keys (FId (s_id r))
| st_imsi : stored r keys (FImsi (s_imsi r))
| st_msisdn : stored r keys (FMsisdn (s_msisdn r))
| st_imei s : s_imei r = Some s -> stored r keys (FImei s)
| st_vlr s : s_vlr r = Some s -> stored r keys (FVlr s)
| st_sgsn s : s_sgsn r = Some s -> stored r keys (FSgsn s)
| st_off_cs : s_nam_cs r = false -> stored r keys (FDisabled false)
| st_off_ps : s_nam_ps r = false -> stored r keys (FDisabled true)
| st_purged_cs : s_purged_cs r = true -> stored r keys (FPurged false)
| st_purged_ps : s_purged_ps r = true -> stored r keys (FPurged true)
| st_seen_cs t : s_lu_cs r = Some t -> stored r keys (FSeen false t)
| st_seen_ps t : s_lu_ps r = Some t -> stored r keys (FSeen true t)
| st_unread : keys = None -> stored r keys FUnread
| st_2g a b : keys = Some (Some a, b) -> stored r keys (F2g a)
| st_3g a u : keys = Some (a, Some u) -> stored r keys (F3g (u_algo u) (u_k u) (u_opc u) (u_is_op u) (u_bitlen u) (u_sqn u)).

(** a row as the program writes it: numbers of digits, an IMEI of 14 digits, names that are not empty and fit, times after 1970 that
    can be subtracted *)
Definition only_digits (s : string) : Prop := forall n c, String.get n s = Some c -> exists v, digit c v.
Definition no_lf (s : string) : Prop := forall n c, String.get n s = Some c -> c <> ascii_of_N 10.
Definition number_ok (s : string) : Prop := s <> ""%string /\ (String.length s <= 15)%nat /\ only_digits s.
Definition name_ok (s : string) : Prop := s <> ""%string /\ (String.length s <= 31)%nat /\ no_lf s.
Definition on_opt {A} (P : A -> Prop) (o : option A) : Prop := forall x, o = Some x -> P x.
Definition time_ok (tz now t : Z) : Prop := 0 < t - tz < 67767976233532800 /\ - 2 ^ 63 <= now - t < 2 ^ 63.
Definition row_ok (tz now : Z) (r : sub_row) : Prop :=
  0 < s_id r < 18446744073709551616 /\ number_ok (s_imsi r) /\ on_opt number_ok (s_msisdn r) /\
  on_opt is_imei14 (s_imei r) /\ on_opt name_ok (s_vlr r) /\ on_opt name_ok (s_sgsn r) /\
  on_opt (time_ok tz now) (s_lu_cs r) /\ on_opt (time_ok tz now) (s_lu_ps r).
(** keys as the program reads them: of a known algorithm, in octets *)
Definition octets (l : list N) : Prop := Forall (fun b => (b < 256)%N) l.
Definition aud2_ok (a : aud2) : Prop := (exists n, alg_named (g_algo a) n) /\ octets (g_ki a).
Definition aud3_ok (u : aud3) : Prop :=
  (exists n, alg_named (u_algo u) n) /\ octets (u_k u) /\ octets (u_opc u) /\ 0 <= u_bitlen u < 4294967296 /\ (u_sqn u < 18446744073709551616)%N.
Definition keys_ok (k : option (option aud2 * option aud3)) : Prop :=
  on_opt (fun p => on_opt aud2_ok (fst p) /\ on_opt aud3_ok (snd p)) k.

(** ** The control interface: facts as lines of a name, a tab and a value *)
Definition tab : string := String (ascii_of_N 9) "".
Definition bit (b : bool) : string := if b then "1"%string else "0"%string.
Inductive told (r : sub_row) : string -> string -> Prop :=
| to_id t : numeral t (s_id r) -> told r "id" t
| to_imsi : told r "imsi" (s_imsi r)
| to_msisdn s : s_msisdn r = Some s -> told r "msisdn" s
| to_cs : told r "nam_cs" (bit (s_nam_cs r))
| to_ps : told r "nam_ps" (bit (s_nam_ps r))
| to_vlr s : s_vlr r = Some s -> told r "vlr_number" s
| to_sgsn s : s_sgsn r = Some s -> told r "sgsn_number" s
| to_pcs : told r "ms_purged_cs" (bit (s_purged_cs r))
| to_pps : told r "ms_purged_ps" (bit (s_purged_ps r))
| to_lu : told r "periodic_lu_timer" "0"
| to_rau : told r "periodic_rau_tau_timer" "0"
| to_lmsi : told r "lmsi" "00000000".
Inductive told_2g (a : aud2) : string -> string -> Prop :=
| t2_algo n : alg_named (g_algo a) n -> told_2g a "aud2g.algo" n
| t2_ki x : hex_of (g_ki a) x -> told_2g a "aud2g.ki" x.
Inductive told_3g (u : aud3) : string -> string -> Prop :=
| t3_algo n : alg_named (u_algo u) n -> told_3g u "aud3g.algo" n
| t3_k x : hex_of (u_k u) x -> told_3g u "aud3g.k" x
| t3_op x : u_is_op u = true -> hex_of (u_opc u) x -> told_3g u "aud3g.op" x
| t3_opc x : u_is_op u = false -> hex_of (u_opc u) x -> told_3g u "aud3g.opc" x
| t3_bl t : numeral t (u_bitlen u) -> told_3g u "aud3g.ind_bitlen" t
| t3_sqn t : numeral t (Z.of_N (u_sqn u)) -> told_3g u "aud3g.sqn" t.
(** a text that is made of lines behind newlines, and the parts of those *)
Definition text_lines (text : string) (l : list string) : Prop :=
  text = String.concat "" (map (fun x => String (ascii_of_N 10) x) l) /\ Forall no_lf l.

(** what an info text tells *)
Definition tells (r : option sub_row) (a2 : option aud2) (a3 : option aud3) (n v : string) : Prop :=
  (exists x, r = Some x /\ told x n v) \/ (exists a, a2 = Some a /\ told_2g a n v) \/ (exists u, a3 = Some u /\ told_3g u n v).
(** the line of a name and a value *)
Definition entry (p : string * string) : string := (fst p ++ tab ++ snd p)%string.
(** ** Lists *)
(** the access that is not disabled *)
Definition access (cs ps : bool) : list string := match cs, ps with true, true => ["CSPS"] | true, false => ["CS"] | false, true => ["PS"] | false, false => [] end%string.
(** the cell of the IMEI *)
Definition imei_word (o : option string) (w : string) : Prop :=
  match o with Some s => exists x, checked s x /\ w = (s ++ String x "")%string | None => w = "-------------"%string end.
(** the MSISDN *)
Definition or_word (o : option string) : string := match o with Some s => s | None => "none"%string end.
(** the age, in the list of those last seen *)
Definition age_part (now : Z) (ls : bool) (r : sub_row) (a : string) : Prop :=
  match ls, s_lu_cs r with true, Some t => age_shown now t a | _, _ => a = ""%string end.
(** at position [n] of a line stands [t] and then a space or the end *)
Definition column (line : string) (n : nat) (t : string) : Prop :=
  exists a b, line = (a ++ t ++ b)%string /\ String.length a = n /\ (b = ""%string \/ exists b', b = String " " b').
(** the words of a line: what stands between spaces *)
Inductive words : string -> list string -> Prop :=
| wd_nil : words "" []
| wd_space s l : words s l -> words (String " " s) l
| wd_last w : w <> ""%string -> (forall n c, String.get n w = Some c -> c <> " "%char) -> words w [w]
| wd_word w s l : w <> ""%string -> (forall n c, String.get n w = Some c -> c <> " "%char) -> words s l -> words (w ++ String " " s)%string (w :: l).
