(** Vocabulary for the VTY commands on subscribers: which subscriber the words of a command name, and what it asks for. *)
From Verif Require Import Base PeerId Db DbSpec Auth AuthSpec CtrlSpec VtySubscr.

(** ** IMEI check digit, 3GPP TS 23.003 annex B *)
Inductive digits : string -> list Z -> Prop :=
| dg_nil : digits "" []
| dg_cons c n s l : digit c n -> digits s l -> digits (String c s) (n :: l).
(** the digits at even places count double, as the sum of the digits of the product *)
Definition cross (n : Z) : Z := n / 10 + n mod 10.
Fixpoint weigh (l : list Z) : Z := match l with a :: b :: r => a + cross (2 * b) + weigh r | _ => 0 end.
(** [c] is the check digit of the 14 digits [m]: the sum ends in 0 *)
Definition checked (m : string) (c : ascii) : Prop :=
  is_imei14 m /\ exists l n, digits m l /\ digit c n /\ (weigh l + n) mod 10 = 0.

(** ** Who is meant *)
(** "TYPE ID" names the subscriber of row [r] *)
Inductive vty_names : string -> string -> sub_row -> Prop :=
| vn_imsi r : vty_names "imsi" (s_imsi r) r
| vn_msisdn m r : s_msisdn r = Some m -> vty_names "msisdn" m r
| vn_id t r : integer t (s_id r) -> vty_names "id" t r
| vn_imei m r : s_imei r = Some m -> vty_names "imei" m r
| vn_imei_checked m c r : s_imei r = Some m -> checked m c -> vty_names "imei" (m ++ String c "")%string r.
(** if the identifier is a database id, it is a number of 64 bits *)
Definition number_if_id (t i : string) : Prop :=
  t = "id"%string -> exists n, integer i n /\ - 9223372036854775808 <= n <= 9223372036854775807.
(** stored IMEIs have 14 digits *)
Definition imeis_ok (d : db) : Prop := forall r m, In r (d_sub d) -> s_imei r = Some m -> is_imei14 m.
(** the subscriber that a command is about *)
Definition about (c : vcmd) (t i : string) : Prop :=
  match c with
  | VCreate _ => False
  | VShow t' i' | VDelete t' i' | VMsisdn t' i' _ | VNoAud2g t' i' | VAud2g t' i' _ _ | VNoAud3g t' i' | VAud3g t' i' _ _ _ _ _
  | VAud3gXor t' i' _ _ | VImei t' i' _ | VNam t' i' _ => t = t' /\ i = i'
  end.

(** ** What is asked for *)
Inductive access_word : string -> bool -> bool -> Prop :=
| aw_none : access_word "none" false false
| aw_cs : access_word "cs" true false
| aw_ps : access_word "ps" false true
| aw_both : access_word "cs+ps" true true.
(** the command asks to make row [r'] of row [r] *)
Inductive asks : vcmd -> sub_row -> sub_row -> Prop :=
| ask_msisdn t x m i im ms ie vl sg cs ps pc pp lc lp vp sp : is_msisdn m ->
    asks (VMsisdn t x m) (mk_sub i im ms ie vl sg cs ps pc pp lc lp vp sp) (mk_sub i im (Some m) ie vl sg cs ps pc pp lc lp vp sp)
| ask_no_msisdn t x i im ms ie vl sg cs ps pc pp lc lp vp sp :
    asks (VMsisdn t x "none") (mk_sub i im ms ie vl sg cs ps pc pp lc lp vp sp) (mk_sub i im None ie vl sg cs ps pc pp lc lp vp sp)
| ask_imei t x m i im ms ie vl sg cs ps pc pp lc lp vp sp : is_imei14 m ->
    asks (VImei t x m) (mk_sub i im ms ie vl sg cs ps pc pp lc lp vp sp) (mk_sub i im ms (Some m) vl sg cs ps pc pp lc lp vp sp)
| ask_imei_checked t x m c i im ms ie vl sg cs ps pc pp lc lp vp sp : checked m c ->
    asks (VImei t x (m ++ String c "")%string) (mk_sub i im ms ie vl sg cs ps pc pp lc lp vp sp) (mk_sub i im ms (Some m) vl sg cs ps pc pp lc lp vp sp)
| ask_no_imei t x i im ms ie vl sg cs ps pc pp lc lp vp sp :
    asks (VImei t x "none") (mk_sub i im ms ie vl sg cs ps pc pp lc lp vp sp) (mk_sub i im ms None vl sg cs ps pc pp lc lp vp sp)
| ask_access t x w b1 b2 i im ms ie vl sg cs ps pc pp lc lp vp sp : access_word w b1 b2 ->
    asks (VNam t x w) (mk_sub i im ms ie vl sg cs ps pc pp lc lp vp sp) (mk_sub i im ms ie vl sg b1 b2 pc pp lc lp vp sp).
(** the names of the serving nodes contain no per cent sign, nor do those of proxies: they are used as format strings *)
Definition callable (r : sub_row) : Prop :=
  readable r /\ forall p, s_vlr r = Some p \/ s_sgsn r = Some p -> forall n, String.get n p <> Some "%"%char.
(** only the subscriber of row [r] is named *)
Definition sole (d : db) (t i : string) (r : sub_row) : Prop :=
  In r (d_sub d) /\ vty_names t i r /\ forall x, In x (d_sub d) -> vty_names t i x -> x = r.

(** ** Answers *)
Definition says (c : vcmd) (r' : sub_row) (t : string) : Prop :=
  match c with
  | VMsisdn _ _ _ => t = ("Updated subscriber IMSI='" ++ s_imsi r' ++ "'" ++ match s_msisdn r' with Some m => " to MSISDN='" ++ m ++ "'" | None => ": removed MSISDN" end)%string
  | VImei _ _ _ => t = ("Updated subscriber IMSI='" ++ s_imsi r' ++ "'" ++ match s_imei r' with Some m => " to IMEI='" ++ m ++ "'" | None => ": removed IMEI" end)%string
  | _ => t = ""%string
  end.
Definition or_empty (o : option string) : string := match o with Some s => s | None => "" end.
(** the subscriber printed is that of the row *)
Definition shows (r : sub_row) (h : subscriber) : Prop :=
  h_id h = s_id r /\ h_imsi h = s_imsi r /\ h_msisdn h = or_empty (s_msisdn r) /\ h_imei h = or_empty (s_imei r) /\
  h_nam_cs h = s_nam_cs r /\ h_nam_ps h = s_nam_ps r /\ h_purged_cs h = s_purged_cs r /\ h_purged_ps h = s_purged_ps r.
(** the keys printed are those stored for the id *)
Definition shows2 (d : db) (id : Z) (k : option aud2) : Prop :=
  match k with
  | Some g => exists a, key2 d id a /\ a2_algo a = g_algo g /\ g_algo g <> 0 /\ spells (a2_ki a) (g_ki g)
  | None => forall a, key2 d id a -> a2_algo a = 0
  end.
Definition shows3 (d : db) (id : Z) (k : option aud3) : Prop :=
  match k with
  | Some u => exists a o, key3 d id a /\ a3_algo a = u_algo u /\ u_algo u <> 0 /\ spells (a3_k a) (u_k u) /\
      (if u_is_op u then a3_op a = Some o else a3_opc a = Some o) /\ spells o (u_opc u) /\ u_sqn u = a3_sqn a /\ u_bitlen u = a3_ind_bitlen a
  | None => forall a, key3 d id a -> a3_algo a = 0
  end.
(** the number of index bits given to a 3G key: 5 if not given *)
Inductive vty_bits : option string -> Z -> Prop :=
| vb_none : vty_bits None 5
| vb_some t n : numeral t n -> 0 <= n <= 28 -> vty_bits (Some t) n.
(** success is reported *)
Definition done (w : vres) : Prop := match w with VOk _ | VFull _ (Some _) => True | _ => False end.
