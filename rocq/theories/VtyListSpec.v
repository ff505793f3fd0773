(** Vocabulary for the lists of subscribers. *)
From Verif Require Import Base PeerId Db DbSpec CtrlSpec VtySubscr VtySpec VtyList.

(** [f] is a part of [v] *)
Definition holds_text (f v : string) : Prop := exists a b, v = (a ++ f ++ b)%string.
(** the subscribers that a command asks for *)
Inductive wanted : lcmd -> sub_row -> Prop :=
| w_all r : wanted LAll r
| w_imsi f r : holds_text f (s_imsi r) -> wanted (LFilter "imsi" f) r
| w_msisdn f r m : s_msisdn r = Some m -> holds_text f m -> wanted (LFilter "msisdn" f) r
| w_imei f r m : s_imei r = Some m -> holds_text f m -> wanted (LFilter "imei" f) r
| w_cs_on r : s_nam_cs r = true -> wanted (LFilter "cs" "on") r
| w_cs_off r : s_nam_cs r = false -> wanted (LFilter "cs" "off") r
| w_ps_on r : s_nam_ps r = true -> wanted (LFilter "ps" "on") r
| w_ps_off r : s_nam_ps r = false -> wanted (LFilter "ps" "off") r
| w_seen r t : s_lu_cs r = Some t -> wanted LLastSeen r.
(** the commands that there are *)
Inductive typed : lcmd -> Prop :=
| ty_all : typed LAll
| ty_seen : typed LLastSeen
| ty_text t f : In t ["imei"; "imsi"; "msisdn"]%string -> typed (LFilter t f)
| ty_access t f : In t ["cs"; "ps"]%string -> In f ["on"; "off"]%string -> typed (LFilter t f).
(** a text to search for is short, has no wildcards of SQL, and is not one of the words for access *)
Definition plain (c : lcmd) : Prop :=
  match c with
  | LFilter t f => In t ["imei"; "imsi"; "msisdn"]%string ->
      (String.length f <= 253)%nat /\ f <> "on"%string /\ f <> "off"%string /\ forall n x, String.get n f = Some x -> x <> "%"%char /\ x <> "_"%char
  | _ => True
  end.

(** the order of the lines *)
Inductive text_le : string -> string -> Prop :=
| tl_nil s : text_le "" s
| tl_less c e s t : (N_of_ascii c < N_of_ascii e)%N -> text_le (String c s) (String e t)
| tl_same c s t : text_le s t -> text_le (String c s) (String c t).
Definition opt_le {A} (le : A -> A -> Prop) (a b : option A) : Prop :=
  match a, b with None, _ => True | Some _, None => False | Some a, Some b => le a b end.
Definition ordered (c : lcmd) (a b : sub_row) : Prop :=
  match c with
  | LAll => True
  | LFilter "imsi" _ => text_le (s_imsi a) (s_imsi b)
  | LFilter "msisdn" _ => opt_le text_le (s_msisdn a) (s_msisdn b)
  | LFilter "imei" _ => opt_le text_le (s_imei a) (s_imei b)
  | _ => opt_le Z.le (s_lu_cs a) (s_lu_cs b)
  end.

(** the text of a duration: days, hours, minutes and seconds, without those that are 0 *)
Inductive unit_word : Z -> string -> string -> Prop :=
| uw_none u : unit_word 0 u ""
| uw_some n u t : 0 < n -> numeral t n -> unit_word n u (t ++ u)%string.
Definition duration (t : string) (n : Z) : Prop :=
  exists d h m s td th tm ts, n = 86400 * d + 3600 * h + 60 * m + s /\ 0 <= d /\ 0 <= h < 24 /\ 0 <= m < 60 /\ 0 <= s < 60 /\
    unit_word d "d" td /\ unit_word h "h" th /\ unit_word m "m" tm /\ unit_word s "s" ts /\ t = (td ++ th ++ tm ++ ts)%string.
Definition age_shown (now t : Z) (text : string) : Prop :=
  (0 <= now - t <= 4294967295 -> exists x, text = (" (" ++ x ++ " ago)")%string /\ duration x (now - t)) /\
  (now < t \/ 4294967295 < now - t -> text = " (invalid timestamp)"%string).
(** the line about a subscriber *)
Definition line_shows (now : Z) (c : lcmd) (r : sub_row) (l : line) : Prop :=
  n_id l = s_id r /\ n_imsi l = s_imsi r /\ n_msisdn l = match s_msisdn r with Some m => m | None => "none"%string end /\
  match s_imei r with Some m => exists x, checked m x /\ n_imei l = (m ++ String x "")%string | None => n_imei l = "------------- "%string end /\
  n_cs l = s_nam_cs r /\ n_ps l = s_nam_ps r /\
  match c, s_lu_cs r with LLastSeen, Some t => age_shown now t (n_age l) | _, _ => n_age l = ""%string end.
(** the times can be subtracted, and are not the one that stands for none *)
Definition times_ok (tz now : Z) (d : db) : Prop :=
  forall r t, In r (d_sub d) -> s_lu_cs r = Some t -> t <> tz /\ - 2 ^ 63 <= now - t < 2 ^ 63.
