(** Shared basics: error numbers, character classes, C strings, fixed buffers. *)
From Coq Require Export String Ascii ZArith NArith Arith Bool List Lia.
Export ListNotations.
Open Scope string_scope.
Open Scope list_scope.
Open Scope Z_scope.
Open Scope bool_scope.

(** errno values (Linux asm-generic/errno-base.h, errno.h) used as negative
    return codes all over /repo/src. *)
Definition ENOENT : Z := 2.
Definition EIO : Z := 5.
Definition EEXIST : Z := 17.
Definition ENODEV : Z := 19.
Definition EINVAL : Z := 22.
Definition ENOSPC : Z := 28.
Definition ENOTSUP : Z := 95.
Definition ENOTCONN : Z := 107.
Definition ENOKEY : Z := 126.

(** isdigit() / isxdigit() in the C locale, as used by libosmocore's
    is_n_digits() and osmo_is_hexstr() (called at /repo/src/db_hlr.c:56,163,257). *)
Definition acode (c : ascii) : N := N_of_ascii c.
Definition is_digit (c : ascii) : bool := (48 <=? acode c)%N && (acode c <=? 57)%N.
Definition is_xdigit (c : ascii) : bool :=
  is_digit c || ((97 <=? acode c)%N && (acode c <=? 102)%N)
             || ((65 <=? acode c)%N && (acode c <=? 70)%N).

(** every character of a string satisfies a test *)
Fixpoint str_forall (f : ascii -> bool) (s : string) : bool :=
  match s with
  | EmptyString => true
  | String c r => f c && str_forall f r
  end.

(** libosmocore is_n_digits(str, min, max): between min and max characters, all
    of them decimal digits. *)
Definition is_n_digits (s : string) (mn mx : nat) : bool :=
  (mn <=? String.length s)%nat && (String.length s <=? mx)%nat && str_forall is_digit s.

(** libosmocore osmo_imsi_str_valid / osmo_msisdn_str_valid (GSM23003_IMSI_MIN_DIGITS 6,
    MAX_DIGITS 15; MSISDN 1..15), called at /repo/src/db_hlr.c:56 and :163. *)
Definition imsi_valid (s : string) : bool := is_n_digits s 6 15.
Definition msisdn_valid (s : string) : bool := is_n_digits s 1 15.
(** libosmocore osmo_imei_str_valid(imei, false): exactly 14 digits;
    called at /repo/src/db_hlr.c:411. *)
Definition imei_valid14 (s : string) : bool := is_n_digits s 14 14.

(** libosmocore osmo_is_hexstr(str, min, max, require_even=true) on a non-NULL string;
    NULL strings are modelled as the empty string, which gives the same result
    because every caller passes min >= 1 (/repo/src/db_hlr.c:257,289,294). *)
Definition is_hexstr (s : string) (mn mx : nat) : bool :=
  (mn <=? String.length s)%nat && (String.length s <=? mx)%nat
  && Nat.even (String.length s) && str_forall is_xdigit s.

(** first n characters (osmo_strlcpy into a buffer of n+1 bytes) *)
Fixpoint str_take (n : nat) (s : string) : string :=
  match n, s with
  | S m, String c r => String c (str_take m r)
  | _, _ => EmptyString
  end.

Global Arguments str_take : simpl never.

(** a byte string up to its first NUL: the C string stored in a char buffer.
    [None] when the buffer holds no NUL, i.e. reading it as a C string runs past
    the end of the buffer (undefined behaviour). *)
Fixpoint cstr (l : list ascii) : option string :=
  match l with
  | [] => None
  | c :: r => if (c =? "000")%char then Some EmptyString
              else match cstr r with Some s => Some (String c s) | None => None end
  end.

(** string <-> list ascii *)
Fixpoint bytes_of (s : string) : list ascii :=
  match s with EmptyString => [] | String c r => c :: bytes_of r end.
Fixpoint str_of (l : list ascii) : string :=
  match l with [] => EmptyString | c :: r => String c (str_of r) end.

Definition opt_eqb {A} (eqb : A -> A -> bool) (x y : option A) : bool :=
  match x, y with
  | Some a, Some b => eqb a b
  | None, None => true
  | _, _ => false
  end.
Definition is_some {A} (o : option A) : bool := match o with Some _ => true | None => false end.
Definition opt_default {A} (d : A) (o : option A) : A := match o with Some a => a | None => d end.
