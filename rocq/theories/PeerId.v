(** Peer names: /repo/src/gsupclient/cni_peer_id.c and
    /repo/include/osmocom/gsupclient/cni_peer_id.h *)
From Verif Require Import Base.

(** struct osmo_ipa_name, cni_peer_id.h:30-33: a length and a 128 byte buffer. *)
Record ipa_name := mk_ipa { in_len : nat; in_val : list ascii }.

Definition IPA_MAX : nat := 128.

Definition nul : ascii := "000"%char.
Definition zero_buf : list ascii := repeat nul IPA_MAX.
(** all-zero struct, cni_peer_id.c:34 *)
Definition ipa_empty : ipa_name := mk_ipa 0 zero_buf.

(** the bytes the name consists of *)
Definition ipa_bytes (n : ipa_name) : list ascii := firstn (in_len n) (in_val n).

(** osmo_ipa_name_is_empty, cni_peer_id.c:26-29 *)
Definition ipa_is_empty (n : ipa_name) : bool := (in_len n =? 0)%nat.

(** memcpy of [src] over the start of [buf] (bytes after it keep their old value) *)
Definition overwrite (buf src : list ascii) : list ascii := src ++ skipn (length src) buf.

(** osmo_ipa_name_set, cni_peer_id.c:31-42; [val = None] is a NULL pointer. Only the
    first [len] bytes of the buffer are written. *)
Definition ipa_set (old : ipa_name) (val : option (list ascii)) : Z * ipa_name :=
  match val with
  | None => (0, ipa_empty)
  | Some [] => (0, ipa_empty)
  | Some l => if (IPA_MAX <? length l)%nat then (- ENOSPC, old)
              else (0, mk_ipa (length l) (overwrite (in_val old) l))
  end.

(** Format string with no conversion specification. *)
Definition no_percent (s : string) : bool := str_forall (fun c => negb (c =? "%")%char) s.

(** osmo_ipa_name_set_str(name, str) with [str] used as a printf format and no further
    arguments, cni_peer_id.c:44-61. [None] = undefined behaviour (a conversion
    specification without argument). Simplification: "%%" is also treated as
    undefined. vsnprintf truncates to 127 characters; bytes after the NUL keep
    their old value. *)
Definition ipa_set_str (old : ipa_name) (s : option string) : option ipa_name :=
  match s with
  | None => Some ipa_empty
  | Some f => if no_percent f
              then let t := bytes_of (str_take 127 f) in
                   Some (mk_ipa (length t + 1) (overwrite (in_val old) (t ++ [nul])))
              else None
  end.

(** memcmp of the first n bytes: sign as -1, 0, 1 (C only guarantees the sign). *)
Fixpoint memcmp (n : nat) (a b : list ascii) : Z :=
  match n, a, b with
  | S m, x :: xs, y :: ys =>
      if (acode x <? acode y)%N then -1
      else if (acode y <? acode x)%N then 1
      else memcmp m xs ys
  | _, _, _ => 0
  end.

(** osmo_ipa_name_cmp, cni_peer_id.c:63-93, for non-NULL arguments. *)
Definition ipa_cmp (a b : ipa_name) : Z :=
  if (in_len a =? 0)%nat && (in_len b =? 0)%nat then 0
  else if (in_len a =? 0)%nat then -1
  else if (in_len b =? 0)%nat then 1
  else if (in_len a =? in_len b)%nat then memcmp (in_len a) (in_val a) (in_val b)
  else if (in_len a <? in_len b)%nat then
    let c := memcmp (in_len a) (in_val a) (in_val b) in
    if c =? 0 then -1 else c
  else
    let c := memcmp (in_len b) (in_val a) (in_val b) in
    if c =? 0 then 1 else c.

(** struct osmo_cni_peer_id and its two types, cni_peer_id.h:42-57. *)
Inductive peer_type := PT_EMPTY | PT_IPA.
Record peer_id := mk_peer { p_type : peer_type; p_ipa : ipa_name }.
Definition peer_zero : peer_id := mk_peer PT_EMPTY ipa_empty.

(** osmo_cni_peer_id_is_empty, cni_peer_id.c:112-124 *)
Definition peer_is_empty (p : peer_id) : bool :=
  match p_type p with PT_EMPTY => true | PT_IPA => ipa_is_empty (p_ipa p) end.

(** osmo_cni_peer_id_set(.., IPA_NAME, val, len), cni_peer_id.c:125-135. The type is set
    even when the name does not fit. *)
Definition peer_set (old : peer_id) (val : option (list ascii)) : Z * peer_id :=
  let '(rc, n) := ipa_set (p_ipa old) val in (rc, mk_peer PT_IPA n).

(** osmo_cni_peer_id_set_str(.., IPA_NAME, "%s", str), cni_peer_id.c:137-155: zeroed
    first, then filled with at most 127 characters. *)
Definition peer_set_str (s : string) : peer_id :=
  let t := bytes_of (str_take 127 s) in
  mk_peer PT_IPA (mk_ipa (length t + 1) (overwrite zero_buf (t ++ [nul]))).

(** osmo_cni_peer_id_cmp, cni_peer_id.c:157-173, for two different non-NULL objects. *)
Definition peer_cmp (a b : peer_id) : Z :=
  match p_type a, p_type b with
  | PT_IPA, PT_IPA => ipa_cmp (p_ipa a) (p_ipa b)
  | PT_EMPTY, PT_EMPTY => - EINVAL
  | PT_EMPTY, PT_IPA => -1
  | PT_IPA, PT_EMPTY => 1
  end.

(** Well-formed buffer: 128 bytes, length within. All constructors above keep it. *)
Definition ipa_wf (n : ipa_name) : Prop := length (in_val n) = IPA_MAX /\ (in_len n <= IPA_MAX)%nat.

(** A C string read from the name buffer, e.g. (char * )vlr_name->val at
    /repo/src/db_hlr.c:845. [None]: no NUL in the 128 bytes, over-read. *)
Definition ipa_cstr (n : ipa_name) : option string := cstr (in_val n).
