(** Vocabulary of C45: the encoding of libdbi, taken from the documentation of its encoder (the file header of
    dbd_decode_binary.c names it), which is not part of /repo: an offset, then every octet less the offset, where 0 and 1 and the
    apostrophe are written as an escape octet 1 and the value plus one, then a terminating zero. *)
From Verif Require Import Base.
Local Open Scope N_scope.

Definition octet (x : N) : Prop := x < 256.

(** [codes e plain coded]: [coded] is a way to write [plain] with offset [e]. Octets other than 0 and 1 may or may not be
    escaped. *)
Inductive codes (e : N) : list N -> list N -> Prop :=
| codes_nil : codes e [] []
| codes_direct x y l m : octet x -> octet y -> (y + e) mod 256 = x -> y <> 0 -> y <> 1 -> codes e l m -> codes e (x :: l) (y :: m)
| codes_escape x y l m : octet x -> octet y -> (y + e) mod 256 = (x + 1) mod 256 -> codes e l m -> codes e (x :: l) (1 :: y :: m).

(** libdbi's encoder with a given offset *)
Definition encode1 (e x : N) : list N :=
  let c := (x + 256 - e) mod 256 in
  if (c =? 0) || (c =? 1) || (c =? 39) then [1; c + 1] else [c].
Definition encode (e : N) (l : list N) : list N := e :: flat_map (encode1 e) l.

(** a text (no zero octet outside of an escape) that does not end within an escape *)
Inductive unbroken : list N -> Prop :=
| unbroken_nil : unbroken []
| unbroken_direct y m : y <> 1 -> y <> 0 -> unbroken m -> unbroken (y :: m)
| unbroken_escape y m : unbroken m -> unbroken (1 :: y :: m).
