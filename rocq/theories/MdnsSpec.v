(** Vocabulary for mDNS packets (C33, C34). *)
From Verif Require Import Base PeerId Db DbSpec MsLookup MsSpec Mdns.
Local Open Scope string_scope.
Local Open Scope N_scope.
Local Open Scope list_scope.

(** ** Names *)
(** labels separated by dots *)
Fixpoint join (ls : list (list N)) : list N :=
  match ls with [] => [] | [x] => x | x :: r => x ++ 46 :: join r end.
(** a label as RFC 1035 has them, but with up to 255 octets: not empty, neither dots nor NUL *)
Definition label (x : list N) : Prop := (1 <= length x <= 255)%nat /\ ~ In 46 x /\ ~ In 0 x.
Definition is_name (l : list N) : Prop := exists ls, ls <> [] /\ Forall label ls /\ l = join ls.
Definition dns_name (s : string) : Prop := is_name (octets_of s).

(** ** Values *)
(** an address of [n] octets and a port *)
Definition good_host (n : nat) (h : option (list N * N)) : Prop :=
  match h with None => True | Some (a, p) => length a = n /\ Forall (fun x => x < 256) a /\ 1 <= p <= 65535 end.
(** IPv4, IPv6 or both, and an age of 32 bit *)
Definition good_result (r : lresult) : Prop :=
  good_host 4 (lr_v4 r) /\ good_host 16 (lr_v6 r) /\ ~ (lr_v4 r = None /\ lr_v6 r = None) /\ lr_age r < 4294967296.

(** ** Frames *)
(** the part after the header is a sequence of records that can be told apart: a name that is not empty and ends with NUL, ten octets of type, class,
    time to live and length, and as many octets of data as this says (at least one for a TXT record). The last one may have less data. *)
Inductive framed : list N -> Prop :=
| fr_nil : framed []
| fr_rec name t1 t2 c1 c2 l1 l2 l3 l4 n1 n2 body rest :
    name <> [] -> ~ In 0 name -> N.of_nat (length body) = 256 * n1 + n2 -> (256 * t1 + t2 = 16 -> body <> []) -> framed rest ->
    framed (name ++ 0 :: t1 :: t2 :: c1 :: c2 :: l1 :: l2 :: l3 :: l4 :: n1 :: n2 :: body ++ rest)
| fr_cut name t1 t2 c1 c2 l1 l2 l3 l4 n1 n2 rest :
    name <> [] -> ~ In 0 name -> N.of_nat (length rest) < 256 * n1 + n2 ->
    framed (name ++ 0 :: t1 :: t2 :: c1 :: c2 :: l1 :: l2 :: l3 :: l4 :: n1 :: n2 :: rest).
