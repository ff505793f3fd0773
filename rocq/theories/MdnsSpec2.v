(** Vocabulary for answers that make the decoder of mDNS packets leave its buffers (C34). *)
From Verif Require Import Base PeerId Db DbSpec MsLookup MsSpec Mdns MdnsSpec.
Local Open Scope N_scope.
Local Open Scope list_scope.

(** a name in a packet: labels, each with its length before it; the text has dots between them *)
Inductive spelled : list N -> list N -> Prop :=
| sp_one x lab : N.of_nat (length lab) = x -> lab <> [] -> spelled (x :: lab) lab
| sp_more x lab r t : N.of_nat (length lab) = x -> lab <> [] -> spelled r t -> spelled (x :: lab ++ r) (lab ++ 46 :: t).
(** a record of one of the first 256 types at the start of the octets, its name, its contents, and what follows *)
Inductive one_record : list N -> list N -> mrec -> list N -> Prop :=
| on_rec name d t c1 c2 l1 l2 l3 l4 n1 n2 body rest : spelled name d -> ~ In 0 name -> N.of_nat (length body) = 256 * n1 + n2 ->
    one_record (name ++ 0 :: 0 :: t :: c1 :: c2 :: l1 :: l2 :: l3 :: l4 :: n1 :: n2 :: body ++ rest) d (mk_mrec t body) rest.
(** records of one name *)
Inductive many_records (d : list N) : list N -> list mrec -> list N -> Prop :=
| mr_none l : many_records d l [] l
| mr_more l x m xs rest : one_record l d x m -> many_records d m xs rest -> many_records d l (x :: xs) rest.
(** Octets where a record should start but whose reading goes wrong: a name that is empty; fewer than ten octets without an end of the name, or that end right
    after it, or within the ten octets that follow a name; a name that ends right before the last ten octets, whatever it ends with *)
Inductive fatal : list N -> Prop :=
| fa_empty m : fatal (0 :: 0 :: m)
| fa_off l : l <> [] -> (length l < 10)%nat -> ~ In 0 l -> fatal l
| fa_end name : (length name < 9)%nat -> ~ In 0 name -> fatal (name ++ [0])
| fa_tail name d m : spelled name d -> ~ In 0 name -> (length name + length m < 8)%nat -> fatal (name ++ 0 :: 0 :: m)
| fa_open name x y : (name = [] \/ exists d, spelled name d) -> ~ In 0 name -> length y = 8%nat -> fatal (name ++ x :: 0 :: y).
(** an answer that says it has so many records, and the octets after its header *)
Definition answer_of (packet : list N) (count : N) (l : list N) : Prop :=
  exists i1 i2 f g q1 q2 a1 a2 z1 z2 z3 z4, packet = i1 :: i2 :: f :: g :: q1 :: q2 :: a1 :: a2 :: z1 :: z2 :: z3 :: z4 :: l /\ 128 <= f /\ count = 256 * a1 + a2.

(** ** Sizes of packets (C33) *)
(** the name asked for: service, identity and the word for its type, suffix, and three dots *)
Definition name_size (q : query) (suffix : string) : nat := (String.length (lq_service q) + String.length (lq_id q) + match lq_type q with IdImsi => 4 | _ => 6 end + String.length suffix + 3)%nat.
(** header; name, type and class *)
Definition query_size (q : query) (suffix : string) : nat := (12 + (name_size q suffix + 2 + 4))%nat.
(** two records: the address; and the port with the word port= and its length *)
Definition host_part (n name : nat) (h : option (list N * N)) : nat := match h with Some (_, p) => ((name + 12 + n) + (name + 12 + 6 + String.length (dec p)))%nat | None => 0%nat end.
Definition result_size (q : query) (r : lresult) (suffix : string) : nat :=
  (12 + (name_size q suffix + 12 + 5 + String.length (dec (lr_age r))) + host_part 4 (name_size q suffix) (lr_v4 r) + host_part 16 (name_size q suffix) (lr_v6 r))%nat.
(** a label that may be empty; a text of such labels *)
Definition loose (x : list N) : Prop := (length x <= 255)%nat /\ ~ In 46 x /\ ~ In 0 x.
Definition loose_name (s : string) : Prop := exists ls, ls <> [] /\ Forall loose ls /\ octets_of s = join ls.
