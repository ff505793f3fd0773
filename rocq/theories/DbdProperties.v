(** C45 (decoding of legacy keys): theorems and cases. *)
From Verif Require Import Base Mdns Dbd DbdSpec DbdThms.
Local Open Scope N_scope.

(** Every way to write [l] with any offset, stored with a terminating zero and followed by anything, is decoded to [l], provided
    the output buffer has room for [l]. *)
Theorem C45_inverts : forall e l m rest room,
  codes e l m -> (length l <= room)%nat -> dbd_decode ((e :: m) ++ 0 :: rest) room = Val l.
Proof. intros e l m rest room C L. exact (loop_codes e l m rest room C L). Qed.
Print Assumptions C45_inverts.

(** In particular what libdbi's encoder made of any octets, whatever offset it chose. A value of at most 4096 octets (the
    limit at hlr_db_tool.c:320) always fits into the buffer of 4096 octets. *)
Theorem C45_encoder : forall e l rest,
  octet e -> Forall octet l -> (length (encode e l) <= 4096)%nat -> dbd_decode (encode e l ++ 0 :: rest) 4096 = Val l.
Proof.
  intros e l rest He F L. unfold encode in *. apply C45_inverts; [now apply encode_codes|].
  pose proof (encode_len e l He F). cbn [length] in L. lia.
Qed.
Print Assumptions C45_encoder.

(** A value that does not break off within an escape, whatever it says, is decoded without reading beyond its terminating zero
    (the result does not depend on what follows, there need not be anything) and gives fewer octets than the value has. *)
Theorem C45_bound_partial : forall e m, unbroken m -> exists l,
  (length l < length (e :: m))%nat /\ Forall octet l /\
  forall rest room, (length l <= room)%nat -> dbd_decode ((e :: m) ++ 0 :: rest) room = Val l.
Proof.
  intros e m U. destruct (unbroken_loop e m U) as (l & L & F & R). exists l. split; [cbn [length]; lia|]. split; [exact F|].
  intros rest room Q. exact (R rest room Q).
Qed.
Print Assumptions C45_bound_partial.

(** Whatever is decoded: at least two octets more were read than written, and no more is written than there is room. *)
Theorem C45_read_more : forall mem room l, dbd_decode mem room = Val l ->
  (length l <= room)%nat /\ (length l + 2 <= length mem)%nat.
Proof.
  intros [|e m] room l H; [discriminate|]. cbn [dbd_decode] in H. destruct (loop_consumed e m room l H) as (B & r & rest & E & L & _).
  split; [exact B|]. subst m. cbn [length]. rewrite app_length. cbn [length]. lia.
Qed.
Print Assumptions C45_read_more.

(** The bound is wrong for a value that ends with the escape octet: its terminating zero is taken as the escaped octet, and
    decoding goes on with the memory behind the value: more is written than the value is long, or memory behind the value is read
    that need not be there. *)
Theorem C45_bound_refuted :
  (exists v rest l, ~ In 0 v /\ dbd_decode (v ++ 0 :: rest) 4096 = Val l /\ (length v < length l)%nat) /\
  (exists v, v <> [] /\ ~ In 0 v /\ dbd_decode (v ++ [0]) 4096 = Bad).
Proof.
  split.
  - exists [7; 1], [40; 41; 42; 0], [6; 47; 48; 49]. split; [intros [H|[H|[]]]; discriminate|].
    split; [vm_compute; reflexivity|cbn; lia].
  - exists [7; 1]. split; [discriminate|]. split; [intros [H|[H|[]]]; discriminate|]. vm_compute. reflexivity.
Qed.
Print Assumptions C45_bound_refuted.

(** ** Cases *)
(** a key that needs all three escapes *)
Definition ex_key : list N := [3; 4; 42; 0; 255; 2; 200; 3; 17; 18; 19; 20; 21; 22; 23; 24].
Example C45_case : encode 3 ex_key = [3; 1; 1; 1; 2; 1; 40; 253; 252; 255; 197; 1; 1; 14; 15; 16; 17; 18; 19; 20; 21]
  /\ dbd_decode (encode 3 ex_key ++ [0; 99]) 4096 = Val ex_key
  /\ dbd_decode (encode 250 ex_key ++ [0]) 4096 = Val ex_key
  /\ dbd_decode [5; 0] 4096 = Val []
  /\ dbd_decode [] 4096 = Bad.
Proof. vm_compute. auto. Qed.
Example C45_case_unbroken : unbroken [1; 0; 77; 1; 1] /\ dbd_decode (9 :: [1; 0; 77; 1; 1] ++ [0]) 4096 = Val [8; 86; 9].
Proof. split; [repeat constructor; discriminate|vm_compute; reflexivity]. Qed.

(** ** The values that are read past their end *)
(** a value without zeros is read past its end exactly if it ends with an octet 1 that is not itself escaped, *)
Lemma loop_prefix e p : unbroken p -> exists l, (length l <= length p)%nat /\ forall tail room, dbd_loop e (p ++ tail) (length l + room) = mdo r <- dbd_loop e tail room;; Val ((l ++ r)%list).
Proof.
  induction 1 as [|y m N1 N0 U (l & L & IH)|y m U (l & L & IH)].
  - exists []. split; [auto|]. intros tail room. cbn [app length Nat.add]. destruct (dbd_loop e tail room); reflexivity.
  - exists ((y + e) mod 256 :: l). split; [cbn; lia|]. intros tail room. cbn [app length Nat.add dbd_loop]. rewrite (proj2 (N.eqb_neq y 0) N0), (proj2 (N.eqb_neq y 1) N1), IH. destruct (dbd_loop e tail room); reflexivity.
  - exists ((y + 255 + e) mod 256 :: l). split; [cbn; lia|]. intros tail room. cbn [app length Nat.add dbd_loop N.eqb Pos.eqb]. rewrite IH. destruct (dbd_loop e tail room); reflexivity.
Qed.
Lemma broken_or n : forall m, (length m <= n)%nat -> ~ In 0 m -> unbroken m \/ exists p, unbroken p /\ m = (p ++ [1])%list.
Proof.
  induction n as [|n IH]; (intros [|y m] L Z); [left; apply unbroken_nil|cbn in L; lia|left; apply unbroken_nil|]. destruct (N.eq_dec y 1) as [->|N1].
  - destruct m as [|y m]; [right; exists []; split; [constructor|auto]|]. destruct (IH m) as [U|(p & U & ->)]; [cbn in L; lia|intros I; apply Z; right; right; auto|left; apply unbroken_escape; auto|].
    right. exists (1 :: y :: p). split; [apply unbroken_escape; auto|auto].
  - assert (N0 : y <> 0) by (intros ->; apply Z; left; auto). destruct (IH m) as [U|(p & U & ->)]; [cbn in L; lia|intros I; apply Z; right; auto|left; apply unbroken_direct; auto|]. right. exists (y :: p). split; [apply unbroken_direct; auto|auto].
Qed.
Theorem C45_exact : forall e m room, ~ In 0 m -> (length m <= room)%nat -> dbd_decode ((e :: m) ++ [0]) room = Bad <-> exists p, unbroken p /\ m = (p ++ [1])%list.
Proof.
  intros e m room Z L. split.
  - intros B. destruct (broken_or _ m (le_n _) Z) as [U|H]; auto. destruct (unbroken_loop e m U) as (l & Ll & _ & R). cbn [app dbd_decode] in B. rewrite R in B by lia. discriminate.
  - intros (p & U & ->). rewrite app_length in L. cbn in L. destruct (loop_prefix e p U) as (l & Ll & R). cbn [app dbd_decode]. rewrite <- app_assoc. cbn [app]. replace room with (length l + (room - length l))%nat by lia. rewrite R.
    destruct (room - length l)%nat eqn:E; [lia|]. reflexivity.
Qed.
Print Assumptions C45_exact.
(** and then whatever lies behind the terminating zero is decoded as if it belonged to the value: up to the next zero there, if there is room *)
Theorem C45_goes_on_refuted : forall e p, unbroken p -> exists l, (length l <= length p)%nat /\
  forall rest room, dbd_decode ((e :: p ++ [1]) ++ 0 :: rest) (length l + S room) = mdo r <- dbd_decode (e :: rest) room;; Val ((l ++ (255 + e) mod 256 :: r)%list).
Proof.
  intros e p U. destruct (loop_prefix e p U) as (l & L & R). exists l. split; auto. intros rest room. cbn [app dbd_decode]. rewrite <- app_assoc. cbn [app]. rewrite R. cbn [dbd_loop N.eqb Pos.eqb]. destruct (dbd_loop e rest room); reflexivity.
Qed.
Print Assumptions C45_goes_on_refuted.
Example C45_exact_case : unbroken [50; 1; 1] /\ dbd_decode [9; 50; 1; 1; 1; 0] 4096 = Bad /\ dbd_decode [9; 50; 1; 1; 1; 0; 33; 34; 0; 35] 4096 = Val [59; 9; 8; 42; 43] /\ dbd_decode [9; 50; 1; 1; 0; 33; 34; 0; 35] 4096 = Val [59; 9].
Proof. split; [repeat constructor; discriminate|]. vm_compute. auto. Qed.
