(** Lemmas behind C45. *)
From Verif Require Import Base Mdns Dbd DbdSpec.
Local Open Scope N_scope.

Lemma loop_codes e l m rest room :
  codes e l m -> (length l <= room)%nat -> dbd_loop e (m ++ 0 :: rest) room = Val l.
Proof.
  intros C. revert room. induction C as [| x y l m Hx Hy E N0 N1 C IH | x y l m Hx Hy E C IH]; intros room L.
  - destruct room; reflexivity.
  - destruct room as [|room]; [cbn [length] in L; lia|]. cbn [app dbd_loop].
    rewrite (proj2 (N.eqb_neq y 0) N0), (proj2 (N.eqb_neq y 1) N1).
    rewrite IH by (cbn [length] in L; lia). cbn [mbind]. rewrite E. reflexivity.
  - destruct room as [|room]; [cbn [length] in L; lia|]. cbn [app dbd_loop N.eqb Pos.eqb].
    rewrite IH by (cbn [length] in L; lia). cbn [mbind]. do 2 f_equal.
    unfold octet in *. replace (y + 255 + e) with ((y + e) + 255) by lia.
    rewrite N.add_mod, E by lia. rewrite <- N.add_mod by lia.
    replace (x + 1 + 255) with (x + 1 * 256) by lia. rewrite N.mod_add by lia. apply N.mod_small; lia.
Qed.

Lemma encode1_codes e x l m : octet e -> octet x -> codes e l m -> codes e (x :: l) (encode1 e x ++ m).
Proof.
  intros He Hx C. unfold encode1.
  assert (B : (x + 256 - e) mod 256 < 256) by (apply N.mod_lt; lia).
  assert (E : ((x + 256 - e) mod 256 + e) mod 256 = x).
  { unfold octet in *. rewrite N.add_mod_idemp_l by lia. replace (x + 256 - e + e) with (x + 1 * 256) by lia.
    rewrite N.mod_add by lia. apply N.mod_small; lia. }
  set (c := (x + 256 - e) mod 256) in *. clearbody c.
  destruct ((c =? 0) || (c =? 1) || (c =? 39)) eqn:S; cbn [app].
  - apply codes_escape; auto.
    + unfold octet. apply orb_true_iff in S as [S|S]; [apply orb_true_iff in S as [S|S]|]; apply N.eqb_eq in S; lia.
    + replace (c + 1 + e) with (c + e + 1) by lia. rewrite N.add_mod, E by lia. symmetry.
      rewrite N.add_mod by lia. unfold octet in *. rewrite (N.mod_small x) by lia. reflexivity.
  - apply orb_false_iff in S as [S _]. apply orb_false_iff in S as [S0 S1].
    apply N.eqb_neq in S0, S1. apply codes_direct; auto.
Qed.

Lemma encode_codes e l : octet e -> Forall octet l -> codes e l (flat_map (encode1 e) l).
Proof.
  intros He F. induction F as [|x l Hx F IH]; [constructor|]. cbn [flat_map]. now apply encode1_codes.
Qed.

Lemma encode_len e l : octet e -> Forall octet l -> (length l <= length (flat_map (encode1 e) l))%nat.
Proof.
  intros He F. induction F as [|x l Hx F IH]; [constructor|]. cbn [flat_map]. rewrite app_length.
  assert (1 <= length (encode1 e x))%nat; [|cbn [length]; lia].
  unfold encode1. destruct (_ || _); cbn; lia.
Qed.

Lemma codes_len e l m : codes e l m -> (length l <= length m)%nat.
Proof. induction 1; cbn [length]; lia. Qed.

(** whatever is in memory: what is written is shorter than what was read *)
Lemma loop_consumed e mem : forall room l, dbd_loop e mem room = Val l ->
  (length l <= room)%nat /\ exists r rest, mem = r ++ 0 :: rest /\ (length l <= length r)%nat /\ dbd_loop e (r ++ [0]) room = Val l.
Proof.
  induction mem as [mem IH] using (well_founded_induction (Wf_nat.well_founded_ltof _ (@length N))).
  intros room l H. destruct mem as [|c m]; [discriminate|]. cbn [dbd_loop] in H.
  destruct (c =? 0) eqn:C0.
  - injection H as <-. apply N.eqb_eq in C0. subst c. split; [cbn; lia|]. exists [], m.
    split; [reflexivity|split; [cbn; lia|]]. destruct room; reflexivity.
  - destruct room as [|room]; [discriminate|]. destruct (c =? 1) eqn:C1.
    + destruct m as [|c2 m2]; [discriminate|].
      destruct (dbd_loop e m2 room) as [l'|] eqn:L; [|discriminate]. cbn [mbind] in H. injection H as <-.
      destruct (IH m2) with (room := room) (l := l') as (B & r & rest & E & Len & R); [unfold ltof; cbn; lia|exact L|].
      split; [cbn [length]; lia|]. exists (c :: c2 :: r), rest. subst m2. split; [reflexivity|split; [cbn [length]; lia|]].
      cbn [app dbd_loop]. rewrite C0, C1, R. reflexivity.
    + destruct (dbd_loop e m room) as [l'|] eqn:L; [|discriminate]. cbn [mbind] in H. injection H as <-.
      destruct (IH m) with (room := room) (l := l') as (B & r & rest & E & Len & R); [unfold ltof; cbn; lia|exact L|].
      split; [cbn [length]; lia|]. exists (c :: r), rest. subst m. split; [reflexivity|split; [cbn [length]; lia|]].
      cbn [app dbd_loop]. rewrite C0, C1, R. reflexivity.
Qed.

Lemma unbroken_loop e m : unbroken m -> exists l, (length l <= length m)%nat /\ Forall octet l /\
  forall rest room, (length l <= room)%nat -> dbd_loop e (m ++ 0 :: rest) room = Val l.
Proof.
  induction 1 as [| y m N1 N0 S (l & L & F & R) | y m S (l & L & F & R)].
  - exists []. split; [cbn; lia|split; [constructor|]]. intros rest [|?] _; reflexivity.
  - exists ((y + e) mod 256 :: l). split; [cbn [length]; lia|]. split; [constructor; auto; apply N.mod_lt; lia|].
    intros rest [|room] Q; [cbn [length] in Q; lia|]. cbn [app dbd_loop].
    rewrite (proj2 (N.eqb_neq y 0) N0), (proj2 (N.eqb_neq y 1) N1), R by (cbn [length] in Q; lia). reflexivity.
  - exists ((y + 255 + e) mod 256 :: l). split; [cbn [length]; lia|]. split; [constructor; auto; apply N.mod_lt; lia|].
    intros rest [|room] Q; [cbn [length] in Q; lia|]. cbn [app dbd_loop N.eqb Pos.eqb].
    rewrite R by (cbn [length] in Q; lia). reflexivity.
Qed.
