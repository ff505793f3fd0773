(** Vocabulary for C66: octets received and forwarded by the GSUP server. *)
From Verif Require Import Base PeerId Db Gsup Router Hlr.
From Verif Require Frame.

(** The octets of a GSUP message on a connection: two octets of length, IPA stream OSMO (0xee), extension GSUP (5). *)
Definition framed (l2 o8 : list N) : Prop :=
  exists hi lo, o8 = hi :: lo :: 238%N :: 5%N :: l2 /\ (hi < 256)%N /\ (lo < 256)%N /\ (hi * 256 + lo)%N = N.of_nat (S (length l2)).

(** What a message on connection [cid] means to the HLR: an identity response (stream 0xfe), a GSUP message that can be decoded, or nothing. *)
Inductive meaning (dec : list N -> option gsup) (ccm : list N -> option (option (list ascii))) (cid : nat) : N -> list N -> event -> Prop :=
| m_ident p tag : ccm p = Some tag -> meaning dec ccm cid 254 p (EIdent cid tag)
| m_gsup l2 g : l2 <> [] -> dec l2 = Some g -> meaning dec ccm cid 238 (5%N :: l2) (ERx cid g).

(** the same but for the number of the next request *)
Definition same_but_nr (s s' : hst) : Prop := t_srv s' = t_srv s /\ t_lus s' = t_lus s /\ t_ss s' = t_ss s.

(** The buffers that messages on a connection leave allocated although nothing refers to them. *)
Definition leaked (l : list (N * list N)) : nat := length (filter (fun m => negb (Frame.released (Frame.server_read (fst m) (snd m)))) l).

(** room that a buffer takes up *)
Definition size (m : Frame.msgb) : nat := (Frame.mb_head m + length (Frame.mb_data m) + Frame.mb_tail m)%nat.
