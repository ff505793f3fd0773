(** C67: the PDP profiles of a configuration *)
From Verif Require Import Base PeerId Db Auth Gsup Router Hlr UssdCfg SmsCfg MsLookup Mdns Proxy MsServer PeerSpec MsServerSpec Ctrl Config ConfigSpec ConfigThms7 SizeSpec.

Lemma slots_le n l : (forall x a, In x l -> sl_apn x = Some a -> (String.length a <= n)%nat) -> (slots_octets l <= length l * (8 + n))%nat.
Proof.
  induction l as [|x l IH]; intros H; cbn [slots_octets fold_right length]; [lia|]. fold (slots_octets l).
  specialize (IH (fun y a I => H y a (or_intror I))). assert (slot_octets x <= 8 + n)%nat; [|lia].
  unfold slot_octets, elem. destruct (sl_apn x) as [a|] eqn:E; [|lia]. specialize (H x a (or_introl eq_refl) E). lia.
Qed.
Lemma c67_pdp e h c l : Forall act_ok h -> acts e h conf0 = Val c -> pdp_sent c = Some l ->
  (forall x a, In x l -> sl_apn x = Some a -> (String.length a <= 59)%nat) -> (slots_octets l <= 676)%nat.
Proof.
  intros F X P H. destruct (c57_count e h c F X) as (_ & L & _ & E). specialize (E l P). apply slots_le in H. nia.
Qed.
Lemma pdp_over ml pl sl m n : x_pdp (g_x m) <> [] -> (n <= pl (x_pdp (g_x m)))%nat -> (n < octets ml pl sl m)%nat.
Proof. intros N H. unfold octets. cbv zeta. destruct (x_pdp (g_x m)) as [|z r]; [congruence|]. cbn [given]. lia. Qed.
