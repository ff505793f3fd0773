(** Proofs for C33: the header of a packet. *)
From Verif Require Import Base PeerId Db DbSpec MsLookup MsSpec MsThms Hlr Mdns MdnsSpec MdnsThms.
Local Open Scope string_scope.
Local Open Scope N_scope.
Local Open Scope list_scope.

Lemma header_octets id qr qd an t : id < 65536 -> qd < 256 -> an < 256 ->
  firstn 12 (header_encode id qr qd an ++ t) = [id / 256; id mod 256; if qr then 128 else 0; 0; 0; qd; 0; an; 0; 0; 0; 0].
Proof.
  intros A B C. unfold header_encode, be16. cbn [app firstn]. rewrite (N.mod_small (id / 256) 256) by (apply N.div_lt_upper_bound; lia).
  rewrite (N.div_small qd), (N.div_small an), (N.mod_small qd), (N.mod_small an) by lia. reflexivity.
Qed.
Lemma host_count t n h : good_host n h -> N.of_nat (length (host_records t h)) = match h with Some _ => 2 | None => 0 end.
Proof.
  destruct h as [[b p]|]; cbn [host_records good_host]; [|reflexivity]. intros (_ & _ & Lp). destruct (N.eqb_spec p 0); [lia|]. destruct (port_enc p Lp) as (rp & -> & _). reflexivity.
Qed.
Lemma fits_is l p : Mdns.fits l = Val (Some p) -> p = l.
Proof. unfold Mdns.fits. destruct (_ <=? _)%nat; [intros [= <-]; auto|discriminate]. Qed.
Lemma c33_header id q r suffix p : id < 65536 ->
  (mdns_query_encode id q suffix = Val (Some p) -> firstn 12 p = [id / 256; id mod 256; 0; 0; 0; 1; 0; 0; 0; 0; 0; 0]) /\
  (good_result r -> mdns_result_encode id q r suffix = Val (Some p) -> exists n, firstn 12 p = [id / 256; id mod 256; 128; 0; 0; 0; 0; n; 0; 0; 0; 0] /\
     n = 1 + (match lr_v4 r with Some _ => 2 | None => 0 end) + (match lr_v6 r with Some _ => 2 | None => 0 end)).
Proof.
  intros L. split.
  - unfold mdns_query_encode. destruct (domain_from_query q suffix); [|discriminate]. intros E. apply fits_is in E. subst p. unfold request_encode. apply header_octets; lia.
  - intros (G4 & G6 & _). unfold mdns_result_encode. destruct (domain_from_query q suffix); [|discriminate]. destruct (txt_encode _ _) as [a|]; [|discriminate]. intros E. apply fits_is in E. subst p.
    eexists. split; [|reflexivity]. unfold answer_encode.
    assert (X : N.of_nat (length (a :: host_records RT_A (lr_v4 r) ++ host_records RT_AAAA (lr_v6 r))) = 1 + match lr_v4 r with Some _ => 2 | None => 0 end + match lr_v6 r with Some _ => 2 | None => 0 end).
    { cbn [length]. rewrite app_length, Nat2N.inj_succ, Nat2N.inj_add, (host_count _ _ _ G4), (host_count _ _ _ G6). destruct (lr_v4 r), (lr_v6 r); reflexivity. }
    rewrite X. apply header_octets; auto; [lia|]. destruct (lr_v4 r), (lr_v6 r); lia.
Qed.
