(** Octets that osmo_gsup_encode() of libosmocore makes of a message (assumed: one octet for the kind, then elements of one octet tag, one octet length
    and the value), for C67. *)
From Verif Require Import Base PeerId Db Auth Gsup Hlr Config.
From Verif Require Frame.

Definition elem (present : bool) (n : nat) : nat := if present then 2 + n else 0.
Definition given {A} (l : list A) : bool := match l with [] => false | _ => true end.
Definition payload (p : ss_payload) : bool := match p with PlNone => false | _ => true end.
(** RAND 16, SRES 4, Kc 8 octets; IK 16, CK 16, AUTN 16, RES up to 16 octets; around them tag and length *)
Definition vec_octets (v : vec) : nat := elem true (elem true 16 + elem true 4 + elem true 8 + (if v_umts v then 3 * elem true 16 + elem true (length (v_res v)) else 0)).
(** [ml], [pl], [sl]: octets of an MSISDN, of the PDP contexts and of a USSD component *)
Definition octets (ml : string -> nat) (pl : list Z -> nat) (sl : ss_payload -> nat) (m : gsup) : nat :=
  let x := g_x m in
  1 + elem true 8 + elem (negb (g_cause m =? 0)) 1 + elem (negb (g_class m =? 0)) 1
  + elem (given (g_src m)) (length (g_src m)) + elem (given (g_dst m)) (length (g_dst m))
  + elem (is_some (g_mr m)) 1 + elem (negb (g_sid m =? 0)) 4 + elem (negb (g_ss m =? 0)) 1 + elem (negb (g_cn m =? 0)) 1
  + elem (is_some (x_rand x)) 16 + elem (is_some (x_auts x)) 14 + elem (negb (x_nvec x =? 0)) 1 + elem (negb (x_rat x =? 0)) 1
  + fold_right (fun v n => vec_octets v + n)%nat O (x_vecs x)
  + match x_imei x with Some l => elem true (length l) | None => 0 end + elem (x_imei_ack x) 1
  + match x_msisdn x with Some t => elem true (ml t) | None => 0 end
  + (if given (x_pdp x) then elem true 0 + pl (x_pdp x) else 0)
  + elem (payload (x_ss x)) (sl (x_ss x))
  + match x_da x with Some (_, l) => elem true (1 + length l) | None => 0 end + match x_oa x with Some (_, l) => elem true (1 + length l) | None => 0 end
  + elem (is_some (x_sm_cause x)) 1 + length (x_other x).

(** PDP contexts: number, and APN if there is one; an APN takes one octet more than its text *)
Definition slot_octets (s : pslot) : nat := elem true (elem true 1 + match sl_apn s with Some a => elem true (String.length a + 1) | None => 0 end).
Definition slots_octets (l : list pslot) : nat := fold_right (fun s n => slot_octets s + n)%nat O l.
(** what osmo_gsup_msgb_alloc() has room for *)
Definition room : nat := Frame.mb_tail Frame.gsup_msgb_alloc.
