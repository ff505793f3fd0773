(** Socket addresses, ages of times and the cache of the GSUP proxy: /repo/src/timestamp.c, /repo/include/osmocom/hlr/proxy.h
    and the first part of /repo/src/proxy.c *)
From Verif Require Import Base PeerId Mdns.

(** ** Socket addresses *)
(** struct osmo_sockaddr_str (libosmocore, assumed): unset, or address octets and port of one of two families *)
Inductive sa := SaNone | Sa4 (ip : list N) (port : N) | Sa6 (ip : list N) (port : N).
Fixpoint all_zero (l : list N) : bool := match l with [] => true | x :: r => (x =? 0)%N && all_zero r end.
(** osmo_sockaddr_str_is_nonzero(): port and address are not zero *)
Definition sa_nonzero (a : sa) : bool :=
  match a with SaNone => false | Sa4 ip p | Sa6 ip p => negb (p =? 0)%N && negb (all_zero ip) end.
(** osmo_sockaddr_str_cmp() == 0 *)
Definition sa_eqb (a b : sa) : bool :=
  match a, b with
  | SaNone, SaNone => true
  | Sa4 i p, Sa4 j q | Sa6 i p, Sa6 j q => octets_eqb i j && (p =? q)%N
  | _, _ => false
  end.

(** ** Ages *)
Definition int64 (z : Z) : bool := (- 2 ^ 63 <=? z) && (z <? 2 ^ 63).
Definition UINT32_MAX : Z := 2 ^ 32 - 1.
(** timestamp_update, timestamp.c:24-35: mktime(gmtime(now)), the clock taken as local time in a zone [tz] seconds east *)
Definition timestamp_now (tz now : Z) : Z := now - tz.
(** timestamp_age, timestamp.c:40-52, of [ts] at [now] (already corrected by timestamp_update). [Bad]: the
    subtraction of 64 bit numbers overflows. [Val None]: false is returned (and the age is UINT32_MAX). *)
Definition timestamp_age (now ts : Z) : mres (option Z) :=
  let age := now - ts in
  if negb (int64 age) then Bad
  else if (age <? 0) || (UINT32_MAX <? age) then Val None else Val (Some age).

(** ** Cache of roaming subscribers *)
(** struct proxy_subscr_domain_state, proxy.h:48-61: vlr_name, last_lu, vlr_name_preliminary, vlr_via_proxy *)
Record pdom := mk_pdom { pd_name : ipa_name; pd_lu : Z; pd_prelim : ipa_name; pd_via : ipa_name }.
Definition pdom0 : pdom := mk_pdom ipa_empty 0 ipa_empty ipa_empty.
(** struct proxy_subscr, proxy.h:63-68 *)
Record psub := mk_psub { ps_imsi : string; ps_msisdn : string; ps_addr : sa; ps_cs : pdom; ps_ps : pdom }.
(** struct proxy_subscr_listentry, proxy.c:55-59 *)
Record pent := mk_pent { pe_sub : psub; pe_upd : Z }.

(** proxy_subscr_get_by_imsi, proxy.c:134-139, 172-179, 148-158, 172-179 *)
Definition cache_by_imsi (c : list pent) (imsi : string) : option psub :=
  match find (fun e => (ps_imsi (pe_sub e) =? imsi)%string) c with Some e => Some (pe_sub e) | None => None end.
(** proxy_subscr_get_by_msisdn, proxy.c:141-146, 181-188, 160-170, 181-188 *)
Definition cache_by_msisdn (c : list pent) (msisdn : string) : option psub :=
  match find (fun e => (ps_msisdn (pe_sub e) =? msisdn)%string) c with Some e => Some (pe_sub e) | None => None end.
(** proxy_subscr_create_or_update, proxy.c:190-201, at time [now]; always successful *)
Fixpoint cache_put (c : list pent) (s : psub) (now : Z) : option (list pent) :=
  match c with
  | [] => None
  | e :: r => if (ps_imsi (pe_sub e) =? ps_imsi s)%string then Some (mk_pent s now :: r)
              else match cache_put r s now with Some r' => Some (e :: r') | None => None end
  end.
Definition cache_update (c : list pent) (s : psub) (now : Z) : list pent :=
  match cache_put c s now with Some c' => c' | None => mk_pent s now :: c end.
(** removal of the entry of an IMSI, proxy_subscr_del and _proxy_subscr_del, proxy.c:203-218 *)
Fixpoint cache_del (c : list pent) (imsi : string) : list pent :=
  match c with
  | [] => []
  | e :: r => if (ps_imsi (pe_sub e) =? imsi)%string then r else e :: cache_del r imsi
  end.
(** proxy_cleanup, proxy.c:221-238: entries older than [fresh] seconds, and those with an invalid time, go *)
Fixpoint cache_clean (c : list pent) (now fresh : Z) : mres (list pent) :=
  match c with
  | [] => Val []
  | e :: r =>
      mdo a <- timestamp_age now (pe_upd e);;
      mdo r' <- cache_clean r now fresh;;
      Val (match a with Some x => if x <=? fresh then e :: r' else r' | None => r' end)
  end.
