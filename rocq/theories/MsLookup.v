(** Lookup queries and their form as domain names: /repo/src/mslookup/mslookup.c, mdns.c:36-82.
    Strings are the contents of C strings (without NUL). *)
From Verif Require Import Base.

(** enum osmo_mslookup_id_type, struct osmo_mslookup_query: include/osmocom/mslookup/mslookup.h:34-77, 66-75 *)
Inductive id_type := IdNone | IdImsi | IdMsisdn.
Record query := mk_query { lq_service : string; lq_type : id_type; lq_id : string }.
Definition query0 : query := mk_query "" IdNone "".

Definition id_type_eqb (a b : id_type) : bool :=
  match a, b with IdNone, IdNone | IdImsi, IdImsi | IdMsisdn, IdMsisdn => true | _, _ => false end.
(** osmo_mslookup_id_cmp (mslookup.c:109-131) gives 0, together with the comparison of services at mslookup_client_mdns.c:58-61:
    the same query. Both identifiers are shorter than their buffers. *)
Definition query_eqb (a b : query) : bool :=
  (lq_service a =? lq_service b)%string && id_type_eqb (lq_type a) (lq_type b) &&
  (match lq_type a with IdNone => true | _ => (lq_id a =? lq_id b)%string end).

(** osmo_mslookup_id_valid, mslookup.c:133-143 *)
Definition id_valid (t : id_type) (i : string) : bool :=
  match t with IdNone => false | IdImsi => imsi_valid i | IdMsisdn => msisdn_valid i end.
(** osmo_mslookup_service_valid, mslookup.c:145-148 *)
Definition service_valid (s : string) : bool := (0 <? String.length s)%nat.

(** osmo_mslookup_id_type_names, mslookup.c:90-95 *)
Definition id_type_name (t : id_type) : string := match t with IdNone => "none" | IdImsi => "imsi" | IdMsisdn => "msisdn" end.
(** tolower() and strcasecmp() in the C locale *)
Definition lower (c : ascii) : ascii := if (65 <=? acode c)%N && (acode c <=? 90)%N then ascii_of_N (acode c + 32) else c.
Fixpoint lower_str (s : string) : string := match s with EmptyString => EmptyString | String c r => String (lower c) (lower_str r) end.
(** get_string_value(osmo_mslookup_id_type_names, ..), libosmocore utils.c: strcasecmp() with each name; [None]: negative *)
Definition id_type_of (s : string) : option id_type :=
  if (lower_str s =? "none")%string then Some IdNone
  else if (lower_str s =? "imsi")%string then Some IdImsi
  else if (lower_str s =? "msisdn")%string then Some IdMsisdn else None.

(** strrchr(d, '.'), as an index *)
Definition dot : ascii := "."%char.
Fixpoint rindex (d : list ascii) : option nat :=
  match d with
  | [] => None
  | c :: r => match rindex r with Some i => Some (S i) | None => if (c =? dot)%char then Some 0%nat else None end
  end.
(** the loop at mslookup.c:288 *)
Fixpoint back (d : list ascii) (p : nat) : nat :=
  match p with
  | O => O
  | S p' => if (nth p d "000"%char =? dot)%char then p else back d p'
  end.

(** token, mslookup.c:245-259: [inr] is the return code *)
Definition token (size : nat) (d : list ascii) (start stop : nat) : string + Z :=
  if (stop <=? start)%nat then inr (-10)
  else if (size <=? stop - start)%nat then inr (-11)
  else inl (str_of (firstn (stop - start) (skipn start d))).

(** osmo_mslookup_query_init_from_domain_str, mslookup.c:261-319. imsi[16], msisdn[16], service[65]. *)
Definition query_init (domain : string) : query + Z :=
  let d := bytes_of domain in
  match rindex d with
  | None => inr (-2)
  | Some last =>
      if (last =? 0)%nat then inr (-3)
      else
        let second := back d (last - 1) in
        if (second =? 0)%nat || negb (nth second d "000"%char =? dot)%char then inr (-3)
        else if (length d <=? S last)%nat then inr (-4)
        else
          let finish t i := match token 65 d 0 second with inl s => inl (mk_query s t i) | inr e => inr e end in
          match id_type_of (str_of (skipn (S last) d)) with
          | Some IdImsi =>
              match token 16 d (S second) last with
              | inr e => inr e
              | inl i => if negb (imsi_valid i) then inr (-5) else finish IdImsi i
              end
          | Some IdMsisdn =>
              match token 16 d (S second) last with
              | inr e => inr e
              | inl i => if negb (msisdn_valid i) then inr (-6) else finish IdMsisdn i
              end
          | _ => inr (-7)
          end
  end.

(** domain_from_query, mdns.c:35-60; [None]: NULL *)
Definition domain_from_query (q : query) (suffix : string) : option string :=
  match lq_type q with
  | IdNone => None
  | t => Some (lq_service q ++ "." ++ lq_id q ++ "." ++ id_type_name t ++ "." ++ suffix)%string
  end.

(** query_from_domain, mdns.c:62-82; the buffer has 255 bytes. Lengths are below 2^31. *)
Definition query_from_domain (domain suffix : string) : query + Z :=
  let len := Z.of_nat (String.length domain) - Z.of_nat (String.length suffix) - 1 in
  if (len <=? 0) || (255 <=? len) then inr (- EINVAL)
  else
    let n := Z.to_nat len in
    let d := bytes_of domain in
    if negb (nth n d "000"%char =? dot)%char || negb (str_of (skipn (S n) d) =? suffix)%string then inr (- EINVAL)
    else query_init (str_of (firstn n d)).
