(** mDNS packets: /repo/src/mslookup/mdns_rfc.c, mdns_msg.c, mdns.c. Packets are lists of octets (below 256). *)
From Verif Require Import Base MsLookup Hlr.
Local Open Scope N_scope.

(** [Bad]: memory outside of a buffer is read or written, NULL is followed, or the process aborts *)
Inductive mres (A : Type) := Val (a : A) | Bad.
Arguments Val {A} a. Arguments Bad {A}.
Definition mbind {A B} (x : mres A) (f : A -> mres B) : mres B := match x with Val a => f a | Bad => Bad end.
Notation "'mdo' x <- e ;; f" := (mbind e (fun x => f)) (at level 200, x pattern, e at level 100, f at level 200, right associativity).
(** read of one octet, of a big endian number of 16 bit (osmo_load16be) *)
Definition rd8 (l : list N) (i : nat) : mres N := match nth_error l i with Some x => Val x | None => Bad end.
Definition rd16 (l : list N) (i : nat) : mres N := mdo a <- rd8 l i;; mdo b <- rd8 l (S i);; Val (256 * a + b).
(** osmo_store16be, msgb_put_u16 *)
Definition be16 (n : N) : list N := [(n / 256) mod 256; n mod 256].

(** C strings and octets *)
Definition octets_of (s : string) : list N := map N_of_ascii (bytes_of s).
Definition text_of (l : list N) : string := str_of (map ascii_of_N l).
(** what a C string stored as these octets says: up to the first NUL *)
Fixpoint cut0 (l : list N) : list N := match l with [] => [] | x :: r => if x =? 0 then [] else x :: cut0 r end.

(** ** Names *)
(** osmo_apn_to_str(), libosmocore apn.c (assumed): [enc] is the memory from apn_enc on, [rest] the number of octets to decode, [out]
    what has been written to a buffer of [cap] octets. [Val None]: NULL. *)
Definition put_nul (cap : nat) (out : list N) : mres (option (list N)) := if (length out <? cap)%nat then Val (Some out) else Bad.
Fixpoint apn_to_str (fuel cap : nat) (enc : list N) (rest : nat) (out : list N) : mres (option (list N)) :=
  match rest, fuel with
  | O, _ => put_nul cap out
  | _, O => Bad
  | _, S fuel' =>
      match enc with
      | [] => Bad
      | x :: enc' =>
          let n := N.to_nat x in
          if x =? 0 then put_nul cap out
          else if (rest <? n + 1)%nat then Val None
          else if (length enc' <? n)%nat then Bad
          else
            let out := out ++ firstn n enc' in
            let rest' := (rest - (n + 1))%nat in
            if (cap <? length out)%nat then Bad
            else if (rest' =? 0)%nat then apn_to_str fuel' cap (skipn n enc') rest' out
            else if (cap <=? length out)%nat then Bad
            else apn_to_str fuel' cap (skipn n enc') rest' (out ++ [46])
      end
  end.
(** osmo_apn_from_str(), libosmocore apn.c (assumed), into a buffer of one octet more than the string has: cannot fail. The
    length of a label is stored modulo 256. *)
Fixpoint labels (l : list N) : list (list N) :=
  match l with
  | [] => [[]]
  | c :: r => if c =? 46 then [] :: labels r
              else match labels r with [] => [[c]] | x :: t => (c :: x) :: t end
  end.
Definition apn_from_str (l : list N) : list N := flat_map (fun x => (N.of_nat (length x) mod 256) :: x) (labels l).

(** ** Sections *)
(** struct osmo_mdns_rfc_header, mdns_rfc.h:58-90; osmo_mdns_rfc_header_encode, mdns_rfc.c:40-50, with everything zero but
    id, qr, qdcount and ancount *)
Definition header_encode (id : N) (qr : bool) (qd an : N) : list N :=
  be16 id ++ [if qr then 128 else 0; 0] ++ be16 qd ++ be16 an ++ [0; 0; 0; 0].
(** osmo_mdns_rfc_header_decode, mdns_rfc.c:53-67, after the length check of the callers: id, qr, ancount *)
Definition header_decode (l : list N) : mres (N * bool * N) :=
  mdo id <- rd16 l 0;; mdo f <- rd8 l 2;; mdo an <- rd16 l 6;; mdo _ <- rd16 l 10;; Val (id, 128 <=? f, an).

(** osmo_mdns_rfc_question_encode, mdns_rfc.c:72-89 *)
Definition question_encode (domain : list N) (qtype qclass : N) : list N :=
  apn_from_str domain ++ [0] ++ be16 qtype ++ be16 qclass.
(** osmo_mdns_rfc_question_decode, mdns_rfc.c:92-119; the data is the rest of the packet. The domain is given as C string. *)
Definition question_decode (l : list N) : mres (option (list N * N)) :=
  if (length l <? 6)%nat then Val None
  else
    let qname_len := (length l - 4)%nat in
    let n := (qname_len - 1)%nat in
    mdo r <- apn_to_str n n l n [];;
    match r with
    | None => Val None
    | Some d => mdo t <- rd16 l qname_len;; mdo _ <- rd16 l (qname_len + 2);; Val (Some (cut0 d, t))
    end.

(** struct osmo_mdns_record, mdns_msg.h:24-29 *)
Record mrec := mk_mrec { r_type : N; r_rdata : list N }.
(** osmo_mdns_rfc_record_encode, mdns_rfc.c:128-150; class IN, ttl 0 *)
Definition record_encode (domain : list N) (r : mrec) : list N :=
  apn_from_str domain ++ [0] ++ be16 (r_type r) ++ be16 1 ++ [0; 0; 0; 0] ++ be16 (N.of_nat (length (r_rdata r))) ++ r_rdata r.

(** strnlen(data, max); [None]: no limit (the difference at mdns_rfc.c:162 is negative and becomes a huge size_t) *)
Fixpoint strnlen (l : list N) (max : option nat) : mres nat :=
  match max with
  | Some O => Val 0%nat
  | _ => match l with
         | [] => Bad
         | x :: r => if x =? 0 then Val 0%nat
                     else mdo n <- strnlen r (match max with Some (S m) => Some m | _ => None end);; Val (S n)
         end
  end.
(** osmo_mdns_rfc_record_decode, mdns_rfc.c:153-196: domain, record and length *)
Definition record_decode (l : list N) : mres (option (list N * mrec * nat)) :=
  mdo k <- strnlen l (if (length l <? 10)%nat then None else Some (length l - 10)%nat);;
  let name_len := S k in
  mdo z <- rd8 l name_len;;
  if negb (z =? 0) then Val None
  else
    mdo r <- apn_to_str k k l k [];;
    match r with
    | None => Val None
    | Some d =>
        mdo t <- rd16 l name_len;;
        mdo _ <- rd16 l (name_len + 2);;
        mdo _ <- rd16 l (name_len + 4);; mdo _ <- rd16 l (name_len + 6);;
        mdo n <- rd16 l (name_len + 8);;
        let rec_len := (name_len + 10 + N.to_nat n)%nat in
        if (length l <? rec_len)%nat then Val None
        else Val (Some (cut0 d, mk_mrec t (firstn (N.to_nat n) (skipn (name_len + 10) l)), rec_len))
    end.

(** ** Messages *)
(** osmo_mdns_msg_request_encode, mdns_msg.c:31-47 *)
Definition request_encode (id : N) (domain : list N) (qtype : N) : list N := header_encode id false 1 0 ++ question_encode domain qtype 1.
(** osmo_mdns_msg_request_decode, mdns_msg.c:52-73: id, domain, type *)
Definition request_decode (l : list N) : mres (option (N * list N * N)) :=
  if (length l <? 12)%nat then Val None
  else
    mdo h <- header_decode l;;
    let '(id, qr, _) := h in
    if qr then Val None
    else mdo q <- question_decode (skipn 12 l);;
         match q with None => Val None | Some (d, t) => Val (Some (id, d, t)) end.

(** osmo_mdns_msg_answer_encode, mdns_msg.c:89-114 *)
Definition answer_encode (id : N) (domain : list N) (rs : list mrec) : list N :=
  header_encode id true 0 (N.of_nat (length rs)) ++ flat_map (record_encode domain) rs.
Fixpoint octets_eqb (a b : list N) : bool :=
  match a, b with [], [] => true | x :: a', y :: b' => (x =? y) && octets_eqb a' b' | _, _ => false end.
(** the loop of osmo_mdns_msg_answer_decode, mdns_msg.c:137-167; [dom]: the domain found so far, [None]: NULL *)
Fixpoint records_decode (fuel : nat) (l : list N) (dom : option (list N)) (acc : list mrec) : mres (option (option (list N) * list mrec)) :=
  match l, fuel with
  | [], _ => Val (Some (dom, acc))
  | _, O => Bad
  | _, S fuel' =>
      mdo r <- record_decode l;;
      match r with
      | None => Val None
      | Some (d, rc, n) =>
          if match dom with Some d0 => negb (octets_eqb d0 d) | None => false end then Val None
          else records_decode fuel' (skipn n l) (Some (match dom with Some d0 => d0 | None => d end)) (acc ++ [rc])
      end
  end.
(** osmo_mdns_msg_answer_decode, mdns_msg.c:122-180: id, domain, records *)
Definition answer_decode (l : list N) : mres (option (N * option (list N) * list mrec)) :=
  if (length l <? 12)%nat then Val None
  else
    mdo h <- header_decode l;;
    let '(id, qr, an) := h in
    if negb qr then Val None
    else
      mdo r <- records_decode (length l) (skipn 12 l) None [];;
      match r with
      | None => Val None
      | Some (d, rs) => if negb (N.of_nat (length rs) =? an) then Val None else Val (Some (id, d, rs))
      end.

(** ** Text records *)
Definition RT_A : N := 1.
Definition RT_TXT : N := 16.
Definition RT_AAAA : N := 28.
Definition RT_ALL : N := 255.
(** _osmo_mdns_record_txt_encode, mdns_msg.c:185-222; [None]: NULL *)
Definition txt_encode (key value : string) : option mrec :=
  let t := octets_of (key ++ "=" ++ value) in
  if (255 <? length t)%nat then None else Some (mk_mrec RT_TXT (N.of_nat (length t) :: t)).
(** osmo_strnchr(), libosmocore utils.c (assumed): the text before and after the first [c], if one comes before the end and the first NUL *)
Fixpoint split_chr (c : N) (l : list N) : option (list N * list N) :=
  match l with
  | [] => None
  | x :: r => if x =? c then Some ([], r)
              else if x =? 0 then None
              else match split_chr c r with Some (a, b) => Some (x :: a, b) | None => None end
  end.
(** osmo_mdns_record_txt_keyval_decode, mdns_msg.c:227-261, for a TXT record. A char is signed: only lengths up to 127 compare equal.
    Buffers of 64 octets; osmo_print_n() (libosmocore) cuts at these and at the first NUL. *)
Definition txt_decode (r : mrec) : mres (option (list N * list N)) :=
  mdo b <- rd8 (r_rdata r) 0;;
  let n := Z.of_nat (length (r_rdata r)) in
  if negb ((if (128 <=? b)%N then Z.of_N b - 256 else Z.of_N b) =? n - 1)%Z then Val None
  else match tl (r_rdata r) with
       | [] => Val None
       | t => match split_chr 61 t with
              | None => Val None
              | Some (k, v) => Val (Some (cut0 (firstn 63 k), cut0 (firstn 63 v)))
              end
       end.

(** ** Lookup results *)
(** struct osmo_mslookup_result, mslookup.h:78-105, for a positive result: age and addresses. An address is given by its octets; the textual
    form that struct osmo_sockaddr_str has is not modelled (inet_pton and inet_ntop, which are inverse to each other on the canonical text). *)
Record lresult := mk_result { lr_v4 : option (list N * N); lr_v6 : option (list N * N); lr_age : N }.

(** %u of a number below 2^32 (ten digits) *)
Definition dec (n : N) : string := dec_digits 10 n.

(** osmo_sockaddr_str_is_set() (libosmocore): an address with port 0 is not set. mdns.c:211-243 *)
Definition host_records (t : N) (h : option (list N * N)) : list mrec :=
  match h with
  | Some (a, p) => if p =? 0 then [] else mk_mrec t a :: match txt_encode "port" (dec p) with Some r => [r] | None => [] end
  | None => []
  end.
(** the message buffer: osmo_mdns_msgb_alloc, mdns.c:30-33; msgb_put() aborts when there is no room *)
Definition fits (l : list N) : mres (option (list N)) := if (length l <=? 1024)%nat then Val (Some l) else Bad.
(** osmo_mdns_query_encode, mdns.c:89-108 *)
Definition mdns_query_encode (id : N) (q : query) (suffix : string) : mres (option (list N)) :=
  match domain_from_query q suffix with
  | None => Val None
  | Some d => fits (request_encode id (octets_of d) RT_ALL)
  end.
(** osmo_mdns_query_decode, mdns.c:116-138 *)
Definition mdns_query_decode (l : list N) (suffix : string) : mres (option (N * query)) :=
  mdo r <- request_decode l;;
  match r with
  | None => Val None
  | Some (id, d, _) => match query_from_domain (text_of d) suffix with inl q => Val (Some (id, q)) | inr _ => Val None end
  end.
(** osmo_mdns_result_encode, mdns.c:183-256 *)
Definition mdns_result_encode (id : N) (q : query) (r : lresult) (suffix : string) : mres (option (list N)) :=
  match domain_from_query q suffix with
  | None => Val None
  | Some d =>
      match txt_encode "age" (dec (lr_age r)) with
      | None => Bad
      | Some a => fits (answer_encode id (octets_of d) (a :: host_records RT_A (lr_v4 r) ++ host_records RT_AAAA (lr_v6 r)))
      end
  end.

(** decode_uint32_t, mdns.c:258-271: strtoll() accepts leading blanks and a sign; nothing at all is 0 *)
Definition is_blank (c : N) : bool := (c =? 32) || ((9 <=? c) && (c <=? 13)).
Fixpoint skip_blanks (l : list N) : list N := match l with [] => [] | c :: r => if is_blank c then skip_blanks r else l end.
Fixpoint dec_value (l : list N) (acc : N) : option N :=
  match l with
  | [] => Some acc
  | c :: r => if (48 <=? c) && (c <=? 57) then dec_value r (10 * acc + (c - 48)) else None
  end.
Definition decode_uint32 (l : list N) : option N :=
  match l with
  | [] => Some 0
  | _ =>
      let l := skip_blanks l in
      let '(neg, l) := match l with c :: r => if c =? 45 then (true, r) else if c =? 43 then (false, r) else (false, l) | [] => (false, l) end in
      match l with
      | [] => None
      | _ => match dec_value l 0 with
             | None => None
             | Some v => if neg then (if v =? 0 then Some 0 else None) else if 4294967295 <? v then None else Some v
             end
      end
  end.
(** decode_port, mdns.c:273-282 *)
Definition decode_port (l : list N) : option N :=
  match decode_uint32 l with Some v => if 65535 <? v then None else Some v | None => None end.

(** State of osmo_mdns_result_from_answer, mdns.c:295-393: age, addresses found, the one whose port is awaited *)
Record rstate := mk_rs { s_age : option N; s_v4 : option (list N * N); s_v6 : option (list N * N); s_want : option bool }.
Definition rs_step (s : rstate) (r : mrec) : mres (option rstate) :=
  if r_type r =? RT_A then
    match s_want s, s_v4 s with
    | None, None => if negb (length (r_rdata r) =? 4)%nat then Val None
                    else Val (Some (mk_rs (s_age s) (Some (r_rdata r, 0)) (s_v6 s) (Some false)))
    | _, _ => Val None
    end
  else if r_type r =? RT_AAAA then
    match s_want s, s_v6 s with
    | None, None => if negb (length (r_rdata r) =? 16)%nat then Val None
                    else Val (Some (mk_rs (s_age s) (s_v4 s) (Some (r_rdata r, 0)) (Some true)))
    | _, _ => Val None
    end
  else if r_type r =? RT_TXT then
    mdo kv <- txt_decode r;;
    match kv with
    | None => Val None
    | Some (k, v) =>
        if octets_eqb k (octets_of "age") then
          match s_age s, decode_uint32 v with
          | None, Some a => Val (Some (mk_rs (Some a) (s_v4 s) (s_v6 s) (s_want s)))
          | _, _ => Val None
          end
        else if octets_eqb k (octets_of "port") then
          let set p h := match h with Some (a, _) => Some (a, p) | None => None end in
          match s_want s, decode_port v with
          | Some false, Some p => Val (Some (mk_rs (s_age s) (set p (s_v4 s)) (s_v6 s) None))
          | Some true, Some p => Val (Some (mk_rs (s_age s) (s_v4 s) (set p (s_v6 s)) None))
          | _, _ => Val None
          end
        else Val None
    end
  else Val None.
Fixpoint rs_run (s : rstate) (l : list mrec) : mres (option rstate) :=
  match l with
  | [] => Val (Some s)
  | r :: l' => mdo x <- rs_step s r;; match x with None => Val None | Some s' => rs_run s' l' end
  end.
Definition result_from_answer (l : list mrec) : mres (option lresult) :=
  mdo x <- rs_run (mk_rs None None None None) l;;
  match x with
  | None => Val None
  | Some s => match s_age s, s_want s, s_v4 s, s_v6 s with
              | None, _, _, _ | _, Some _, _, _ | _, _, None, None => Val None
              | Some a, None, h4, h6 => Val (Some (mk_result h4 h6 a))
              end
  end.
(** osmo_mdns_result_decode, mdns.c:403-425. A domain that is NULL is handed to strlen(). *)
Definition mdns_result_decode (l : list N) (suffix : string) : mres (option (N * query * lresult)) :=
  mdo a <- answer_decode l;;
  match a with
  | None => Val None
  | Some (_, None, _) => Bad
  | Some (id, Some d, rs) =>
      match query_from_domain (text_of d) suffix with
      | inr _ => Val None
      | inl q => mdo r <- result_from_answer rs;; match r with None => Val None | Some x => Val (Some (id, q, x)) end
      end
  end.
