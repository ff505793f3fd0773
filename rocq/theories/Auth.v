(** Authentication data and vectors: /repo/src/db_auc.c, /repo/src/auc.c *)
From Verif Require Import Base PeerId Db.

(** ** Hex strings *)

(** value of a hex digit, libosmocore osmo_hexparse() *)
Definition hex_val (c : ascii) : option N :=
  let n := acode c in
  if (48 <=? n)%N && (n <=? 57)%N then Some (n - 48)%N
  else if (97 <=? n)%N && (n <=? 102)%N then Some (n - 97 + 10)%N
  else if (65 <=? n)%N && (n <=? 70)%N then Some (n - 65 + 10)%N
  else None.
Definition is_hex_space (c : ascii) : bool :=
  let n := acode c in ((n =? 32) || (n =? 9) || (n =? 10) || (n =? 13))%N.

(** the nibbles of a hex string, white space skipped; [None] on any other character *)
Fixpoint nibbles (s : string) : option (list N) :=
  match s with
  | EmptyString => Some []
  | String c r =>
      if is_hex_space c then nibbles r
      else match hex_val c, nibbles r with
           | Some v, Some l => Some (v :: l)
           | _, _ => None
           end
  end.
Fixpoint pair_up (l : list N) : option (list N) :=
  match l with
  | [] => Some []
  | [_] => None
  | a :: b :: r => match pair_up r with Some t => Some ((16 * a + b)%N :: t) | None => None end
  end.
(** libosmocore osmo_hexparse(str, b, max_len): the bytes, or [None] (-1) when the string has
    more than max_len bytes, a non-hex character or an odd number of digits. *)
Definition hexparse (s : string) (max_len : nat) : option (list N) :=
  match nibbles s with
  | Some l => if (max_len * 2 <? length l)%nat then None else pair_up l
  | None => None
  end.

(** hexparse_stmt, db_auc.c:78-109. [None] stands for the negative return values; the text is
    [None] for a NULL column (its byte count is 0, so the minimum length check fails). *)
Definition hexparse_stmt (mn mx : nat) (text : option string) : option (list N) :=
  match text with
  | None => None
  | Some t =>
      let col_len := (String.length t / 2)%nat in
      if (col_len <? mn)%nat || (mx <? col_len)%nat then None
      else match hexparse t mx with
           | Some l => if (length l =? col_len)%nat then Some l else None
           | None => None
           end
  end.

(** ** Key material *)

(** struct osmo_sub_auth_data2 filled for 2G resp. 3G (libosmocore auth.h). Absent data
    (type OSMO_AUTH_TYPE_NONE) is [None] of these. u_sep: AMF separation bit. *)
Record aud2 := mk_aud2 { g_algo : Z; g_ki : list N }.
Record aud3 := mk_aud3 {
  u_algo : Z; u_k : list N; u_opc : list N; u_is_op : bool;
  u_sqn : N; u_bitlen : Z; u_ind : N; u_sep : bool }.
Definition with_sqn (u : aud3) (q : N) : aud3 :=
  mk_aud3 (u_algo u) (u_k u) (u_opc u) (u_is_op u) q (u_bitlen u) (u_ind u) (u_sep u).

Record auth_data := mk_auth { ad_2g : option aud2; ad_3g : option aud3; ad_id : Z }.

(** 2G columns, db_auc.c:149-159: an unreadable Ki is ignored *)
Definition read_2g (a : option auc2_row) : option aud2 :=
  match a with
  | None => None
  | Some r => match hexparse_stmt 16 16 (Some (a2_ki r)) with
              | Some ki => Some (mk_aud2 (a2_algo r) ki)
              | None => None
              end
  end.
(** 3G columns, db_auc.c:161-192; outer [None]: -EIO. The stored signed 64 bit number is read
    back with the bits it was written with. *)
Definition read_3g (a : option auc3_row) : option (option aud3) :=
  match a with
  | None => Some None
  | Some r =>
      match hexparse_stmt 16 32 (Some (a3_k r)) with
      | None => None
      | Some k =>
          match a3_op r with
          | Some op =>
              match hexparse_stmt 16 32 (Some op) with
              | Some o => Some (Some (mk_aud3 (a3_algo r) k o true (a3_sqn r) (a3_ind_bitlen r) 0 false))
              | None => None
              end
          | None =>
              match hexparse_stmt 16 32 (a3_opc r) with
              | Some o => Some (Some (mk_aud3 (a3_algo r) k o false (a3_sqn r) (a3_ind_bitlen r) 0 false))
              | None => None
              end
          end
      end
  end.

(** db_get_auth_data, db_auc.c:115-200 *)
Definition db_get_auth_data (imsi : string) : prog (Z + auth_data) :=
  Exec (AUC_BY_IMSI imsi) (fun r =>
    match r with
    | RDone _ => Ret (inl (- ENOENT))
    | RAuc id a2 a3 =>
        match read_3g a3 with
        | None => Ret (inl (- EIO))
        | Some u => match read_2g a2, u with
                    | None, None => Ret (inl (- ENOKEY))
                    | g, u => Ret (inr (mk_auth g u id))
                    end
        end
    | _ => Ret (inl (- EIO))
    end).

(** ** Vectors *)

(** struct osmo_auth_vector. [v_sqn] is a ghost: the 48 bit sequence number concealed in the
    AUTN (None when the vector has no AUTN). *)
Record vec := mk_vec {
  v_rand : list N; v_autn : list N; v_ck : list N; v_ik : list N; v_res : list N;
  v_kc : list N; v_sres : list N; v_gsm : bool; v_umts : bool; v_sqn : option N }.

(** What libosmocore and the kernel provide during one request: the random source (auc.c:107,
    one result per vector) and the algorithm implementations behind osmo_auth_gen_vec2() and
    osmo_auth_gen_vec_auts2(), which return a vector or an error and leave a sequence number in
    aud->u.umts.sqn. *)
Record crypto := mk_crypto {
  c_rand : nat -> option (list N);
  c_gen2 : aud2 -> list N -> option vec;
  c_gen3 : aud3 -> list N -> option vec * N;
  c_auts : aud3 -> list N -> list N -> list N -> option vec * N }.

(** 2G result put over the 3G vector, auc.c:166-168 *)
Definition merge_2g (v w : vec) : vec :=
  mk_vec (v_rand v) (v_autn v) (v_ck v) (v_ik v) (v_res v) (v_kc w) (v_sres w) true (v_umts v) (v_sqn v).

(** Loop of auc_compute_vectors, auc.c:106-184: vectors made and the sequence number left in
    aud3g. [n] rounds remain, [i] is the loop counter. *)
Fixpoint gen_loop (cr : crypto) (n i : nat) (g : option aud2) (u : option aud3)
         (resync : option (list N * list N)) : list vec * option N :=
  let sqn := match u with Some u => Some (u_sqn u) | None => None end in
  match n with
  | O => ([], sqn)
  | S m =>
      match c_rand cr i with
      | None => ([], sqn)
      | Some rnd =>
          match u with
          | Some ua =>
              let '(ov, q) := match i, resync with
                              | O, Some (auts, rand_auts) => c_auts cr ua auts rand_auts rnd
                              | _, _ => c_gen3 cr ua rnd
                              end in
              match ov with
              | None => ([], Some q)
              | Some v =>
                  match g with
                  | None =>
                      let '(vs, q') := gen_loop cr m (S i) g (Some (with_sqn ua q)) resync in (v :: vs, q')
                  | Some ga =>
                      match c_gen2 cr ga rnd with
                      | None => ([], Some q)
                      | Some w =>
                          let '(vs, q') := gen_loop cr m (S i) g (Some (with_sqn ua q)) resync in
                          (merge_2g v w :: vs, q')
                      end
                  end
              end
          | None =>
              match g with
              | None => ([], None)   (* excluded by the check at auc.c:59 *)
              | Some ga =>
                  match c_gen2 cr ga rnd with
                  | None => ([], None)
                  | Some v => let '(vs, q') := gen_loop cr m (S i) g u resync in (v :: vs, q')
                  end
              end
          end
      end
  end.

(** data with algorithm NONE counts as absent, auc.c:52-57 *)
Definition use_2g (g : option aud2) : option aud2 :=
  match g with Some a => if g_algo a =? ALG_NONE then None else Some a | None => None end.
Definition use_3g (u : option aud3) : option aud3 :=
  match u with Some a => if u_algo a =? ALG_NONE then None else Some a | None => None end.

(** auc_compute_vectors, auc.c:34-188: [None] is -1, else the vectors and the final sequence
    number. [rand_auts], [auts]: NULL pointers are [None]. *)
Definition auc_compute_vectors (cr : crypto) (n : nat) (g : option aud2) (u : option aud3)
           (rand_auts auts : option (list N)) : option (list vec * option N) :=
  let g := use_2g g in
  let u := use_3g u in
  match g, u with
  | None, None => None
  | _, _ =>
      match rand_auts, auts with
      | Some ra, Some a => if is_some u then Some (gen_loop cr n 0 g u (Some (a, ra))) else None
      | None, None => Some (gen_loop cr n 0 g u None)
      | _, _ => None
      end
  end.

(** auc_3g_ind &= (1U << ind_bitlen) - 1, db_auc.c:226; [None]: shift count out of range *)
Definition mask_ind (bitlen : Z) (ind : N) : option N :=
  if (0 <=? bitlen) && (bitlen <? 32) then Some (N.land ind (2 ^ Z.to_N bitlen - 1)) else None.

(** db_get_auc, db_auc.c:205-262: return code and the vectors it stands for *)
Definition db_get_auc (cr : crypto) (imsi : string) (ind : N) (n : nat)
           (rand_auts auts : option (list N)) (sep : bool) : prog (Z * list vec) :=
  do r <- db_get_auth_data imsi;;
  match r with
  | inl rc => Ret (rc, [])
  | inr a =>
      match mask_ind (match ad_3g a with Some u => u_bitlen u | None => 0 end) ind with
      | None => Undef
      | Some ind' =>
          let u := match ad_3g a with
                   | Some u => Some (mk_aud3 (u_algo u) (u_k u) (u_opc u) (u_is_op u) (u_sqn u) (u_bitlen u) ind' sep)
                   | None => None
                   end in
          let res := auc_compute_vectors cr n (ad_2g a) u rand_auts auts in
          let ret := match res with
                     | Some (vs, _) => (Z.of_nat (length vs), vs)
                     | None => (-1, [])
                     end in
          match u with
          | Some ua =>
              if u_algo ua =? 0 then Ret ret
              else
                let q := match res with Some (_, Some q) => q | _ => u_sqn ua end in
                do rc <- db_update_sqn (ad_id a) q;;
                if rc <? 0 then Ret (-1, []) else Ret ret
          | None => Ret ret
          end
      end
  end.
