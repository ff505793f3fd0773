(** Declarative vocabulary for the authentication properties. *)
From Verif Require Import Base PeerId Db DbSpec Auth.

(** [c] is a hexadecimal digit of value [v], lower or upper case *)
Definition digit_value (c : ascii) (v : N) : Prop :=
  String.get (N.to_nat v) "0123456789abcdef" = Some c \/ String.get (N.to_nat v) "0123456789ABCDEF" = Some c.
(** the string spells the bytes, two digits each *)
Inductive spells : string -> list N -> Prop :=
| spells_nil : spells EmptyString []
| spells_cons c1 c2 r v1 v2 l :
    digit_value c1 v1 -> digit_value c2 v2 -> spells r l ->
    spells (String c1 (String c2 r)) ((16 * v1 + v2)%N :: l).

(** every stored key row could have been written by the API *)
Definition keys_wellformed (d : db) : Prop :=
  (forall a, In a (d_auc2 d) -> hex_string 32 32 (a2_ki a)) /\
  (forall a, In a (d_auc3 d) ->
     hex_string 32 64 (a3_k a) /\ 0 <= a3_ind_bitlen a <= 28 /\
     ((exists o, a3_op a = Some o /\ a3_opc a = None /\ hex_string 32 64 o) \/
      (exists o, a3_op a = None /\ a3_opc a = Some o /\ hex_string 32 64 o))).

(** the argument of a key update is acceptable *)
Definition acceptable (a : aud_str) : Prop :=
  match a with
  | AudGsm algo ki => algo = 0 \/ ((algo = 1 \/ algo = 2 \/ algo = 3 \/ algo = 6) /\ hex_string 32 32 ki)
  | AudUmts algo k opc _ bl =>
      algo = 0 \/ ((algo = 4 \/ algo = 5) /\ hex_string 32 64 k /\ hex_string 32 64 opc /\ 0 <= bl <= 28)
  | AudOther => False
  end.

(** [imsi] is in the database under id [id] *)
Definition is_subscriber (d : db) (imsi : string) (id : Z) : Prop :=
  exists r, In r (d_sub d) /\ s_imsi r = imsi /\ s_id r = id.

(** the 2G (3G) key row of a subscriber id *)
Definition key2 (d : db) (id : Z) (a : auc2_row) : Prop := In a (d_auc2 d) /\ a2_id a = id.
Definition key3 (d : db) (id : Z) (a : auc3_row) : Prop := In a (d_auc3 d) /\ a3_id a = id.

(** next sequence number of a SIM array scheme (3GPP TS 33.102 Annex C.1.2): the next multiple
    of 2^b above the block of [q], plus the index. *)
Definition next_sqn (b : Z) (q ind : N) : N :=
  ((q / 2 ^ Z.to_N b + 1) * 2 ^ Z.to_N b + ind)%N.

(** Assumed behaviour of an algorithm implementation of libosmocore (checked by reading for
    MILENAGE: milenage_gen_vec, milenage_gen_vec_auts): a generated vector carries the next
    sequence number modulo 2^48 and leaves it (as a 64 bit number) in the key data, a failure
    leaves the number alone; resynchronisation first takes over the number the SIM sent. *)
Record sqn_contract (cr : crypto) (alg : Z) (sim_sqn : aud3 -> list N -> list N -> option N) : Prop := {
  sc_gen : forall u rnd v q, u_algo u = alg -> c_gen3 cr u rnd = (Some v, q) ->
    (u_ind u < 2 ^ Z.to_N (u_bitlen u))%N /\
    q = (next_sqn (u_bitlen u) (u_sqn u) (u_ind u) mod 2 ^ 64)%N /\ v_sqn v = Some (q mod 2 ^ 48)%N;
  sc_gen_fail : forall u rnd q, u_algo u = alg -> c_gen3 cr u rnd = (None, q) -> q = u_sqn u;
  sc_auts : forall u auts ra rnd v q, u_algo u = alg -> c_auts cr u auts ra rnd = (Some v, q) ->
    exists ms, sim_sqn u auts ra = Some ms /\ (u_ind u < 2 ^ Z.to_N (u_bitlen u))%N /\
    q = (next_sqn (u_bitlen u) ms (u_ind u) mod 2 ^ 64)%N /\ v_sqn v = Some (q mod 2 ^ 48)%N;
  sc_auts_fail : forall u auts ra rnd q, u_algo u = alg -> c_auts cr u auts ra rnd = (None, q) ->
    q = u_sqn u \/ sim_sqn u auts ra = Some q;
  sc_gen2 : forall g rnd v, c_gen2 cr g rnd = Some v -> v_sqn v = None;
  sc_sim : forall u auts ra ms, sim_sqn u auts ra = Some ms -> (ms < 2 ^ 48)%N }.

(** sequence numbers in a list of vectors, in order *)
Definition sqns (vs : list vec) : list N :=
  flat_map (fun v => match v_sqn v with Some q => [q] | None => [] end) vs.
(** strictly increasing *)
Inductive increasing : list N -> Prop :=
| inc_nil : increasing []
| inc_one x : increasing [x]
| inc_cons x y l : (x < y)%N -> increasing (y :: l) -> increasing (x :: y :: l).

(** One step of a history: a database call or a request for vectors, each with its own
    storage-fault schedule; a request also with its own crypto environment. *)
Inductive op :=
| OpApi (a : api) (c : sched)
| OpAuc (cr : crypto) (imsi : string) (ind : N) (n : nat) (rand_auts auts : option (list N)) (sep : bool) (c : sched).

(** database afterwards, and the vectors handed out for [imsi] *)
Definition op_step (imsi : string) (d : db) (o : op) : db * list vec :=
  match o with
  | OpApi a c => (run_db (api_prog a) c d, [])
  | OpAuc cr i ind n ra au sep c =>
      let p := db_get_auc cr i ind n ra au sep in
      (run_db p c d,
       if (i =? imsi)%string then match run_out p c d with Fin (_, vs) => vs | _ => [] end else [])
  end.
Fixpoint op_hist (imsi : string) (d : db) (h : list op) : db * list vec :=
  match h with
  | [] => (d, [])
  | o :: h' => let '(d1, vs) := op_step imsi d o in
               let '(d2, vs') := op_hist imsi d1 h' in (d2, vs ++ vs')
  end.

(** the step leaves key and record of subscriber [id] alone (it may read them, and generate vectors) *)
Definition keeps_key (id : Z) (o : op) : Prop :=
  match o with
  | OpApi (ADelete i) _ => i <> id
  | OpApi (AAud i (AudUmts _ _ _ _ _)) _ => i <> id
  | OpApi (ASqn i _) _ => i <> id
  | _ => True
  end.
(** a request for [imsi] is no resynchronisation and its environment satisfies the contract *)
Definition plain_request (imsi : string) (alg : Z) (o : op) : Prop :=
  match o with
  | OpAuc cr i _ _ ra au _ _ => i = imsi -> au = None /\ exists f, sqn_contract cr alg f
  | _ => True
  end.
(** number of vectors asked for [imsi] *)
Definition asked (imsi : string) (o : op) : N :=
  match o with OpAuc _ i _ n _ _ _ _ => if (i =? imsi)%string then N.of_nat n else 0 | _ => 0 end.
Definition total_asked (imsi : string) (h : list op) : N := fold_right N.add 0%N (map (asked imsi) h).
