(** Properties C08 and C27: peer names. *)
From Verif Require Import Base PeerId Db DbSpec DbProofs DbThms DbThms2 DbThms3 DbProperties
  Auth AuthSpec AuthThms AuthProperties PeerSpec PeerThms PeerThms2.

(** ** C27 *)
(** The comparison is the lexicographic order of the name bytes, whatever else is in the buffers. *)
Theorem C27_cmp_is_byte_order : forall a b, ipa_wf a -> ipa_wf b ->
  (ipa_cmp a b = 0 <-> ipa_bytes a = ipa_bytes b) /\
  (ipa_cmp a b < 0 <-> bytes_lt (ipa_bytes a) (ipa_bytes b)) /\
  (0 < ipa_cmp a b <-> bytes_lt (ipa_bytes b) (ipa_bytes a)).
Proof. exact c27_spec. Qed.
Print Assumptions C27_cmp_is_byte_order.

Theorem C27_total_order : forall a b c, ipa_wf a -> ipa_wf b -> ipa_wf c ->
  ipa_cmp a a = 0 /\ (ipa_cmp a b < 0 <-> 0 < ipa_cmp b a) /\ (ipa_cmp a b = 0 <-> ipa_cmp b a = 0) /\
  (ipa_cmp a b <= 0 -> ipa_cmp b c <= 0 -> ipa_cmp a c <= 0) /\
  (ipa_cmp a b < 0 -> ipa_cmp b c <= 0 -> ipa_cmp a c < 0) /\
  (ipa_cmp a b <= 0 -> ipa_cmp b c < 0 -> ipa_cmp a c < 0).
Proof. exact c27_order. Qed.
Print Assumptions C27_total_order.

Theorem C27_peer_ids : forall a b,
  p_type a = PT_IPA -> p_type b = PT_IPA -> ipa_wf (p_ipa a) -> ipa_wf (p_ipa b) ->
  (peer_cmp a b = 0 <-> ipa_bytes (p_ipa a) = ipa_bytes (p_ipa b)) /\
  (peer_cmp a b < 0 <-> bytes_lt (ipa_bytes (p_ipa a)) (ipa_bytes (p_ipa b))) /\
  (0 < peer_cmp a b <-> bytes_lt (ipa_bytes (p_ipa b)) (ipa_bytes (p_ipa a))).
Proof. exact c27_peer. Qed.
Print Assumptions C27_peer_ids.

(** a peer without a name sorts before every named one *)
Theorem C27_unnamed_first : forall a b, p_type a = PT_EMPTY -> p_type b = PT_IPA -> peer_cmp a b < 0 /\ 0 < peer_cmp b a.
Proof. exact c27_peer_unnamed. Qed.
Print Assumptions C27_unnamed_first.

(** setting a name gives exactly those bytes, also over an older longer name *)
Theorem C27_set_gives_bytes : forall old l rc n, ipa_wf old -> ipa_set old (Some l) = (rc, n) ->
  ipa_wf n /\ ((rc = 0 /\ ipa_bytes n = l) \/ (rc = - ENOSPC /\ n = old /\ (IPA_MAX < length l)%nat)).
Proof. exact ipa_set_bytes. Qed.
Print Assumptions C27_set_gives_bytes.

(** Setting a name by text gives the text and a NUL; what is longer than 127 characters is cut. *)
Theorem C27_set_text : forall old s, ipa_wf old -> (forall j, String.get j s <> Some "%"%char) ->
  exists n a b, ipa_set_str old (Some s) = Some n /\ s = (a ++ b)%string /\ ipa_wf n /\ ipa_bytes n = bytes_of a ++ [nul] /\
    p_type (peer_set_str s) = PT_IPA /\ ipa_wf (p_ipa (peer_set_str s)) /\ ipa_bytes (p_ipa (peer_set_str s)) = bytes_of a ++ [nul] /\
    ((String.length s <= 127)%nat -> b = ""%string) /\ ((127 < String.length s)%nat -> String.length a = 127%nat).
Proof. exact c27_text. Qed.
Print Assumptions C27_set_text.
Example C27_case_text : let s := str_of (repeat "x"%char 127) in
  ipa_bytes (p_ipa (peer_set_str (s ++ "y"))) = ipa_bytes (p_ipa (peer_set_str s)) /\ length (ipa_bytes (p_ipa (peer_set_str s))) = 128%nat /\
  option_map ipa_bytes (ipa_set_str (p_ipa (peer_set_str s)) (Some "MSC-1"%string)) = Some (bytes_of "MSC-1" ++ [nul]).
Proof. vm_compute. auto. Qed.

(** a prefix with the stale tail of a longer name *)
Example C27_case :
  let long := snd (ipa_set ipa_empty (Some (bytes_of "MSC-1234"))) in
  let short := snd (ipa_set long (Some (bytes_of "MSC-"))) in
  let other := snd (ipa_set ipa_empty (Some (bytes_of "MSC-0"))) in
  in_val short = in_val long /\ ipa_cmp short long = -1 /\ ipa_cmp other short = 1 /\ ipa_cmp other long = -1 /\
  ipa_cmp ipa_empty short = -1.
Proof. vm_compute. auto 10. Qed.

(** peer ids without a name: neither equal nor ordered *)
Theorem C27_empty_peer_ids_refuted : exists a b, p_type a = PT_EMPTY /\ p_type b = PT_EMPTY /\
  peer_cmp a b < 0 /\ peer_cmp b a < 0.
Proof. exists peer_zero, peer_zero. vm_compute. auto. Qed.
Print Assumptions C27_empty_peer_ids_refuted.

(** ** C08 *)
(** Full claim: for every peer name. Holds for names of at most 31 characters ended by their only
    NUL, and proxy names without percent sign; the other names are refuted below. *)
Theorem C08_round_trip_partial : forall d imsi id vlr (ps : bool) via now tz c c',
  db_ok d -> is_subscriber d imsi id -> text_name 31 vlr -> via_ok via -> proxies_plain d id ->
  run_out (db_subscr_lu id vlr ps via now) c d = Fin 0 -> no_fault c' ->
  exists h, run_out (db_subscr_get_by_imsi tz imsi) c' (run_db (db_subscr_lu id vlr ps via now) c d) = Fin (0, Some h) /\
    text_names (sub_number ps h) vlr /\
    ipa_bytes (sub_proxy ps h) = match via with Some p => ipa_bytes p | None => [] end.
Proof. exact c08_round_trip. Qed.
Print Assumptions C08_round_trip_partial.

Definition read_sub (imsi : string) (d : db) : option subscriber :=
  match run_out (db_subscr_get_by_imsi 0 imsi) [] d with Fin (_, s) => s | _ => None end.
Definition ex_lu (n : ipa_name) (via : option ipa_name) : db := run_db (db_subscr_lu 2 n false via (Some 1)) [] ex_db2.

Example C08_case :
  match read_sub "901700000002" (ex_lu (ex_name "MSC-00-00-00-00-00-00") (Some (ex_name "HLR-7"))) with
  | Some h => h_vlr h = "MSC-00-00-00-00-00-00"%string /\ ipa_bytes (h_vlr_proxy h) = bytes_of "HLR-7" ++ [nul] /\ h_sgsn h = ""%string
  | None => False
  end.
Proof. vm_compute. auto. Qed.

(** names are cut at 31 characters: two nodes become one *)
Theorem C08_long_names_collide_refuted : exists d n1 n2 h1 h2,
  db_ok d /\ is_subscriber d "901700000002" 2 /\ text_name 127 n1 /\ text_name 127 n2 /\ ipa_bytes n1 <> ipa_bytes n2 /\
  run_out (db_subscr_lu 2 n1 false None (Some 1)) [] d = Fin 0 /\ run_out (db_subscr_lu 2 n2 false None (Some 1)) [] d = Fin 0 /\
  run_out (db_subscr_get_by_imsi 0 "901700000002") [] (run_db (db_subscr_lu 2 n1 false None (Some 1)) [] d) = Fin (0, Some h1) /\
  run_out (db_subscr_get_by_imsi 0 "901700000002") [] (run_db (db_subscr_lu 2 n2 false None (Some 1)) [] d) = Fin (0, Some h2) /\
  h_vlr h1 = h_vlr h2 /\ ~ text_names (h_vlr h1) n1 /\ ~ text_names (h_vlr h2) n2.
Proof.
  set (s1 := "MSC-region-north-aaaaaaaaaaaaaa-1"%string). set (s2 := "MSC-region-north-aaaaaaaaaaaaaa-2"%string).
  exists ex_db2, (ex_name s1), (ex_name s2).
  eexists. eexists. split; [apply ex_db2_ok|]. split; [apply ex_sub2|].
  assert (N : forall s, In s [s1; s2] -> text_name 127 (ex_name s)).
  { intros s Hs; exists s; destruct Hs as [<-|[<-|[]]]; (split; [vm_compute; reflexivity|]; split; [|vm_compute; lia]);
      intros H; vm_compute in H; repeat (destruct H as [H|H]; [discriminate|]); contradiction. }
  split; [apply N; now left|]. split; [apply N; right; now left|].
  split; [vm_compute; discriminate|]. split; [reflexivity|]. split; [reflexivity|].
  split; [vm_compute; reflexivity|]. split; [vm_compute; reflexivity|].
  split; [reflexivity|]. split; vm_compute; discriminate.
Qed.
Print Assumptions C08_long_names_collide_refuted.

(** a name without terminating NUL reads back as another name *)
Theorem C08_unterminated_name_refuted : exists d n h,
  db_ok d /\ is_subscriber d "901700000002" 2 /\ ipa_wf n /\ ipa_bytes n = bytes_of "MSC-1" /\
  run_out (db_subscr_lu 2 n false None (Some 1)) [] d = Fin 0 /\
  run_out (db_subscr_get_by_imsi 0 "901700000002") [] (run_db (db_subscr_lu 2 n false None (Some 1)) [] d) = Fin (0, Some h) /\
  ~ text_names (h_vlr h) n.
Proof.
  exists ex_db2, (snd (ipa_set ipa_empty (Some (bytes_of "MSC-1")))). eexists.
  split; [apply ex_db2_ok|]. split; [apply ex_sub2|]. split; [split; [reflexivity|vm_compute; lia]|].
  split; [reflexivity|]. split; [reflexivity|]. split; [vm_compute; reflexivity|]. vm_compute. discriminate.
Qed.
Print Assumptions C08_unterminated_name_refuted.

(** a full length name without NUL is read past its buffer *)
Theorem C08_full_length_name_overread_refuted : exists d n, db_ok d /\ is_subscriber d "901700000002" 2 /\ ipa_wf n /\
  run_out (db_subscr_lu 2 n false None (Some 1)) [] d = Ub.
Proof.
  exists ex_db2, (snd (ipa_set ipa_empty (Some (repeat "x"%char 128)))).
  split; [apply ex_db2_ok|]. split; [apply ex_sub2|]. split; [split; [reflexivity|vm_compute; lia]|]. reflexivity.
Qed.
Print Assumptions C08_full_length_name_overread_refuted.

(** a proxy name is used as printf format when read back *)
Theorem C08_percent_in_proxy_name_refuted : exists d n p, db_ok d /\ is_subscriber d "901700000002" 2 /\
  text_name 31 n /\ text_name 31 p /\
  run_out (db_subscr_lu 2 n false (Some p) (Some 1)) [] d = Fin 0 /\
  run_out (db_subscr_get_by_imsi 0 "901700000002") [] (run_db (db_subscr_lu 2 n false (Some p) (Some 1)) [] d) = Ub.
Proof.
  exists ex_db2, (ex_name "MSC-1"), (ex_name "HLR-%s").
  split; [apply ex_db2_ok|]. split; [apply ex_sub2|].
  assert (N : forall s, In s ["MSC-1"; "HLR-%s"]%string -> text_name 31 (ex_name s)).
  { intros s Hs; exists s; destruct Hs as [<-|[<-|[]]]; (split; [vm_compute; reflexivity|]; split; [|vm_compute; lia]);
      intros H; vm_compute in H; repeat (destruct H as [H|H]; [discriminate|]); contradiction. }
  split; [apply N; now left|]. split; [apply N; right; now left|]. split; reflexivity.
Qed.
Print Assumptions C08_percent_in_proxy_name_refuted.

(** Every name, exactly. The location update is undefined iff a buffer of 128 bytes that is used
    has no NUL. *)
Theorem C08_undefined : forall d id vlr (ps : bool) via now c,
  run_out (db_subscr_lu id vlr ps via now) c d = Ub <->
  ~ In nul (in_val vlr) \/ exists p, given via p /\ ~ In nul (in_val p).
Proof. exact c08_undefined. Qed.
Print Assumptions C08_undefined.

(** Otherwise the number read back is the text up to the first NUL of the buffer, also beyond the
    length of the name, cut at 31 characters; the proxy that text cut at 127 characters. Reading is
    undefined iff the proxy of this or of the other domain has a percent sign. *)
Theorem C08_exact : forall d imsi id vlr (ps : bool) via now tz c c',
  db_ok d -> is_subscriber d imsi id ->
  run_out (db_subscr_lu id vlr ps via now) c d = Fin 0 -> no_fault c' ->
  exists t, begins_text (in_val vlr) t /\
    let o := run_out (db_subscr_get_by_imsi tz imsi) c' (run_db (db_subscr_lu id vlr ps via now) c d) in
    (o = Ub <-> (exists p u, given via p /\ begins_text (in_val p) u /\ ~ plain_text u) \/
                (exists r u, In r (d_sub d) /\ s_id r = id /\ other_proxy ps r = Some u /\ ~ plain_text u)) /\
    (o <> Ub -> exists h, o = Fin (0, Some h) /\ cut_at 31 t (sub_number ps h) /\ proxy_read via (sub_proxy ps h)).
Proof. exact c08_exact. Qed.
Print Assumptions C08_exact.

(** So two peers are confused iff their texts agree when cut at 31 characters. *)
Theorem C08_confused : forall d imsi id v1 v2 (ps : bool) via1 via2 now1 now2 tz c1 c2 c' t1 t2 h1 h2,
  db_ok d -> is_subscriber d imsi id -> no_fault c' ->
  run_out (db_subscr_lu id v1 ps via1 now1) c1 d = Fin 0 -> run_out (db_subscr_lu id v2 ps via2 now2) c2 d = Fin 0 ->
  begins_text (in_val v1) t1 -> begins_text (in_val v2) t2 ->
  run_out (db_subscr_get_by_imsi tz imsi) c' (run_db (db_subscr_lu id v1 ps via1 now1) c1 d) = Fin (0, Some h1) ->
  run_out (db_subscr_get_by_imsi tz imsi) c' (run_db (db_subscr_lu id v2 ps via2 now2) c2 d) = Fin (0, Some h2) ->
  (sub_number ps h1 = sub_number ps h2 <-> exists a, cut_at 31 t1 a /\ cut_at 31 t2 a).
Proof. exact c08_confused. Qed.
Print Assumptions C08_confused.

(** The name left in the buffer by a longer one: after "MSC-10", the five bytes "MSC-1" without NUL
    are read as "MSC-10" again. *)
Example C08_exact_case :
  let n := snd (ipa_set (ex_name "MSC-10") (Some (bytes_of "MSC-1"))) in
  ipa_bytes n = bytes_of "MSC-1" /\ begins_text (in_val n) "MSC-10" /\
  cut_at 31 "MSC-10" "MSC-10" /\ cut_at 31 "MSC-region-north-aaaaaaaaaaaaaa-1" "MSC-region-north-aaaaaaaaaaaaaa" /\
  match read_sub "901700000002" (ex_lu n None) with Some h => h_vlr h = "MSC-10"%string | None => False end.
Proof.
  cbv zeta. split; [vm_compute; reflexivity|]. split.
  { split; [cbn; intros H; repeat (destruct H as [H|H]; [discriminate|]); contradiction|]. eexists. vm_compute. reflexivity. }
  split; [exists ""%string; cbn; repeat split; [lia|contradiction]|].
  split; [exists "-1"%string; cbn; repeat split; lia|]. vm_compute. reflexivity.
Qed.
