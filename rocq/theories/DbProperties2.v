(** Properties C05, C09, C10: the peer index for every name, and what a location update leaves in the database whatever fails. *)
From Verif Require Import Base PeerId Db DbSpec DbProofs DbThms DbThms3 DbThms5 DbThms6 DbProperties.

(** Whatever fails, and wherever the program dies: a location update leaves the database alone, or has set the
    number and proxy of the domain only, or these and the time; nothing else of the domain is touched
    (nor of the other domain: C05_lu_one_domain). *)
Theorem C05_lu_any_faults : forall x d id vlr via now c,
  let d' := run_db (db_subscr_lu id vlr (is_ps x) via now) c d in
  d' = d \/
  exists number proxy, ipa_cstr vlr = Some number /\ lu_proxy via = Some proxy /\
    (dom_changed x (fun r => s_id r =? id) (fun f => mk_dom (Some number) proxy (f_nam f) (f_purged f) (f_seen f)) d d' \/
     exists t, now = Some t /\
       dom_changed x (fun r => s_id r =? id) (fun f => mk_dom (Some number) proxy (f_nam f) (f_purged f) (Some t)) d d').
Proof. exact lu_any_faults. Qed.
Print Assumptions C05_lu_any_faults.

(** the second statement fails: the number of a subscriber that was seen before changes, the time does not *)
Definition ex_seen : db := run_db (db_subscr_lu 2 (ex_name "SGSN-1") true None (Some 1234)) [] ex_db.
Example C05_case_half :
  run_out (db_subscr_lu 2 (ex_name "SGSN-2") true None (Some 5678)) [EvOk; EvFail] ex_seen = Fin (-5) /\
  map (fun r => (s_vlr r, s_sgsn r, s_lu_cs r, s_lu_ps r))
    (d_sub (run_db (db_subscr_lu 2 (ex_name "SGSN-2") true None (Some 5678)) [EvOk; EvFail] ex_seen))
  = [(None, None, None, None); (None, Some "SGSN-2", None, Some 1234)]%string.
Proof. vm_compute. auto. Qed.

(** ** C09 for every peer name *)
Theorem C09_exact : forall h0 h1 p q s t c1 c2 i j,
  let d0 := db_hist h0 db_init in
  let d1 := run_db (db_ind p) c1 d0 in
  let d2 := db_hist h1 d1 in
  Z.of_nat (length h0 + length h1) < 4294967294 ->
  ipa_wf (p_ipa p) -> ipa_wf (p_ipa q) -> released_wf h1 ->
  text_before_nul p s -> text_before_nul q t -> not_cut_released s h1 ->
  run_out (db_ind p) c1 d0 = Fin (0, i) ->
  run_out (db_ind q) c2 d2 = Fin (0, j) ->
  (i = j <-> s = t).
Proof. exact c09_exact. Qed.
Print Assumptions C09_exact.

Theorem C09_who_is_given_one : forall p c d, ipa_wf (p_ipa p) -> no_fault c ->
  ((exists s, text_before_nul p s) <-> exists i, run_out (db_ind p) c d = Fin (0, i)) /\
  ((~ exists s, text_before_nul p s) ->
     run_out (db_ind p) c d = Fin (- ENOTSUP, 0%N) /\ run_db (db_ind p) c d = d).
Proof. exact c09_who. Qed.
Print Assumptions C09_who_is_given_one.

(** a name of two NULs is a name with an empty text and is served; one NUL is not *)
Definition peer_of (l : list ascii) : peer_id := snd (peer_set peer_zero (Some l)).
Example C09_exact_case :
  text_before_nul (peer_of ["A"; "000"; "x"; "000"]%char) "A" /\
  text_before_nul (peer_of ["000"; "000"]%char) "" /\
  ipa_wf (p_ipa (peer_of ["A"; "000"; "x"; "000"]%char)) /\
  (let h := [(AInd (peer_of ["A"; "000"; "x"; "000"]%char), []); (AInd (peer_of ["000"; "000"]%char), []);
             (AIndDel (peer_of ["B"; "000"]%char), [])] in
   map (fun p => run_out (db_ind p) [] (db_hist h db_init))
     [peer_of ["A"; "000"; "y"; "000"]%char; peer_of ["A"; "000"]%char; peer_of ["000"; "z"; "000"]%char;
      peer_of ["000"]%char; peer_of ["A"; "B"]%char]
   = [Fin (0, 1%N); Fin (0, 1%N); Fin (0, 2%N); Fin (- ENOTSUP, 0%N); Fin (- ENOTSUP, 0%N)]).
Proof.
  split; [|split; [|split]].
  - split; [reflexivity|]. split; [vm_compute; lia|]. split; [now exists ["A"; "000"; "x"]%char|].
    split; [|now exists ["x"; "000"]%char]. vm_compute. intros [H|H]; [discriminate H|contradiction].
  - split; [reflexivity|]. split; [vm_compute; lia|]. split; [now exists ["000"]%char|].
    split; [|now exists ["000"]%char]. exact (fun H => H).
  - vm_compute. split; lia.
  - vm_compute. reflexivity.
Qed.
