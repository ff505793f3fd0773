(** Property C66: octets on the GSUP connections of the HLR. *)
From Verif Require Import Base PeerId Db Auth Gsup Router Hlr HlrSpec HlrThms RouterThms HlrThms2 HlrExamples Frame FrameSpec FrameThms AuthProperties.

(** Full statement: whatever octets a client sends, the HLR handles the messages in them (those that can be decoded) and lives on, passes on messages
    for others as they came, and keeps no buffer. Proved but for messages to others with more than 1024 octets ([C66_long_forward_refuted]) and OAP
    messages ([C66_oap_refuted]). *)

(** messages do what Hlr.v says of the event they stand for; anything else does nothing *)
Theorem C66_as_modelled_partial : forall dec ccm k w s cid x proto payload c d, find_conn (t_srv s) cid = Some x -> (length payload <= 1025)%nat ->
  (forall e, meaning dec ccm cid proto payload e ->
     run (do x <- read_frame dec ccm k w s cid proto payload;; Ret (fst x)) c d = run (handle k w s e) c d) /\
  ((forall e, ~ meaning dec ccm cid proto payload e) ->
     exists s', run (read_frame dec ccm k w s cid proto payload) c d = (Fin (s', [], []), d, c) /\ same_but_nr s s').
Proof.
  intros dec ccm k w s cid x proto payload c d F L. split.
  - intros e M. destruct (read_frame_means dec ccm k w s cid proto payload e c d L M) as [E|E]; [exact E|congruence].
  - intros H. apply read_frame_nothing. intros [e M]. exact (H e M).
Qed.
Print Assumptions C66_as_modelled_partial.

(** messages for others are passed on octet for octet, and the node they are for reads them as they were sent *)
Theorem C66_verbatim : forall dec ccm k w s cid proto payload c d s' o v n o8,
  run_out (read_frame dec ccm k w s cid proto payload) c d = Fin (s', o, v) -> In (n, o8) v ->
  exists l2 g, proto = 238%N /\ payload = 5%N :: l2 /\ dec l2 = Some g /\ In (OTx n g) o /\
    framed l2 o8 /\ forall rest, ipa_recv (o8 ++ rest) = RFrame proto payload rest.
Proof.
  intros dec ccm k w s cid proto payload c d s' o v n o8 H Hi. destruct (read_frame_wire _ _ _ _ _ _ _ _ _ _ _ _ _ _ _ H Hi) as (l2 & g & -> & -> & Ed & Fr & Ho & L).
  exists l2, g. repeat split; auto. intros rest. apply recv_framed; [exact Fr|lia].
Qed.
Print Assumptions C66_verbatim.

(** nothing is left behind by other messages *)
Theorem C66_freed_partial : forall l, (forall m, In m l -> forall p, m <> (238%N, 6%N :: p)) -> leaked l = O.
Proof. exact leaked_none. Qed.
Print Assumptions C66_freed_partial.

(** any client that has told its name can end the process with one message to any other name, connected or not *)
Theorem C66_long_forward_refuted : forall dec ccm k d0 es s d o w cid x g l2 f,
  hist k (hst0, d0) es = Some (s, d, o) -> find_conn (t_srv s) cid = Some x ->
  dec l2 = Some g -> imsi_valid (g_imsi g) = true -> g_src g <> [] -> g_src g = ipa_bytes (c_name x) ->
  g_dst g <> [] -> (length (g_dst g) <= 128)%nat -> g_dst g <> own_name k -> (1024 < length l2 <= 1196)%nat ->
  forall o8 rest, framed l2 o8 -> ipa_recv (o8 ++ rest) = RFrame 238 (5%N :: l2) rest /\ run_out (read_frame dec ccm k w s cid 238 (5%N :: l2)) f d = Ub.
Proof.
  intros dec ccm k d0 es s d o w cid x g l2 f H F Ed Im Ns Es Nd Ld No [Hl Hu] o8 rest Fr. split; [apply recv_framed; assumption|].
  apply (read_frame_long dec ccm k w s cid x g l2 f d); auto. exact (hist_sinv _ _ _ _ _ _ _ sinv0 H).
Qed.
Print Assumptions C66_long_forward_refuted.

(** every OAP message stays in memory *)
Theorem C66_oap_refuted : forall n p, leaked (repeat (238%N, 6%N :: p) n) = n.
Proof. exact leaked_oap. Qed.
Print Assumptions C66_oap_refuted.

(** a buffer never grows, what is in it stays, and the process ends only when there is really no room *)
Theorem C66_room : forall m l,
  match msgb_put m l with
  | Some m' => mb_data m' = mb_data m ++ l /\ mb_head m' = mb_head m /\ size m' = size m
  | None => (size m < mb_head m + length (mb_data m ++ l))%nat
  end /\
  match msgb_push m l with
  | Some m' => mb_data m' = l ++ mb_data m /\ mb_tail m' = mb_tail m /\ size m' = size m
  | None => (size m < length (l ++ mb_data m) + mb_tail m)%nat
  end.
Proof. intros m l. split; [apply put_room|apply push_room]. Qed.
Print Assumptions C66_room.

(** ** Cases *)
Definition ex_bye : gsup := ex_from_to (nm "MSC-1") (nm "SMSC-1") (ex_msg MSGT_PURGE_MS_REQUEST ex_imsi).
(** a decoder for the examples: octets that begin with 12 are this message *)
Definition ex_dec (l : list N) : option gsup := match l with 12%N :: _ => Some ex_bye | _ => None end.
Definition ex_ccm (l : list N) : option (option (list ascii)) := match l with 5%N :: r => Some (Some (map (fun n => ascii_of_N n) r)) | _ => None end.
Definition ex_two : option (hst * db) := option_map fst (hist ex_cfg (hst0, ex_db2) (ex_peer_up 0 "MSC-1" ++ ex_peer_up 1 "SMSC-1")).
(** connection 0 (MSC-1) sends a frame: the log and the octets written *)
Definition ex_frame (proto : N) (p : list N) : option (list brief * wire) :=
  match ex_two with
  | Some (s, d) =>
      match run_out (read_frame ex_dec ex_ccm ex_cfg ex_world s 0 proto p) [] d with
      | Fin (_, o, v) => Some (map short o, v)
      | _ => None
      end
  | None => None
  end.
Example C66_case : ex_frame 238 [5; 12; 1; 2]%N = Some ([BRx 0 0 12; BTx 1 12; BFree 0], [(1%nat, [0; 4; 238; 5; 12; 1; 2]%N)])
  /\ ex_frame 238 [5; 99]%N = Some ([], []) /\ ex_frame 238 [5]%N = Some ([], []) /\ ex_frame 0 [5; 12]%N = Some ([], [])
  /\ meaning ex_dec ex_ccm 0 238 [5; 12; 1; 2]%N (ERx 0 ex_bye).
Proof. repeat (split; [vm_compute; reflexivity|]). constructor; [discriminate|reflexivity]. Qed.
Example C66_case_recv : ipa_recv [0; 4; 238; 5; 12; 1; 2; 0]%N = RFrame 238 [5; 12; 1; 2]%N [0%N] /\ ipa_recv [0; 4; 238; 5]%N = RMore
  /\ ipa_recv [255; 0; 238; 5]%N = RClose.
Proof. repeat split; vm_compute; reflexivity. Qed.
(** the last octet that fits, and one more *)
Example C66_case_long : (exists o v, ex_frame 238 (5 :: 12 :: repeat 0 1023)%N = Some (o, v) /\ length v = 1%nat) /\ ex_frame 238 (5 :: 12 :: repeat 0 1024)%N = None
  /\ exists s d x, ex_two = Some (s, d) /\ find_conn (t_srv s) 0 = Some x /\ g_src ex_bye = ipa_bytes (c_name x) /\ g_dst ex_bye <> own_name ex_cfg.
Proof.
  split; [do 2 eexists; split; [vm_compute; reflexivity|reflexivity]|]. split; [vm_compute; reflexivity|].
  do 3 eexists. split; [vm_compute; reflexivity|]. split; [vm_compute; reflexivity|]. split; [vm_compute; reflexivity|]. vm_compute. discriminate.
Qed.
Example C66_case_leak : leaked [(254, [1]); (238, [6; 1]); (238, [5; 12]); (238, [6])]%N = 2%nat.
Proof. reflexivity. Qed.
Example C66_case_room : msgb_put (msgb_alloc 8 5) [1; 2]%N = Some (mk_msgb 5 [1; 2]%N 1) /\ msgb_put (msgb_alloc 8 5) [1; 2; 3; 4]%N = None
  /\ msgb_push (msgb_alloc 8 5) [1; 2]%N = Some (mk_msgb 3 [1; 2]%N 3).
Proof. repeat split. Qed.
