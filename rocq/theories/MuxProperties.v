(** C47 (dispatching in a GSUP client): theorems and cases. *)
From Verif Require Import Base PeerId Auth Gsup ClientMux MuxSpec MuxThms.
Local Open Scope Z_scope.

(** A message with an IMSI is handed to a receiver iff that is the one set for the class the message belongs to; at most one is
    called, and nothing is sent. Without the four message types of C47_class_refuted. *)
Theorem C47_delivery_partial : forall m g, g_imsi g <> "" -> 0 <= g_type g -> ~ sent_by_msc (g_type g) ->
  mux_rx m (Some g) = if (1 <=? belongs g) && (belongs g <=? 4) && m_rx m (belongs g) then [MDeliver (belongs g) g] else [].
Proof.
  intros m g E P N. pose proof (classify_belongs g P N) as C. unfold mux_rx. apply String.eqb_neq in E. rewrite E, C.
  unfold CLASS_UNSET, CLASS_ARRAYSIZE.
  destruct (Z.leb_spec (belongs g) 0), (Z.leb_spec 5 (belongs g)), (Z.leb_spec 1 (belongs g)), (Z.leb_spec (belongs g) 4); try lia; cbn [orb andb negb]; try reflexivity.
  destruct (m_rx m (belongs g)); reflexivity.
Qed.
Print Assumptions C47_delivery_partial.

(** An explicit class decides alone, for every type. *)
Theorem C47_explicit : forall m g cls, g_imsi g <> "" -> g_class g <> 0 ->
  (In (MDeliver cls g) (mux_rx m (Some g)) <-> cls = g_class g /\ 1 <= cls <= 4 /\ m_rx m cls = true).
Proof.
  intros m g cls E C. rewrite (mux_deliver m g cls E). unfold mux_classify. apply Z.eqb_neq in C. rewrite C. reflexivity.
Qed.
Print Assumptions C47_explicit.

(** Whatever arrives, decodable or not: nothing, one delivery of that message or one answer; an answer only to a request, towards
    its sender, as the error of that request, with the same IMSI, class, message reference and session. *)
Theorem C47_answers : forall m d, mux_rx m d = [] \/ (exists g, d = Some g /\ mux_rx m d = [MDeliver (mux_classify g) g]) \/
  (exists g r, d = Some g /\ g_imsi g = "" /\ is_request (g_type g) = true /\ mux_rx m d = [MSend r] /\ error_for m 96 g r).
Proof. intros m d. exact (mux_outputs m d). Qed.
Print Assumptions C47_answers.

(** The only requests that are answered: those without an IMSI, over a connected client. *)
Theorem C47_no_imsi : forall m g, g_imsi g = "" -> is_request (g_type g) = true -> m_conn m = true -> (forall r, m_enc m r = true) ->
  exists r, mux_rx m (Some g) = [MSend r] /\ error_for m 96 g r.
Proof. intros m g E R C N. exact (mux_answers m g E R C N). Qed.
Print Assumptions C47_no_imsi.

(** The function by which receivers answer: an error goes out for a request, and for nothing else. *)
Theorem C47_error_reply : forall m g cause,
  (g_type g mod 4 <> 0 -> mux_tx_error_reply m g cause = []) /\
  (g_type g mod 4 = 0 -> m_conn m = true -> (forall r, m_enc m r = true) -> exists r, mux_tx_error_reply m g cause = [MSend r] /\ error_for m cause g r).
Proof. exact mux_error_reply. Qed.
Print Assumptions C47_error_reply.

(** What a receiver sends itself goes out unchanged, over a connected client and if it can be encoded. *)
Theorem C47_send : forall m g, (mux_tx m g = [MSend g] <-> m_conn m = true /\ m_enc m g = true) /\ (mux_tx m g = [MSend g] \/ mux_tx m g = []).
Proof. intros m g. unfold mux_tx. destruct (m_enc m g), (m_conn m); cbn; split; auto; split; intros H; try discriminate; try (destruct H; discriminate); auto. Qed.
Print Assumptions C47_send.

(** ** Cases *)
Definition mx (l : list Z) : mux := mk_mux (fun c => existsb (Z.eqb c) l) (Some "MSC-1") true (fun _ => true).
Definition mg (t cls : Z) : gsup := mk_gsup t "001010000000001" 0 cls (bytes_of "HLR" ++ [nul]) [] None 7 SS_BEGIN 0 ext0.

(** A request for a class without receiver, or of a class that does not exist, is dropped without an answer. *)
Theorem C47_no_receiver_refuted : exists m g, is_request (g_type g) = true /\ m_conn m = true /\ (forall r, m_enc m r = true) /\
  (forall cls, ~ In (MDeliver cls g) (mux_rx m (Some g))) /\ mux_rx m (Some g) = [].
Proof.
  exists (mx [1; 2]), (mg 32 0). split; [reflexivity|]. split; [reflexivity|]. split; [reflexivity|].
  assert (E : mux_rx (mx [1; 2]) (Some (mg 32 0)) = []) by (vm_compute; reflexivity). rewrite E. split; [intros cls []|reflexivity].
Qed.
Print Assumptions C47_no_receiver_refuted.

(** Four types of short message procedures are taken for subscriber management unless the class is given. *)
Theorem C47_class_refuted : forall t, sent_by_msc t -> exists m g, g_type g = t /\ g_class g = 0 /\ procedure_class t = 2 /\
  m_rx m 2 = true /\ mux_rx m (Some g) = [MDeliver 1 g].
Proof. intros t [-> |[-> |[-> | ->]]]; exists (mx [1; 2; 3]); eexists (mg _ 0); vm_compute; auto. Qed.
Print Assumptions C47_class_refuted.

Example C47_case :
  map (fun x => match x with MDeliver c _ => c | MSend _ => -1 end)
      (flat_map (fun t => mux_rx (mx [1; 2; 3; 4]) (Some (mg t 0))) [6; 32; 33; 34; 37; 38; 40; 45; 46; 50; 78]) = [1; 3; 3; 3; 2; 2; 2; 2; 2; 1; 1]
  /\ mux_rx (mx [1; 4]) (Some (mg 32 4)) = [MDeliver 4 (mg 32 4)]
  /\ mux_rx (mx [1; 2; 3; 4]) (Some (mg 32 9)) = []
  /\ mux_rx (mx [1]) None = [].
Proof. vm_compute. auto. Qed.
Example C47_case_no_imsi :
  let g := mk_gsup 32 "" 0 0 (bytes_of "EUSE-1" ++ [nul]) [] None 7 SS_BEGIN 0 ext0 in
  mux_rx (mx [1; 2]) (Some g) = [MSend (mk_gsup 33 "" 96 0 (bytes_of "MSC-1" ++ [nul]) (bytes_of "EUSE-1" ++ [nul]) None 7 SS_END 0 ext0)]
  /\ mux_rx (mx [1; 2]) (Some (mk_gsup 34 "" 0 0 [] [] None 7 SS_BEGIN 0 ext0)) = [].
Proof. vm_compute. auto. Qed.

Example C47_error_reply_case : mux_tx_error_reply (mx [1]) (mg 34 0) 12 = [] /\ length (mux_tx_error_reply (mx [1]) (mg 32 0) 12) = 1%nat.
Proof. vm_compute. auto. Qed.
