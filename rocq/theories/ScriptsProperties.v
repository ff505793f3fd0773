(** C74 scripts that forward calls and messages: theorems and cases. *)
From Verif Require Import Base PeerId Db DbSpec Auth Gsup Router Ctrl MsLookup Mdns MsSpec MsClient MsClientSpec MsTool MsToolSpec Cmd Scripts ScriptsSpec ScriptsThms ScriptsThms2 ScriptsThms3.
Local Open Scope string_scope. Local Open Scope N_scope.

Definition ntop1 (a : list N) : string := if (length a =? 4)%nat then "10.0.0.1" else "2001:db8::1".
Definition env1 : lenv := mk_lenv (fun _ => None) ntop1 (fun _ _ => true) (fun _ => true).
Definition q1 : query := mk_query "sip.voice" IdMsisdn "1001".
Definition q2 : query := mk_query "gsup.hlr" IdImsi "901700000014701".
Definition m1 : query := mk_query "smpp.sms" IdMsisdn "1001".
Definition at4 (age : N) : lresult := mk_result (Some ([10; 0; 0; 1], 5060)) None age.
Definition at6 (age : N) : lresult := mk_result None (Some ([32; 1; 13; 184; 0; 0; 0; 0; 0; 0; 0; 0; 0; 0; 0; 1], 5060)) age.
Example tool_runs1 : tool_runs env1.
Proof. split; [reflexivity|]. intros a. cbn. unfold ntop1. destruct (_ =? _)%nat; cbn; split; auto; lia. Qed.
Example number1 : is_msisdn "1001".
Proof. split; [cbn; lia|]. intros n c H. do 4 (destruct n as [|n]; [injection H as <-; cbn; lia|]). destruct n; discriminate. Qed.

(** ** Calls *)
(** A call is sent to the IPv4 address and port of the best answer that came within a second, or at once to that of a perfect one; *)
Theorem C74_bridge_partial : forall e n b t, tool_runs e -> is_msisdn n -> Forall network (concat b) ->
  handler e (Some n) b = CallBridge t <-> exists x a p, settled (mk_query "sip.voice" IdMsisdn n) 0 None (concat b) (Some x) /\ v4_told x a p /\ t = "sofia/internal/sip:" ++ n ++ "@" ++ e_ntop e a ++ ":" ++ dec p.
Proof. exact c74_bridge. Qed.
Print Assumptions C74_bridge_partial.
(** it is hung up exactly if there was no answer or the best one has no IPv4 address; *)
Theorem C74_hangup_partial : forall e n b c, tool_runs e -> is_msisdn n -> Forall network (concat b) ->
  handler e (Some n) b = CallHangup c <-> c = "UNALLOCATED_NUMBER" /\ exists r, settled (mk_query "sip.voice" IdMsisdn n) 0 None (concat b) r /\ forall x a p, r = Some x -> ~ v4_told x a p.
Proof. exact c74_hangup. Qed.
Print Assumptions C74_hangup_partial.
(** it waits until then. *)
Theorem C74_waits_partial : forall e n b, tool_runs e -> is_msisdn n -> Forall network (concat b) -> handler e (Some n) b = CallWaits <-> forall r, ~ settled (mk_query "sip.voice" IdMsisdn n) 0 None (concat b) r.
Proof. exact c74_waits. Qed.
Print Assumptions C74_waits_partial.
Example C74_call_case :
  map (handler env1 (Some "1001"))
    [[[EAnswer q1 (at4 30)]; [EAnswer q2 (at4 0); EAnswer q1 (at4 0)]];
     [[EAnswer q1 (at6 30)]; [ETick 400; EAnswer q1 (at4 7)]; [ETick 599; ETimer 0; EAnswer q1 (at6 8); ETick 1; ETimer 0]];
     [[EAnswer q1 (at4 30); EAnswer q1 (at6 0)]];
     [[ETick 1000]; [ETimer 0]];
     [[EAnswer q1 (at4 30); ETick 999; ETimer 0]]] =
  [CallBridge "sofia/internal/sip:1001@10.0.0.1:5060"; CallBridge "sofia/internal/sip:1001@10.0.0.1:5060"; CallHangup "UNALLOCATED_NUMBER"; CallHangup "UNALLOCATED_NUMBER"; CallWaits].
Proof. vm_compute. reflexivity. Qed.
(** what is settled is settled once, and a second is enough *)
Theorem C74_settled_once : forall q now best l r r', settled q now best l r -> settled q now best l r' -> r = r'.
Proof.
  intros q now best l r r' S. revert r'. induction S; intros r' S'; inversion S'; subst; auto; try congruence; try lia; try contradiction.
Qed.
Print Assumptions C74_settled_once.
Theorem C74_settled_soon : forall q now best l, 1000 <= now -> settled q now best (ETimer 0 :: l) best.
Proof. intros. apply se_over. auto. Qed.
Print Assumptions C74_settled_soon.
(** the one that is taken answers the query, and no other answer before it is younger *)
Theorem C74_settled_best : forall q l r, settled q 0 None l r ->
  match r with
  | Some x => In (EAnswer q x) l /\ exists l1 l2, l = (l1 ++ l2)%list /\ settled q 0 None (l1 ++ firstn 1 l2) r /\ forall y, In (EAnswer q y) l1 -> lr_age x <= lr_age y
  | None => exists l1 l2, l = (l1 ++ l2)%list /\ settled q 0 None (l1 ++ firstn 1 l2) r /\ forall y, ~ In (EAnswer q y) l1
  end.
Proof.
  assert (G : forall q now best l r, settled q now best l r -> exists l1 l2, l = (l1 ++ l2)%list /\ settled q now best (l1 ++ firstn 1 l2) r /\
    match r with
    | Some x => (best = Some x \/ In (EAnswer q x) l) /\ (forall y, In (EAnswer q y) l1 \/ best = Some y -> lr_age x <= lr_age y)
    | None => best = None /\ forall y, ~ In (EAnswer q y) l1
    end).
  { intros q now best l r S. induction S as [now best q' x l -> Z|now best q' x l r -> Z Nw S IH|now best q' x l r -> Z Nw S IH|now best q' x l r D S IH|now best ms l r S IH|now best l L|now best l r L S IH|now best u l r U S IH].
    - exists [], (EAnswer q x :: l). split; auto. split; [apply se_now; auto|]. split; [right; left; auto|]. intros y _. lia.
    - destruct IH as (l1 & l2 & -> & S1 & H). exists (EAnswer q x :: l1), l2. split; auto. split; [apply se_better; auto|]. destruct r as [z|].
      + destruct H as [H1 H2]. split; [right; destruct H1 as [H1|H1]; [injection H1 as <-; left; auto|right; auto]|]. assert (X : lr_age z <= lr_age x) by (apply H2; auto). intros y [[Y|Y]|Y]; [injection Y as <-; exact X|apply H2; auto|]. subst best. cbn in Nw. lia.
      + destruct H as [H _]. discriminate.
    - destruct IH as (l1 & l2 & -> & S1 & H). exists (EAnswer q x :: l1), l2. split; auto. split; [apply se_worse; auto|]. destruct best as [b|]; [|destruct Nw; exact I]. cbn in Nw. destruct r as [z|].
      + destruct H as [H1 H2]. split; [destruct H1 as [H1|H1]; [auto|right; right; auto]|]. assert (X : lr_age z <= lr_age b) by (apply H2; auto). intros y [[Y|Y]|Y]; [injection Y as <-; lia|apply H2; auto|apply H2; auto].
      + destruct H as [H _]. discriminate.
    - destruct IH as (l1 & l2 & -> & S1 & H). exists (EAnswer q' x :: l1), l2. split; auto. split; [apply se_other; auto|]. destruct r as [z|].
      + destruct H as [H1 H2]. split; [destruct H1 as [H1|H1]; [auto|right; right; auto]|]. intros y [[Y|Y]|Y]; [injection Y as -> _; contradiction|apply H2; auto|apply H2; auto].
      + destruct H as [H1 H2]. split; auto. intros y [Y|Y]; [injection Y as -> _; contradiction|exact (H2 y Y)].
    - destruct IH as (l1 & l2 & -> & S1 & H). exists (ETick ms :: l1), l2. split; auto. split; [apply se_time; auto|]. destruct r as [z|].
      + destruct H as [H1 H2]. split; [destruct H1 as [H1|H1]; [auto|right; right; auto]|]. intros y [[Y|Y]|Y]; [discriminate|apply H2; auto|apply H2; auto].
      + destruct H as [H1 H2]. split; auto. intros y [Y|Y]; [discriminate|exact (H2 y Y)].
    - exists [], (ETimer 0 :: l). split; auto. split; [apply se_over; auto|]. destruct best as [z|]; [|split; auto]. split; auto. intros y [[]|Y]. injection Y as <-. lia.
    - destruct IH as (l1 & l2 & -> & S1 & H). exists (ETimer 0 :: l1), l2. split; auto. split; [apply se_early; auto|]. destruct r as [z|].
      + destruct H as [H1 H2]. split; [destruct H1 as [H1|H1]; [auto|right; right; auto]|]. intros y [[Y|Y]|Y]; [discriminate|apply H2; auto|apply H2; auto].
      + destruct H as [H1 H2]. split; auto. intros y [Y|Y]; [discriminate|exact (H2 y Y)].
    - destruct IH as (l1 & l2 & -> & S1 & H). exists (ETimer u :: l1), l2. split; auto. split; [apply se_skip; auto|]. destruct r as [z|].
      + destruct H as [H1 H2]. split; [destruct H1 as [H1|H1]; [auto|right; right; auto]|]. intros y [[Y|Y]|Y]; [discriminate|apply H2; auto|apply H2; auto].
      + destruct H as [H1 H2]. split; auto. intros y [Y|Y]; [discriminate|exact (H2 y Y)]. }
  intros q l r S. destruct (G _ _ _ _ _ S) as (l1 & l2 & -> & S1 & H). destruct r as [x|]; [|exists l1, l2; destruct H; auto]. destruct H as [[H|H] H2]; [discriminate|]. split; auto. exists l1, l2. auto.
Qed.
Print Assumptions C74_settled_best.
Example C74_settled_case : settled q1 0 None [EAnswer q1 (at4 30); EAnswer q2 (at4 1); EAnswer q1 (at4 7); EAnswer q1 (at4 9); ETick 1000; ETimer 0; EAnswer q1 (at4 0)] (Some (at4 7)).
Proof.
  apply se_better; [reflexivity|discriminate|exact I|]. apply se_other; [discriminate|]. apply se_better; [reflexivity|discriminate|cbn; lia|]. apply se_worse; [reflexivity|discriminate|cbn; lia|]. apply se_time. apply se_over. lia.
Qed.

(** ** Messages *)
(** A message for a number is sent to the address of the answer, and the SMSC told so; without an address the SMSC is told of an error. *)
Theorem C74_forward_partial : forall e tx p n b m c, tool_runs e -> taken p n -> is_msisdn n -> Forall network (concat b) -> (forall m, tx m = true) ->
  rx_deliver e None tx p b = PGot (m, c) <-> exists r, settled (mk_query "smpp.sms" IdMsisdn n) 0 None (concat b) r /\
    ((exists x a q, r = Some x /\ v4_told x a q /\ m = Some (mk_sms (e_ntop e a) (dec q) n) /\ c = 0) \/ ((forall x a q, r = Some x -> ~ v4_told x a q) /\ m = None /\ c = 8)).
Proof. exact c74_forward. Qed.
Print Assumptions C74_forward_partial.
(** the SMSC is told of success only after the message was sent on *)
Theorem C74_success : forall e tx p b m, rx_deliver e None tx p b = PGot (m, 0) -> exists x, m = Some x /\ tx x = true /\ p_dest p = Some (m_dest x) /\ p_deliver p = true /\ p_ton p <> 1.
Proof.
  intros e tx p b m. unfold rx_deliver, can_handle, TON_INTL, ESME_RSYSERR, ESME_ROK. destruct (p_deliver p); [|discriminate]. destruct (N.eqb_spec (p_ton p) 1) as [|D]; [discriminate|]. cbn [andb negb].
  destruct (p_dest p) as [n|]; [|discriminate]. destruct (query_mslookup _ _ _ _ _) as [| |d]; try discriminate. destruct (v4_of d) as [| |[[h q]|]]; try discriminate. destruct (tx _) eqn:T; [|discriminate].
  intros E. injection E as <-. eexists. split; [reflexivity|]. auto.
Qed.
Print Assumptions C74_success.
(** what it does not deal with, it refuses without looking *)
Theorem C74_ignored : forall e f tx p b, p_deliver p = false \/ p_ton p = 1 -> rx_deliver e f tx p b = PGot (None, 8).
Proof.
  intros e f tx p b H. unfold rx_deliver, can_handle, TON_INTL. destruct H as [-> | ->]; [reflexivity|]. cbn [N.eqb Pos.eqb negb]. rewrite andb_false_r. reflexivity.
Qed.
Print Assumptions C74_ignored.
Definition sms1 : pdu := mk_pdu true 0 (Some "1001").
Example C74_sms_case :
  map (rx_deliver env1 None (fun _ => true) sms1) [[[EAnswer m1 (at4 0)]]; [[EAnswer m1 (at6 0)]]; [[ETick 1000; ETimer 0]]; [[EAnswer q1 (at4 0)]]] =
    [PGot (Some (mk_sms "10.0.0.1" "5060" "1001"), 0); PGot (None, 8); PGot (None, 8); PWait] /\
  rx_deliver env1 None (fun _ => false) sms1 [[EAnswer m1 (at4 0)]] = PRaise /\
  rx_deliver env1 None (fun _ => true) (mk_pdu true 1 (Some "1001")) [] = PGot (None, 8) /\ rx_deliver env1 (Some 17) (fun _ => true) sms1 [] = PGot (None, 17).
Proof. vm_compute. auto. Qed.
(** a failure to send it on, or to look it up, is not told to the SMSC: it ends the script *)
Theorem C74_raise_refuted : (forall e tx p n b x a q, tool_runs e -> taken p n -> is_msisdn n -> Forall network (concat b) -> settled (mk_query "smpp.sms" IdMsisdn n) 0 None (concat b) (Some x) -> v4_told x a q ->
    tx (mk_sms (e_ntop e a) (dec q) n) = false -> rx_deliver e None tx p b = PRaise) /\
  (forall e tx p n b, e_mdns e "239.192.23.42" 4266 = false -> taken p n -> rx_deliver e None tx p b = PRaise).
Proof.
  split.
  - intros e tx p n b x a q T P Nn N S V X. destruct (rx_spec e tx p n b T P Nn N) as [[_ H]|(r & H & ->)]; [destruct (H _ S)|]. apply H in S. subst r. apply v4_iff in V. rewrite V, X. reflexivity.
  - intros e tx p n b M (P1 & P2 & P3). unfold rx_deliver, can_handle, TON_INTL. rewrite P1, P3, (proj2 (N.eqb_neq _ _) P2). cbn [negb andb]. unfold query_mslookup.
    assert (L : look_main e [query_text "smpp.sms" n "msisdn"; "-f"; "json"] b = Val (LMdns, [MMdns])) by (unfold look_main, look_args; cbn; rewrite M; reflexivity). rewrite L. reflexivity.
Qed.
Print Assumptions C74_raise_refuted.

(** ** What is no number *)
(** With anything but digits in the number, e.g. "*100#", the tool has nothing to wait for but waits, and so does the script, until some packet for somebody comes *)
Theorem C74_refused_refuted : forall e n, tool_runs e -> ~ is_msisdn n -> all_chars no_dot n = true -> handler e (Some n) [] = CallWaits /\ forall p tx, taken p n -> rx_deliver e None tx p [] = PWait.
Proof.
  intros e n [M _] Nn D. split.
  - unfold handler. cbn [opt_default]. rewrite refused_waits; auto. eexists; reflexivity.
  - intros p tx (P1 & P2 & P3). unfold rx_deliver, can_handle, TON_INTL. rewrite P1, P3, (proj2 (N.eqb_neq _ _) P2). cbn [negb andb]. rewrite refused_waits; auto. eexists; reflexivity.
Qed.
Print Assumptions C74_refused_refuted.
Example C74_refused_case : handler env1 (Some "*100#") [] = CallWaits /\ handler env1 (Some "*100#") [[EAnswer q2 (at4 0)]] = CallHangup "UNALLOCATED_NUMBER" /\ handler env1 None [] = CallWaits.
Proof. vm_compute. auto. Qed.
(** A caller can choose where the call goes: the number is written into the line about the error as it is, quotes and all *)
Definition evil : string := QT ++ ", " ++ QT ++ "v4" ++ QT ++ ": [" ++ QT ++ "10.6.6.6" ++ QT ++ ", " ++ QT ++ "5060" ++ QT ++ "], " ++ QT ++ "x" ++ QT ++ ": " ++ QT.
Theorem C74_injection_refuted : exists n, ~ is_msisdn n /\ forall e q x, tool_runs e -> handler e (Some n) [[EAnswer q x]] = CallBridge ("sofia/internal/sip:" ++ n ++ "@10.6.6.6:5060").
Proof.
  exists evil. split.
  - intros [_ D]. specialize (D O _ eq_refl). cbn in D. lia.
  - intros e q x [M _]. unfold handler, query_mslookup. cbn [opt_default].
    assert (L : look_main e [query_text "sip.voice" evil "msisdn"; "-f"; "json"] [[EAnswer q x]] = mdo r <- MsTool.main (json_opts e) [query_text "sip.voice" evil "msisdn"] [[EAnswer q x]];; Val (LRan (fst r) (snd r), [])) by (apply (look_json e _ _ M)).
    rewrite L. reflexivity.
Qed.
Print Assumptions C74_injection_refuted.

(** ** osmo-mslookup-pipe.py and osmo-mslookup-socket.py *)
(** gives back the youngest of the answers that came for the query within its timeout, or that there was none *)
Theorem C74_pipe_partial : forall e x d mn tm q b, tool_runs e -> has_times (json_opts e) x d mn tm -> (String.length x <= String.length d + 16)%nat -> mn <= 4294967295 -> tm <= 4294967295 -> (String.length d < 128)%nat -> query_init d = inl q ->
  all_chars literal d = true -> (exists c r, x = String c r /\ c <> "-"%char) -> Forall network (concat b) ->
  exists s l l', concat b = (l ++ l')%list /\ reached (json_opts e) [x] l s /\
   ((look_main e ["-f"; "json"; x] b = Val (LRan s false, []) /\ pipe_query e x b = PWait) \/
    (look_main e ["-f"; "json"; x] b = Val (LRan s true, []) /\ final_call 0 (c_trace (t_cl s)) /\
     pipe_query e x b = PGot (answer (json_opts e) d (calls 0 (c_trace (t_cl s)))) /\
     forall q' y t, In (TRes 0 q' RcResult y t) (c_trace (t_cl s)) -> exists r, newest (calls 0 (c_trace (t_cl s))) = Some r /\ lr_age (r_res r) <= lr_age y)).
Proof. exact c74_pipe. Qed.
Print Assumptions C74_pipe_partial.
Definition pipe1 : string := "1000-5000@sip.voice.1001.msisdn".
Example C74_pipe_case :
  pipe_query env1 pipe1 [[EAnswer q1 (at4 30)]; [ETick 1000]; [ETimer 0]; [EAnswer q1 (at6 7)]; [ETick 4000; ETimer 0]] =
    PGot [("query", JStr "sip.voice.1001.msisdn"); ("result", JStr "result"); ("last", JBool false); ("age", JNum 7); ("v6", JArr ["2001:db8::1"; "5060"])] /\
  pipe_query env1 pipe1 [[EAnswer q1 (at4 30)]; [ETick 1000]; [ETimer 0]; [ETick 4000]] = PWait /\
  pipe_query env1 pipe1 [[ETick 1000; ETimer 0]; [ETick 4000; ETimer 0]] = PGot [("result", JStr "not-found")].
Proof. vm_compute. auto. Qed.
Theorem C74_socket_partial : forall o args p s x d l s2, reached o args p s -> o_fmt o = Csv -> o_head o = true -> plain_ntop o -> N.of_nat (length args + packets p + packets l) < 4294967295 ->
  asked (bytes_of x) = Some d -> d <> "" -> all_chars no_tab d = true -> (String.length d <= 700)%nat -> unasked s d -> Forall (apart (t_next s) d) l ->
  trun o s (EAccept :: EPacket (t_next s) (bytes_of x) :: l) = Val s2 -> closed (t_next s) s2 ->
  exists rs, (rs = [] \/ (rs = calls (c_uid (t_cl s)) (c_trace (t_cl s2)) /\ final_call (c_uid (t_cl s)) (c_trace (t_cl s2)) /\ exists q, query_init d = inl q)) /\
    socket_query x (rev (sent (t_next s) (t_out s2))) true = (Some x, PGot (row o d rs)).
Proof. exact c74_socket. Qed.
Print Assumptions C74_socket_partial.
Definition socket1 (o : topts) (l : list tev) : option (option string * py (list (string * string))) :=
  match trun o t_init (EAccept :: EPacket 0 (bytes_of pipe1) :: l) with
  | Val s => Some (socket_query pipe1 (rev (sent 0 (t_out s))) (existsb (fun x => match x with OClose 0 => true | _ => false end) (t_out s)))
  | Bad => None
  end.
Definition daemon (f : fmt) (head : bool) : topts := mk_topts true 1000 1000 f head ntop1.
Example C74_socket_case :
  socket1 (daemon Csv true) [EAnswer q1 (at4 30); ETick 1000; ETimer 0; EAnswer q1 (at6 7); ETick 4000; ETimer 0] =
    Some (Some pipe1, PGot [("query", "sip.voice.1001.msisdn"); ("result", "result"); ("last", "not-last"); ("age", "7"); ("v4_ip", ""); ("v4_port", ""); ("v6_ip", "2001:db8::1"); ("v6_port", "5060")]) /\
  socket1 (daemon Csv true) [ETick 1000; ETimer 0; ETick 4000; ETimer 0] = Some (Some pipe1, PGot [("result", "not-found")]).
Proof. vm_compute. auto. Qed.
(** with a daemon that writes JSON, or no headers, the script waits for the headers, and does not ask *)
Theorem C74_headers_refuted : forall o x, (o_fmt o = Json \/ o_head o = false) -> exists s, trun o t_init [EAccept] = Val s /\ connected s 0 "" /\ sent 0 (t_out s) = [] /\ socket_query x (rev (sent 0 (t_out s))) false = (None, PWait).
Proof.
  intros o x H. assert (E : socket_accept o t_init = mk_tst c_init [] [mk_tclient 0 ""] 1 0 []) by (unfold socket_accept; destruct (o_fmt o); [destruct H as [H|H]; [discriminate|rewrite H]|]; reflexivity).
  eexists. split; [cbn [trun tstep mbind]; rewrite E; reflexivity|]. split; [left; reflexivity|]. auto.
Qed.
Print Assumptions C74_headers_refuted.
(** the tool writes one line for a query without timeouts of its own; with the service of the command line of the dialplan script it can be made to write two, which the script cannot read *)
Theorem C74_lines_refuted : exists b, query_mslookup env1 "0-5000@sip.voice" "1001" "msisdn" b = PRaise /\ pipe_query env1 "0-5000@sip.voice.1001.msisdn" b = PGot [("query", JStr "sip.voice.1001.msisdn"); ("result", JStr "result"); ("last", JBool false); ("age", JNum 7); ("v4", JArr ["10.0.0.1"; "5060"])].
Proof. exists [[EAnswer q1 (at4 7)]; [ETick 5000; ETimer 0]]. vm_compute. auto. Qed.
Print Assumptions C74_lines_refuted.
(** a daemon that closes the socket at once, or after the columns; an octet that is not ASCII; a v4 that is false *)
Example C74_closed_case : socket_query pipe1 [] true = (None, PGot [("result", "not-found")]) /\ socket_query pipe1 [CSV_HEADERS] true = (Some pipe1, PGot [("result", "not-found")]) /\
  loads ["{""query"": """ ++ String "127"%char """}"] = PGot [("query", JStr (String "127"%char ""))] /\ loads ["{""query"": """ ++ String "128"%char """}"] = PRaise /\
  v4_of [("v4", JBool false)] = PGot None /\ v4_of [("v4", JBool true)] = PRaise.
Proof. repeat split; vm_compute; reflexivity. Qed.
(** where the tool cannot start, calls are hung up, and the one who looks for messages to forward gets no answer; a line whose result is no text is passed over *)
Definition env0 : lenv := mk_lenv (fun _ => None) ntop1 (fun _ _ => false) (fun _ => true).
Example C74_cannot_case : handler env0 (Some "1001") [] = CallHangup "UNALLOCATED_NUMBER" /\ rx_deliver env0 None (fun _ => true) (mk_pdu true 0 (Some "1001")) [] = PRaise /\
  pipe_query env0 pipe1 [] = PGot [("result", JStr "not-found")] /\ pipe_lines ["{""result"": true}"] [("result", JStr "not-found")] = PGot [("result", JStr "not-found")].
Proof. repeat split; vm_compute; reflexivity. Qed.
