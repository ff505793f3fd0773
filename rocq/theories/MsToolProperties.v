(** C58, C59, C60 the lookup tool and its daemon: theorems and cases. *)
From Verif Require PeerThms MsToolThms11.
From Verif Require Import Base PeerId Db Auth Gsup Router Ctrl CtrlSpec MsLookup Mdns MsClient MsClientSpec MsTool MsToolSpec MsToolThms4 MsToolThms5 MsToolThms7 MsToolThms8 MsToolThms9 MsToolThms10 MsToolThms12.
Local Open Scope N_scope.

(** ** C58 answers to the programs on the socket *)
(** every run gets to a state: nothing undefined happens *)
Theorem C58_safe : forall o args l, N.of_nat (length args + packets l) <= 4294967295 -> exists s, reached o args l s.
Proof. exact c58_safe. Qed.
Print Assumptions C58_safe.
(** what a program is sent is the header, a line about a query that it sent itself, or the line of an error in an empty query *)
Theorem C58_names : forall o args l s i t, reached o args l s -> In (OMsg i t) (t_out s) ->
  t = CSV_HEADERS \/ (exists b q r, In (EPacket i b) l /\ asked b = Some q /\ t = format o q r) \/ t = format o "" None.
Proof. exact c58_names. Qed.
Print Assumptions C58_names.
(** after the socket is closed, which happens once, nothing is sent there *)
Theorem C58_end : forall o args l s a i b, reached o args l s -> t_out s = a ++ OClose i :: b -> ~ In (OClose i) a /\ (forall t, ~ In (OMsg i t) a) /\ forall d, ~ connected s i d.
Proof. exact c58_end. Qed.
Print Assumptions C58_end.
(** While nobody else asks for the same text: a program is sent an error and the socket is closed, or it is sent exactly the results of its own request, in
    order, and the socket is closed exactly with the last of them *)
Theorem C58_own_partial : forall o args p s i b d l s2, reached o args p s -> N.of_nat (length args + packets p + packets (EPacket i b :: l)) <= 4294967295 ->
  connected s i "" -> asked b = Some d -> d <> "" -> unasked s d -> trun o s (EPacket i b :: l) = Val s2 -> Forall (apart i d) l ->
  (sent i (t_out s2) = format o d None :: sent i (t_out s) /\ closed i s2) \/
  (exists u q, c_uid (t_cl s) = u /\ query_init d = inl q /\
     sent i (t_out s2) = map (fun r => format o d (Some r)) (calls u (c_trace (t_cl s2))) ++ sent i (t_out s) /\ (closed i s2 <-> final_call u (c_trace (t_cl s2)))).
Proof. exact c58_own. Qed.
Print Assumptions C58_own_partial.
(** every program that has asked is answered, and its socket closed, by a timer at the latest *)
Theorem C58_ends : forall o args l s i d, reached o args l s -> connected s i d -> d <> "" ->
  exists u q mn tm t0, query_init d = inl q /\ In (TStart u q mn tm t0) (c_trace (t_cl s)) /\
   forall ms ms', mn + tm <= ms -> mn + tm <= ms' -> exists s', trun o s [ETick ms; ETimer u; ETick ms'; ETimer u] = Val s' /\ closed i s' /\ final_call u (c_trace (t_cl s')).
Proof. exact c58_ends. Qed.
Print Assumptions C58_ends.

Definition ex_ntop (a : list N) : string := String.concat "." (map dec a).
Definition ex_opts (f : fmt) : topts := mk_topts true 0 1000 f true ex_ntop.
Definition pkt (i : N) (s : string) : tev := EPacket i (list_ascii_of_string s).
Definition qs_a : string := "sip.voice.901700000014701.imsi".
Definition qs_b : string := "gsup.hlr.901700000014702.imsi".
Definition q_a : query := mk_query "sip.voice" IdImsi "901700000014701".
Definition res_a (age : N) : lresult := mk_result (Some ([10; 0; 0; 1], 5060)) None age.
Definition line (l : list string) : string := String.concat TAB l.
Definition obs (o : topts) (args : list string) (l : list tev) : option (list tout) := match start o args with Val s => match trun o s l with Val s => Some (rev (t_out s)) | Bad => None end | Bad => None end.

(** two programs ask for different texts. The first gets an old result, then a newer one. *)
Example C58_own_case : obs (ex_opts Csv) []
   [EAccept; EAccept; pkt 0 ("500-2000@" ++ qs_a); pkt 1 ("500-2000@" ++ qs_b); EAnswer q_a (res_a 30); ETick 500; ETimer 0; ETimer 1; EAnswer q_a (res_a 0); ETick 2000; ETimer 1] =
 Some [OLine CSV_HEADERS; OMsg 0 CSV_HEADERS; OMsg 1 CSV_HEADERS; OLine ("query: 500-2000@" ++ qs_a); OLine ("query: 500-2000@" ++ qs_b);
       OLine (line [qs_a; "result"; "not-last"; "30"; "10.0.0.1"; "5060"; ""; ""]); OMsg 0 (line [qs_a; "result"; "not-last"; "30"; "10.0.0.1"; "5060"; ""; ""]);
       OLine (line [qs_a; "result"; "last"; "0"; "10.0.0.1"; "5060"; ""; ""]); OMsg 0 (line [qs_a; "result"; "last"; "0"; "10.0.0.1"; "5060"; ""; ""]); OClose 0;
       OLine (line [qs_b; "not-found"; "last"; "0"; ""; ""; ""; ""; ""]); OMsg 1 (line [qs_b; "not-found"; "last"; "0"; ""; ""; ""; ""; ""]); OClose 1].
Proof. vm_compute. reflexivity. Qed.
(** a second packet is answered with an error, without an effect on the first; a query that cannot be read is answered with an error *)
Example C58_error_case : obs (ex_opts Csv) [] [EAccept; EAccept; pkt 0 qs_a; pkt 0 qs_b; pkt 1 "nonsense"] =
 Some [OLine CSV_HEADERS; OMsg 0 CSV_HEADERS; OMsg 1 CSV_HEADERS; OLine ("query: " ++ qs_a); OMsg 0 (line [qs_b; "ERROR"; ""; ""; ""; ""; ""; ""]);
       OLine (line ["nonsense"; "ERROR"; ""; ""; ""; ""; ""; ""]); OMsg 1 (line ["nonsense"; "ERROR"; ""; ""; ""; ""; ""; ""]); OClose 1; OLine "query: nonsense"].
Proof. vm_compute. reflexivity. Qed.
Example C58_own_hyp_case : exists s, reached (ex_opts Json) [] [EAccept; EAccept] s /\ connected s 0 "" /\ connected s 1 "" /\ unasked s qs_a /\ asked (list_ascii_of_string ("500-2000@" ++ qs_a)) = Some qs_a.
Proof.
  eexists. split; [split; [cbn; lia|eexists; split; [reflexivity|vm_compute; reflexivity]]|]. split; [right; left; reflexivity|]. split; [left; reflexivity|]. split; [|vm_compute; reflexivity].
  split; [intros i [H|[H|[]]]; discriminate H|intros h []].
Qed.

(** Two programs that ask for the same text: the end of the one ends the other. The first waits a tenth of a second, the second five; after a tenth
    of a second both are told that there is nothing. *)
Theorem C58_shared_refuted : exists o l s, reached o [] l s /\ In (TStart 1 q_a 0 5000 0) (c_trace (t_cl s)) /\ c_now (t_cl s) = 100 /\ calls 1 (c_trace (t_cl s)) = [] /\
  sent 1 (t_out s) = [format o qs_a (Some (mk_tres RcNotFound (mk_result None None 0) true))] /\ closed 1 s.
Proof.
  exists (ex_opts Json), [EAccept; EAccept; pkt 0 ("100@" ++ qs_a); pkt 1 ("5000@" ++ qs_a); ETick 100; ETimer 0]. eexists.
  split; [split; [cbn; lia|eexists; split; [reflexivity|vm_compute; reflexivity]]|]. split; [vm_compute; tauto|]. split; [reflexivity|]. split; [reflexivity|]. split; [vm_compute; reflexivity|]. vm_compute. tauto.
Qed.
Print Assumptions C58_shared_refuted.
(** A packet with a timeout that is no number ends the query of another program *)
Theorem C58_error_refuted : exists o l s, reached o [] l s /\ In (pkt 0 ("5000@" ++ qs_a)) l /\ (forall b, In (EPacket 0 b) l -> EPacket 0 b = pkt 0 ("5000@" ++ qs_a)) /\ query_init qs_a = inl q_a /\
  sent 0 (t_out s) = [format o qs_a None] /\ closed 0 s.
Proof.
  exists (ex_opts Json), [EAccept; EAccept; pkt 0 ("5000@" ++ qs_a); pkt 1 ("x@" ++ qs_a)]. eexists.
  split; [split; [cbn; lia|eexists; split; [reflexivity|vm_compute; reflexivity]]|]. split; [right; right; left; reflexivity|]. split; [intros b [H|[H|[H|[H|[]]]]]; try discriminate H; symmetry; exact H|]. split; [vm_compute; reflexivity|]. split; [vm_compute; reflexivity|]. vm_compute. tauto.
Qed.
Print Assumptions C58_error_refuted.
(** A packet with an empty query closes the sockets of all programs that have not asked anything yet *)
Theorem C58_empty_refuted : exists o l s, reached o [] l s /\ (forall b, ~ In (EPacket 0 b) l) /\ sent 0 (t_out s) = [format o "" None] /\ closed 0 s.
Proof.
  exists (ex_opts Json), [EAccept; EAccept; pkt 1 "1@"]. eexists. split; [split; [cbn; lia|eexists; split; [reflexivity|vm_compute; reflexivity]]|]. split; [intros b [H|[H|[H|[]]]]; discriminate H|]. split; [vm_compute; reflexivity|]. vm_compute. tauto.
Qed.
Print Assumptions C58_empty_refuted.
(** Two programs that ask the same in a different spelling: one is told that there is nothing, though the answer arrived in time *)
Theorem C58_spelling_refuted : exists o l x s, reached o [] l s /\ In (EAnswer q_a x) l /\ lr_age x = 0 /\ In (TStart 0 q_a 0 1000 0) (c_trace (t_cl s)) /\
  sent 0 (t_out s) = [format o qs_a (Some (mk_tres RcNotFound (mk_result None None 0) true))] /\ closed 0 s.
Proof.
  exists (ex_opts Json), [EAccept; EAccept; pkt 0 ("1000@" ++ qs_a); pkt 1 "1000@sip.voice.901700000014701.IMSI"; EAnswer q_a (res_a 0); ETick 1000; ETimer 0], (res_a 0). eexists.
  split; [split; [cbn; lia|eexists; split; [reflexivity|vm_compute; reflexivity]]|]. split; [do 4 right; left; reflexivity|]. split; [reflexivity|]. split; [vm_compute; tauto|]. split; [vm_compute; reflexivity|]. vm_compute. tauto.
Qed.
Print Assumptions C58_spelling_refuted.

(** ** C59 the lines *)
(** CSV: the header has eight columns, and so has every line about a result and about an error, with the values in their columns *)
Theorem C59_header : fields CSV_HEADERS = ["query"; "result"; "last"; "age"; "v4_ip"; "v4_port"; "v6_ip"; "v6_port"].
Proof. reflexivity. Qed.
Print Assumptions C59_header.
Theorem C59_csv_partial : forall o q r, o_fmt o = Csv -> plain_ntop o -> all_chars no_tab q = true -> (String.length q <= 700)%nat ->
  match r with Some r => r_code r = RcResult | None => True end -> fields (format o q r) = result_cells o q r.
Proof. exact c59_csv. Qed.
Print Assumptions C59_csv_partial.
(** lines about the end without a result have a ninth column *)
Theorem C59_columns_refuted : forall o q r, o_fmt o = Csv -> plain_ntop o -> all_chars no_tab q = true -> (String.length q <= 700)%nat -> r_code r <> RcResult ->
  fields (format o q (Some r)) = result_cells o q (Some r) ++ [""].
Proof. exact c59_nine. Qed.
Print Assumptions C59_columns_refuted.
(** JSON: the line can be read, and says what there is to say *)
Theorem C59_json_partial : forall o q r, o_fmt o = Json -> plain_ntop o -> all_chars literal q = true -> (String.length q <= 700)%nat ->
  match r with Some r => lr_age (r_res r) < 4294967296 | None => True end -> read_json (format o q r) = Some (members o q r).
Proof. exact c59_json. Qed.
Print Assumptions C59_json_partial.
(** a query with a quote is accepted, and all lines about it are no JSON *)
Theorem C59_quote_refuted : exists q, (exists qq, query_init q = inl qq) /\ forall o r, o_fmt o = Json -> read_json (format o q r) = None.
Proof.
  exists ("a" ++ QT ++ "b.901700000014701.imsi")%string. split; [eexists; vm_compute; reflexivity|]. intros o r E. unfold format. rewrite E. reflexivity.
Qed.
Print Assumptions C59_quote_refuted.
(** the line about the error in a long query, which a packet can hold, is cut and no JSON *)
Theorem C59_cut_refuted : exists q, all_chars literal q = true /\ (String.length q < 1024)%nat /\ forall o, o_fmt o = Json -> read_json (format o q None) = None.
Proof.
  exists (String.concat "" (repeat "a" 1000)). split; [vm_compute; reflexivity|]. split; [vm_compute; lia|]. intros o E. unfold format. rewrite E. vm_compute. reflexivity.
Qed.
Print Assumptions C59_cut_refuted.
Definition full : tres := mk_tres RcResult (mk_result (Some ([10; 0; 0; 1], 5060)) (Some ([32; 1; 13; 184; 0; 0; 0; 0; 0; 0; 0; 0; 0; 0; 0; 1], 65535)) 4294967295) false.
Definition nt (a : list N) : string := if (length a =? 4)%nat then "10.0.0.1" else "2001:db8::1".
Definition nt_opts (f : fmt) : topts := mk_topts true 0 1000 f true nt.
Example C59_ntop_case : forall f, plain_ntop (nt_opts f).
Proof. intros f a. cbn. unfold nt. destruct (_ =? _)%nat; cbn; split; auto; lia. Qed.
Example C59_csv_case : fields (format (nt_opts Csv) qs_a (Some full)) = [qs_a; "result"; "not-last"; "4294967295"; "10.0.0.1"; "5060"; "2001:db8::1"; "65535"] /\
  fields (format (nt_opts Csv) qs_a None) = [qs_a; "ERROR"; ""; ""; ""; ""; ""; ""] /\
  length (fields (format (nt_opts Csv) qs_a (Some (mk_tres RcNotFound (mk_result None None 0) true)))) = 9%nat.
Proof. vm_compute. auto. Qed.
Example C59_json_case : format (nt_opts Json) qs_a (Some full) =
   ("{" ++ QT ++ "query" ++ QT ++ ": " ++ QT ++ qs_a ++ QT ++ ", " ++ QT ++ "result" ++ QT ++ ": " ++ QT ++ "result" ++ QT ++ ", " ++ QT ++ "last" ++ QT ++ ": false, " ++ QT ++ "age" ++ QT ++ ": 4294967295, " ++
    QT ++ "v4" ++ QT ++ ": [" ++ QT ++ "10.0.0.1" ++ QT ++ ", " ++ QT ++ "5060" ++ QT ++ "], " ++ QT ++ "v6" ++ QT ++ ": [" ++ QT ++ "2001:db8::1" ++ QT ++ ", " ++ QT ++ "65535" ++ QT ++ "]}")%string /\
  read_json (format (nt_opts Json) qs_a (Some full)) = Some [("query", JStr qs_a); ("result", JStr "result"); ("last", JBool false); ("age", JNum 4294967295); ("v4", JArr ["10.0.0.1"; "5060"]); ("v6", JArr ["2001:db8::1"; "65535"])] /\
  read_json (format (nt_opts Json) qs_a None) = Some [("query", JStr qs_a); ("result", JStr "ERROR")].
Proof. vm_compute. auto. Qed.

(** which addresses are told *)
Theorem C59_hosts : forall h a p, nonzero h = Some (a, p) <-> h = Some (a, p) /\ p <> 0 /\ exists x, In x a /\ x <> 0.
Proof.
  assert (Z : forall a, forallb (fun x => x =? 0) a = false <-> exists x, In x a /\ x <> 0).
  { induction a as [|x a IH]; [split; [discriminate|intros (y & [] & _)]|]. cbn [forallb]. destruct (N.eqb_spec x 0) as [->|NE].
    - cbn [andb]. rewrite IH. split; [intros (y & I & D); exists y; split; [right; exact I|exact D]|intros (y & [<-|I] & D); [congruence|eauto]].
    - split; [intros _; exists x; split; [left; reflexivity|exact NE]|auto]. }
  intros [[b q]|] a p; cbn [nonzero]; [|split; [discriminate|intros ([=] & _)]]. destruct (N.eqb_spec q 0) as [->|NE]; cbn [orb].
  - split; [discriminate|intros ([= -> <-] & D & _); congruence].
  - destruct (forallb _ b) eqn:F; split; [discriminate| |intros [= -> ->]; repeat split; auto; apply Z, F|intros (-> & _); reflexivity].
    intros ([= -> ->] & _ & D). apply Z in D. congruence.
Qed.
Print Assumptions C59_hosts.
(** a line fits the buffer it is sent from, with its end *)
Theorem C59_fits : forall o q r, (String.length (format o q r) < 1024)%nat.
Proof.
  intros o q r. unfold format. pose proof (PeerThms.str_take_len (G_BUF - 1) (match o_fmt o with Csv => csv_text o q r | Json => json_text o q r end)). unfold G_BUF in *. lia.
Qed.
Print Assumptions C59_fits.
Example C59_fits_case : String.length (format (nt_opts Json) (String.concat "" (repeat "a" 1000)) None) = 1023%nat.
Proof. vm_compute. reflexivity. Qed.

(** ** C60 timeouts, and the end of the program *)
(** which line of a packet counts *)
Theorem C60_line : forall b x, line_of b = Some x <-> first_line b x.
Proof. exact MsToolThms11.line_iff. Qed.
Print Assumptions C60_line.
Example C60_line_case : line_of (["010"%char] ++ bytes_of qs_a ++ ["013"; "010"; "x"]%char) = Some qs_a /\ line_of (repeat "x"%char 1024) = None /\ line_of (repeat "x"%char 1023) <> None.
Proof. vm_compute. repeat split; discriminate. Qed.
(** the delay and the timeout written before '@', or else those of the command line, are those of the request *)
Theorem C60_times_partial : forall o args l s i b x d mn tm q, reached o args l s -> N.of_nat (length args + packets l) < 4294967295 -> connected s i "" -> line_of b = Some x ->
  has_times o x d mn tm -> (String.length x <= String.length d + 16)%nat -> mn <= 4294967295 -> tm <= 4294967295 -> (String.length d < 128)%nat -> query_init d = inl q ->
  exists s', tstep o s (EPacket i b) = Val s' /\ connected s' i d /\ c_trace (t_cl s') = TStart (c_uid (t_cl s)) q mn (effective mn tm) (c_now (t_cl s)) :: c_trace (t_cl s).
Proof. exact c60_times. Qed.
Print Assumptions C60_times_partial.
(** numbers of 32 bits that are refused because both together are longer than 15 characters *)
Theorem C60_long_refuted : exists o x mn tm, has_times o x qs_a mn tm /\ mn <= 4294967295 /\ tm <= 4294967295 /\ start_query o t_init x = Val (respond o t_init qs_a None).
Proof.
  exists (ex_opts Csv), ("1000000000-1000000000@" ++ qs_a)%string, 1000000000, 1000000000. split; [|split; [lia|split; [lia|vm_compute; reflexivity]]].
  left. exists "1000000000-1000000000"%string. split; [reflexivity|].
  assert (Nu : numeral "1000000000" (Z.of_N 1000000000)).
  { assert (Z0 : CtrlSpec.digit "0" 0) by (split; [lia|reflexivity]).
    do 9 (match goal with |- numeral ?s (Z.of_N ?n) => let k := eval vm_compute in (n / 10)%N in let t := eval vm_compute in (substring 0 (String.length s - 1) s) in
      change s with (t ++ "0")%string; change (Z.of_N n) with (10 * Z.of_N k + 0)%Z; apply (num_more t (Z.of_N k) "0"%char 0); [|exact Z0] end).
    apply num_one. split; [lia|reflexivity]. }
  exact (times_both "1000000000" "1000000000" _ _ Nu Nu).
Qed.
Print Assumptions C60_long_refuted.
(** numbers of more than 32 bits are refused, not cut *)
Theorem C60_too_large : forall o s t d mn tm, times t mn tm -> 4294967295 < mn \/ 4294967295 < tm ->
  start_query o s (t ++ "@" ++ d) = Val (respond o s d None).
Proof. exact c60_too_large. Qed.
Print Assumptions C60_too_large.
Example C60_too_large_case : forall t, In t ["4294967296@"; "1-4294967296@"; "4294967296-@"; "18446744073709@"; "--1@"; "1--1@"; "1x@"; "x-1@"]%string ->
  start_query (ex_opts Csv) t_init (t ++ qs_a) = Val (respond (ex_opts Csv) t_init qs_a None).
Proof. intros t I. cbn [In] in I. repeat (destruct I as [<-|I]; [vm_compute; reflexivity|]). destruct I. Qed.
Example C60_times_case : map (fun t => match start_query (ex_opts Csv) t_init (t ++ qs_a) with Val s => c_trace (t_cl s) | Bad => [] end) ["250-3000@"; "3000@"; "250-@"; "@"; ""; "4294967295-12@"] =
  [[TStart 0 q_a 250 3000 0]; [TStart 0 q_a 0 3000 0]; [TStart 0 q_a 250 250 0]; [TStart 0 q_a 0 1000 0]; [TStart 0 q_a 0 1000 0]; [TStart 0 q_a 4294967295 12 0]].
Proof. vm_compute. reflexivity. Qed.
(** Without -d the program ends when no query of the command line is open any more, and not before *)
Theorem C60_done : forall o args l s, reached o args l s -> args <> [] -> done o s = true <-> o_daemon o = false /\ t_qs s = [].
Proof. exact c60_done. Qed.
Print Assumptions C60_done.
(** and that comes about by timers at the latest *)
Theorem C60_ends_partial : forall o args l s, reached o args l s -> args <> [] -> o_daemon o = false -> exists l' s', Forall timer_ev l' /\ trun o s l' = Val s' /\ done o s' = true.
Proof. exact c60_ends. Qed.
Print Assumptions C60_ends_partial.
(** If all queries of the command line are refused, there is nothing to wait for, but the program waits: it looks whether it is done only after something happened, and no
    timer is set. *)
Theorem C60_refused_refuted : exists o args s, o_daemon o = false /\ args <> [] /\ start o args = Val s /\ done o s = true /\ main o args [] = Val (s, false) /\
  c_reqs (t_cl s) = [] /\ forall u ms, tstep o s (ETimer u) = Val s /\ exists s', tstep o s (ETick ms) = Val s' /\ c_reqs (t_cl s') = [].
Proof.
  exists (mk_topts false 0 1000 Csv false ex_ntop), ["nonsense"]. eexists. split; [reflexivity|]. split; [discriminate|]. split; [vm_compute; reflexivity|]. split; [reflexivity|]. split; [reflexivity|]. split; [reflexivity|].
  intros u ms. split; [reflexivity|]. eexists. split; reflexivity.
Qed.
Print Assumptions C60_refused_refuted.
Example C60_ends_case : main (mk_topts false 0 1000 Csv false ex_ntop) [qs_a; qs_b] [[EAnswer q_a (res_a 0)]; [ETick 1000; ETimer 1]] =
  Val (mk_tst (mk_cst [] 3 2 [] 1000 [] [TCall 1 RcNotFound (mk_result None None 0) true 1000; TCall 0 RcResult (res_a 0) true 0; TRes 0 q_a RcResult (res_a 0) 0;
          TStart 1 (mk_query "gsup.hlr" IdImsi "901700000014702") 0 1000 0; TStart 0 q_a 0 1000 0]) [] [] 0 2
       [OLine (line [qs_b; "not-found"; "last"; "0"; ""; ""; ""; ""; ""]); OLine (line [qs_a; "result"; "last"; "0"; "10.0.0.1"; "5060"; ""; ""])], true).
Proof. vm_compute. reflexivity. Qed.
