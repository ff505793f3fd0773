(** Proofs about what the control interface answers to requests that it refuses. *)
From Verif Require Import Base PeerId PeerThms Db DbSpec DbProofs DbThms DbThms2 Auth Ctrl CtrlSpec CtrlThms CtrlThms2 CtrlThms3 CtrlThms4.
Local Open Scope string_scope.
Local Open Scope list_scope.
Local Open Scope Z_scope.

Lemma comma_in v : has_comma v = true -> exists n, String.get n v = Some ","%char.
Proof.
  induction v as [|c v IH]; [discriminate|]. cbn. unfold comma at 1. destruct (Ascii.eqb_spec c ",") as [->|_]; [exists O; reflexivity|]. intros H. destruct (IH H) as [n E]. exists (Datatypes.S n). exact E.
Qed.
(** requests that are refused whatever the database has *)
Lemma ctrl_refused tz (get : bool) sel cmd v : part sel -> part cmd -> (exists x, sel = ("by-" ++ x)%string) ->
  let q := ctrl_handle tz (let var := ("subscriber." ++ sel ++ "." ++ cmd)%string in if get then CtrlGet var else CtrlSet var v) in
  (~ In cmd variables -> q = Ret (RpError "Command not found")) /\
  (get = false -> In cmd ["info"; "info-aud"; "info-all"; "imsi"] -> q = Ret (RpError "Read Only attribute")) /\
  (get = false -> wrong_value cmd v -> q = Ret (RpError "Value failed verification.")).
Proof.
  intros P1 P2 B q. assert (B' : is_some (after "by-" sel) = true).
  { destruct B as [x ->]. now rewrite after_app. }
  pose proof (handle_by tz get sel cmd v P1 P2 B') as H. change (q = if get then get_cmd tz sel cmd else set_cmd tz sel cmd v) in H. clearbody q. split; [|split].
  - intros N. assert (E : forall k, In k variables -> (cmd =? k)%string = false) by (intros k K; apply String.eqb_neq; intros ->; contradiction).
    assert (E1 := E "info" ltac:(cbn; auto 10)). assert (E2 := E "info-aud" ltac:(cbn; auto 10)). assert (E3 := E "info-all" ltac:(cbn; auto 10)). assert (E4 := E "ps-enabled" ltac:(cbn; auto 10)).
    assert (E5 := E "cs-enabled" ltac:(cbn; auto 10)). assert (E6 := E "imsi" ltac:(cbn; auto 10)). assert (E7 := E "msisdn" ltac:(cbn; auto 10)). assert (E8 := E "aud2g" ltac:(cbn; auto 10)). assert (E9 := E "aud3g" ltac:(cbn; auto 10)).
    subst q. unfold get_cmd, set_cmd. rewrite E1, E2, E3, E4, E5, E6, E7, E8, E9. destruct get; reflexivity.
  - intros -> I. subst q. destruct I as [<-|[<-|[<-|[<-|[]]]]]; reflexivity.
  - intros -> W. subst q. destruct W as [v A C|v A C|v A C|k v K L C].
    + unfold set_cmd. cbn. unfold verify_enabled. rewrite (proj2 (String.eqb_neq _ _) A), (proj2 (String.eqb_neq _ _) C). reflexivity.
    + unfold set_cmd. cbn. unfold verify_enabled. rewrite (proj2 (String.eqb_neq _ _) A), (proj2 (String.eqb_neq _ _) C). reflexivity.
    + unfold set_cmd. cbn. unfold verify_msisdn. rewrite (proj2 (String.eqb_neq _ _) A). destruct (msisdn_valid v) eqn:M; [apply msisdn_valid_spec in M; contradiction|]. cbn. now rewrite andb_false_r.
    + assert (V : verify_aud v = false).
      { unfold verify_aud. apply orb_false_iff. split; [destruct (same_nocase v "none") eqn:S; [apply nocase_spec in S; [contradiction|reflexivity]|reflexivity]|].
        destruct (has_comma v) eqn:H; [|reflexivity]. destruct (comma_in v H) as [n E]. destruct (C n E). }
      destruct K as [<-|[<-|[]]]; unfold set_cmd; cbn; rewrite V; reflexivity.
Qed.
Lemma ctrl_other tz q : match words (match q with CtrlGet v => v | CtrlSet v _ => v end) with
  | [] => ctrl_handle tz q = Ret (RpError "cmd_make_strvec failed.")
  | String c _ as w :: l =>
      (c = "!"%char \/ c = "#"%char -> ctrl_handle tz q = Ret (RpError "cmd_make_strvec failed.")) /\
      (c <> "!"%char -> c <> "#"%char -> w <> "subscriber" -> ctrl_handle tz q = Ret (RpError "Command not found")) /\
      (w = "subscriber" -> l = [] -> ctrl_handle tz q = Ret (RpError "Command not present.")) /\
      (w = "subscriber" -> forall var, q = CtrlGet var -> l = ["create"] \/ l = ["delete"] -> ctrl_handle tz q = Ret (RpError "Write Only attribute"))
  | _ => True
  end.
Proof.
  unfold ctrl_handle. destruct (words _) as [|w l]; [reflexivity|]. destruct w as [|c w]; [exact I|]. split; [|split; [|split]].
  - intros H. assert (C : is_comment (String c w :: l) = true) by (destruct H as [->| ->]; reflexivity). rewrite C. reflexivity.
  - intros A B N. cbn [is_comment]. rewrite (proj2 (Ascii.eqb_neq _ _) A), (proj2 (Ascii.eqb_neq _ _) B). cbn [orb]. cbn [descend node_lookup]. rewrite (proj2 (String.eqb_neq _ _) N). reflexivity.
  - intros E ->. rewrite E. reflexivity.
  - intros E var -> [->| ->]; rewrite E; reflexivity.
Qed.

(** requests about a subscriber that is not there, or that cannot be read *)
Lemma complaint_kind sel e : spaceless sel -> complaint sel e ->
  match kind sel with
  | KBad rc => e = if rc =? - ENOTSUP then "Not a known subscriber 'by-xxx-' selector." else "Invalid value part of 'by-xxx-value' selector."
  | _ => e = "No such subscriber."
  end /\ (e = "No such subscriber." -> match kind sel with KBad _ => False | _ => True end) /\ (forall rc, kind sel = KBad rc -> rc = - ENOTSUP \/ rc = - EINVAL).
Proof.
  intros S C.
  assert (K1 : forall v, kind ("by-imsi-" ++ v) = if imsi_valid v then KImsi v else KBad (- EINVAL)) by (intros v; unfold kind; rewrite after_app; reflexivity).
  assert (K2 : forall v, kind ("by-msisdn-" ++ v) = if msisdn_valid v then KMsisdn v else KBad (- EINVAL)).
  { intros v. unfold kind. change (after "by-imsi-" ("by-msisdn-" ++ v)%string) with (@None string). rewrite after_app. reflexivity. }
  assert (K3 : forall v, kind ("by-id-" ++ v) = if match v with String c _ => (c =? "+")%char | EmptyString => false end then KBad (- EINVAL) else match strtoll_all v with Some i => KId i | None => KBad (- EINVAL) end).
  { intros v. unfold kind. change (after "by-imsi-" ("by-id-" ++ v)%string) with (@None string). change (after "by-msisdn-" ("by-id-" ++ v)%string) with (@None string). rewrite after_app. reflexivity. }
  destruct C as [v V|v V|t i T R|v V|v V|t NE T|t T].
  - rewrite K1, (proj2 (imsi_valid_spec v) V). repeat split; auto; discriminate.
  - rewrite K2, (proj2 (msisdn_valid_spec v) V). repeat split; auto; discriminate.
  - rewrite K3. destruct t as [|c t]; [destruct (integer_nonempty _ T)|]. destruct (Ascii.eqb_spec c "+") as [->|NP]; [destruct (integer_plus _ _ T)|].
    assert (X : strtoll_all (String c t) = Some i) by (apply strtoll_integer; [exact (spaceless_app _ _ S)|discriminate|intros r' [= -> _]; congruence|now split]).
    rewrite X. repeat split; auto; discriminate.
  - rewrite K1. destruct (imsi_valid v) eqn:E; [apply imsi_valid_spec in E; contradiction|]. repeat split; auto; try discriminate. intros rc [= <-]. auto.
  - rewrite K2. destruct (msisdn_valid v) eqn:E; [apply msisdn_valid_spec in E; contradiction|]. repeat split; auto; try discriminate. intros rc [= <-]. auto.
  - rewrite K3. destruct t as [|c t]; [congruence|]. destruct (Ascii.eqb_spec c "+") as [->|NP]; [repeat split; auto; try discriminate; intros rc [= <-]; auto|].
    destruct (strtoll_all (String c t)) as [i|] eqn:X; [|repeat split; auto; try discriminate; intros rc [= <-]; auto].
    apply strtoll_integer in X; [|exact (spaceless_app _ _ S)|discriminate|intros r' [= -> _]; congruence]. destruct X as [X Y]. destruct (T i X Y).
  - unfold kind. destruct (after "by-imsi-" t) as [v|] eqn:A1; [apply after_spec in A1; destruct (T "by-imsi-" v ltac:(cbn; auto) A1)|].
    destruct (after "by-msisdn-" t) as [v|] eqn:A2; [apply after_spec in A2; destruct (T "by-msisdn-" v ltac:(cbn; auto) A2)|].
    destruct (after "by-id-" t) as [v|] eqn:A3; [apply after_spec in A3; destruct (T "by-id-" v ltac:(cbn; auto) A3)|]. repeat split; auto; try discriminate. intros rc [= <-]. auto.
Qed.
Lemma gs_complaint tz sel e c d : db_inv d -> ids_fit d -> spaceless sel -> complaint sel e -> (forall r, In r (d_sub d) -> ~ names sel r) ->
  exists c', run (get_subscriber tz sel) c d =
    (match c with
     | EvFail :: _ => Fin (inl (if (e =? "No such subscriber.")%string then "An unknown error has occurred during get_subscriber()." else e))
     | EvCrash :: _ => if (e =? "No such subscriber.")%string then Crashed else Fin (inl e)
     | _ => Fin (inl e)
     end, d, c').
Proof.
  intros V FT S C N. unfold get_subscriber. rewrite run_bind. destruct (sel_run tz sel c d) as (c' & E & _). rewrite E. destruct (complaint_kind sel e S C) as (K & K' & R).
  assert (F : find (matches (kind sel)) (d_sub d) = None).
  { destruct (find (matches (kind sel)) (d_sub d)) as [r|] eqn:X; [|reflexivity]. apply find_some in X as [I M]. apply (kind_names d sel r V FT S I) in M. destruct (N r I M). }
  exists c'. destruct (kind sel) as [v|v|i|rc].
  1-3: subst e; unfold matches in *; destruct c as [|[] c]; try rewrite F; reflexivity.
  destruct (R rc eq_refl) as [->| ->]; cbn in K; subst e; destruct c as [|[] c]; reflexivity.
Qed.
Lemma ctrl_nobody tz (get : bool) sel cmd v e c d : db_ok d -> ids_fit d -> part sel -> (exists x, sel = ("by-" ++ x)%string) -> complaint sel e -> (forall r, In r (d_sub d) -> ~ names sel r) ->
  (if get then In cmd variables /\ cmd <> "info-aud" else In cmd ["msisdn"; "aud2g"; "aud3g"] /\ ~ wrong_value cmd v) ->
  run_out (ctrl_handle tz (let var := ("subscriber." ++ sel ++ "." ++ cmd)%string in if get then CtrlGet var else CtrlSet var v)) c d =
    match c with
    | EvFail :: _ => Fin (RpError (if (e =? "No such subscriber.")%string then "An unknown error has occurred during get_subscriber()." else e))
    | EvCrash :: _ => if (e =? "No such subscriber.")%string then Crashed else Fin (RpError e)
    | _ => Fin (RpError e)
    end.
Proof.
  intros OK FT P1 B C N W. apply db_ok_inv in OK. pose proof (part_spaceless _ P1) as S.
  assert (O : forall f, run_out (on_subscriber tz sel f) c d = match c with
    | EvFail :: _ => Fin (RpError (if (e =? "No such subscriber.")%string then "An unknown error has occurred during get_subscriber()." else e))
    | EvCrash :: _ => if (e =? "No such subscriber.")%string then Crashed else Fin (RpError e)
    | _ => Fin (RpError e)
    end).
  { intros f. unfold on_subscriber, run_out. rewrite run_bind. destruct (gs_complaint tz sel e c d OK FT S C N) as (c' & E). rewrite E. destruct c as [|[] c]; try reflexivity. destruct ((e =? _)%string); reflexivity. }
  assert (B' : is_some (after "by-" sel) = true).
  { destruct B as [x ->]. now rewrite after_app. }
  assert (P2 : part cmd).
  { apply part_sep. destruct get; destruct W as [I _]; unfold variables in I; cbn [In] in I; repeat destruct I as [<-|I]; try contradiction; split; try discriminate; reflexivity. }
  pose proof (handle_by tz get sel cmd v P1 P2 B') as H. unfold req in H. cbv zeta in H |- *. rewrite H. destruct get.
  - destruct W as [I NI]. unfold variables in I. cbn [In] in I. repeat destruct I as [<-|I]; try contradiction; try apply O.
  - destruct W as [I NW]. cbn [In] in I. destruct I as [<-|[<-|[<-|[]]]].
    + unfold set_cmd. cbn [String.eqb Ascii.eqb Bool.eqb orb]. destruct (verify_msisdn v) eqn:X; [apply O|]. exfalso. apply NW. constructor; [intros ->; discriminate|]. intros M. pose proof (proj2 (msisdn_valid_spec v) M) as MV. pose proof (msisdn_len v MV) as L.
      unfold verify_msisdn in X. rewrite MV, orb_true_r, (proj2 (Nat.leb_le _ _)) in X by lia. discriminate.
    + unfold set_cmd. cbn [String.eqb Ascii.eqb Bool.eqb orb]. destruct (verify_aud v) eqn:X; [apply O|]. exfalso. apply NW. apply orb_false_iff in X as [X1 X2]. constructor; [cbn; auto| |].
      * intros L. apply lowercase_nocase in L. congruence.
      * intros n E. assert (Q : has_comma v = true); [|congruence]. clear - E. revert n E. induction v as [|a v IH]; intros [|n] E; try discriminate; cbn in *; [injection E as ->; reflexivity|]. rewrite (IH n E). apply orb_true_r.
    + unfold set_cmd. cbn [String.eqb Ascii.eqb Bool.eqb orb]. destruct (verify_aud v) eqn:X; [apply O|]. exfalso. apply NW. apply orb_false_iff in X as [X1 X2]. constructor; [cbn; auto| |].
      * intros L. apply lowercase_nocase in L. congruence.
      * intros n E. assert (Q : has_comma v = true); [|congruence]. clear - E. revert n E. induction v as [|a v IH]; intros [|n] E; try discriminate; cbn in *; [injection E as ->; reflexivity|]. rewrite (IH n E). apply orb_true_r.
Qed.
Lemma sel_found tz sel c d r h : db_inv d -> ids_fit d -> spaceless sel -> In r (d_sub d) -> names sel r -> sub_of_row tz r = Some h -> run (get_subscriber tz sel) (EvOk :: c) d = (Fin (inr h), d, c).
Proof.
  intros V FT S I N H. pose proof (proj2 (kind_names d sel r V FT S I) N) as M.
  assert (F : find (matches (kind sel)) (d_sub d) = Some r).
  { apply find_unique; auto. intros y Iy My. apply (names_unique d sel); auto. now apply (kind_names d). }
  unfold get_subscriber. rewrite run_bind, sel_get_kind. destruct (kind sel) as [v|v|i|rc]; [change (find (by_imsi v) (d_sub d) = Some r) in F|change (find (by_msisdn v) (d_sub d) = Some r) in F|change (find (by_id i) (d_sub d) = Some r) in F|discriminate M]; unfold db_sel; cbn [run exec]; unfold Db.sel; rewrite F; cbv iota beta; rewrite H; reflexivity.
Qed.
(** a failure of the storage when the keys are read *)
Lemma ctrl_keys_fail tz sel c d r : db_ok d -> ids_fit d -> In r (d_sub d) -> names sel r -> readable r ->
  run_out (ctrl_handle tz (CtrlGet ("subscriber." ++ sel ++ ".info-all")%string)) (EvOk :: EvFail :: c) d = Fin (RpError "Error retrieving authentication data.") /\
  run_out (ctrl_handle tz (CtrlGet ("subscriber." ++ sel ++ ".aud2g")%string)) (EvOk :: EvFail :: c) d = Fin (RpError "Error retrieving data from database.") /\
  run_out (ctrl_handle tz (CtrlGet ("subscriber." ++ sel ++ ".aud3g")%string)) (EvOk :: EvFail :: c) d = Fin (RpError "Error retrieving data from database.") /\
  run_out (ctrl_handle tz (CtrlGet ("subscriber." ++ sel ++ ".info-aud")%string)) (if (sel =? "by-imsi-" ++ s_imsi r)%string then EvFail :: c else EvOk :: EvFail :: c) d = Fin (RpError "Error retrieving authentication data.").
Proof.
  intros OK FT I N R. apply db_ok_inv in OK. destruct (names_part d sel r OK I N) as [P1 B]. destruct (readable_sub tz r R) as [h H].
  pose proof (sel_found tz sel (EvFail :: c) d r h OK FT (part_spaceless _ P1) I N H) as G.
  assert (W : forall k, part k -> ctrl_handle tz (CtrlGet ("subscriber." ++ sel ++ "." ++ k)%string) = get_cmd tz sel k) by (intros k K; exact (handle_by tz true sel k "" P1 K B)).
  assert (PK : forall k, In k variables -> part k) by (intros k K; apply part_sep; unfold variables in K; cbn [In] in K; repeat destruct K as [<-|K]; try contradiction; split; try discriminate; reflexivity).
  split; [|split; [|split]].
  - change (".info-all")%string with ("." ++ "info-all")%string. rewrite W by (apply PK; cbn; auto 10). unfold get_cmd. cbn [String.eqb Ascii.eqb Bool.eqb]. unfold get_info_all, on_subscriber, run_out. rewrite run_bind, G. reflexivity.
  - change (".aud2g")%string with ("." ++ "aud2g")%string. rewrite W by (apply PK; cbn; auto 10). unfold get_cmd. cbn [String.eqb Ascii.eqb Bool.eqb]. unfold get_aud2g, on_subscriber, run_out. rewrite run_bind, G. reflexivity.
  - change (".aud3g")%string with ("." ++ "aud3g")%string. rewrite W by (apply PK; cbn; auto 10). unfold get_cmd. cbn [String.eqb Ascii.eqb Bool.eqb]. unfold get_aud3g, on_subscriber, run_out. rewrite run_bind, G. reflexivity.
  - change (".info-aud")%string with ("." ++ "info-aud")%string. rewrite W by (apply PK; cbn; auto 10). unfold get_cmd. cbn [String.eqb Ascii.eqb Bool.eqb]. unfold get_info_aud, get_subscriber_imsi, run_out. rewrite run_bind.
    clear W P1 B. destruct N as [v r' <-|v r' E|t r' E].
    + rewrite after_app, String.eqb_refl. reflexivity.
    + change (after "by-imsi-" ("by-msisdn-" ++ v)) with (@None string). change (("by-msisdn-" ++ v) =? ("by-imsi-" ++ s_imsi r'))%string with false. cbv iota. rewrite run_bind, G. reflexivity.
    + change (after "by-imsi-" ("by-id-" ++ t)) with (@None string). change (("by-id-" ++ t) =? ("by-imsi-" ++ s_imsi r'))%string with false. cbv iota. rewrite run_bind, G. reflexivity.
Qed.
(** the access of an IMSI that nobody has *)
Lemma ctrl_access_nobody tz i (ps b : bool) c d : db_ok d -> no_fault c -> part i -> (forall r, In r (d_sub d) -> s_imsi r <> i) ->
  run_out (ctrl_handle tz (CtrlSet ("subscriber." ++ ("by-imsi-" ++ i) ++ "." ++ (if ps then "ps-enabled" else "cs-enabled"))%string (if b then "1" else "0"))) c d = Fin (RpError "An error has occured.").
Proof.
  intros OK NF P N. rewrite (proj1 (run_no_fault _ c d NF)).
  assert (P1 : part ("by-imsi-" ++ i)). { apply part_sep. split; [discriminate|]. apply part_sep in P as [_ P]. rewrite forall_app, P. reflexivity. }
  assert (P2 : part (if ps then "ps-enabled" else "cs-enabled")) by (apply part_sep; destruct ps; split; try discriminate; reflexivity).
  pose proof (handle_by tz false ("by-imsi-" ++ i) (if ps then "ps-enabled" else "cs-enabled") (if b then "1" else "0") P1 P2 eq_refl) as H. unfold req in H. cbv zeta in H. rewrite H.
  assert (E : set_cmd tz ("by-imsi-" ++ i) (if ps then "ps-enabled" else "cs-enabled") (if b then "1" else "0") = set_enabled tz ("by-imsi-" ++ i) ps (if b then "1" else "0")) by (destruct ps, b; reflexivity).
  rewrite E. unfold set_enabled, get_subscriber_imsi. rewrite after_app. unfold run_out. cbn [bind]. rewrite run_bind. unfold db_subscr_nam.
  assert (Z : cnt (by_imsi i) (d_sub d) = 0%nat).
  { unfold cnt. replace (filter (by_imsi i) (d_sub d)) with (@nil sub_row); [reflexivity|]. symmetry. induction (d_sub d) as [|r l IH]; [reflexivity|]. cbn [filter]. unfold by_imsi at 1.
    destruct (String.eqb_spec (s_imsi r) i) as [Q|_]; [destruct (N r (or_introl eq_refl) Q)|]. apply IH. intros x X. apply N. now right. }
  destruct ps; cbn [run exec]; unfold upd_sub; rewrite Z; reflexivity.
Qed.
