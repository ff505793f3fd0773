(** Property C54: the lists of subscribers on the VTY. *)
From Coq Require Import Sorting.Sorted.
From Verif Require Import Base PeerId Db DbSpec DbProofs DbThms DbProperties Auth AuthSpec AuthThms AuthProperties CtrlSpec Mdns Proxy Ctrl CtrlProperties VtySubscr VtySpec VtyThms VtyThms6 VtyProperties VtyList VtyListSpec VtyListThms.
Local Open Scope string_scope.
Local Open Scope list_scope.
Local Open Scope Z_scope.

(** ** The case *)
(** three subscribers: the first has an IMEI and has been seen by an MSC, the second by an SGSN only, the third has MSISDN 1 *)
Definition ex_list_hist : list (api * sched) :=
  ex_hist2 ++ [(AImei "901700000001" (Some "35685103101010"), []); (ALu 1 (snd (ipa_set ipa_empty (Some (bytes_of "vlr")))) false None (Some 1000000), []); (ALu 2 (snd (ipa_set ipa_empty (Some (bytes_of "sgsn")))) true None (Some 1000500), []);
               (ACreate "901700000013" 3, []); (AMsisdn "901700000013" (Some "1"), [])].
Definition ex_list : db := Eval vm_compute in db_hist ex_list_hist db_init.
Definition ex_l1 : sub_row := Eval vm_compute in nth 0 (d_sub ex_list) ex_r1.
Definition ex_l2 : sub_row := Eval vm_compute in nth 1 (d_sub ex_list) ex_r1.
Definition ex_l3 : sub_row := Eval vm_compute in nth 2 (d_sub ex_list) ex_r1.
Definition ex_shows (c : lcmd) : mres (list string * option nat * option string) :=
  mdo t <- list_run 3600 1090061 no_lfault ex_list c;; Val (map (fun l => (n_imsi l ++ "/" ++ n_msisdn l ++ "/" ++ n_imei l ++ n_age l)%string) (tb_lines t), tb_count t, tb_warning t).
Example list_case_db : db_ok ex_list /\ imeis_ok ex_list /\ times_ok 3600 1090061 ex_list /\ d_sub ex_list = [ex_l1; ex_l2; ex_l3].
Proof.
  assert (E : ex_list = db_hist ex_list_hist db_init) by (vm_compute; reflexivity).
  split; [rewrite E; apply db_ok_inv, db_hist_inv, db_inv_init|]. split; [rewrite E; apply imeis_hist; intros r m []|].
  split; [|reflexivity]. intros r t [<-|[<-|[<-|[]]]] H; try discriminate H. injection H as <-. split; [discriminate|lia].
Qed.

(** ** The lists *)
(** Full statement: every "show subscribers" command prints exactly the subscribers that it asks for, each once, in its order, with what
    the database has about them, and their number. Missing: the search texts that [plain] excludes, see [C54_overflow_refuted],
    [C54_wildcard_refuted] and [C54_on_refuted]; subscribers seen by an SGSN only are not "seen", see [C54_seen_ps_refuted]. *)
Theorem C54_list_partial : forall tz now d c, db_ok d -> imeis_ok d -> times_ok tz now d -> typed c -> plain c ->
  exists rows tb, list_run tz now no_lfault d c = Val tb /\
    NoDup rows /\ (forall r, In r rows <-> In r (d_sub d) /\ wanted c r) /\ StronglySorted (ordered c) rows /\ Forall2 (line_shows now c) rows (tb_lines tb) /\
    (rows <> [] -> tb_count tb = Some (length rows) /\ tb_warning tb = None) /\
    (rows = [] -> tb_count tb = None /\ tb_warning tb = Some "No matching subscriber(s)") /\
    (tb_again tb = true <-> (40 < length rows)%nat).
Proof. exact list_ok. Qed.
Print Assumptions C54_list_partial.
Example C54_list_case :
  ex_shows LAll = Val (["901700000001/1001/356851031010107"; "901700000002/1002/------------- "; "901700000013/1/------------- "], Some 3%nat, None) /\
  ex_shows LLastSeen = Val (["901700000001/1001/356851031010107 (1d1h1m1s ago)"], Some 1%nat, None) /\
  ex_shows (LFilter "imsi" "00001") = Val (["901700000001/1001/356851031010107"; "901700000013/1/------------- "], Some 2%nat, None) /\
  ex_shows (LFilter "msisdn" "1") = Val (["901700000013/1/------------- "; "901700000001/1001/356851031010107"; "901700000002/1002/------------- "], Some 3%nat, None) /\
  ex_shows (LFilter "imei" "9") = Val ([], None, Some "No matching subscriber(s)").
Proof. vm_compute. auto 10. Qed.
Fixpoint has (f v : string) : bool := prefix f v || match v with String _ t => has f t | EmptyString => false end.
Lemma part_has f v : has f v = false -> ~ holds_text f v.
Proof.
  intros H (a & b & ->). assert (T : has f (a ++ f ++ b)%string = true); [|congruence]. clear H. induction a as [|c a IH]; cbn [append].
  - assert (P : prefix f (f ++ b)%string = true) by (induction f as [|c f IH]; [destruct b; reflexivity|cbn; destruct (ascii_dec c c); [exact IH|contradiction]]).
    destruct (f ++ b)%string eqn:E; cbn [has]; rewrite P; reflexivity.
  - cbn [has]. rewrite IH. apply orb_true_r.
Qed.
Example C54_plain_case : typed (LFilter "imsi" "00001") /\ plain (LFilter "imsi" "00001") /\ typed (LFilter "ps" "off") /\ plain (LFilter "ps" "off") /\
  wanted (LFilter "imsi" "00001") ex_l3 /\ ~ wanted (LFilter "imsi" "00001") ex_l2.
Proof.
  split; [apply ty_text; cbn; auto|]. split; [|split; [apply ty_access; cbn; auto|]].
  { intros _. split; [cbn; lia|]. split; [discriminate|]. split; [discriminate|]. intros n x. do 5 (destruct n; [intros E; injection E as <-; split; discriminate|]). destruct n; discriminate. }
  split; [cbn [plain]; intros [E|[E|[E|[]]]]; discriminate E|]. split; [apply w_imsi; exists "901700", "3"; reflexivity|].
  intros H. inversion H; subst. now apply (part_has "00001" "901700000002").
Qed.

(** Under any fault of the database the lines printed are the first ones of the full list; all of them, unless a warning follows. *)
Theorem C54_fault : forall tz now d c x, db_ok d -> imeis_ok d -> times_ok tz now d -> typed c -> plain c ->
  exists tb full n, list_run tz now x d c = Val tb /\ list_run tz now no_lfault d c = Val full /\
    tb_lines tb = firstn n (tb_lines full) /\ (tb_warning tb = None -> tb = full) /\
    (tb_warning tb = tb_warning full \/ tb_warning tb = Some (lf_msg x)) /\
    tb_count tb = match tb_lines tb with [] => None | l => Some (length l) end.
Proof. exact list_fault. Qed.
Print Assumptions C54_fault.
Example C54_fault_case : exists tb, list_run 3600 1090061 (mk_lfault false (Some 2%nat) "disk I/O error") ex_list LAll = Val tb /\
  map n_imsi (tb_lines tb) = ["901700000001"; "901700000002"] /\ tb_count tb = Some 2%nat /\ tb_warning tb = Some "disk I/O error".
Proof. eexists. split; [vm_compute; reflexivity|]. vm_compute. auto. Qed.

(** ** Refutations *)
(** The search text is printed into 256 octets without a limit: every longer word overflows them, with any database. *)
Theorem C54_overflow_refuted : forall tz now x d t f, In t ["imei"; "imsi"; "msisdn"] -> (254 <= String.length f)%nat ->
  typed (LFilter t f) /\ list_run tz now x d (LFilter t f) = Bad.
Proof.
  intros tz now x d t f I L. split; [now apply ty_text|]. cbn [list_run]. unfold get_subscrs, db_subscrs_get.
  assert (S : search_text f = None).
  { unfold search_text. destruct (String.eqb_spec f "on") as [->|]; [cbn in L; lia|]. destruct (String.eqb_spec f "off") as [->|]; [cbn in L; lia|].
    destruct (Nat.leb_spec 254 (String.length f)); [reflexivity|lia]. }
  rewrite S. destruct I as [<-|[<-|[<-|[]]]]; reflexivity.
Qed.
Print Assumptions C54_overflow_refuted.
(** Wildcards of SQL are not quoted: a subscriber is listed whose IMSI does not have the text searched for. *)
Theorem C54_wildcard_refuted : exists tz now d f r tb l, db_ok d /\ imeis_ok d /\ times_ok tz now d /\ list_run tz now no_lfault d (LFilter "imsi" f) = Val tb /\
  In r (d_sub d) /\ In l (tb_lines tb) /\ n_imsi l = s_imsi r /\ ~ wanted (LFilter "imsi" f) r.
Proof.
  destruct list_case_db as (OK & IM & TO & SB). exists 3600, 1090061, ex_list, "000_2", ex_l2.
  eexists. exists (mk_line 2 "1002" "901700000002" "------------- " true true "").
  split; [exact OK|]. split; [exact IM|]. split; [exact TO|]. split; [vm_compute; reflexivity|]. split; [rewrite SB; right; left; reflexivity|].
  split; [left; reflexivity|]. split; [reflexivity|]. intros H. inversion H; subst. now apply (part_has "000_2" "901700000002").
Qed.
Print Assumptions C54_wildcard_refuted.
(** The words "on" and "off" are taken for 1 and 0 in every filter. *)
Theorem C54_on_refuted : exists tz now d r tb l, db_ok d /\ imeis_ok d /\ times_ok tz now d /\ list_run tz now no_lfault d (LFilter "msisdn" "on") = Val tb /\
  In r (d_sub d) /\ In l (tb_lines tb) /\ n_imsi l = s_imsi r /\ ~ wanted (LFilter "msisdn" "on") r.
Proof.
  destruct list_case_db as (OK & IM & TO & SB). exists 3600, 1090061, ex_list, ex_l3.
  eexists. exists (mk_line 3 "1" "901700000013" "------------- " true false "").
  split; [exact OK|]. split; [exact IM|]. split; [exact TO|]. split; [vm_compute; reflexivity|]. split; [rewrite SB; right; right; left; reflexivity|].
  split; [left; reflexivity|]. split; [reflexivity|]. intros H. inversion H; subst.
  match goal with E : s_msisdn ex_l3 = Some ?m |- _ => injection E as <- end. now apply (part_has "on" "1").
Qed.
Print Assumptions C54_on_refuted.
(** A subscriber whose last location update was in the packet switched domain is missing from the list of those last seen. *)
Theorem C54_seen_ps_refuted : exists tz now d r t tb, db_ok d /\ imeis_ok d /\ times_ok tz now d /\ In r (d_sub d) /\ s_lu_ps r = Some t /\
  list_run tz now no_lfault d LLastSeen = Val tb /\ forall l, In l (tb_lines tb) -> n_imsi l <> s_imsi r.
Proof.
  destruct list_case_db as (OK & IM & TO & SB). exists 3600, 1090061, ex_list, ex_l2, 1000500. eexists.
  split; [exact OK|]. split; [exact IM|]. split; [exact TO|]. split; [rewrite SB; right; left; reflexivity|]. split; [reflexivity|]. split; [vm_compute; reflexivity|].
  intros l [<-|[]]. discriminate.
Qed.
Print Assumptions C54_seen_ps_refuted.
