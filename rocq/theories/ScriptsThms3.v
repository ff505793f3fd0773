(** Proofs about the scripts that forward calls and messages (C74), continued: the script that talks to the daemon. *)
From Verif Require Import Base PeerId DbProofs Db DbSpec Auth Gsup Router Ctrl MsLookup Mdns MsClient MsClientSpec MsTool MsToolSpec MsToolThms MsToolThms2 MsToolThms4 MsToolThms5 MsToolThms7 MsToolThms8 MsToolThms9 Cmd Scripts ScriptsSpec ScriptsThms ScriptsThms2.
Local Open Scope string_scope. Local Open Scope N_scope.

Lemma cells_two l : length l = 0%nat \/ length l = 2%nat -> length (cells l) = 2%nat.
Proof. destruct l; cbn; auto. intros [H|H]; [discriminate|exact H]. Qed.
Lemma host_two o h : length (told_host o h) = 0%nat \/ length (told_host o h) = 2%nat.
Proof. unfold told_host. destruct (nonzero h) as [[a p]|]; auto. Qed.
Lemma result_length o d r : length (result_cells o d (Some r)) = 8%nat.
Proof.
  unfold result_cells. destruct (r_code r); auto. cbn [app length]. rewrite app_length, !cells_two by apply host_two. reflexivity.
Qed.
Lemma zip_more a : forall b c, length b = length a -> zip a (b ++ c) = zip a b.
Proof. induction a as [|x a IH]; intros [|y b] c H; cbn in *; try discriminate; auto. rewrite IH; auto. Qed.
Lemma line_row o d r : o_fmt o = Csv -> plain_ntop o -> all_chars no_tab d = true -> (String.length d <= 700)%nat -> zip COLUMNS (fields (format o d (Some r))) = zip COLUMNS (result_cells o d (Some r)).
Proof.
  intros F P T L. destruct (r_code r) eqn:C.
  - rewrite (c59_nine o d r) by (auto; congruence). apply zip_more. apply result_length.
  - rewrite (c59_csv o d (Some r)); auto.
  - rewrite (c59_nine o d r) by (auto; congruence). apply zip_more. apply result_length.
Qed.
Lemma socket_app n a b r : socket_lines n (a ++ b) r = socket_lines n b (socket_lines n a r).
Proof. revert r. induction a as [|x a IH]; intros r; cbn; auto. Qed.
Lemma socket_told o d rs : o_fmt o = Csv -> plain_ntop o -> all_chars no_tab d = true -> (String.length d <= 700)%nat ->
  socket_lines COLUMNS (rev (map (fun r => format o d (Some r)) rs)) [("result", "not-found")] = row o d rs.
Proof.
  intros F P T L. induction rs as [|r rs IH]; [reflexivity|]. cbn [map rev]. rewrite socket_app, IH. cbn [socket_lines]. rewrite (line_row o d r F P T L). unfold row. cbn [newest].
  assert (K : cell_of "result" (zip COLUMNS (result_cells o d (Some r))) = Some (code_name (r_code r))) by reflexivity. rewrite K. destruct (r_code r); reflexivity.
Qed.
Lemma none_row o d : o_fmt o = Csv -> plain_ntop o -> all_chars no_tab d = true -> (String.length d <= 700)%nat -> socket_lines COLUMNS [format o d None] [("result", "not-found")] = [("result", "not-found")].
Proof. intros F P T L. cbn [socket_lines]. rewrite (c59_csv o d None); auto. Qed.
Lemma c74_socket o args p s x d l s2 : reached o args p s -> o_fmt o = Csv -> o_head o = true -> plain_ntop o -> N.of_nat (length args + packets p + packets l) < 4294967295 ->
  asked (bytes_of x) = Some d -> d <> "" -> all_chars no_tab d = true -> (String.length d <= 700)%nat -> unasked s d -> Forall (apart (t_next s) d) l ->
  trun o s (EAccept :: EPacket (t_next s) (bytes_of x) :: l) = Val s2 -> closed (t_next s) s2 ->
  exists rs, (rs = [] \/ (rs = calls (c_uid (t_cl s)) (c_trace (t_cl s2)) /\ final_call (c_uid (t_cl s)) (c_trace (t_cl s2)) /\ exists q, query_init d = inl q)) /\
    socket_query x (rev (sent (t_next s) (t_out s2))) true = (Some x, PGot (row o d rs)).
Proof.
  intros R F H P L A Dn Nt Ld [U1 U2] Ap E C. set (i := t_next s) in *. cbn [trun tstep mbind] in E. set (s1 := socket_accept o s) in *.
  destruct (reached_tinv _ _ _ _ R) as [[B _] _].
  assert (S0 : sent i (t_out s) = []).
  { assert (X : forall t, ~ In (OMsg i t) (t_out s)) by (intros t Y; apply (v_msg _ B) in Y; unfold i in Y; lia). clear - X. induction (t_out s) as [|y l IH]; auto. destruct y as [t|j t|j]; cbn; try (apply IH; intros t' Y; apply (X t'); right; auto; fail).
    destruct (N.eqb_spec j i) as [->|_]; [destruct (X t); left; auto|apply IH; intros t' Y; apply (X t'); right; auto]. }
  assert (S1 : sent i (t_out s1) = [CSV_HEADERS]) by (unfold s1, socket_accept; rewrite F, H; cbn [t_put t_out sent]; fold i; rewrite N.eqb_refl, S0; reflexivity).
  assert (R1 : reached o args (p ++ [EAccept]) s1).
  { destruct R as (Lr & s0 & E0 & E1). assert (Pk : packets (p ++ [EAccept]) = packets p) by (clear; induction p as [|y p IH]; auto; destruct y; cbn; auto). split; [rewrite Pk; auto|]. exists s0. split; auto. rewrite trun_app, E1. reflexivity. }
  assert (Pk : packets (p ++ [EAccept]) = packets p) by (clear; induction p as [|y p IH]; auto; destruct y; cbn; auto).
  assert (C1 : connected s1 i "") by (unfold s1, socket_accept, connected; rewrite F, H; left; reflexivity).
  assert (Q1 : unasked s1 d). { unfold s1, socket_accept, unasked, connected. rewrite F, H. cbn [t_put t_cls t_qs]. split; auto. intros j [Y|Y]; [injection Y as _ Y; congruence|exact (U1 j Y)]. }
  assert (Uid : c_uid (t_cl s1) = c_uid (t_cl s)) by (unfold s1, socket_accept; rewrite F, H; reflexivity).
  destruct (c58_own o args (p ++ [EAccept]) s1 i (bytes_of x) d l s2 R1) as [(Se & Cl)|(u & q & Eu & Qi & Se & Cl)]; auto.
  - rewrite Pk. cbn [packets]. lia.
  - exists []. split; auto. rewrite Se, S1. cbn [rev app socket_query]. change (fields CSV_HEADERS) with COLUMNS. rewrite none_row; auto.
  - exists (calls u (c_trace (t_cl s2))). split; [right; rewrite <- Uid, Eu; split; auto; split; [apply Cl; auto|eauto]|]. rewrite Se, S1, rev_app_distr. cbn [rev app socket_query]. change (fields CSV_HEADERS) with COLUMNS. rewrite socket_told; auto.
Qed.
