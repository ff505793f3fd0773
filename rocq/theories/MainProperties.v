(** C70 (command line and start-up of osmo-hlr and osmo-hlr-db-tool): theorems and cases. *)
From Verif Require Import Base Upgrade UpgradeSpec UpgradeThms UpgradeThms2 UpgradeThms4 Ctrl Main MainSpec MainThms.
Local Open Scope string_scope. Local Open Scope Z_scope.

(** Words are understood exactly if they spell options and other words, and then as these; the tables of both programs qualify. *)
Theorem C70_spelling shorts longs l ws args : NoDup (map fst shorts) -> NoDup (map lo_name longs) -> (forall b, ~ In ("-"%char, b) shorts) ->
  (getopt shorts longs args = (l, Some ws) <-> spelled shorts longs l ws args).
Proof. intros A B C. apply getopt_iff. split; auto. Qed.
Print Assumptions C70_spelling.
(** in one way only *)
Theorem C70_unambiguous l1 w1 l2 w2 args : spelled hlr_shorts hlr_longs l1 w1 args -> spelled hlr_shorts hlr_longs l2 w2 args -> l1 = l2 /\ w1 = w2.
Proof. exact (spelled_unique _ _ _ _ _ _ _ hlr_tables). Qed.
Print Assumptions C70_unambiguous.
Example spell1 : spelled hlr_shorts hlr_longs [(RChar "D", None); (RChar "l", Some "-U"); (RChar "C", None); (RChar "c", Some "a=b")] ["x"; "-"; "-y"]
  ["-Dl"; "-U"; "x"; "--db-c"; "--conf=a=b"; "-"; "--"; "-y"].
Proof. apply C70_spelling; [apply hlr_tables|apply hlr_tables|apply hlr_tables|]. vm_compute. reflexivity. Qed.
(** "--d" begins several names, "-c" wants an argument *)
Example spell2 : ~ (exists l ws, spelled hlr_shorts hlr_longs l ws ["--d"; "GSUP"]) /\ ~ (exists l ws, spelled hlr_shorts hlr_longs l ws ["-c"]).
Proof. split; intros (l & ws & S); apply (spelled_getopt _ _ _ _ _ hlr_tables) in S; vm_compute in S; discriminate. Qed.

(** All options of the help texts are there, by their long names; and by their short ones except -C *)
Theorem C70_documented c n b : In (c, n, b) hlr_documented -> In (mk_lopt n b (RChar c)) hlr_longs /\ (c <> "C"%char -> In (c, b) hlr_shorts).
Proof. intros I. cbn in I. repeat (destruct I as [I|I]; [injection I as <- <- <-; cbn; split; [auto 20|intros; try tauto; auto 20]|]). destruct I. Qed.
Print Assumptions C70_documented.
Theorem C70_tool_documented c n b : In (c, n, b) tool_documented -> In (mk_lopt n b (RChar c)) tool_longs /\ In (c, b) tool_shorts.
Proof. intros I. cbn in I. repeat (destruct I as [I|I]; [injection I as <- <- <-; cbn; auto 20|]). destruct I. Qed.
Print Assumptions C70_tool_documented.
(** which the help of osmo-hlr gives too, but which makes it fail. *)
Theorem C70_short_check_refuted : In ("C"%char, "db-check", false) hlr_documented /\
  forall e args k, hlr_main e ("-C" :: args) k = ([], k, EOption) /\ status EOption = 255.
Proof. split; [cbn; auto 20|]. intros e args k. split; reflexivity. Qed.
Print Assumptions C70_short_check_refuted.

(** osmo-hlr takes its options exactly if they are spelled with no other words and none of them ends it; *)
Theorem C70_accepted modes args : (exists o, hlr_handle_options modes args = inl o) <->
  exists l, spelled hlr_shorts hlr_longs l [] args /\ Forall (fun e => ~ ends modes e) l.
Proof.
  split.
  - intros [o H]. destruct (handle_settings _ _ _ H) as (l & S & N & _). eauto.
  - intros (l & S & N). exact (handle_accepts modes l args S N).
Qed.
Print Assumptions C70_accepted.
(** and does then what they ask for; *)
Theorem C70_settings modes args l o : hlr_handle_options modes args = inl o -> spelled hlr_shorts hlr_longs l [] args -> asked l o.
Proof. intros H S. destruct (handle_settings _ _ _ H) as (l' & S' & _ & A). destruct (spelled_unique _ _ _ _ _ _ _ hlr_tables S S') as [-> _]. exact A. Qed.
Print Assumptions C70_settings.
Definition no_modes (s : string) : Z := if (s =? "expert")%string then 1 else -22.
Example settings1 : hlr_handle_options no_modes ["-c"; "x.cfg"; "-UD"; "--database"; "a.db"; "--database=b.db"; "-dDAUC"; "-d"; "DDB"; "--log-level"; "3"; "--vty-ref-mode=expert"] =
  inl (mk_hopts "x.cfg" (Some "b.db") true true false ["DAUC"; "DDB"] true (Some 3) false 1).
Proof. reflexivity. Qed.
(** help, version, and the reference of the VTY come out whatever follows, and nothing is done; *)
Theorem C70_ends e args l o l2 ws a b k : args = (a ++ b)%list -> spells hlr_shorts hlr_longs (l ++ o :: l2) ws a -> Forall (fun x => ~ ends (e_modes e) x) l -> ends (e_modes e) o ->
  exists x, hlr_main e args k = ([], k, x) /\ (fst o = RChar "h" -> x = EHelp) /\ (fst o = RChar "V" -> x = EVersion) /\ (fst o = RFlag 2 -> exists m, x = EXml m /\ mode_named (e_modes e) l 0 m) /\ (fst o = RFlag 1 -> x = EMode).
Proof.
  intros -> S N E. destruct (handle_ends _ _ _ _ _ _ b S N E) as (x & H & P). exists x. split; auto. unfold hlr_main. rewrite H. reflexivity.
Qed.
Print Assumptions C70_ends.
Definition env0 : menv := mk_menv (fun n => if (n =? "none")%string then (-2, None) else if (n =? "path.cfg")%string then (0, Some "c.db") else (0, None)) no_modes 0 [] 0 true 0.
Definition disk0 : disk := fun n => if (n =? "old.db")%string then mk_file 3 false [] [] else file_empty.
Example ends1 : hlr_main env0 ["-Dh"; "-C"; "nonsense"] disk0 = ([], disk0, EHelp) /\ hlr_main env0 ["nonsense"; "--vers"; "--wrong"] disk0 = ([], disk0, EVersion)
  /\ hlr_main env0 ["--vty-ref-mode"; "x"] disk0 = ([], disk0, EMode)
  /\ hlr_main env0 ["--vty-ref-mode"; "expert"; "--vty-ref-xml"; "-C"] disk0 = ([], disk0, EXml 1).
Proof. repeat split. Qed.
(** with a mistake nothing is read or opened. *)
Theorem C70_mistake e args k acts k' x : hlr_main e args k = (acts, k', x) ->
  ~ (exists l, spelled hlr_shorts hlr_longs l [] args /\ Forall (fun e0 => ~ ends (e_modes e) e0) l) -> acts = [] /\ k' = k /\ In (status x) [0; 2; 255].
Proof.
  intros H N. rewrite <- C70_accepted in N. destruct (main_run _ _ _ _ _ _ H) as [(y & Y & -> & -> & ->)|(l & o & n & E & _)]; [|destruct N; eauto]. split; auto. split; auto.
  exact (handle_status _ _ _ Y).
Qed.
Print Assumptions C70_mistake.
Example mistake1 : hlr_main env0 ["-U"; "hlr.db"] disk0 = ([], disk0, EWords) /\ hlr_main env0 ["-UCl"; "hlr.db"] disk0 = ([], disk0, EOption).
Proof. split; reflexivity. Qed.

(** The configuration is read first; then the database opened, that of -l or of the configuration or hlr.db, once, for upgrading if asked to; *)
Theorem C70_order e args k acts k' x : hlr_main e args k = (acts, k', x) -> acts <> [] ->
  exists l o n rest, spelled hlr_shorts hlr_longs l [] args /\ asked l o /\ db_name l (snd (e_config e (o_config o))) n /\
    (acts = [AConfig (o_config o)] \/ acts = (AConfig (o_config o) :: AOpen n (o_upgrade o) :: rest)%list) /\
    (forall m u, ~ In (AOpen m u) rest) /\ (forall c, ~ In (AConfig c) rest).
Proof.
  intros H N. destruct (main_run _ _ _ _ _ _ H) as [(y & _ & -> & _)|(l & o & n & _ & S & A & D & R)]; [tauto|].
  exists l, o, n, (List.tl (List.tl acts)). split; [exact S|]. split; [exact A|]. split; [exact D|].
  destruct R; cbn [List.app List.tl]; (split; [auto|]); try destruct (o_daemon o); split; intros; cbn; intuition discriminate.
Qed.
Print Assumptions C70_order.
(** the server runs only if this worked, with a database of the current version, after the sockets are there, and unless --db-check is given; it ends by a signal. *)
Theorem C70_serves e args k acts k' x : hlr_main e args k = (acts, k', x) -> In AServe acts ->
  exists l o n f, spelled hlr_shorts hlr_longs l [] args /\ asked l o /\ ~ given l "C"%char /\ db_name l (snd (e_config e (o_config o))) n /\
    db_open (o_upgrade o) (e_fates e) (k n) = Opened f /\ f_version f = 7 /\ forallb (prepare f) stmt_sql = true /\ k' n = f /\
    0 <= fst (e_config e (o_config o)) /\ 0 <= e_rand e /\ 0 <= e_telnet e /\ e_gsup e = true /\ (given l "D"%char -> 0 <= e_daemon e) /\ status x = 0 /\
    exists before, acts = (before ++ [AServe; AClose])%list /\ In ATelnet before /\ In AGsup before /\ In ACtrl before /\ In ADgsm before /\ (In AFork before <-> given l "D"%char).
Proof.
  intros H N. destruct (main_run _ _ _ _ _ _ H) as [(y & _ & -> & _)|(l & o & n & _ & S & A & D & R)]; [destruct N|].
  destruct R as [| | | | | | |f O Ck C0 R0 T0 G0 F0]; try (cbn in N; intuition discriminate). exists l, o, n, f. split; auto. split; auto.
  split; [intros G; apply (ak_check _ _ A) in G; congruence|]. split; auto. split; auto.
  pose proof (c43_version (o_upgrade o) (e_fates e) (k n)) as V. rewrite O in V. destruct (V eq_refl) as [V1 V2]. split; auto. split; auto. split; [unfold disk_set; rewrite String.eqb_refl; auto|].
  split; auto. split; auto. split; auto. split; auto. split; [intros G; apply F0, (ak_daemon _ _ A); auto|]. split; auto.
  rewrite app_assoc. eexists. split; [reflexivity|]. rewrite <- (ak_daemon _ _ A). destruct (o_daemon o); cbn; intuition discriminate.
Qed.
Print Assumptions C70_serves.
Example serves1 : let '(acts, k, x) := hlr_main env0 ["-c"; "path.cfg"; "-D"] disk0 in
  acts = [AConfig "path.cfg"; AOpen "c.db" false; ATelnet; AGsup; ACtrl; ADgsm; AFork; AServe; AClose] /\ f_version (k "c.db") = 7 /\ k "hlr.db" = file_empty /\ x = EStopped.
Proof. vm_compute. auto. Qed.
Example serves2 : let '(acts, k, x) := hlr_main env0 ["-c"; "path.cfg"; "-l"; "old.db"] disk0 in acts = [AConfig "path.cfg"; AOpen "old.db" false] /\ x = EDb /\ status x = 1.
Proof. vm_compute. auto. Qed.
Example serves3 : let '(acts, k, x) := hlr_main env0 ["-c"; "none"] disk0 in acts = [AConfig "none"] /\ status x = 254.
Proof. vm_compute. auto. Qed.
(** --db-check opens the database and closes it; no socket is opened, nothing served; it succeeds exactly if the database could be opened. *)
Theorem C70_check e args k acts k' x l : hlr_main e args k = (acts, k', x) -> spelled hlr_shorts hlr_longs l [] args -> given l "C"%char -> acts <> [] ->
  exists o n, asked l o /\ db_name l (snd (e_config e (o_config o))) n /\
    (acts = [AConfig (o_config o)] \/ acts = [AConfig (o_config o); AOpen n (o_upgrade o)] \/ acts = [AConfig (o_config o); AOpen n (o_upgrade o); AClose]) /\
    (0 <= fst (e_config e (o_config o)) -> 0 <= e_rand e -> (status x = 0 <-> is_open (db_open (o_upgrade o) (e_fates e) (k n)) = true)).
Proof.
  intros H S' G N. destruct (main_run _ _ _ _ _ _ H) as [(y & _ & -> & _)|(l' & o & n & _ & S & A & D & R)]; [tauto|]. destruct (spelled_unique _ _ _ _ _ _ _ hlr_tables S S') as [-> _].
  exists o, n. split; auto. split; auto. apply (ak_check _ _ A) in G.
  destruct R as [C|C|r x O F X|f O C|f O C|f O C|f O C|f O C]; try congruence; (split; [auto|]); intros C0 R0; try lia.
  - rewrite O, F. split; [destruct X; subst x; discriminate|discriminate].
  - rewrite O. split; reflexivity.
Qed.
Print Assumptions C70_check.
Example check1 : let '(acts, k, x) := hlr_main env0 ["--db-check"; "-D"] disk0 in acts = [AConfig "osmo-hlr.cfg"; AOpen "hlr.db" false; AClose] /\ status x = 0.
Proof. vm_compute. auto. Qed.

(** Of all files only the database asked for may change; its data is kept; its contents change only if it is of an older version and upgrading was asked for, or it has none of the tables of
    the HLR. *)
Theorem C70_files e args k acts k' x m : hlr_main e args k = (acts, k', x) ->
  kept (k m) (k' m) /\
  (same_contents (k m) (k' m) \/
   exists l o, spelled hlr_shorts hlr_longs l [] args /\ asked l o /\ db_name l (snd (e_config e (o_config o))) m /\
     ((given l "U"%char /\ 0 <= f_version (k m) < 7) \/ (f_version (k m) = 0 /\ get_tab (f_tabs (k m)) "subscriber" = None))).
Proof. exact (c70_disk e args k acts k' x m). Qed.
Print Assumptions C70_files.
Example files1 : let '(_, k, x) := hlr_main env0 ["-U"; "-l"; "old.db"] disk0 in x = EDb /\ f_version (k "old.db") = 3 /\ same_contents (k "hlr.db") (disk0 "hlr.db").
Proof. vm_compute. auto. Qed.

(** osmo-hlr-db-tool does something, or reports success, only for the words "create" or "import-nitb-db" and a file, without help or version; it opens the database named, creates or upgrades it,
    imports the file if told so, and reports success exactly if this worked. *)
Theorem C70_tool rand fates imported args k acts k' x : tool_main rand fates imported args k = (acts, k', x) -> (acts <> [] \/ k' <> k \/ x = EDone) ->
  0 <= rand /\ exists l ws n u, spelled tool_shorts tool_longs l ws args /\ ~ given l "h"%char /\ ~ given l "V"%char /\
    last_given l "l"%char (Some "hlr.db") (Some n) /\ (u = true <-> given l "U"%char) /\
    let r := db_open u fates (k n) in
    (forall m, m <> n -> k' m = k m) /\
    ((is_open r = false /\ acts = [AOpen n u] /\ k' n = op_file r /\ (x = EDb \/ x = EDied) /\ (ws = ["create"] \/ exists f, ws = ["import-nitb-db"; f])) \/
     (is_open r = true /\ ws = ["create"] /\ acts = [AOpen n u; AClose] /\ k' n = op_file r /\ x = EDone) \/
     (is_open r = true /\ exists f, ws = ["import-nitb-db"; f] /\ acts = [AOpen n u; AImport f; AClose] /\ k' n = snd (imported f (op_file r)) /\
        (x = EDone <-> fst (imported f (op_file r)) = 0))).
Proof. exact (tool_main_ok rand fates imported args k acts k' x). Qed.
Print Assumptions C70_tool.
(** and such words are taken *)
Theorem C70_tool_accepted args : (exists o, tool_handle_options args = inl o) <->
  exists l ws, spelled tool_shorts tool_longs l ws args /\ ~ given l "h"%char /\ ~ given l "V"%char /\ (ws = ["create"] \/ exists f, ws = ["import-nitb-db"; f]).
Proof.
  split.
  - intros [o H]. destruct (tool_settings _ _ H) as (l & ws & S & N1 & N2 & _ & W). exists l, ws. split; auto. split; auto. split; auto. destruct W as [[-> _]|(f & -> & _)]; eauto.
  - intros (l & ws & S & N1 & N2 & W). exact (tool_accepts l ws args S N1 N2 W).
Qed.
Print Assumptions C70_tool_accepted.
Definition import0 (n : string) (f : file) : Z * file := if (n =? "sms.db")%string then (0, f) else (-1, f).
Example tool1 : let '(acts, k, x) := tool_main 0 [] import0 ["create"; "-l"; "new.db"] disk0 in
  acts = [AOpen "new.db" false; AClose] /\ f_version (k "new.db") = 7 /\ x = EDone.
Proof. vm_compute. auto. Qed.
Example tool2 : let '(acts, k, x) := tool_main 0 [] import0 ["import-nitb-db"; "other.db"] disk0 in acts = [AOpen "hlr.db" false; AImport "other.db"; AClose] /\ status x = 1.
Proof. vm_compute. auto. Qed.
Example tool3 : let '(acts, k, x) := tool_main 0 [] import0 ["import-nitb-db"] disk0 in acts = [] /\ status x = 1.
Proof. vm_compute. auto. Qed.
