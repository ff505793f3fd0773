(** C69: where a subscriber is registered, and since when. *)
From Verif Require Import Base PeerId Db DbSpec Gsup Router Hlr HlrSpec.

(** the registration in a domain: serving node, node it was reached through, time *)
Definition through (x : domain) (r : sub_row) : option string := match x with CS => s_vlr_proxy r | PS => s_sgsn_proxy r end.
Definition since (x : domain) (r : sub_row) : option Z := match x with CS => s_lu_cs r | PS => s_lu_ps r end.
Definition same_place (x : domain) (r r' : sub_row) : Prop := serving x r' = serving x r /\ through x r' = through x r /\ since x r' = since x r.
Definition nowhere (x : domain) (r : sub_row) : Prop := serving x r = None /\ through x r = None /\ since x r = None.

(** the text of the name [a]: what stands in front of the first NUL *)
Definition text_of (a : list ascii) (n : string) : Prop := forall t rest, a = bytes_of t ++ nul :: rest -> ~ In nul (bytes_of t) -> n = t.
(** [p] is the node that passed on the message [g] from connection [c], if the message says that it comes from another one *)
Definition passed_by (v : server) (c : nat) (g : gsup) (p : option string) : Prop :=
  exists y, In y (v_conns v) /\ c_id y = c /\
    ((p = None /\ (g_src g = [] \/ g_src g = ipa_bytes (c_name y) \/ ipa_bytes (c_name y) = [])) \/
     (exists n, p = Some n /\ g_src g <> [] /\ g_src g <> ipa_bytes (c_name y) /\ ipa_bytes (c_name y) <> [] /\ text_of (ipa_bytes (c_name y)) n)).

(** The location update request [g] from connection [c] has registered the subscriber: [r] before, [r'] after. The time may be
    the old one: it is stored last. *)
Record moved (w : world) (v : server) (c : nat) (g : gsup) (x : domain) (r r' : sub_row) : Prop := {
  mv_type : g_type g = MSGT_UPDATE_LOCATION_REQUEST;
  mv_dom : in_domain g x;
  mv_imsi : g_imsi g = s_imsi r;
  mv_node : exists a n, sends_as v c g a /\ text_of a n /\ serving x r' = Some n;
  mv_by : passed_by v c g (through x r');
  mv_time : since x r' = since x r \/ (w_now w <> None /\ since x r' = w_now w);
  mv_other : forall y, y <> x -> same_place y r r' }.

(** the event is not a direct call of db_subscr_lu(), which nobody but the location update makes *)
Definition no_direct_lu (e : event) : Prop := match e with EApi (ALu _ _ _ _ _) => False | _ => True end.
(** The row [r'] after event [e] comes from a row [r] of before, or a new one without registration, and is registered as
    before, or as the event says. *)
Definition row_from (w : world) (v : server) (e : event) (d : db) (r' : sub_row) : Prop :=
  exists r, (In r (d_sub d) \/ forall x, nowhere x r) /\ s_id r' = s_id r /\ s_imsi r' = s_imsi r /\
    ((forall x, same_place x r r') \/ exists c g x, e = ERx c g /\ moved w v c g x r r').
