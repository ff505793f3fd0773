(** Specification side of the peer name properties C08, C27. *)
From Verif Require Import Base PeerId Db.

(** Lexicographic order of byte strings; a proper prefix comes first. *)
Inductive bytes_lt : list ascii -> list ascii -> Prop :=
| blt_end : forall y m, bytes_lt [] (y :: m)
| blt_here : forall x y l m, (N_of_ascii x < N_of_ascii y)%N -> bytes_lt (x :: l) (y :: m)
| blt_next : forall x l m, bytes_lt l m -> bytes_lt (x :: l) (x :: m).

(** The text [t] is the name whose bytes are [n]: its characters and the terminating NUL. *)
Definition text_names (t : string) (n : ipa_name) : Prop := ipa_bytes n = bytes_of t ++ [nul].

(** The name is a text of at most [max] characters, terminated by its only NUL. *)
Definition text_name (max : nat) (n : ipa_name) : Prop :=
  exists t, text_names t n /\ ~ In nul (bytes_of t) /\ (String.length t <= max)%nat.

Definition plain_text (t : string) : Prop := forall k, String.get k t <> Some "%"%char.

(** number and proxy of the domain in a record read from the database *)
Definition sub_number (ps : bool) (h : subscriber) : string := if ps then h_sgsn h else h_vlr h.
Definition sub_proxy (ps : bool) (h : subscriber) : ipa_name := if ps then h_sgsn_proxy h else h_vlr_proxy h.
(** stored proxy texts of a subscriber have no percent sign *)
Definition proxies_plain (d : db) (id : Z) : Prop :=
  forall r, In r (d_sub d) -> s_id r = id ->
    (forall t, s_vlr_proxy r = Some t -> plain_text t) /\ (forall t, s_sgsn_proxy r = Some t -> plain_text t).

(** The buffer starts with the text and a NUL; the NUL is the first one. *)
Definition begins_text (buf : list ascii) (t : string) : Prop :=
  ~ In nul (bytes_of t) /\ exists rest, buf = bytes_of t ++ nul :: rest.
(** [s] is [t] cut to [max] characters. *)
Definition cut_at (max : nat) (t s : string) : Prop :=
  exists rest, t = (s ++ rest)%string /\ (String.length s <= max)%nat /\ (rest <> ""%string -> String.length s = max).
(** A proxy was given: not NULL and not the empty name. *)
Definition given (via : option ipa_name) (p : ipa_name) : Prop := via = Some p /\ in_len p <> 0%nat.
(** the proxy stored for the other domain *)
Definition other_proxy (ps : bool) (r : sub_row) : option string := if ps then s_vlr_proxy r else s_sgsn_proxy r.
(** The proxy read back: the text given, cut at 127 characters, or the empty name if none was given. *)
Definition proxy_read (via : option ipa_name) (n : ipa_name) : Prop :=
  (forall p, given via p -> exists u a, begins_text (in_val p) u /\ cut_at 127 u a /\ text_names a n) /\
  ((forall p, ~ given via p) -> ipa_bytes n = []).
