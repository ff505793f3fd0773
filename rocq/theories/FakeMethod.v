(** The fake lookup method: /repo/src/mslookup/mslookup_client_fake.c.

    The client is seen from the method: it calls fake_lookup_request() and fake_lookup_request_cleanup(), by itself or while it is
    given a result (the user's callback can ask and cancel), and it can be freed. What it does while it is given a result is arbitrary
    here and comes as a list of calls. The clock is arbitrary: every reading is given with the call. Allocations succeed, the
    lists are those of linuxlist.h, objects have an identity that is never given again. *)
From Verif Require Import Base MsLookup Mdns MsClient.
Local Open Scope Z_scope.

(** struct timeval, timersub() and timercmp(a, b, <) of sys/time.h, used at mslookup_client_fake.c:109-110 *)
Record timeval := mk_tv { tv_sec : Z; tv_usec : Z }.
Definition timersub (a b : timeval) : timeval :=
  let s := tv_sec a - tv_sec b in
  let u := tv_usec a - tv_usec b in
  if u <? 0 then mk_tv (s - 1) (u + 1000000) else mk_tv s u.
Definition timer_lt (a b : timeval) : bool :=
  if tv_sec a =? tv_sec b then tv_usec a <? tv_usec b else tv_sec a <? tv_sec b.

(** struct osmo_mslookup_fake_response, mslookup_client_fake.h:24-30 *)
Record fresp := mk_resp { p_wait : timeval; p_for : query; p_rc : rcode; p_res : lresult; p_sent : bool }.
(** struct fake_lookup_request, mslookup_client_fake.c:35-40; [r_uid]: the identity of the object *)
Record freq := mk_freq { r_uid : N; r_handle : N; r_query : query; r_at : timeval }.
(** for the specification: requests taken, and responses handed to the client (number in the table), newest first *)
Inductive fnote :=
| FAsked (u h : N) (q : query) (t : timeval)
| FAnswered (i : nat) (u h : N) (now : timeval).
(** struct fake_lookup_state, mslookup_client_fake.c:27-33; [f_alive]: not yet freed; [f_uid]: the next identity *)
Record fstate := mk_fs { f_reqs : list freq; f_resps : list fresp; f_uid : N; f_alive : bool; f_log : list fnote }.

(** what the client calls *)
Inductive move :=
| MRequest (h : N) (q : query) (t : timeval)
| MCleanup (h : N)
| MFree.

(** fake_lookup_request, mslookup_client_fake.c:46-65 *)
Definition fake_request (h : N) (q : query) (t : timeval) (s : fstate) : fstate :=
  mk_fs (f_reqs s ++ [mk_freq (f_uid s) h q t]) (f_resps s) (f_uid s + 1) (f_alive s) (FAsked (f_uid s) h q t :: f_log s).
(** fake_lookup_request_cleanup, mslookup_client_fake.c:67-83: the first request with the handle *)
Fixpoint drop_handle (h : N) (l : list freq) : list freq :=
  match l with
  | [] => []
  | r :: l => if (r_handle r =? h)%N then l else r :: drop_handle h l
  end.
Definition fake_cleanup (h : N) (s : fstate) : fstate :=
  mk_fs (drop_handle h (f_reqs s)) (f_resps s) (f_uid s) (f_alive s) (f_log s).
(** osmo_mslookup_client_free or osmo_mslookup_client_method_del, mslookup_client.c:78-97, 112-125: the method has no destruct
    function (mslookup_client_fake.c:144-149), its state is a child of it and goes; the timer is not stopped. *)
Definition fake_free (s : fstate) : fstate := mk_fs [] (f_resps s) (f_uid s) false (f_log s).
Definition do_move (s : fstate) (m : move) : fstate :=
  if f_alive s then
    match m with
    | MRequest h q t => fake_request h q t s
    | MCleanup h => fake_cleanup h s
    | MFree => fake_free s
    end
  else s.
Definition do_moves (ms : list move) (s : fstate) : fstate := fold_left do_move ms s.

(** the conditions at mslookup_client_fake.c:102-111 *)
Definition replies (now : timeval) (r : freq) (p : fresp) : bool :=
  negb (p_sent p) && query_eqb (r_query r) (p_for p) && negb (timer_lt (timersub now (r_at r)) (p_wait p)).
(** the inner loop, mslookup_client_fake.c:97-122, up to the first response that is given *)
Fixpoint find_resp (now : timeval) (r : freq) (l : list fresp) : option nat :=
  match l with
  | [] => None
  | p :: l => if replies now r p then Some 0%nat else option_map S (find_resp now r l)
  end.
(** resp->sent = true, mslookup_client_fake.c:117 *)
Fixpoint mark (i : nat) (l : list fresp) : list fresp :=
  match l, i with
  | [], _ => []
  | p :: l, O => mk_resp (p_wait p) (p_for p) (p_rc p) (p_res p) true :: l
  | p :: l, S i => p :: mark i l
  end.

(** the request with this identity and the one after it, [None]: the end of the list; nothing if there is no such request any more *)
Fixpoint seek (u : N) (l : list freq) : option (freq * option N) :=
  match l with
  | [] => None
  | r :: l => if (r_uid r =? u)%N then Some (r, match l with [] => None | n :: _ => Some (r_uid n) end) else seek u l
  end.

(** [FBad]: freed memory is used, [s] is the state then *)
Inductive fres := FOk (s : fstate) | FBad (s : fstate) | FFuel.

(** the outer loop, mslookup_client_fake.c:94-123: llist_for_each_entry_safe() takes the next request before the body and goes on with
    it after the body. [script]: what the client does for each result it is given. *)
Fixpoint tick_loop (fuel : nat) (now : timeval) (script : list (list move)) (cur : option N) (s : fstate) : fres :=
  match cur with
  | None => FOk s
  | Some u =>
      match fuel with
      | O => FFuel
      | S fuel =>
          match seek u (f_reqs s) with
          | None => FBad s
          | Some (r, n) =>
              match find_resp now r (f_resps s) with
              | None => tick_loop fuel now script n s
              | Some i =>
                  let s := mk_fs (f_reqs s) (f_resps s) (f_uid s) (f_alive s) (FAnswered i (r_uid r) (r_handle r) now :: f_log s) in
                  let s := do_moves (hd [] script) s in
                  if f_alive s then
                    tick_loop fuel now (tl script) n (mk_fs (f_reqs s) (mark i (f_resps s)) (f_uid s) true (f_log s))
                  else FBad s
              end
          end
      end
  end.
(** fake_lookup_async_response, mslookup_client_fake.c:85-126 *)
Definition tick (now : timeval) (script : list (list move)) (s : fstate) : fres :=
  if f_alive s then
    tick_loop (S (length (f_reqs s) + length (concat script))) now script
      (match f_reqs s with [] => None | r :: _ => Some (r_uid r) end) s
  else FBad s.

(** the method is used: the client calls it, the timer fires *)
Inductive fev := ECall (m : move) | ETick (now : timeval) (script : list (list move)).
Definition fstep (s : fstate) (e : fev) : fres :=
  match e with ECall m => FOk (do_move s m) | ETick now script => tick now script s end.
Fixpoint frun (s : fstate) (l : list fev) : fres :=
  match l with [] => FOk s | e :: l => match fstep s e with FOk s => frun s l | x => x end end.
(** osmo_mslookup_client_add_fake, mslookup_client_fake.c:128-156 *)
Definition add_fake (table : list fresp) : fstate := mk_fs [] table 0 true [].
