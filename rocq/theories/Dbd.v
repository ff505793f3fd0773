(** Decoding of keys in a legacy OsmoNITB database: /repo/src/dbd_decode_binary.c *)
From Verif Require Import Base Mdns.
Local Open Scope N_scope.

(** The loop of _dbd_decode_binary, dbd_decode_binary.c:31-36. [mem]: the memory that may be read, from the read pointer
    on; [room]: octets that may still be written to [out]; [e]: the offset. The value is what gets written.
    c = *(in++) - 1 and c + e are stored in an unsigned char. *)
Fixpoint dbd_loop (e : N) (mem : list N) (room : nat) : mres (list N) :=
  match mem with
  | [] => Bad
  | c :: m =>
      if c =? 0 then Val []
      else
        match room with
        | O => Bad
        | S room' =>
            if c =? 1 then
              match m with
              | [] => Bad
              | c2 :: m2 => mdo l <- dbd_loop e m2 room';; Val ((c2 + 255 + e) mod 256 :: l)
              end
            else mdo l <- dbd_loop e m room';; Val ((c + e) mod 256 :: l)
        end
  end.

(** _dbd_decode_binary, dbd_decode_binary.c:26-38; the result is the octets written, their number is what it returns.
    An empty [mem] stands for a NULL pointer. *)
Definition dbd_decode (mem : list N) (room : nat) : mres (list N) :=
  match mem with
  | [] => Bad
  | e :: m => dbd_loop e m room
  end.
