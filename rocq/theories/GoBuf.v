(** Model of the Go library type bytes.Buffer, as far as /repo uses it for decoding.

    A Buffer is an array of which the bytes from the read offset up to the length are the
    unread contents and the bytes after the length up to the capacity are spare.
    We keep exactly those two parts; bytes before the read offset are never looked at.
    Simplification: the reset to offset 0 that Read performs on an empty buffer is not
    represented; every caller returns an error at that point and the next use of the buffer
    is a Marshal function, which resets it anyway. *)
From Verif Require Import Base.

Record buf := Buf { unread : bytes; spare : bytes }.

(** [b.Len()] *)
Definition buf_len (b : buf) : N := blen (unread b).

(** [b.Read(p)] with [len(p) = n], n > 0: copies min(n, Len) bytes, *without error* when fewer
    than n bytes are there; [None] (io.EOF) only when the buffer is empty. *)
Definition buf_read (n : nat) (b : buf) : option (bytes * buf) :=
  match unread b with
  | [] => None
  | _ :: _ => Some (firstn n (unread b), Buf (skipn n (unread b)) (spare b))
  end.

(** [copy(u[:n], x)]: the first bytes of the scratch array are overwritten, the rest stays. *)
Definition overlay (u x : bytes) : bytes := x ++ skipn (List.length x) u.

(** [b.Next(l)]: drop l bytes, or all of them when fewer remain. *)
Definition buf_next (l : N) (b : buf) : buf :=
  if buf_len b <=? l then Buf [] (spare b) else Buf (skipn (N.to_nat l) (unread b)) (spare b).

(** [b.Bytes()[:l]]: Go allows reslicing up to the *capacity*; beyond it is a run-time panic
    (None).  Bytes between length and capacity are whatever the memory holds. *)
Definition buf_reslice (l : N) (b : buf) : option bytes :=
  if l <=? blen (unread b) + blen (spare b)
  then Some (firstn (N.to_nat l) (unread b ++ spare b))
  else None.

(** [var u [8]uint8] *)
Definition u_zero : bytes := repeat x00 8.
