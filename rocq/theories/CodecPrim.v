(** The Go statement forms out of which genout.go is made, as combinators.
    Each unit of generated Go code (see tools/transcribe.py) becomes one of these. *)
From Verif Require Import Base GoBuf.

(** [len(x)] of a slice of strings or QIDs. *)
Definition glen {A} (l : list A) : N := N.of_nat (List.length l).

(** [uint64(u[i])] for the scratch array. *)
Definition ub (u : bytes) (i : nat) : N := b2n (nth i u x00).

(** [l = uint64(b.Len()); copy(b.Bytes(), []byte{uint8(l), uint8(l>>8), uint8(l>>16), uint8(l>>24)})]
    (e.g. genout.go:18-21): overwrites the first bytes of what has been written. *)
Definition set_len4 (b : bytes) : bytes :=
  let l := blen b in
  overlay b [u8 l; u8 (N.shiftr l 8); u8 (N.shiftr l 16); u8 (N.shiftr l 24)].

(** [l = uint64(b.Len()) - 2; copy(b.Bytes(), []byte{uint8(l), uint8(l>>8)})] (genout.go:1801-1802).
    The buffer has at least two bytes at this point, so the subtraction does not wrap. *)
Definition set_len2 (b : bytes) : bytes :=
  let l := blen b - 2 in
  overlay b [u8 l; u8 (N.shiftr l 8)].

(** Result of an Unmarshal function: the named results as they stand at the return, the tag,
    the buffer that is left, and the error; or a run-time panic (slice bounds out of range). *)
Inductive ures (F : Type) :=
| URet (f : F) (t : N) (rest : buf) (err : option bytes)
| UPanic.
Arguments URet {F}. Arguments UPanic {F}.

(** [if _, err = b.Read(u[:n]); err != nil { fail }; k] *)
Definition rd {R} (n : nat) (u : bytes) (b : buf) (fail : buf -> R) (k : bytes -> buf -> R) : R :=
  match buf_read n b with
  | None => fail b
  | Some (x, b') => k (overlay u x) b'
  end.

(** [X = b.Bytes()[:l]; k] *)
Definition reslice {R} (l : N) (b : buf) (panic : R) (k : bytes -> R) : R :=
  match buf_reslice l b with
  | None => panic
  | Some x => k x
  end.

(** One iteration of [for i := range X { ... }]: falls through to the next iteration with
    element value a, or returns from the function with the element partly assigned, or panics. *)
Inductive lres (A : Type) :=
| LNext (a : A) (u : bytes) (b : buf)
| LRet (a : A) (b : buf) (err : bytes)
| LPanic.
Arguments LNext {A}. Arguments LRet {A}. Arguments LPanic {A}.

(** [X = make([]A, n); for i := range X { body }; k]; elements not reached keep the zero value. *)
Fixpoint for_range {A R} (zero : A) (n : nat) (u : bytes) (b : buf)
    (body : bytes -> buf -> lres A)
    (panic : R) (ret : list A -> buf -> bytes -> R) (k : list A -> bytes -> buf -> R) : R :=
  match n with
  | O => k [] u b
  | S n' =>
      match body u b with
      | LPanic => panic
      | LRet a b err => ret (a :: repeat zero n') b err
      | LNext a u b =>
          for_range zero n' u b body panic
            (fun l b err => ret (a :: l) b err) (fun l u b => k (a :: l) u b)
      end
  end.
