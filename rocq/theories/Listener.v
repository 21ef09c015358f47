(** Model of protocol/server.go: Listener.Serve, trackListener, closeListenersLocked, Shutdown. *)
From Verif Require Import Base.
From Coq Require Import Permutation.

(** * The accept loop, server.go:125-158 *)
(** What ln.Accept returns: a connection, a temporary net.Error, any other error. *)
Inductive accepted := AConn (c : N) | ATemp | APerm (err : bytes).
(** What the loop does: sleep so many nanoseconds, or start serving a connection (Accept, server.go:162-170, never fails
    because newConn never does). *)
Inductive action := Sleep (ns : N) | Start (c : N).
(** [Serve] from the loop on: actions, and the error returned, None while it still waits for the next Accept
    (the end of the list). time.Duration is in nanoseconds; the delay is capped, so it does not overflow. *)
Fixpoint accept_loop (tempDelay : N) (outs : list accepted) : list action * option bytes :=
  match outs with
  | [] => ([], None)
  | AConn c :: outs => let (a, r) := accept_loop 0 outs in (Start c :: a, r)
  | ATemp :: outs =>
      let tempDelay := if tempDelay =? 0 then 5000000 else tempDelay * 2 in
      let tempDelay := if 1000000000 <? tempDelay then 1000000000 else tempDelay in
      let (a, r) := accept_loop tempDelay outs in (Sleep tempDelay :: a, r)
  | APerm err :: _ => ([], Some err)
  end.

(** * The set of listeners, server.go:96-121 and 174-179 *)
(** Listeners are compared by identity; a listener is a number here.  All three operations hold l.mu for their whole
    duration, so a history is a sequence of them. The map is a list without duplicates. *)
Definition track (m : list nat) (ln : nat) : list nat := if in_dec Nat.eq_dec ln m then m else ln :: m.
Definition untrack (m : list nat) (ln : nat) : list nat := remove Nat.eq_dec ln m.

(** server.go:112-121: the loop over the map, in the order [order]; [res] says what Close returns for each.
    Result: the map, the listeners closed, the error. *)
Fixpoint close_loop (order : list nat) (res : nat -> option bytes) (m : list nat) (err : option bytes)
  : list nat * list nat * option bytes :=
  match order with
  | [] => (m, [], err)
  | ln :: order =>
      let cerr := res ln in
      let err := match cerr, err with Some e, None => Some e | _, _ => err end in
      let m := untrack m ln in
      let '(m, cl, err) := close_loop order res m err in (m, ln :: cl, err)
  end.

(** Serve starts (server.go:130), Serve returns (its deferred calls, server.go:126 and 131, last one first: untrack,
    then ln.Close), Shutdown (174-179) with the iteration order Go chose, the results of the Close calls, and
    the error it returned. *)
Inductive lev :=
| LServe (ln : nat)
| LStop (ln : nat)
| LShutdown (order : list nat) (res : nat -> option bytes) (closed : list nat) (ret : option bytes).
(** A range over a Go map visits every entry once, in any order; deleting the current entry is allowed. *)
Inductive lstep (m : list nat) : lev -> list nat -> Prop :=
| ls_serve ln : lstep m (LServe ln) (track m ln)
| ls_stop ln : lstep m (LStop ln) (untrack m ln)
| ls_shutdown order res m' cl err : Permutation order m -> close_loop order res m None = (m', cl, err) ->
    lstep m (LShutdown order res cl err) m'.
(** server.go:66-78: a new listener has an empty map.  [lrun h m]: the map after history h (latest event last). *)
Inductive lrun : list lev -> list nat -> Prop :=
| lr_nil : lrun [] []
| lr_snoc h m e m' : lrun h m -> lstep m e m' -> lrun (h ++ [e]) m'.
