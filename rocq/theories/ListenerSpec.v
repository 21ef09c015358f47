(** What back-off and shutdown should do. *)
From Verif Require Import Base Listener.

(** The wait after the k-th temporary error in a row: 5 ms, doubling, at most 1 s. *)
Definition backoff (k : nat) : N := N.min (5000000 * 2 ^ (N.of_nat k - 1)) 1000000000.
(** Only temporary errors and connections. *)
Definition no_perm (l : list accepted) : Prop := Forall (fun a => match a with APerm _ => False | _ => True end) l.
(** After these outcomes the next error would be the first in a row. *)
Definition calm (l : list accepted) : Prop := l = [] \/ exists p c, l = p ++ [AConn c].

(** A listener is being served: its last Serve has neither returned nor been shut down. *)
Definition shuts (e : lev) : bool := match e with LShutdown _ _ _ _ => true | _ => false end.
Definition being_served (h : list lev) (ln : nat) : Prop :=
  exists h1 h2, h = h1 ++ LServe ln :: h2 /\ ~ In (LStop ln) h2 /\ forallb (fun e => negb (shuts e)) h2 = true.
(** The first error among the results of closing these listeners in this order. *)
Fixpoint first_error (order : list nat) (res : nat -> option bytes) : option bytes :=
  match order with
  | [] => None
  | ln :: order => match res ln with Some e => Some e | None => first_error order res end
  end.
(** Number of Serve calls on ln that have not returned. *)
Definition running (h : list lev) (ln : nat) : Z :=
  fold_left (fun n e => match e with
    | LServe l => if Nat.eqb l ln then (n + 1)%Z else n
    | LStop l => if Nat.eqb l ln then (n - 1)%Z else n
    | _ => n end) h 0%Z.
