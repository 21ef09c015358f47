(** Several connections to one file server process: protocol/server.go:81-93 (newConn calls nsCreator, so each connection
    gets a server of its own), 162-170 (one goroutine for each connection), filesystem.go:449-461 (nsCreator: a new
    FileServer with an empty table).

    The goroutines interleave between any two operations of the methods in Ufs.v.  They share the operating system, about
    whose answers nothing is assumed: whatever one connection does to files may show in any way in the answers another
    one gets.  A panic in any goroutine ends the process.  Only the file server is modelled here; what is in front of it
    (reading, Dispatch, writing) works on data of its own connection, see Server.v. *)
From Verif Require Import Base GoBuf CodecPrim Types Codec Msgs StubPrim GoPath Ufs UfsSpec.

(** A request that is being worked on: the table it started from, the request, the operations done, what is left to do. *)
Record active := mkActive { a_pre : table; a_req : tmsg; a_tr : list event; a_left : prog (answerOf rmsg) }.
(** A connection: its table, the requests answered so far, the current one. *)
Record conn := mkConn { cn_tab : table; cn_done : list step; cn_now : option active }.
Definition new_conn : conn := mkConn no_fids [] None.
(** The process: its open connections by number (None: no such connection). *)
Definition proc := nat -> option conn.
Definition set_conn (p : proc) (i : nat) (x : option conn) : proc := fun j => if Nat.eqb j i then x else p j.

(** What a connection can do. *)
Inductive cstep (c : config) : conn -> conn -> Prop :=
(* a request arrives *)
| c_request u d m : cstep c (mkConn u d None) (mkConn u d (Some (mkActive u m [] (method c m))))
(* one operation *)
| c_call u d pre m tr o k x : allowed u o x ->
    cstep c (mkConn u d (Some (mkActive pre m tr (Call o k)))) (mkConn (effect o u) d (Some (mkActive pre m (tr ++ [Ev o x]) (k x))))
(* the method returns *)
| c_reply u d pre m tr r :
    cstep c (mkConn u d (Some (mkActive pre m tr (Ret r)))) (mkConn u (d ++ [mkStep pre m tr (Some r) u]) None).
(** What the process can do; the label says which connection did it.  None: the process is dead. *)
Inductive pstep (c : config) : option proc -> nat -> option proc -> Prop :=
| p_accept p i : p i = None -> pstep c (Some p) i (Some (set_conn p i (Some new_conn)))
| p_step p i a b : p i = Some a -> cstep c a b -> pstep c (Some p) i (Some (set_conn p i (Some b)))
| p_close p i a : p i = Some a -> pstep c (Some p) i (Some (set_conn p i None))
| p_panic p i u d pre m tr : p i = Some (mkConn u d (Some (mkActive pre m tr Panic))) -> pstep c (Some p) i None.
(** Any run from the start; the list says which connections acted. *)
Inductive pruns (c : config) : list nat -> option proc -> Prop :=
| pr_start : pruns c [] (Some (fun _ => None))
| pr_step is p i p' : pruns c is p -> pstep c p i p' -> pruns c (is ++ [i]) p'.

(** A stretch of a run. *)
Inductive psteps (c : config) : option proc -> list nat -> option proc -> Prop :=
| pss_nil p : psteps c p [] p
| pss_cons p i q is r : pstep c p i q -> psteps c q is r -> psteps c p (i :: is) r.
(** All operations a connection has done so far. *)
Definition conn_trace (x : conn) : list event := trace (cn_done x) ++ match cn_now x with Some a => a_tr a | None => [] end.
