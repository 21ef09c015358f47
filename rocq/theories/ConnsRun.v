(** Several connections to one file server process, from the text of package ufs: the goroutines of the connections take turns in any
    order, between any two steps of the machine of GoRun.v.

    Each connection has a memory of its own, with a copy of the flags, which no method changes; that the memory of the FileServers does not
    overlap is C69_apart.  What is shared is the operating system: it may answer every call with anything.  A panic ends the process. *)
From Verif Require Import Base GoBuf CodecPrim Types Codec Msgs StubPrim GoPath GoSyntax GoRun GoProg Ufs UfsSpec GoFmt UfsRun UfsRunThm3 Conns.

(** * One step of a goroutine *)
(** Go on; make a call of the operating system (or use the mutex) and go on with its answer; return; panic; not covered. *)
Inductive act :=
| Tau (m : machine) (s : store unit) | Do (o : op) (k : ret_of o -> machine * store unit) | Finish (vs : list value) | Die | Off.
(** The cells of the flags user, root and debug. *)
Definition flags_at (fs : N) : layout := mkLayout fs 0 0 1 2.
Definition G : layout := flags_at 0.
Definition noted (s : store unit) (e : event) : store unit := mkStore (heap s) (next s) (locked s) tt (calls_made s ++ [e]).
(** Not used: the calls of the operating system are taken out below. *)
Definition no_os : os unit := fun o w => (match o return ret_of o with
  | OLock | OUnlock | OPut _ _ | ODel _ | OSet _ _ => tt
  | OGet _ => None | OLstat _ | OStat _ | OReaddir _ | OOpen _ _ _ => inl EOF
  | OReadAt _ _ _ => ([], None) | OWriteAt _ _ _ => (0%Z, None)
  | OMkdir _ _ | OChmod _ _ | ORename _ _ | OTruncate _ _ | OChtimes _ _ _ | ORemove _ | OSeek _ | OSync _ | OClose _ => None
  end, w).
(** A request to the memory or to a function of the library that does not leave the process. *)
Definition inside_ask (r : req) (m : machine) (s : store unit) : act :=
  match serve_req no_os G r s with Answer vs s => Tau (resume m vs) s | Crash => Die | NoAnswer => Off end.
Definition look (m : machine) (s : store unit) : act :=
  match GoRun.step ufs_program m with
  | Next m => Tau m s
  | Branch b m m' => Tau (if b then m else m') s
  | Split [] m _ => Tau m s
  | Split (v :: l) _ m => Tau (m v l) s
  | Maybe (Some v) m => Tau (m v) s
  | Maybe None _ => Die
  | GoRun.Ret vs => Finish vs
  | GoRun.Panic => Die
  | Stuck _ => Off
  | Ask (RExt f args) m =>
      match library f args s with
      | LOs o enc => Do o (fun x => (resume m (enc x), noted s (Ev o x)))
      | LRead a o enc =>
          match heap s a with
          | Some (VArr z) => Do o (fun x => let (vs, b) := enc x in (resume m vs, with_heap (noted s (Ev o x)) (hset (heap s) a (VArr (overlay z b)))))
          | _ => Off
          end
      | LLock b =>
          if Bool.eqb b (locked s) then Off
          else if b then Do OLock (fun x => (resume m [], mkStore (heap s) (next s) true tt (calls_made s ++ [Ev OLock x])))
          else Do OUnlock (fun x => (resume m [], mkStore (heap s) (next s) false tt (calls_made s ++ [Ev OUnlock x])))
      | _ => inside_ask (RExt f args) m s
      end
  | Ask r m => inside_ask r m s
  end.

(** * Connections *)
(** A goroutine makes a file server (the function literal in NewUFS), or it runs a method of it for a request. *)
Inductive purpose := New | For (fs : N) (q : tmsg).
Inductive job := Idle (fs : N) | Busy (w : purpose) (m : machine).
Record thread := mkThread { th_mem : store unit; th_job : job }.
Definition boot (c : config) : store unit :=
  mkStore (fun a => if a =? 0 then Some (VStr (user c)) else if a =? 1 then Some (VStr (rootPath c)) else if a =? 2 then Some (VI 64 0) else None) 3 false tt [].
Definition new_thread (c : config) : thread := mkThread (boot c) (Busy New create_server).
(** What can be seen of a connection: it is opened or closed, a request arrives, a call of the operating system (and of the mutex) with its answer,
    the result of the method, a panic. *)
Inductive deed := DOpen | DRequest (q : tmsg) | DCall (e : event) | DReply (r : answerOf rmsg) | DClose | DPanic.

Inductive th_step : thread -> list deed -> thread -> Prop :=
| th_tau s w m m' s' : look m s = Tau m' s' -> th_step (mkThread s (Busy w m)) [] (mkThread s' (Busy w m'))
| th_do s w m o k x : look m s = Do o k -> th_step (mkThread s (Busy w m)) [DCall (Ev o x)] (mkThread (snd (k x)) (Busy w (fst (k x))))
| th_made s m a : look m s = Finish [VPtr (str "FileServer") a []] -> th_step (mkThread s (Busy New m)) [] (mkThread s (Idle a))
| th_request s a q : th_step (mkThread s (Idle a)) [DRequest q] (mkThread s (Busy (For a q) (request (flags_at a) q)))
| th_reply s a q m vs r : look m s = Finish vs -> reply_of s q vs = Some r -> th_step (mkThread s (Busy (For a q) m)) [DReply r] (mkThread s (Idle a)).
(** The process: its connections by number.  None: it is dead. *)
Definition threads := nat -> option thread.
Definition set_thread (x : threads) (i : nat) (t : option thread) : threads := fun j => if Nat.eqb j i then t else x j.
Inductive t_step (c : config) : option threads -> list (nat * deed) -> option threads -> Prop :=
| t_open x i : x i = None -> t_step c (Some x) [(i, DOpen)] (Some (set_thread x i (Some (new_thread c))))
| t_acts x i t l t' : x i = Some t -> th_step t l t' -> t_step c (Some x) (map (pair i) l) (Some (set_thread x i (Some t')))
| t_close x i t : x i = Some t -> t_step c (Some x) [(i, DClose)] (Some (set_thread x i None))
| t_panic x i s w m : x i = Some (mkThread s (Busy w m)) -> look m s = Die -> t_step c (Some x) [(i, DPanic)] None.
(** All executions: any connection may take the next step. *)
Inductive t_runs (c : config) : list (nat * deed) -> option threads -> Prop :=
| tr_start : t_runs c [] (Some (fun _ => None))
| tr_step ls x l x' : t_runs c ls x -> t_step c x l x' -> t_runs c (ls ++ l) x'.

(** * The same for the model of Conns.v *)
Inductive c_step (c : config) : conn -> list deed -> conn -> Prop :=
| cl_request u d m : c_step c (mkConn u d None) [DRequest m] (mkConn u d (Some (mkActive u m [] (method c m))))
| cl_call u d pre m tr o k x : allowed u o x ->
    c_step c (mkConn u d (Some (mkActive pre m tr (Call o k)))) (if external (Ev o x) then [DCall (Ev o x)] else [])
      (mkConn (effect o u) d (Some (mkActive pre m (tr ++ [Ev o x]) (k x))))
| cl_reply u d pre m tr r :
    c_step c (mkConn u d (Some (mkActive pre m tr (Ret r)))) [DReply r] (mkConn u (d ++ [mkStep pre m tr (Some r) u]) None).
Inductive m_step (c : config) : option proc -> list (nat * deed) -> option proc -> Prop :=
| m_open p i : p i = None -> m_step c (Some p) [(i, DOpen)] (Some (set_conn p i (Some new_conn)))
| m_acts p i a l b : p i = Some a -> c_step c a l b -> m_step c (Some p) (map (pair i) l) (Some (set_conn p i (Some b)))
| m_close p i a : p i = Some a -> m_step c (Some p) [(i, DClose)] (Some (set_conn p i None))
| m_panic p i u d pre m tr : p i = Some (mkConn u d (Some (mkActive pre m tr Panic))) -> m_step c (Some p) [(i, DPanic)] None.
Inductive m_runs (c : config) : list (nat * deed) -> option proc -> Prop :=
| mr_start : m_runs c [] (Some (fun _ => None))
| mr_step ls p l p' : m_runs c ls p -> m_step c p l p' -> m_runs c (ls ++ l) p'.

(** * What is said about executions *)
(** The goroutine comes to an end of what it is doing, whatever the operating system answers. *)
Inductive surely : machine -> store unit -> Prop :=
| su_tau m s m' s' : look m s = Tau m' s' -> surely m' s' -> surely m s
| su_do m s o k : look m s = Do o k -> (forall x, surely (fst (k x)) (snd (k x))) -> surely m s
| su_finish m s vs : look m s = Finish vs -> surely m s
| su_die m s : look m s = Die -> surely m s.
(** What connection i did since it was last opened. *)
Fixpoint since (i : nat) (ls : list (nat * deed)) (acc : list deed) : list deed :=
  match ls with
  | [] => acc
  | (j, d) :: ls => since i ls (if Nat.eqb j i then match d with DOpen => [] | d => acc ++ [d] end else acc)
  end.
(** What a history of requests shows. *)
Definition shown (h : list UfsSpec.step) : list deed :=
  flat_map (fun x => DRequest (s_req x) :: map DCall (filter external (s_tr x)) ++ match s_res x with Some r => [DReply r] | None => [] end) h.
(** The text and the model have the same connections, which have made the same calls so far. *)
Definition alike (x : option threads) (p : option proc) : Prop :=
  match x, p with
  | None, None => True
  | Some x, Some p => forall i, match x i, p i with
      | Some t, Some y => calls_made (th_mem t) = filter external (conn_trace y)
      | None, None => True
      | _, _ => False
      end
  | _, _ => False
  end.
