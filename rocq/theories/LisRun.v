(** Running the text of server.go: Serve and Shutdown of one Listener, by any number of goroutines, interleaved step by step. *)
From Verif Require Import Base GoBuf GoSyntax Ufs GoRun GoFmt GoProg GoWp Listener ServerRun LisConc.
From Verif Require ClientRun ListenerRun.

Notation quiet := ClientRun.quiet.
Notation P := protocol_program.
(** Memory, and who holds l.mu. *)
Notation M := (memory (option nat)).
Definition v_net (n : N) : value := VObj (str "net.Listener") n.
Definition err_v (e : option bytes) : value := match e with Some e => VErr (OSErr e) | None => VNil end.
Definition err_of_v (v : value) : option (option bytes) := match v with VNil => Some None | VErr (OSErr e) => Some (Some e) | _ => None end.
Definition accept_v (r : accepted) : list value :=
  match r with AConn c => [VObj (str "net.Conn") c; VNil] | ATemp => [VNil; VObj (str "net.Error") 0] | APerm e => [VNil; VErr (OSErr e)] end.

Section Text.
(** The cell of the Listener; which permanent errors are net.Errors. *)
Variable Li : N.
Variable is_net : bytes -> bool.
Definition v_mu : value := VPtr (str "sync.Mutex") Li [SF (str "mu")].
(** What other packages answer without anything being seen: the trace function and the creator of file servers (in /repo: C69), and type
    assertion of errors. *)
Definition lib_call (f : bytes) (args : list value) (s : M) : reply (option nat) :=
  let is x := beq f x in
  match args with
  | VObj k n :: _ =>
      if is (str "net.Error.Temporary") then Answer [VBool true] s
      else if is (str "Tracer") then Answer [] s
      else if is (str "NsCreator") then Answer [VObj (str "NineServer") 0] s
      else NoAnswer
  | [VErr e] => if is (str "error.Temporary") then Answer [VBool false] s else NoAnswer
  | [VStr t; v] =>
      if is (str "assert2") && beq t (str "net.Error") then
        match v with
        | VObj _ _ => Answer [v; VBool true] s
        | VErr (OSErr e) => Answer (if is_net e then [v; VBool true] else [VNil; VBool false]) s
        | _ => NoAnswer
        end
      else NoAnswer
  | _ => NoAnswer
  end.
Definition lib (r : req) (s : M) : reply (option nat) :=
  match r with
  | RExt f args => lib_call f args s
  | RChan n => Answer [VObj (str "chan") 0] s
  | _ => NoAnswer
  end.
(** One step of goroutine i.  A range over a map visits every key once, in any order.  The goroutines started by Accept (conn.serve, C61)
    read only fields of the Listener that nothing here writes, and are not followed. *)
Inductive th_step (i : nat) (m : machine) (s : M) : list ev -> machine -> M -> Prop :=
| s_quiet m' : quiet (step P m) = Some m' -> th_step i m s [] m' s
| s_ask r m' vs s' : step P m = Ask r m' -> answer lib r s = Answer vs s' -> th_step i m s [] (resume m' vs) s'
| s_keys a m' d t od : step P m = Ask (RMapKeys a) m' -> cells s a = Some (VMap d t) -> NoDup od -> (forall k, In k od <-> t k <> None) ->
    th_step i m s [] (resume m' [VList (map v_net od)]) s
| s_lock m' : step P m = Ask (RExt (str "sync.Mutex.Lock") [v_mu]) m' -> rest s = None -> th_step i m s [ELock] (resume m' []) (with_rest s (Some i))
| s_unlock m' j : step P m = Ask (RExt (str "sync.Mutex.Unlock") [v_mu]) m' -> rest s = Some j -> th_step i m s [EUnlock] (resume m' []) (with_rest s None)
| s_accept m' ln r : step P m = Ask (RExt (str "net.Listener.Accept") [v_net ln]) m' -> th_step i m s [EAccept ln r] (resume m' (accept_v r)) s
| s_close m' ln r : step P m = Ask (RExt (str "net.Listener.Close") [v_net ln]) m' -> th_step i m s [EClose ln r] (resume m' [err_v r]) s
| s_sleep m' w z : step P m = Ask (RExt (str "time.Sleep") [VI w z]) m' -> th_step i m s [ESleep (Z.to_N z)] (resume m' []) s
| s_go m' t a v k c : step P m = Ask (RGo (FUser (str "conn.serve") [VPtr t a []]) []) m' -> cells s a = Some v -> get_path [SF (str "rwc")] v = Some (VObj k c) ->
    th_step i m s [EStart c] (resume m' []) s.
(** It cannot go on: the process panics, or the machine asks for something that is not covered (waiting for l.mu is not meant). *)
Inductive lost (m : machine) (s : M) : Prop :=
| x_panic : step P m = Panic -> lost m s
| x_none f : step P m = Maybe None f -> lost m s
| x_stuck w : step P m = Stuck w -> lost m s
| x_ret vs : step P m = Ret vs -> (forall v r, vs = [v] -> err_of_v v = Some r -> False) -> lost m s
| x_ask r m' : step P m = Ask r m' -> (forall i l m2 s2, ~ th_step i m s l m2 s2) -> r <> RExt (str "sync.Mutex.Lock") [v_mu] -> lost m s.
Definition begin (t : task) : machine :=
  match t with
  | TServe ln => start (str "Listener.Serve") [VPtr (str "Listener") Li []] [v_net ln]
  | TShutdown => start (str "Listener.Shutdown") [VPtr (str "Listener") Li []] []
  end.
(** All of them. *)
Definition goroutines := nat -> option machine.
Inductive t_step (x : goroutines) (s : M) : list (nat * ev) -> goroutines -> M -> Prop :=
| t_begin i t : x i = None -> t_step x s [(i, EBegin t)] (set_at x i (Some (begin t))) s
| t_act i m l m' s' : x i = Some m -> th_step i m s l m' s' -> t_step x s (map (pair i) l) (set_at x i (Some m')) s'
| t_end i m v r : x i = Some m -> step P m = Ret [v] -> err_of_v v = Some r -> t_step x s [(i, EEnd r)] (set_at x i None) s.
Inductive t_runs (s0 : M) : list (nat * ev) -> goroutines -> M -> Prop :=
| tr_nil : t_runs s0 [] (fun _ => None) s0
| tr_step ls x s l x' s' : t_runs s0 ls x s -> t_step x s l x' s' -> t_runs s0 (ls ++ l) x' s'.
(** The Listener is new (server.go:66-78, C62_new). *)
Definition fresh (cr : value) (ad : bytes) (tra : value) (s : M) : Prop :=
  cells s Li = Some (v_listener cr ad tra VNil) /\ Li < free s /\ rest s = None.
(** Any execution on a new Listener, with or without a trace function. *)
Definition executes (ls : list (nat * ev)) (x : goroutines) (s : M) : Prop :=
  exists cn ad tra s0, (tra = VNil \/ exists n, tra = VObj (str "Tracer") n) /\ fresh (VObj (str "NsCreator") cn) ad tra s0 /\ t_runs s0 ls x s.
(** A request that reads or writes l.listeners or the map. *)
Definition touches (s : M) (r : req) : Prop :=
  match r with
  | RLoad a p | RStore a p _ => a = Li /\ match p with [] => True | SF f :: _ => f = str "listeners" | _ => False end
  | RMapGet a _ | RMapSet a _ _ | RMapDel a _ | RMapKeys a => exists v, cells s Li = Some v /\ get_path [SF (str "listeners")] v = Some (VPtr [] a [])
  | _ => False
  end.
(** Goroutine i alone comes to something that can be seen, to the end, or to waiting for l.mu, whatever it is answered. *)
Inductive comes (i : nat) (m : machine) (s : M) : Prop :=
| k_end v r : step P m = Ret [v] -> err_of_v v = Some r -> comes i m s
| k_wait m' : step P m = Ask (RExt (str "sync.Mutex.Lock") [v_mu]) m' -> comes i m s
| k_seen e m' s' : th_step i m s [e] m' s' -> comes i m s
| k_step : (exists m' s', th_step i m s [] m' s') -> (forall l m' s', th_step i m s l m' s' -> l = [] /\ comes i m' s') -> comes i m s.
End Text.
