(** Running the text of cmd/ufs/ufs.go: main, with NewUFS, the Listener and the wrapper for -debug, from the initialisation of the
    package variables on. *)
From Verif Require Import Base GoBuf GoSyntax Ufs GoRun GoFmt GoText GoProg GoWp Listener ServerRun ListenerRun.

(** The package variables that are flags, and the whole program. *)
Definition flag_decls : list decl := file filesystem_text ++ file ninep_text ++ file ufs_text.
Definition daemon_decls : list decl := file protocol_text ++ file server_text ++ file debug_text ++ flag_decls.
Definition daemon_program : program := Eval vm_compute in program_of daemon_decls.
(** The initialisers, in the order of the text. *)
Definition initialisers (ds : list decl) : list (bytes * expr) := flat_map (fun d => match d with DVar x _ (Some e) => [(x, e)] | _ => [] end) ds.
Definition flag_inits : list (bytes * expr) := Eval vm_compute in initialisers flag_decls.

(** What main does that can be seen from outside, besides what the Listener does: flag.Parse, net.Listen, log.Fatal and log.Fatalf. *)
Inductive dact := DL (a : lact) | DParse | DListen (network address : bytes) | DFatal (args : list value).
(** What Accept will still return; what was done; is the mutex held; the flags with the cells of their values; the package variables; the
    conn structs for which a goroutine runs. *)
Record dworld := mkDW { d_accepts : list accepted; d_log : list dact; d_locked : bool; d_flags : list (bytes * N); d_vars : list (bytes * value); d_conns : list N }.
(** The command line: the values given to flags, if any (what flag.Parse rejects, it does not return from). *)
Record cmdline := mkCmd { given_string : bytes -> option bytes; given_int : bytes -> option Z }.
Definition or_default {A} (o : option A) (d : A) : A := match o with Some a => a | None => d end.

Section Daemon.
(** The command line; what net.Listen returns; what Close returns; which permanent errors of Accept are net.Errors. *)
Variable cmd : cmdline.
Variable listen : bytes -> bytes -> N + bytes.
Variable closing : N -> option bytes.
Variable is_net : bytes -> bool.
Notation M := (memory dworld).
Definition note (s : M) (a : dact) : M := let w := rest s in with_rest s (mkDW (d_accepts w) (d_log w ++ [a]) (d_locked w) (d_flags w) (d_vars w) (d_conns w)).
Definition accept_left (s : M) (r : list accepted) : M := let w := rest s in with_rest s (mkDW r (d_log w) (d_locked w) (d_flags w) (d_vars w) (d_conns w)).
Definition lock_is (s : M) (b : bool) : M := let w := rest s in with_rest s (mkDW (d_accepts w) (d_log w) b (d_flags w) (d_vars w) (d_conns w)).
(** flag.String and flag.Int: a new cell with the default. *)
Definition new_flag (x t : bytes) (v : value) (s : M) : reply dworld :=
  let w := rest s in
  Answer [VPtr t (free s) []] (mkMem (put_cell (cells s) (free s) v) (free s + 1) (mkDW (d_accepts w) (d_log w) (d_locked w) (d_flags w ++ [(x, free s)]) (d_vars w) (d_conns w))).
(** flag.Parse stores what the command line gives. *)
Fixpoint parse_flags (fl : list (bytes * N)) (hp : N -> option value) : N -> option value :=
  match fl with
  | [] => hp
  | (x, a) :: fl =>
      parse_flags fl (match hp a with
                      | Some (VStr s) => put_cell hp a (VStr (or_default (given_string cmd x) s))
                      | Some (VI w z) => put_cell hp a (VI w (or_default (given_int cmd x) z))
                      | _ => hp
                      end)
  end.
Definition daemon_call (f : bytes) (args : list value) (s : M) : reply dworld :=
  let is x := beq f x in
  let w := rest s in
  if is (str "log.Fatalf") then Exit (note s (DFatal args))
  else if is (str "log.Fatal") then Exit (note s (DFatal args))
  else
  match args with
  | [] => if is (str "flag.Parse") then Answer [] (note (mkMem (parse_flags (d_flags w) (cells s)) (free s) w) DParse) else NoAnswer
  | VPtr t a p :: _ =>
      if is (str "sync.Mutex.Lock") then if d_locked w then NoAnswer else Answer [] (note (lock_is s true) (DL LLock))
      else if is (str "sync.Mutex.Unlock") then if d_locked w then Answer [] (note (lock_is s false) (DL LUnlock)) else NoAnswer
      else NoAnswer
  | [VObj k n] =>
      if is (str "net.Listener.Accept") then
        match d_accepts w with
        | [] => Crash
        | AConn c :: r => Answer [VObj (str "net.Conn") c; VNil] (accept_left s r)
        | ATemp :: r => Answer [VNil; temp_error] (accept_left s r)
        | APerm e :: r => Answer [VNil; VErr (OSErr e)] (accept_left s r)
        end
      else if is (str "net.Listener.Close") then Answer [err_of (closing n)] (note s (DL (LClose n)))
      else if is (str "net.Error.Temporary") then Answer [VBool true] s
      else NoAnswer
  | [VErr e] => if is (str "error.Temporary") then Answer [VBool false] s else NoAnswer
  | [VI _ z] => if is (str "time.Sleep") then Answer [] (note s (DL (LDo (Sleep (Z.to_N z))))) else NoAnswer
  | [VStr x; VStr d; VStr _] => if is (str "flag.String") then new_flag x (str "string") (VStr d) s else NoAnswer
  | [VStr x; VC d; VStr _] => if is (str "flag.Int") then new_flag x (str "int") (VI 64 d) s else NoAnswer
  | [VStr t; v] =>
      if is (str "net.Listen") then
        match v with
        | VStr a => Answer (match listen t a with inl n => [VObj (str "net.Listener") n; VNil] | inr e => [VNil; VErr (OSErr e)] end) (note s (DListen t a))
        | _ => NoAnswer
        end
      else if is (str "assert2") && beq t (str "net.Error") then
        match v with
        | VObj _ _ => Answer [v; VBool true] s
        | VErr (OSErr e) => Answer (if is_net e then [v; VBool true] else [VNil; VBool false]) s
        | _ => NoAnswer
        end
      else NoAnswer
  | _ => NoAnswer
  end.
Definition outside (r : req) (s : M) : reply dworld :=
  match r with
  | RVar x => match assoc x (d_vars (rest s)) with Some v => Answer [v] s | None => NoAnswer end
  | RExt f args => daemon_call f args s
  | RChan n => Answer [VObj (str "chan") 0] s
  | RGo (FUser f [VPtr _ a []]) [] =>
      if beq f (str "conn.serve") then
        match cells s a with
        | Some v => match get_path [SF (str "rwc")] v with
                    | Some (VObj _ c) => let w := rest s in
                        Answer [] (with_rest s (mkDW (d_accepts w) (d_log w ++ [DL (LDo (Start c))]) (d_locked w) (d_flags w) (d_vars w) (d_conns w ++ [a])))
                    | _ => NoAnswer end
        | None => NoAnswer
        end
      else NoAnswer
  | _ => NoAnswer
  end.
(** A process: the package variables are initialised, then main runs; n: fuel. *)
Fixpoint init (n : nat) (l : list (bytes * expr)) (s : M) : option M :=
  match l with
  | [] => Some s
  | (x, e) :: l =>
      match run daemon_program outside n (mkM (CE false e) [] [] []) s with
      | Some (Returned [v], s) => let w := rest s in init n l (with_rest s (mkDW (d_accepts w) (d_log w) (d_locked w) (d_flags w) (d_vars w ++ [(x, v)]) (d_conns w)))
      | _ => None
      end
  end.
Definition process (n : nat) (ac : list accepted) : option (ending * M) :=
  match init n flag_inits (mkMem (fun _ => None) 0 (mkDW ac [] false [] [] [])) with
  | Some s => run daemon_program outside n (start (str "main") [] []) s
  | None => None
  end.
End Daemon.
