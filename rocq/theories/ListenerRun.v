(** Running the text of server.go: the listener. *)
From Verif Require Import Base GoBuf GoSyntax Ufs GoRun GoFmt GoProg GoWp Listener ServerRun.

(** What the functions of a Listener do that can be seen from outside: sleep, start a goroutine that serves a connection, close a
    net.Listener, take and release l.mu. *)
Inductive lact := LDo (a : action) | LClose (ln : N) | LLock | LUnlock.
(** What Accept will still return; what was done; is l.mu held; the order of the next "range" over the map. *)
Record lworld := mkLW { k_accepts : list accepted; k_log : list lact; k_locked : bool; k_order : list N }.
Definition err_of (e : option bytes) : value := match e with Some e => VErr (OSErr e) | None => VNil end.
Definition temp_error : value := VObj (str "net.Error") 0.

Section Listen.
(** What Close returns for each net.Listener; which permanent errors are net.Errors; what the options given to NewListener do to the Listener. *)
Variable closing : N -> option bytes.
Variable is_net : bytes -> bool.
Variable option_does : N -> value -> value * option bytes.
Notation M := (memory lworld).
Definition logs (s : M) (a : lact) : M := let w := rest s in with_rest s (mkLW (k_accepts w) (k_log w ++ [a]) (k_locked w) (k_order w)).
(** Functions of other packages.  When there is nothing more for Accept to return, Serve waits for ever; the run is stopped there ([Crash]).
    Locking a mutex that is held, and unlocking one that is not, have no answer. *)
Definition listener_call (f : bytes) (args : list value) (s : M) : reply lworld :=
  let is x := beq f x in
  let w := rest s in
  match args with
  | VPtr t a p :: _ =>
      if is (str "sync.Mutex.Lock") then if k_locked w then NoAnswer else Answer [] (with_rest s (mkLW (k_accepts w) (k_log w ++ [LLock]) true (k_order w)))
      else if is (str "sync.Mutex.Unlock") then if k_locked w then Answer [] (with_rest s (mkLW (k_accepts w) (k_log w ++ [LUnlock]) false (k_order w))) else NoAnswer
      else NoAnswer
  | VObj k n :: args' =>
      if is (str "net.Listener.Accept") then
        match k_accepts w with
        | [] => Crash
        | AConn c :: r => Answer [VObj (str "net.Conn") c; VNil] (with_rest s (mkLW r (k_log w) (k_locked w) (k_order w)))
        | ATemp :: r => Answer [VNil; temp_error] (with_rest s (mkLW r (k_log w) (k_locked w) (k_order w)))
        | APerm e :: r => Answer [VNil; VErr (OSErr e)] (with_rest s (mkLW r (k_log w) (k_locked w) (k_order w)))
        end
      else if is (str "net.Listener.Close") then Answer [err_of (closing n)] (logs s (LClose n))
      else if is (str "net.Error.Temporary") then Answer [VBool true] s
      else if is (str "Tracer") then Answer [] s
      else if is (str "NsCreator") then Answer [VObj (str "NineServer") 0] s
      else if is (str "ListenerOpt") then
        match args' with
        | [VPtr _ a []] => match cells s a with
                           | Some v => let (v, e) := option_does n v in Answer [err_of e] (with_cell s a v)
                           | None => NoAnswer
                           end
        | _ => NoAnswer
        end
      else NoAnswer
  | [VErr e] => if is (str "error.Temporary") then Answer [VBool false] s else NoAnswer
  | [VI _ z] => if is (str "time.Sleep") then Answer [] (logs s (LDo (Sleep (Z.to_N z)))) else NoAnswer
  | [VStr t; v] =>
      if is (str "assert2") && beq t (str "net.Error") then
        match v with
        | VObj _ _ => Answer [v; VBool true] s
        | VErr (OSErr e) => Answer (if is_net e then [v; VBool true] else [VNil; VBool false]) s
        | _ => NoAnswer
        end
      else NoAnswer
  | _ => NoAnswer
  end.
Definition outside (r : req) (s : M) : reply lworld :=
  match r with
  | RExt f args => listener_call f args s
  | RChan n => Answer [VObj (str "chan") 0] s
  | RMapKeys a => Answer [VList (map (VObj (str "net.Listener")) (k_order (rest s)))] s
  | RGo (FUser f [VPtr _ a []]) [] =>
      if beq f (str "conn.serve") then
        match cells s a with
        | Some v => match get_path [SF (str "rwc")] v with Some (VObj _ c) => Answer [] (logs s (LDo (Start c))) | _ => NoAnswer end
        | None => NoAnswer
        end
      else NoAnswer
  | _ => NoAnswer
  end.
End Listen.
(** The listeners in the map of a Listener; the map is made when the first one is added. *)
Definition v_empty : value := VStruct [] [].
Definition holds_set (hp : N -> option value) (mp : value) (set : list nat) : Prop :=
  (mp = VNil /\ set = []) \/
  exists a t, mp = VPtr [] a [] /\ hp a = Some (VMap v_empty t) /\ forall k, t k = (if in_dec Nat.eq_dec (N.to_nat k) set then Some v_empty else None).
