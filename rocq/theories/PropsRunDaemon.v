(** Property C69: the program ufs as a process, from the text of cmd/ufs/ufs.go, filesystem.go, server.go and debug.go. *)
From Verif Require Import Base GoBuf GoSyntax Ufs GoRun GoFmt GoProg GoWp Server Listener ServerRun ListenerRun DaemonRun DaemonRunLemmas DaemonRunThm.

(** * C69 *)
(** For every command line, every outcome of net.Listen and everything Accept returns: the package variables are initialised, the
    flags parsed, and the address given by the flags is listened on, once.  If that fails the process ends with a message about it.
    Otherwise it serves: it sleeps and starts goroutines as [accept_loop] says, and each connection started has its own conn, Server,
    FileServer (rooted at the flag root, without fids) and, if the flag debug is not 0, its own wrapper around it.  The process
    waits in Accept ([Panicked] with nothing more to accept is the stop of the run there) until Accept fails for good; then the
    listener is taken out of the set and closed and the process ends with the error. *)
Theorem C69_main : forall cmd listen closing is_net ac,
  let network := or_default (given_string cmd (str "ntype")) (str "tcp4") in
  let address := or_default (given_string cmd (str "addr")) (str ":5640") in
  exists n out s, process cmd listen closing is_net n ac = Some (out, s) /\
  match listen network address with
  | inr err => out = Exited /\ d_log (rest s) = [DParse; DListen network address; DFatal [VStr (str "Listen failed: %v"); VErr (OSErr err)]]
  | inl ln => let (acts, r) := accept_loop 0 ac in
      (exists os, apart cmd (cells s) (free s) (started acts) os /\ d_conns (rest s) = map o_conn os) /\
      match r with
      | None => out = Panicked /\ d_accepts (rest s) = [] /\
          d_log (rest s) = [DParse; DListen network address; DL LLock; DL LUnlock] ++ map (fun a => DL (LDo a)) acts
      | Some err => out = Exited /\
          d_log (rest s) = [DParse; DListen network address; DL LLock; DL LUnlock] ++ map (fun a => DL (LDo a)) acts ++
                           [DL LLock; DL LUnlock; DL (LClose ln); DFatal [VErr (OSErr err)]]
      end
  end.
Proof. exact main_text. Qed.
Print Assumptions C69_main.
(** It does nothing else, however long it runs. *)
Theorem C69_only : forall cmd listen closing is_net ac n n' r r',
  process cmd listen closing is_net n ac = Some r -> process cmd listen closing is_net n' ac = Some r' -> r = r'.
Proof. exact (fun cmd listen closing is_net ac n n' => process_unique cmd listen closing is_net n n' ac). Qed.
Print Assumptions C69_only.
(** main never returns: the process is serving, or it ended with a message (and exit status 1). *)
Theorem C69_never_returns : forall cmd listen closing is_net n ac vs s, process cmd listen closing is_net n ac <> Some (Returned vs, s).
Proof. exact main_never_returns. Qed.
Print Assumptions C69_never_returns.
(** Two connections have nothing in common: no cell of one belongs to the other. *)
Theorem C69_apart : forall cmd hp nx cs os i j x y a, apart cmd hp nx cs os -> nth_error os i = Some x -> nth_error os j = Some y -> i <> j ->
  In a (own_cells x) -> ~ In a (own_cells y).
Proof. exact apart_disjoint. Qed.
Print Assumptions C69_apart.
(** Started with -addr :9 -debug 1 on a machine where two clients connect, with a temporary error in between, before the network
    goes away; and without flags where the address is in use. *)
Definition cmd1 : cmdline := mkCmd (fun x => if beq x (str "addr") then Some (str ":9") else None) (fun x => if beq x (str "debug") then Some 1%Z else None).
Definition cmd0 : cmdline := mkCmd (fun _ => None) (fun _ => None).
Example C69_case :
  (match process cmd1 (fun _ _ => inl 7) (fun _ => None) (fun _ => false) 3000 [AConn 3; ATemp; AConn 4; APerm (str "gone"); AConn 5] with
   | Some (Exited, s) => d_log (rest s) = [DParse; DListen (str "tcp4") (str ":9"); DL LLock; DL LUnlock; DL (LDo (Start 3)); DL (LDo (Sleep 5000000)); DL (LDo (Start 4));
       DL LLock; DL LUnlock; DL (LClose 7); DFatal [VErr (OSErr (str "gone"))]] /\
       match d_conns (rest s) with
       | [a; b] => match cells s a, cells s b with
                   | Some v, Some w => get_path [SF (str "server")] v <> get_path [SF (str "server")] w
                   | _, _ => False
                   end
       | _ => False
       end
   | _ => False
   end) /\
  (match process cmd0 (fun n a => if beq a (str ":5640") then inr (str "address already in use") else inl 1) (fun _ => None) (fun _ => false) 3000 [] with
   | Some (Exited, s) => d_log (rest s) = [DParse; DListen (str "tcp4") (str ":5640"); DFatal [VStr (str "Listen failed: %v"); VErr (OSErr (str "address already in use"))]]
   | _ => False
   end).
Proof. vm_compute. repeat split. intros H. discriminate H. Qed.
