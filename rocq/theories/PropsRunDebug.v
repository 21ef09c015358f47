(** Property C63: the Go text of debug.go, run statement by statement. *)
From Verif Require Import Base GoBuf CodecPrim Types Codec Msgs StubPrim GoSyntax GoText GoRun GoProg GoWp ServerSpec ServerWitness Ufs Debugfs DebugRun DebugRunThm.

Theorem C63_program : debug_program = program_of debug_decls.
Proof. vm_cast_no_check (eq_refl debug_program). Qed.
Print Assumptions C63_program.
(** Every method, around any server: the lines logged, the calls made of the server, what is returned; the wrapper itself stays as it was. *)
Theorem C63_debug : forall St (ns : NineServer St) A m (s : memory (St * list bytes)), cells s A = Some v_debug -> A < free s ->
  exists out s', ends debug_program (DebugRun.outside ns) (debug_method A m) s out s' /\
    match invoke (debugfs St ns) (rest s) m with
    | NSOk y r => out = Returned (v_reply r ++ [VNil]) /\ rest s' = y /\ cells s' A = Some v_debug /\ A < free s'
    | NSErr y e => out = Returned (v_zero m ++ [VErr (OSErr e)]) /\ rest s' = y /\ cells s' A = Some v_debug /\ A < free s'
    | NSPanic => out = Panicked
    end.
Proof. exact @text_debug. Qed.
Print Assumptions C63_debug.
(** From the text alone: a walk, a stat whose answer is cut short, a failing remove, a read. *)
Definition dbg (m : tmsg) (x : N) : option (ending * (N * list bytes)) :=
  match GoWp.run debug_program (DebugRun.outside (counting false)) 2000 (debug_method 0 m) (mkMem (fun a => if a =? 0 then Some v_debug else None) 1 (x, [])) with
  | Some (out, s) => Some (out, rest s)
  | None => None
  end.
Example C63_case :
  dbg (MTwalk (mkTwalkPkt 1 2 [str "a"; str "bc"])) 3
  = Some (Returned [VList (v_qids [mkQID 0 0 7; mkQID 0 0 7]); VNil], (4, [str ">>> Twalk fid 1, newfid 2, paths [a bc]"; str "<<< Rwalk [{0 0 7} {0 0 7}]"])) /\
  dbg (MTstat (mkTstatPkt 1)) 0
  = Some (Returned [VBytes [x01; x02]; VNil], (1, [str ">>> Tstat fid 1"; str "<<< Rstat {0 0 {0 0 0} 0 0 0 0    }"])) /\
  dbg (MTremove (mkTremovePkt 4)) 0 = Some (Returned [VErr (OSErr (str "read-only"))], (1, [str ">>> Tremove fid 4"; str "<<< Error read-only"])) /\
  dbg (MTread (mkTreadPkt 1 2 (-3))) 0 = Some (Returned [VBytes (str "hi"); VNil], (1, [str ">>> Tread fid 1, off 2, count -3"; str "<<< Rread 2"])).
Proof. repeat split; vm_compute; reflexivity. Qed.
