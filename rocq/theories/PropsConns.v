(** Property C23: several connections, and C48: the debug server. *)
From Verif Require Import Base GoBuf CodecPrim Types Codec Msgs StubPrim Server ServerSpec ServerWitness GoPath Ufs UfsSpec MemOS UfsRefute Conns ConnsLemmas Debugfs DebugLemmas.

(** * C23 *)
(** Whatever the other connections do, in whatever order: a connection is as before: the same fids are valid, with the
    same names, qids and open files, and its current request is where it was. *)
Theorem C23_untouched : forall c p is p' j, psteps c (Some p) is (Some p') -> ~ In j is -> p' j = p j.
Proof. exact untouched_by_others. Qed.
Print Assumptions C23_untouched.
(** In every interleaving, the fids of a connection between two requests, and their names, are those of a history of this
    connection alone; so everything said in PropsUfs.v about all histories holds for every connection among others. *)
Theorem C23_as_if_alone : forall c is p j u d, pruns c is (Some p) -> p j = Some (mkConn u d None) -> hist c d u.
Proof. exact connection_hist. Qed.
Print Assumptions C23_as_if_alone.
(** And every such history without a panic is possible among others, and leaves them alone. *)
Theorem C23_all_histories : forall c h u, hist c h u -> Forall (fun s => s_res s <> None) h -> forall p j, p j = None ->
  exists is p', (forall i, In i is -> i = j) /\ psteps c (Some p) is (Some p') /\ (forall i, i <> j -> p' i = p i) /\
    p' j = Some (mkConn u h None).
Proof. exact history_among. Qed.
Print Assumptions C23_all_histories.
(** A connection only works on open files it opened itself. *)
Theorem C23_own_files : forall c is p j x e k, pruns c is (Some p) -> p j = Some x ->
  In e (conn_trace x) -> handle_of (ev_op e) = Some k -> In k (opens (conn_trace x)).
Proof. exact own_files. Qed.
Print Assumptions C23_own_files.
(** The limit of isolation: all connections live in one process, and a panic in one of them (C54) ends it. *)
Theorem C23_crash_refuted : ~ (forall c is p i q j x, pruns c is (Some p) -> pstep c (Some p) i q -> j <> i -> p j = Some x ->
  exists p', q = Some p' /\ p' j = Some x).
Proof. exact crash_spreads. Qed.
Print Assumptions C23_crash_refuted.
(** Fid 2 was clunked on connection 0 and is an open file on connection 1. *)
Example C23_case : exists is p u0 d0 u1 d1, pruns c0 is (Some p) /\ p 0%nat = Some (mkConn u0 d0 None) /\ p 1%nat = Some (mkConn u1 d1 None) /\
  u0 2 = None /\ option_map f_fullName (u0 1) = Some (str "/srv") /\ option_map f_fullName (u1 2) = Some (str "/srv/a") /\ held u1 2 = Some 100.
Proof.
  destruct two_connections as (is & p & H & H0 & H1). exists is, p. repeat eexists; [exact H|exact H0|exact H1|vm_compute; reflexivity ..].
Qed.

(** * C48 *)
(** For every server and whatever comes in on a connection: the same output, the same crash, the same negotiated version,
    the same state of the wrapped server. *)
Theorem C48_transparent : forall (St : Type) (ns : NineServer St) e s log evs,
  let r1 := serve (debugfs St ns) e (s, log) evs in let r2 := serve ns e s evs in
  r_out r1 = r_out r2 /\ r_crashed r1 = r_crashed r2 /\ Versioned (r_st r1) = Versioned (r_st r2) /\ fst (NS (r_st r1)) = NS (r_st r2).
Proof. exact @debug_transparent. Qed.
Print Assumptions C48_transparent.
(** Called directly, method by method: the same result and state, and two lines in the log, the second of which shows the
    error if there is one. *)
Theorem C48_step : forall (St : Type) (ns : NineServer St) s log m,
  match invoke ns s m, invoke (debugfs St ns) (s, log) m with
  | NSOk s' r, NSOk (s2, log2) r2 => s2 = s' /\ r2 = r /\ exists q a, log2 = log ++ [q; a]
  | NSErr s' e, NSErr (s2, log2) e2 => s2 = s' /\ e2 = e /\ exists q, log2 = log ++ [q; str "<<< Error " ++ e]
  | NSPanic, NSPanic => True
  | _, _ => False
  end.
Proof. exact @debug_step. Qed.
Print Assumptions C48_step.
Example C48_case :
  match invoke (debugfs _ (ufs c0 mem_os)) (s0, []) (attach 1) with
  | NSOk (s, log) _ => match invoke (debugfs _ (ufs c0 mem_os)) (s, log) (walk 1 1 [str "a"]) with
    | NSErr (_, log) e => e = str "file does not exist" /\ log =
       [str ">>> Tattach fid 1,  afid 4294967295, uname harvey, aname "; str "<<< Rattach {128 1000000 2}";
        str ">>> Twalk fid 1, newfid 1, paths [a]"; str "<<< Error file does not exist"]
    | _ => False end
  | _ => False end.
Proof. vm_compute. split; reflexivity. Qed.
