(** Reads and writes on several connections: what an execution of ConnsRun.v says about file contents, on the operating system of MemOS.v. *)
From Verif Require Import Base GoBuf CodecPrim Types Codec Msgs StubPrim GoPath Ufs UfsSpec UfsRun MemOS MemSpec Conns ConnsRun.

(** The calls in the execution are made to one file system, which is w before and w' after. *)
Fixpoint on_files (w : world) (ls : list (nat * deed)) (w' : world) : Prop :=
  match ls with
  | [] => w' = w
  | (_, DCall e) :: ls => ev_ret e = fst (mem_os (ev_op e) w) /\ on_files (snd (mem_os (ev_op e) w)) ls w'
  | _ :: ls => on_files w ls w'
  end.
(** The write the call is, if it is one to node i that was answered without an error. *)
Definition write_to (w : world) (e : event) (i : N) : option (nat * bytes) :=
  match ev_op e as o return ret_of o -> option (nat * bytes) with
  | OWriteAt h b off => fun r =>
      match snd r, w_files w h with None, Some f => if o_ino f =? i then Some (Z.to_nat off, b) else None | _, _ => None end
  | _ => fun _ => None
  end (ev_ret e).
(** The writes to node i, of all connections, in order. *)
Fixpoint writes_to (w : world) (ls : list (nat * deed)) (i : N) : list (nat * bytes) :=
  match ls with
  | [] => []
  | (_, DCall e) :: ls => match write_to w e i with Some x => [x] | None => [] end ++ writes_to (snd (mem_os (ev_op e) w)) ls i
  | _ :: ls => writes_to w ls i
  end.
(** No call cuts node i off or changes its length. *)
Definition cuts (w : world) (o : op) (i : N) : Prop :=
  match o with
  | OOpen p flags _ => N.land flags O_TRUNC <> 0 /\ lookup w p = Some i
  | OTruncate p _ => lookup w p = Some i
  | _ => False
  end.
Fixpoint uncut (w : world) (ls : list (nat * deed)) (i : N) : Prop :=
  match ls with
  | [] => True
  | (_, DCall e) :: ls => ~ cuts w (ev_op e) i /\ uncut (snd (mem_os (ev_op e) w)) ls i
  | _ :: ls => uncut w ls i
  end.
(** What connection j does in a stretch of an execution. *)
Definition mine (j : nat) (ls : list (nat * deed)) : list deed := map snd (filter (fun x => Nat.eqb (fst x) j) ls).
(** A request of connection j and its reply, with what happened on all connections before, in between and afterwards. *)
Definition answered (ls : list (nat * deed)) (j : nat) (q : tmsg) (r : answerOf rmsg) (l1 l2 l3 : list (nat * deed)) : Prop :=
  ls = l1 ++ (j, DRequest q) :: l2 ++ (j, DReply r) :: l3 /\ exists es, mine j l2 = map DCall es.
(** The calls among them; those that a read of a directory makes. *)
Definition events (l : list deed) : list event := flat_map (fun d => match d with DCall e => [e] | _ => [] end) l.
Definition dir_call (o : op) : bool := match o with OSeek _ | OReaddir _ => true | _ => false end.
