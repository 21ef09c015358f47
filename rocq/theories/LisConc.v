(** Model of protocol/server.go: Serve and Shutdown of one Listener, called by any number of goroutines at the same time. *)
From Verif Require Import Base Listener ListenerSpec.

(** What a goroutine was started for; what is seen of it: it begins, takes and releases l.mu, calls ln.Accept, sleeps, starts serving a
    connection, closes a net.Listener, returns. *)
Inductive task := TServe (ln : N) | TShutdown.
Inductive ev :=
| EBegin (t : task) | ELock | EUnlock | EAccept (ln : N) (r : accepted) | ESleep (ns : N) | EStart (c : N)
| EClose (ln : N) (r : option bytes) | EEnd (r : option bytes).

(** * The model *)
(** Where a goroutine is.  Serve, server.go:125-158: before and inside trackListener(ln, true); about to call Accept, tempDelay being d;
    about to sleep, to start a connection; before and inside trackListener(ln, false) (deferred), e being what will be
    returned; about to close ln (deferred).  Shutdown, server.go:174-179: before and inside.  About to return. *)
Inductive pos :=
| AddWait (ln : N) | Adding (ln : N) | Waiting (ln d : N) | Sleeping (ln d : N) | Starting (ln c : N)
| DelWait (ln : N) (e : bytes) | Deleting (ln : N) (e : bytes) | Closing (ln : N) (e : bytes)
| ShutWait | Shutting (err : option bytes) | Ending (r : option bytes).
Definition begins (t : task) : pos := match t with TServe ln => AddWait ln | TShutdown => ShutWait end.
(** server.go:139-146 *)
Definition next_delay (d : N) : N := let d := if d =? 0 then 5000000 else d * 2 in if 1000000000 <? d then 1000000000 else d.
Definition first_of (err r : option bytes) : option bytes := match r, err with Some e, None => Some e | _, _ => err end.
(** One goroutine; S is the set of listeners in l. *)
Definition p_next (S : list nat) (p : pos) (e : ev) : option (pos * list nat) :=
  match p, e with
  | AddWait ln, ELock => Some (Adding ln, S)
  | Adding ln, EUnlock => Some (Waiting ln 0, track S (N.to_nat ln))
  | Waiting ln d, EAccept ln' r =>
      if ln =? ln' then Some (match r with AConn c => Starting ln c | ATemp => Sleeping ln (next_delay d) | APerm e => DelWait ln e end, S) else None
  | Sleeping ln d, ESleep d' => if d =? d' then Some (Waiting ln d, S) else None
  | Starting ln c, EStart c' => if c =? c' then Some (Waiting ln 0, S) else None
  | DelWait ln e, ELock => Some (Deleting ln e, S)
  | Deleting ln e, EUnlock => Some (Closing ln e, untrack S (N.to_nat ln))
  | Closing ln e, EClose ln' _ => if ln =? ln' then Some (Ending (Some e), S) else None
  | ShutWait, ELock => Some (Shutting None, S)
  | Shutting err, EClose ln r => if in_dec Nat.eq_dec (N.to_nat ln) S then Some (Shutting (first_of err r), untrack S (N.to_nat ln)) else None
  | Shutting err, EUnlock => match S with [] => Some (Ending err, S) | _ => None end
  | _, _ => None
  end.
(** All of them: the set, who holds l.mu, the goroutines. *)
Record mstate := mkMS { ms_set : list nat; ms_holder : option nat; ms_pos : nat -> option pos }.
Definition set_at {A} (f : nat -> option A) (i : nat) (v : option A) : nat -> option A := fun j => if Nat.eqb j i then v else f j.
Inductive m_step (x : mstate) : nat * ev -> mstate -> Prop :=
| m_begin i t : ms_pos x i = None -> m_step x (i, EBegin t) (mkMS (ms_set x) (ms_holder x) (set_at (ms_pos x) i (Some (begins t))))
| m_lock i p p' S : ms_pos x i = Some p -> ms_holder x = None -> p_next (ms_set x) p ELock = Some (p', S) ->
    m_step x (i, ELock) (mkMS S (Some i) (set_at (ms_pos x) i (Some p')))
| m_unlock i p p' S : ms_pos x i = Some p -> ms_holder x = Some i -> p_next (ms_set x) p EUnlock = Some (p', S) ->
    m_step x (i, EUnlock) (mkMS S None (set_at (ms_pos x) i (Some p')))
| m_other i p e p' S : ms_pos x i = Some p -> e <> ELock -> e <> EUnlock -> p_next (ms_set x) p e = Some (p', S) ->
    (ms_holder x <> Some i -> S = ms_set x) -> m_step x (i, e) (mkMS S (ms_holder x) (set_at (ms_pos x) i (Some p')))
| m_end i r : ms_pos x i = Some (Ending r) -> m_step x (i, EEnd r) (mkMS (ms_set x) (ms_holder x) (set_at (ms_pos x) i None)).
Inductive m_runs : list (nat * ev) -> mstate -> Prop :=
| mr_nil : m_runs [] (mkMS [] None (fun _ => None))
| mr_step ls x l x' : m_runs ls x -> m_step x l x' -> m_runs (ls ++ [l]) x'.

(** * What is to be seen in an execution *)
(** The events of goroutine i since it began last. *)
Definition own (ls : list (nat * ev)) (i : nat) : list ev :=
  fold_left (fun l x => if Nat.eqb (fst x) i then match snd x with EBegin t => [EBegin t] | e => l ++ [e] end else l) ls [].
(** The listeners it has closed and the results. *)
Definition closes (l : list ev) : list (nat * option bytes) := flat_map (fun e => match e with EClose ln r => [(N.to_nat ln, r)] | _ => [] end) l.
Fixpoint res_of (cl : list (nat * option bytes)) (n : nat) : option bytes :=
  match cl with [] => None | (m, r) :: cl => if Nat.eqb m n then r else res_of cl n end.
(** What a goroutine that releases l.mu has done to the set, in terms of Listener.v. *)
Definition is_unlock (e : ev) : bool := match e with EUnlock => true | _ => false end.
Definition section (l : list ev) : list lev :=
  match l with
  | EBegin (TServe ln) :: l => [if existsb is_unlock l then LStop (N.to_nat ln) else LServe (N.to_nat ln)]
  | EBegin TShutdown :: l => let cl := closes l in [LShutdown (map fst cl) (res_of cl) (map fst cl) (first_error (map fst cl) (res_of cl))]
  | _ => []
  end.
(** These, in the order in which l.mu was released. *)
Definition history (ls : list (nat * ev)) : list lev :=
  snd (fold_left (fun a x => (fst a ++ [x], if is_unlock (snd x) then snd a ++ section (own (fst a) (fst x)) else snd a)) ls ([], [])).
(** What Accept has returned to a goroutine, and what it did. *)
Definition outcomes (l : list ev) : list accepted := flat_map (fun e => match e with EAccept _ r => [r] | _ => [] end) l.
Definition acts (l : list ev) : list action := flat_map (fun e => match e with ESleep d => [Sleep d] | EStart c => [Start c] | _ => [] end) l.
(** The loop of Serve; the loop of Shutdown. *)
Definition in_loop (ln : N) (e : ev) : Prop := match e with EAccept l _ => l = ln | ESleep _ | EStart _ => True | _ => False end.
Definition is_close (e : ev) : Prop := match e with EClose _ _ => True | _ => False end.
