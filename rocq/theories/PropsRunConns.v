(** Property C70: several connections to the file server, from its text. *)
From Verif Require Import Base GoBuf CodecPrim Types Codec Msgs StubPrim GoPath GoSyntax GoRun GoProg Ufs UfsSpec GoFmt UfsRun UfsRunThm3 MemOS Conns ConnsLemmas ConnsRun ConnsRunLemmas ConnsRunThm ConnsRunThm2 ConnsRunExec.

(** * C70 *)
(** Every execution of the text is one of the model: the connections opened and closed, the requests, the calls of the operating system and
    of the mutex with their answers, the replies and a panic, all in the same order.  As the answers are arbitrary, and the calls of
    all connections are in one order, this holds on every operating system that the connections share. *)
Theorem C70_text : forall c, IOunit c = 8192 -> forall ls x, t_runs c ls x -> exists p, m_runs c ls p /\ alike x p.
Proof. exact text_model. Qed.
Print Assumptions C70_text.
(** And every execution of the model is one of the text. *)
Theorem C70_model : forall c, IOunit c = 8192 -> forall ls p, m_runs c ls p -> exists x, t_runs c ls x /\ alike x p.
Proof. exact model_text. Qed.
Print Assumptions C70_model.
(** In every interleaving, what a connection shows between two requests is a history of this connection alone, and its memory holds the
    file server that this history makes: all of PropsUfs.v is true of it. *)
Theorem C70_as_alone : forall c, IOunit c = 8192 -> forall ls x i s fs, t_runs c ls (Some x) -> x i = Some (mkThread s (Idle fs)) ->
  exists h u M, hist c h u /\ Forall (fun y => s_res y <> None) h /\ since i ls [] = shown h /\ holds c (mkLayout fs M 0 1 2) s u.
Proof. exact text_as_alone. Qed.
Print Assumptions C70_as_alone.
(** No goroutine waits for another one, gets stuck or goes on for ever: whatever is answered, it comes to the end of its request by its own steps. *)
Theorem C70_ends : forall c, IOunit c = 8192 -> forall ls x i s w m, t_runs c ls (Some x) -> x i = Some (mkThread s (Busy w m)) -> surely m s.
Proof. exact text_surely. Qed.
Print Assumptions C70_ends.
Theorem C70_replies : forall c, IOunit c = 8192 -> forall ls x i s fs q m vs, t_runs c ls (Some x) -> x i = Some (mkThread s (Busy (For fs q) m)) -> look m s = Finish vs ->
  exists r, reply_of s q vs = Some r.
Proof. exact text_replies. Qed.
Print Assumptions C70_replies.
(** Two connections, step by step in turn, on one file system: the second reads what the first has just written.  Then it asks for a
    negative number of bytes, and the process is gone. *)
Definition replies (l : list (nat * deed)) : list (nat * answerOf rmsg) := flat_map (fun x => match snd x with DReply r => [(fst x, r)] | _ => [] end) l.
Example C70_case : exists ls x, t_runs c_x ls (Some x) /\ (exists s fs, x 0%nat = Some (mkThread s (Idle fs))) /\
  map fst (replies ls) = [0; 1; 0; 1; 1; 0; 1; 0; 1]%nat /\ nth_error (replies ls) 8 = Some (1%nat, inr (MRread (mkRreadPkt (str "hALLo")))).
Proof.
  destruct (both_open_runs c_x ask_0 (ask_1 10) files_x) as (x & H & Hs).
  pose proof (play_sound c_x (by_turns 1500) _ x H Hs) as P. destruct (play (by_turns 1500) (both_open c_x ask_0 (ask_1 10) files_x)) as [z b] eqn:E.
  destruct P as (x' & P1 & [P2 _] & _). exists (out z), x'. split; [exact P1|]. rewrite P2.
  apply (f_equal fst) in E. cbn [fst] in E. subst z. split; [|vm_compute; split; reflexivity]. vm_compute. eauto.
Qed.
(** The limit, as in C23: one connection can end the process of all. *)
Theorem C70_crash_refuted : ~ (forall c ls x i d x' j t, IOunit c = 8192 -> t_runs c ls (Some x) -> t_step c (Some x) [(i, d)] x' -> j <> i -> x j = Some t ->
  exists y, x' = Some y /\ y j = Some t).
Proof. exact text_crash_spreads. Qed.
Print Assumptions C70_crash_refuted.
