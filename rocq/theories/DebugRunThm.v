(** Running the text of debug.go: what every method does. *)
From Verif Require Import Base GoBuf CodecPrim Types Codec Msgs StubPrim GoSyntax Ufs GoRun GoProg GoWp ServerSpec Debugfs DebugRun DebugRunLemmas.

Lemma also_app {A} (l l' : list A) : also l l' = l ++ l'.
Proof. induction l as [|a l IH]; [reflexivity|]. cbn [also app]. rewrite IH. reflexivity. Qed.
Lemma text_debug {St} : forall (ns : NineServer St) A m (s : memory (St * list bytes)), cells s A = Some v_debug -> A < free s ->
  exists out s', ends debug_program (outside ns) (debug_method A m) s out s' /\
    match invoke (debugfs St ns) (rest s) m with
    | NSOk y r => out = Returned (v_reply r ++ [VNil]) /\ rest s' = y /\ cells s' A = Some v_debug /\ A < free s'
    | NSErr y e => out = Returned (v_zero m ++ [VErr (OSErr e)]) /\ rest s' = y /\ cells s' A = Some v_debug /\ A < free s'
    | NSPanic => out = Panicked
    end.
Proof.
  intros ns A m [hp nx [x log]] HA L. cbn [cells free rest] in *.
  match goal with |- exists out s', ends _ _ _ ?s out s' /\ @?p out s' => assert (W : wp debug_program (outside ns) (debug_method A m) s p) end.
  { apply debug_runs; [exact HA|exact L|]. destruct invoke as [[y l] r|[y l] e|]; cbn [debug_ends rest]; intros; rewrite ?also_app; auto. }
  destruct W as (n & out & s' & W & Q). exists out, s'. split; [exists n; exact W|exact Q].
Qed.
