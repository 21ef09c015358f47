(** The wrapper that runs from the text of debug.go, as the file server behind server.go. *)
From Coq Require Import ConstructiveEpsilon.
From Verif Require Import Base GoBuf CodecPrim Types Codec Msgs StubPrim GoSyntax Ufs GoRun GoProg GoWp Server ServerSpec Debugfs DebugLemmas DebugRun DebugRunThm.
From Verif Require UfsRun UfsRunThm2.

(** What the values returned by a method say, as in UfsRun.v; a []byte is there with its bytes, so that no memory is needed. *)
Definition said (m : tmsg) (vs : list value) : option (bytes + rmsg) := UfsRun.reply_of (UfsRun.mkStore (fun _ => None) 0 false tt []) m vs.
Lemma said_reply (m : tmsg) r : rtype r = ttype m + 1 -> said m (v_reply r ++ [VNil]) = Some (inr r).
Proof.
  destruct m as [[]|[]|[]|[]|[]|[]|[]|[]|[]|[]|[]|[]], r as [[]|[]|[]|[]|[]|[]|[]|[]|[]|[]|[]|[]|[]]; intros H; try discriminate H; try reflexivity.
  all: match goal with
       | |- said _ (v_reply (MRwalk (mkRwalkPkt ?l)) ++ _) = _ =>
           change (match UfsRun.qids_of (UfsRunThm2.v_qids l) with Some q => Some (inr (MRwalk (mkRwalkPkt q))) | None => None end = @Some (bytes + rmsg) (inr (MRwalk (mkRwalkPkt l)))); rewrite UfsRunThm2.qids_of_v; reflexivity
       | q : QID |- _ => destruct q; reflexivity
       end.
Qed.
Lemma said_error m e : said m (v_zero m ++ [VErr (OSErr e)]) = Some (inl e).
Proof. destruct m as [[]|[]|[]|[]|[]|[]|[]|[]|[]|[]|[]|[]]; reflexivity. Qed.

(** dns is a file server whose states d hold a memory of the program, [view d], with the state of the wrapped file server ns and the log in it.  A method call on
    dns does what the text of the method of DebugFileServer does on that memory, for the DebugFileServer at A. *)
Definition runs_debug {St Sd} (ns : NineServer St) (A : N) (view : Sd -> memory (St * list bytes)) (dns : NineServer Sd) : Prop :=
  forall d m out s', ends debug_program (DebugRun.outside ns) (debug_method A m) (view d) out s' ->
    match out with
    | Returned vs =>
        match said m vs with
        | Some (inl e) => exists d', invoke dns d m = NSErr d' e /\ view d' = s'
        | Some (inr r) => exists d', invoke dns d m = NSOk d' r /\ view d' = s'
        | None => True
        end
    | Panicked => invoke dns d m = NSPanic
    | Exited => True
    end.
(** s is a memory with a DebugFileServer around a file server in state x. *)
Definition wraps {St} (A : N) (s : memory (St * list bytes)) (x : dstate St) : Prop := cells s A = Some v_debug /\ A < free s /\ rest s = x.

Section Text.
Context {St Sd : Type} (ns : NineServer St) (A : N) (view : Sd -> memory (St * list bytes)) (dns : NineServer Sd) (HT : runs_debug ns A view dns).
Lemma invoke_shape {S} (n : NineServer S) x m y r : invoke n x m = NSOk y r -> rtype r = ttype m + 1.
Proof. destruct m as [[]|[]|[]|[]|[]|[]|[]|[]|[]|[]|[]|[]]; cbn [invoke]; match goal with |- nsmap _ ?e = _ -> _ => destruct e end; cbn [nsmap]; intros H; try discriminate H; injection H as <- <-; reflexivity. Qed.
Lemma text_alike : alike (fun (d : Sd) (x : dstate St) => wraps A (view d) x) dns (debugfs St ns).
Proof.
  intros d x m (HA & HL & Hx). destruct (text_debug ns A m (view d) HA HL) as (out & s' & E & H). pose proof (HT d m out s' E) as X. rewrite Hx in H.
  destruct (invoke (debugfs St ns) x m) as [y r|y e|] eqn:Ei.
  - destruct H as (-> & H1 & H2 & H3). rewrite (said_reply m r (invoke_shape _ _ _ _ _ Ei)) in X. destruct X as (d' & -> & X). unfold res_rel, wraps. rewrite X. repeat split; assumption.
  - destruct H as (-> & H1 & H2 & H3). rewrite said_error in X. destruct X as (d' & -> & X). unfold res_rel, wraps. rewrite X. repeat split; assumption.
  - subst out. rewrite X. exact Logic.I.
Qed.
(** ... and so it answers like the file server inside. *)
Lemma text_alike_bare : alike (fun d x => exists log, wraps A (view d) (x, log)) dns ns.
Proof.
  intros d x m (log & H). pose proof (text_alike d (x, log) m H) as X. pose proof (debug_alike ns (x, log) x m eq_refl) as Y.
  destruct (invoke dns d m) as [d' r|d' e|], (invoke (debugfs St ns) (x, log) m) as [[y l] r'|[y l] e'|], (invoke ns x m) as [z r2|z e2|]; cbn [res_rel] in *; try contradiction; auto.
  all: destruct X as [X ->], Y as [Y ->]; unfold forget_log in Y; cbn [fst] in Y; subst z; eauto.
Qed.
End Text.

(** * There is such a file server *)
Section Make.
Context {St : Type} (ns : NineServer St) (A : N).
Definition debug_store : Type := { s : memory (St * list bytes) | cells s A = Some v_debug /\ A < free s }.
Notation runs n x m := (GoWp.run debug_program (DebugRun.outside ns) n (debug_method A m) (proj1_sig x)).
Lemma debug_goes_on (x : debug_store) m n vs s' : runs n x m = Some (Returned vs, s') -> cells s' A = Some v_debug /\ A < free s'.
Proof.
  destruct x as [s [H1 H2]]. cbn [proj1_sig]. intros E. destruct (text_debug ns A m s H1 H2) as (out & s2 & E2 & H).
  destruct (ends_unique _ _ _ _ _ _ _ _ (ex_intro _ n E) E2) as [<- <-]. destruct (invoke (debugfs St ns) (rest s) m); [apply H|apply H|discriminate H].
Qed.
Definition debug_does (x : debug_store) (m : tmsg) (r : nsres debug_store rmsg) : Prop :=
  forall out s', ends debug_program (DebugRun.outside ns) (debug_method A m) (proj1_sig x) out s' ->
    match out with
    | Returned vs =>
        match said m vs with
        | Some (inl e) => exists d', r = NSErr d' e /\ proj1_sig d' = s'
        | Some (inr a) => exists d', r = NSOk d' a /\ proj1_sig d' = s'
        | None => True
        end
    | Panicked => r = NSPanic
    | Exited => True
    end.
Definition outcome_of (x : debug_store) m n : option (nsres debug_store rmsg) :=
  match runs n x m as o return runs n x m = o -> option (nsres debug_store rmsg) with
  | Some (Returned vs, s') => fun E =>
      match said m vs with
      | Some (inl e) => Some (NSErr (Specif.exist _ s' (debug_goes_on x m n vs s' E)) e)
      | Some (inr a) => Some (NSOk (Specif.exist _ s' (debug_goes_on x m n vs s' E)) a)
      | None => Some NSPanic
      end
  | Some (_, _) => fun _ => Some NSPanic
  | None => fun _ => None
  end eq_refl.
Lemma outcome_does x m n r : outcome_of x m n = Some r -> debug_does x m r.
Proof.
  unfold outcome_of. generalize (debug_goes_on x m n). destruct (runs n x m) as [[[vs| |] s']|] eqn:E; intros G H; [..|discriminate H];
    intros out s2 E2; destruct (ends_unique _ _ _ _ _ _ _ _ (ex_intro _ n E) E2) as [<- <-]; [|injection H as <-; reflexivity|exact Logic.I].
  destruct (said m vs) as [[e|a]|]; [injection H as <-; eexists; split; reflexivity|injection H as <-; eexists; split; reflexivity|exact Logic.I].
Qed.
Lemma outcome_ends x m : exists n, outcome_of x m n <> None.
Proof.
  destruct (text_debug ns A m (proj1_sig x) (proj1 (proj2_sig x)) (proj2 (proj2_sig x))) as (out & s' & [n E] & _). exists n. unfold outcome_of. generalize (debug_goes_on x m n). rewrite E.
  destruct out; [|discriminate|discriminate]. intros G. destruct (said m vs) as [[]|]; discriminate.
Qed.
Lemma debug_asked_sig (x : debug_store) (m : tmsg) : { r | debug_does x m r }.
Proof.
  destruct (constructive_indefinite_ground_description_nat (fun n => outcome_of x m n <> None)) as [n Hn].
  { intros n. destruct (outcome_of x m n); [left; discriminate|right; intros H; apply H; reflexivity]. }
  { apply outcome_ends. }
  destruct (outcome_of x m n) as [r|] eqn:E; [|contradiction Hn; reflexivity]. exists r. exact (outcome_does x m n r E).
Qed.
(** Computed, when a few steps suffice. *)
Definition debug_asked (x : debug_store) (m : tmsg) : nsres debug_store rmsg :=
  match outcome_of x m (N.to_nat 3000) with Some r => r | None => proj1_sig (debug_asked_sig x m) end.
Lemma debug_asked_does x m : debug_does x m (debug_asked x m).
Proof. unfold debug_asked. destruct (outcome_of x m (N.to_nat 3000)) as [r|] eqn:E; [exact (outcome_does _ _ _ _ E)|exact (proj2_sig (debug_asked_sig x m))]. Qed.
Definition debug_server : NineServer debug_store := mkNineServer debug_store
  (fun x a b => nsmap (fun r => match r with MRversion p => p | _ => mkRversionPkt 0 [] end) (debug_asked x (MTversion (mkTversionPkt a b))))
  (fun x a b d e => nsmap (fun r => match r with MRattach p => p | _ => mkRattachPkt (mkQID 0 0 0) end) (debug_asked x (MTattach (mkTattachPkt a b d e))))
  (fun x a b d => nsmap (fun r => match r with MRwalk p => p | _ => mkRwalkPkt [] end) (debug_asked x (MTwalk (mkTwalkPkt a b d))))
  (fun x a b => nsmap (fun r => match r with MRopen p => p | _ => mkRopenPkt (mkQID 0 0 0) 0 end) (debug_asked x (MTopen (mkTopenPkt a b))))
  (fun x a b d e => nsmap (fun r => match r with MRcreate p => p | _ => mkRcreatePkt (mkQID 0 0 0) 0 end) (debug_asked x (MTcreate (mkTcreatePkt a b d e))))
  (fun x a => nsmap (fun r => match r with MRstat p => p | _ => mkRstatPkt [] end) (debug_asked x (MTstat (mkTstatPkt a))))
  (fun x a b => nsmap (fun _ => mkRwstatPkt) (debug_asked x (MTwstat (mkTwstatPkt a b))))
  (fun x a => nsmap (fun _ => mkRclunkPkt) (debug_asked x (MTclunk (mkTclunkPkt a))))
  (fun x a => nsmap (fun _ => mkRremovePkt) (debug_asked x (MTremove (mkTremovePkt a))))
  (fun x a b d => nsmap (fun r => match r with MRread p => p | _ => mkRreadPkt [] end) (debug_asked x (MTread (mkTreadPkt a b d))))
  (fun x a b d => nsmap (fun r => match r with MRwrite p => p | _ => mkRwritePkt 0 end) (debug_asked x (MTwrite (mkTwritePkt a b d))))
  (fun x a => nsmap (fun _ => mkRflushPkt) (debug_asked x (MTflush (mkTflushPkt a)))).
Lemma said_shape m vs r : said m vs = Some (inr r) -> rtype r = ttype m + 1.
Proof.
  unfold said, UfsRun.reply_of. destruct (last vs VNil); try discriminate.
  destruct m; repeat (match goal with |- match ?v with _ => _ end = _ -> _ => destruct v; try discriminate end); intros H; injection H as <-; reflexivity.
Qed.
Theorem debug_server_runs : runs_debug ns A (fun x : debug_store => proj1_sig x) debug_server.
Proof.
  intros x m out s' E. pose proof (debug_asked_does x m out s' E) as X. destruct out as [vs| |]; [| |exact Logic.I].
  - destruct (said m vs) as [[e|r]|] eqn:Er; [| |exact Logic.I].
    + destruct X as (x' & X1 & X2). exists x'. split; [|exact X2].
      destruct m as [[]|[]|[]|[]|[]|[]|[]|[]|[]|[]|[]|[]]; cbn [invoke debug_server ns_Rversion ns_Rattach ns_Rflush ns_Rwalk ns_Ropen ns_Rcreate ns_Rread ns_Rwrite ns_Rclunk ns_Rremove ns_Rstat ns_Rwstat]; rewrite X1; reflexivity.
    + destruct X as (x' & X1 & X2). exists x'. split; [|exact X2]. apply said_shape in Er.
      destruct m as [[]|[]|[]|[]|[]|[]|[]|[]|[]|[]|[]|[]]; cbn [invoke debug_server ns_Rversion ns_Rattach ns_Rflush ns_Rwalk ns_Ropen ns_Rcreate ns_Rread ns_Rwrite ns_Rclunk ns_Rremove ns_Rstat ns_Rwstat]; rewrite X1;
        destruct r as [[]|[]|[]|[]|[]|[]|[]|[]|[]|[]|[]|[]|[]]; try discriminate Er; reflexivity.
  - destruct m as [[]|[]|[]|[]|[]|[]|[]|[]|[]|[]|[]|[]]; cbn [invoke debug_server ns_Rversion ns_Rattach ns_Rflush ns_Rwalk ns_Ropen ns_Rcreate ns_Rread ns_Rwrite ns_Rclunk ns_Rremove ns_Rstat ns_Rwstat]; rewrite X; reflexivity.
Qed.
End Make.
