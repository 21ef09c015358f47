(** Executions of the text of client.go that go well, and some that do not. *)
From Verif Require Import Base GoBuf CodecPrim Types Codec Msgs CodecSpec StubPrim Server ServerSpec Rpc GoSyntax Ufs GoRun GoFmt GoProg GoWp ServerRun ServerWitness
  Client ClientSpec ClientLemmas2 ClientLemmas7 ClientRun ClientRunSim ClientRunNew ClientRunExec ClientHist ClientRunThm.
Local Opaque NumTags all_tags.

Definition q2 : bytes := marshalT 0 (MTremove (mkTremovePkt 8)).
Definition b2 : bytes := marshalR 2 (MRremove mkRremovePkt).
Definition two_calls : list act :=
  [ARun 0 300; AStart 0 q0; AEnqueue 0; ARun 2 100; AStart 1 q2; ARun 1 50; AEnqueue 1; ARun 2 700; ARun 1 600; AMeet 1 0; ARun 0 40; ARun 1 700; ARun 0 600; ADeliver 0 1;
   ARun 0 600; AMeet 1 0; ARun 0 600; ADeliver 0 0; AFid; ATag].
Definition two_nets : list rev := let s := b2 ++ b1 in [Chunk s].
(** Any answer with the right tag. *)
Definition any_answer (q a : bytes) : Prop := (7 <= List.length a)%nat /\ tag_of a = tag_of q.
Lemma any_tag : answers_with_tag any_answer. Proof. intros q a H. exact H. Qed.
Definition two_seen : list lbl := [LStart 0 q0; LStart 1 q2; LWrite 0 (set_tag 1 q0); LWrite 0 (set_tag 2 q2); LRead b2; LRead b1; LDone 1 b2; LDone 0 b1; LFid 2; LTag 3].
Lemma two_run : exists l g, tsteps 0 (first_opt true true) 1 (first_state true true two_nets) l g /\
    seen l = two_seen /\ g_users g 0%nat = UDone q0 b1 /\ g_users g 1%nat = UDone q2 b2 /\ g_dead g = false.
Proof. apply (exec_reaches 0 (first_opt true true) 1 two_calls). vm_compute. repeat split; reflexivity. Qed.
Ltac other H := apply (ho_other any_answer _ _ _ _) in H; [|discriminate..].
Lemma two_honest : answers_with_tag any_answer /\ exists l g u f, tsteps 0 (first_opt true true) 1 (first_state true true two_nets) l g /\ honest any_answer l u f /\
  g_users g 0%nat = UDone q0 b1 /\ g_users g 1%nat = UDone q2 b2.
Proof.
  split; [exact any_tag|]. destruct two_run as (l & g & R & E & H0 & H1 & _). exists l, g, [], []. split; [exact R|]. split; [|auto].
  apply (honest_same any_answer two_seen [] []); [|rewrite E; reflexivity].
  pose proof (ho_nil any_answer) as H.
  apply (ho_other _ _ (LStart 0 q0)) in H; [|discriminate..]. apply (ho_other _ _ (LStart 1 q2)) in H; [|discriminate..].
  apply (ho_write _ _ 0%nat (set_tag 1 q0)) in H. apply (ho_write _ _ 0%nat (set_tag 2 q2)) in H.
  apply (ho_answer any_answer _ [set_tag 1 q0] (set_tag 2 q2) [] [] b2) in H; [|split; [cbn; lia|reflexivity]].
  apply (ho_answer any_answer _ [] (set_tag 1 q0) [] [b2] b1) in H; [|split; [cbn; lia|reflexivity]].
  apply ho_read in H. apply ho_read in H.
  apply (ho_other _ _ (LDone 1 b2)) in H; [|discriminate..]. apply (ho_other _ _ (LDone 0 b1)) in H; [|discriminate..].
  apply (ho_other _ _ (LFid 2)) in H; [|discriminate..]. apply (ho_other _ _ (LTag 3)) in H; [|discriminate..]. exact H.
Qed.

Lemma not_in_seen x ls a : x <> LTau -> (forall c q, x <> LWrite c q) -> seen ls = a -> ~ In x a -> ~ In x ls.
Proof. intros H1 H2 <- H X. apply H, (in_seen x ls H1 H2), X. Qed.
Ltac absent E := eapply not_in_seen; [discriminate|discriminate|exact E|cbn; intuition discriminate].
Lemma text_lost : ~ (forall RN opt net tr hn C g0 l g, opened RN opt net tr hn C g0 -> tsteps RN opt C g0 l g -> ~ In LFatal l -> (forall b, ~ In (LRead b) l) -> g_dead g = false).
Proof.
  intros H. destruct (exec_reaches 0 (first_opt true true) 1 [ARun 0 300; ARun 1 600; ARun 0 600; ADie 0] (first_state true true []) (fun l g => seen l = [LEof; LCrash] /\ g_dead g = true)) as (l & g & R & E & D).
  - vm_compute. split; reflexivity.
  - rewrite (H _ _ _ _ _ _ _ _ _ (first_opened true true []) R) in D; [discriminate D|absent E|intros b; absent E].
Qed.
Lemma text_hostile : ~ (forall RN opt net C g0 l g, opened RN opt net true true C g0 -> tsteps RN opt C g0 l g -> ~ In LEof l -> ~ In LFatal l -> g_dead g = false).
Proof.
  intros H. destruct (exec_reaches 0 (first_opt true true) 1 [ARun 0 300; ARun 1 600; AMeet 1 0; ARun 0 600; ADie 0] (first_state true true [Chunk b1]) (fun l g => seen l = [LRead b1; LCrash] /\ g_dead g = true)) as (l & g & R & E & D).
  - vm_compute. split; reflexivity.
  - rewrite (H _ _ _ _ _ _ _ (first_opened true true [Chunk b1]) R) in D; [discriminate D|absent E|absent E].
Qed.
Definition call (c : nat) : list act := [AStart c q0; AEnqueue c; ARun 2 600].
Lemma text_untraced : ~ (forall RN opt net C g0 srv l u f g, opened RN opt net false true C g0 -> tsteps RN opt C g0 l g -> answers_with_tag srv -> honest srv l u f -> g_dead g = false).
Proof.
  intros H. destruct (exec_reaches 0 (first_opt false true) 1 ([ARun 0 300] ++ call 0 ++ [ARun 1 600; AMeet 1 0; ARun 0 600; ADie 0]) (first_state false true [Chunk b1])
    (fun l g => seen l = [LStart 0 q0; LWrite 0 (set_tag 1 q0); LRead b1; LCrash] /\ g_dead g = true)) as (l & g & R & E & D).
  - vm_compute. split; reflexivity.
  - rewrite (H _ _ _ _ _ any_answer _ [] [] _ (first_opened false true [Chunk b1]) R any_tag) in D; [discriminate D|].
    apply (honest_same any_answer [LStart 0 q0; LWrite 0 (set_tag 1 q0); LRead b1; LCrash] [] []); [|rewrite E; reflexivity].
    pose proof (ho_nil any_answer) as X.
    apply (ho_other _ _ (LStart 0 q0)) in X; [|discriminate..]. apply (ho_write _ _ 0%nat (set_tag 1 q0)) in X.
    apply (ho_answer any_answer _ [] (set_tag 1 q0) [] [] b1) in X; [|split; [cbn; lia|reflexivity]].
    apply ho_read in X. apply (ho_other _ _ LCrash) in X; [|discriminate..]. exact X.
Qed.
Lemma text_fatal : ~ (forall RN opt net C g0 l g, opened RN opt net true true C g0 -> tsteps RN opt C g0 l g -> ~ In LEof l -> ~ In LCrash l -> g_dead g = false).
Proof.
  intros H. destruct (exec_reaches 0 (first_opt true true) 1 [ARun 0 300; AStart 0 q0; AEnqueue 0; ARun 2 212; AFail 2 0 EOF; ARun 2 600; ADie 2] (first_state true true [])
    (fun l g => seen l = [LStart 0 q0; LFatal] /\ g_dead g = true)) as (l & g & R & E & D).
  - vm_compute. split; reflexivity.
  - rewrite (H _ _ _ _ _ _ _ (first_opened true true []) R) in D; [discriminate D|absent E|absent E].
Qed.
(** The receiver stands at a channel where nobody waits. *)
Definition stands (g : gstate) : option (N * bytes) :=
  match g_threads g with
  | m :: _ => match step protocol_program m with Ask (RSend (VObj _ n) (VBytes r)) _ => Some (n, r) | _ => None end
  | [] => None
  end.
Lemma text_wedge : ~ (forall RN opt net C g0 l g c q n, opened RN opt net true true C g0 -> tsteps RN opt C g0 l g -> g_dead g = false -> g_users g c = UWait q n ->
       exists l' g' r, tsteps RN opt C g l' g' /\ In (LDone c r) l').
Proof.
  intros H. destruct (exec_reaches 0 (first_opt true true) 1
      ([ARun 0 300] ++ call 0 ++ [ARun 1 600; AMeet 1 0; ARun 0 600; ADeliver 0 0; ARun 0 300; ARun 1 600; AMeet 1 0; ARun 0 600] ++ call 1) (first_state true true [Chunk (b1 ++ b1)])
      (fun l g => stands g = Some (3, b1) /\ g_users g 1%nat = UWait q0 4 /\ g_users g 0%nat = UDone q0 b1 /\ (forall c, g_users g (S (S c)) = UIdle) /\ g_dead g = false))
    as (l & g & R & E & U1 & U0 & Us & D).
  - vm_compute. repeat split; reflexivity.
  - pose proof (first_opened true true [Chunk (b1 ++ b1)]) as O. destruct (H _ _ _ _ _ _ _ _ _ _ O R D U1) as (l' & g' & r & R' & X).
    unfold stands in E. destruct (g_threads g) as [|m ths] eqn:Et; [discriminate E|]. destruct (step protocol_program m) as [| | | |[| | | | | | | | | | | |[] []| |] m'| | |] eqn:Es; try discriminate E.
    injection E as -> ->.
    assert (Hw : forall c q, g_users g c <> UWait q 3) by (intros [|[|c]] q; [rewrite U0; discriminate|rewrite U1; discriminate|rewrite Us; discriminate]).
    assert (Hi : In m (g_threads g)) by (rewrite Et; left; reflexivity).
    destruct (text_wedged _ _ _ _ _ _ _ _ _ _ _ _ _ _ O R D Hi Es Hw _ _ R') as [F _]. exact (F _ _ X).
Qed.
