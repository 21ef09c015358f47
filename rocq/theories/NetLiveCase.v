(** One call, of which half of the request has arrived. *)
From Verif Require Import Base GoBuf CodecPrim Types Codec Msgs CodecSpec StubPrim Stubs Server ServerSpec ServerWitness Rpc GoSyntax Ufs GoRun GoFmt GoProg GoWp
  ServerRun ServerRunLemmas Client ClientSpec ClientRun ClientRunLemmas ClientRunSim ClientRunNew ClientHist ClientRunThm ClientRunExec CodecLemmas4 CodecLemmas NetRun NetLemmas NetCase NetStore.
Local Opaque NumTags all_tags.
Definition half_acts : list jact :=
  [JClient 0 300; JClient 1 300; JServer 400; JCall (AStart 0 (call_request m_version)); JCall (AEnqueue 0); JClient 2 2000; JUp 12; JServer 2000].
Definition half_seen : list lbl := [LStart 0 (call_request m_version); LWrite 0 (marshalT 1 m_version)].
Lemma half_computed : match first_net (str "old") with
  | Some n0 => match jexec onefile ServerWitness.quiet net_addr 0 0 (first_opt true true) 1 half_acts n0 with
               | Some (ls, n) => seen ls = half_seen /\ g_dead (n_client n) = false /\ n_up n = skipn 12 (marshalT 1 m_version) /\ n_down n = [] | None => False end
  | None => False
  end.
Proof. vm_compute. repeat split; reflexivity. Qed.
Lemma half_sent : exists n0 l n, together (str "old") n0 /\ jsteps onefile ServerWitness.quiet net_addr 0 0 (first_opt true true) 1 n0 l n /\ proper_calls (fun _ => True) l /\
  (forall t, ~ In (LTag t) l) /\ g_dead (n_client n) = false /\ seen l = half_seen /\ n_up n = skipn 12 (marshalT 1 m_version) /\ n_down n = [].
Proof.
  pose proof half_computed as H. destruct (first_net (str "old")) as [n0|] eqn:E; [|contradiction]. apply first_connected in E.
  destruct (jexec_reaches _ _ _ _ _ _ _ half_acts n0 (fun ls n => seen ls = half_seen /\ g_dead (n_client n) = false /\ n_up n = skipn 12 (marshalT 1 m_version) /\ n_down n = []) H) as (l & n & R & S1 & S2 & S3 & S4).
  exists n0, l, n. split; [exact E|]. split; [exact R|].
  assert (Hin : forall y, In y l -> y <> LTau -> (forall c q, y <> LWrite c q) -> In y half_seen).
  { intros y Hy N1 N2. rewrite <- S1. unfold seen. apply in_flat_map. exists y. split; [exact Hy|]. destruct y; try (left; reflexivity); [destruct N1; reflexivity|destruct (N2 c q); reflexivity]. }
  split; [|split; [|auto]].
  - intros c q Hy. apply Hin in Hy; [|discriminate|discriminate]. destruct Hy as [Hy|[Hy|[]]]; [|discriminate Hy]. injection Hy as <- <-.
    exists m_version. split; [reflexivity|]. split; [vm_compute; repeat split; first [reflexivity | discriminate]|split; [vm_compute; reflexivity|exact Logic.I]].
  - intros t Hy. apply Hin in Hy; [|discriminate|discriminate]. destruct Hy as [Hy|[Hy|[]]]; discriminate Hy.
Qed.
