(** Complete packets at the front of what has arrived, and a rest that is not complete. *)
From Verif Require Import Base GoBuf CodecPrim CodecLemmas Types Codec Msgs CodecSpec StubPrim Stubs Server ServerSpec ServerLemmas ServerLemmas2 ServerLemmas4 Rpc
  Client ClientSpec ClientRunSim ClientHist NetRun NetLemmas NetCase.
Local Opaque NumTags all_tags.

(** Packets that are there completely: an error after them does not matter. *)
Inductive eats : list rev -> list bytes -> list rev -> Prop :=
| eats_nil e : eats e [] e
| eats_cons e b r ps e' : packet (e ++ [RdErr]) = Some (b, r ++ [RdErr]) -> eats r ps e' -> eats e (b :: ps) e'.
(** Nothing there, or the beginning of a packet, with its header. *)
Definition hungry (e : list rev) : Prop := packet (e ++ [RdErr]) = None /\ (e = [] \/ packet e <> None).

(** server.go:217, client.go:104: the size field of a packet. *)
Definition psize (h : bytes) : N := b2n (nth 0 h x00) + N.shiftl (b2n (nth 1 h x00)) 8 + N.shiftl (b2n (nth 2 h x00)) 16 + N.shiftl (b2n (nth 3 h x00)) 24.

Lemma received_err a : received (a ++ [RdErr]) = received a.
Proof. rewrite received_app. destruct (intact a); apply app_nil_r. Qed.
Lemma intact_err a : intact (a ++ [RdErr]) = false.
Proof. rewrite intact_app. apply andb_false_r. Qed.
Lemma snoc_err_inj a b : a ++ [RdErr] = b ++ [RdErr] -> a = b.
Proof. intros H. apply app_inj_tail in H. tauto. Qed.
Lemma read_err e : e <> [] -> net_read 7 (e ++ [RdErr]) = match net_read 7 e with RdData b r => RdData b (r ++ [RdErr]) | x => x end.
Proof. apply read_more. Qed.
(** A packet: complete, or cut off by the end. *)
Lemma packet_cases e b r : packet e = Some (b, r) ->
  (forall more, packet (e ++ more) = Some (b, r ++ more)) \/
  (packet (e ++ [RdErr]) = None /\ intact e = true /\ N.of_nat (List.length b) < 7 + (psize b - 7)).
Proof.
  unfold packet. intros H. assert (Hne : e <> []) by (intros ->; discriminate H).
  setoid_rewrite (fun more => read_more 7 e more Hne). destruct (net_read 7 e) as [| |l e1] eqn:R; try discriminate H.
  destruct l as [|l0 [|l1 [|l2 [|l3 [|l4 [|l5 [|l6 [|]]]]]]]]; try discriminate H.
  destruct (copy_limit _ e1) as [[c e2]|] eqn:Cl; [|discriminate H]. injection H as <- <-.
  destruct (copy_limit_intact _ _ _ _ Cl) as [I1 L].
  destruct (Nat.eq_dec (List.length c) (N.to_nat (b2n l0 + N.shiftl (b2n l1) 8 + N.shiftl (b2n l2) 16 + N.shiftl (b2n l3) 24 - 7))) as [Eq|Ne].
  - left. intros more. rewrite (copy_more _ more _ _ _ Cl Eq). reflexivity.
  - right. destruct L as [L|[L _]]; [contradiction|]. split; [|split].
    + destruct (copy_limit _ (e1 ++ [RdErr])) as [[c' r']|] eqn:Cl'; [|reflexivity]. exfalso.
      destruct (copy_limit_intact _ _ _ _ Cl') as [_ [X|[X _]]]; [|rewrite intact_err in X; discriminate X].
      apply copy_limit_stream in Cl'. apply copy_limit_stream in Cl. destruct Cl' as [Y _]. destruct Cl as [Z _]. rewrite received_err in Y. congruence.
    + rewrite <- (net_read_intact _ _ _ _ R). exact L.
    + assert (X : (List.length c <= N.to_nat (b2n l0 + N.shiftl (b2n l1) 8 + N.shiftl (b2n l2) 16 + N.shiftl (b2n l3) 24 - 7))%nat).
      { apply copy_limit_stream in Cl. destruct Cl as [-> _]. rewrite firstn_length. lia. }
      unfold psize. cbn [nth List.length]. lia.
Qed.
Lemma packet_err e b r : packet (e ++ [RdErr]) = Some (b, r) -> exists r', r = r' ++ [RdErr] /\ forall more, packet (e ++ more) = Some (b, r' ++ more).
Proof.
  intros H. unfold packet in H. destruct e as [|x e0] eqn:Ee; [discriminate H|]. rewrite <- Ee in *. assert (Hne : e <> []) by (rewrite Ee; discriminate). clear x e0 Ee.
  rewrite (read_err e Hne) in H. destruct (net_read 7 e) as [| |l e1] eqn:R; try discriminate H.
  destruct l as [|l0 [|l1 [|l2 [|l3 [|l4 [|l5 [|l6 [|]]]]]]]]; try discriminate H.
  destruct (copy_limit _ (e1 ++ [RdErr])) as [[c e2]|] eqn:Cl; [|discriminate H]. injection H as <- <-.
  set (n := N.to_nat _) in Cl.
  destruct (copy_limit n e1) as [[c1 r1]|] eqn:Cl1; [|rewrite (copy_fails _ _ _ Cl1) in Cl; discriminate Cl].
  assert (L : List.length c1 = n).
  { destruct (copy_limit_intact _ _ _ _ Cl) as [_ [X|[X _]]]; [|rewrite intact_err in X; discriminate X].
    apply copy_limit_stream in Cl. apply copy_limit_stream in Cl1. destruct Cl as [Y _]. destruct Cl1 as [Z _]. rewrite received_err in Y. congruence. }
  rewrite (copy_more _ _ _ _ _ Cl1 L) in Cl. injection Cl as <- <-. exists r1. split; [reflexivity|]. intros more.
  unfold packet. rewrite (read_more 7 e more Hne), R. fold n. rewrite (copy_more _ _ _ _ _ Cl1 L). reflexivity.
Qed.
Lemma packet_intact e b r : packet e = Some (b, r) -> intact r = intact e.
Proof.
  unfold packet. intros H. destruct (net_read 7 e) as [| |l e1] eqn:R; try discriminate H.
  destruct l as [|l0 [|l1 [|l2 [|l3 [|l4 [|l5 [|l6 [|]]]]]]]]; try discriminate H.
  destruct (copy_limit _ e1) as [[c e2]|] eqn:Cl; [|discriminate H]. injection H as <- <-.
  rewrite (proj1 (copy_limit_intact _ _ _ _ Cl)). apply (net_read_intact _ _ _ _ R).
Qed.
Lemma hungry_intact e : hungry e -> intact e = true.
Proof.
  intros [H [->|K]]; [reflexivity|]. destruct (packet e) as [[b r]|] eqn:E; [|contradiction]. destruct (packet_cases _ _ _ E) as [X|(_ & X & _)]; [|exact X].
  rewrite X in H. discriminate H.
Qed.
Lemma eats_intact e ps e' : eats e ps e' -> hungry e' -> intact e = true.
Proof.
  induction 1 as [e|e b r ps e' H _ IH]; intros Hh; [apply hungry_intact, Hh|]. specialize (IH Hh).
  destruct (packet_err _ _ _ H) as (r' & E & K). apply snoc_err_inj in E. subst r'. specialize (K []). rewrite !app_nil_r in K. rewrite <- (packet_intact _ _ _ K). exact IH.
Qed.
Lemma framed_nonempty o : framed o -> o <> [].
Proof. intros (ty & tag & body & -> & _). unfold raw. cbn [le app]. discriminate. Qed.
(** If whole frames have been sent and have all arrived, they are there completely. *)
Lemma eats_all e ps e' : eats e ps e' -> hungry e' -> forall os, Forall framed os -> received e = concat os -> ps = os.
Proof.
  induction 1 as [e|e b r ps e' H _ IH]; intros Hh os Hf Hr.
  - destruct Hh as [H1 H2]. destruct os as [|o os]; [reflexivity|]. exfalso. inversion Hf as [|? ? Ho _]; subst.
    destruct H2 as [->|K].
    + cbn in Hr. symmetry in Hr. apply app_eq_nil in Hr. destruct Hr as [Hr _]. exact (framed_nonempty _ Ho Hr).
    + destruct (packet e) as [[b r]|] eqn:E; [|contradiction]. destruct (packet_cases _ _ _ E) as [X|(_ & _ & X)]; [rewrite X in H1; discriminate H1|].
      assert (Hr' : received e ++ [] = concat (o :: os)) by (rewrite app_nil_r; exact Hr).
      destruct (packet_frame _ _ _ _ _ _ E Ho Hr' (fun _ => eq_refl)) as (-> & _).
      destruct Ho as (ty & tag & body & Eo & A & B & D). remember o as w eqn:Ew in E, X. rewrite Eo in Ew. revert X. unfold packet in E. destruct (net_read 7 e) as [| |l e1]; try discriminate E.
      destruct l as [|l0 [|l1 [|l2 [|l3 [|l4 [|l5 [|l6 [|]]]]]]]]; try discriminate E. destruct (copy_limit _ e1) as [[c e2]|]; [|discriminate E]. injection E as E1 _.
      destruct (header_bytes l0 l1 l2 l3 l4 l5 l6) as (size & ty' & tag' & A' & B' & D' & Eh & Hsz & _ & _).
      assert (E2 : [l0; l1; l2; l3; l4; l5; l6] ++ c = raw ty tag body) by (rewrite <- Ew, <- E1; reflexivity). rewrite Eh in E2. unfold raw in E2. rewrite <- !app_assoc in E2.
      pose proof (header_inj _ _ _ _ _ _ _ _ A' B' D' D A B E2) as (-> & _ & _ & ->).
      rewrite <- E1. unfold psize. cbn [nth List.length]. unfold blen in *. lia.
  - pose proof (packet_err _ _ _ H) as (r' & E & K). apply snoc_err_inj in E. subst r'. clear K.
    destruct os as [|o os].
    { destruct (packet_pending _ _ _ H) as [_ L]. rewrite received_err, Hr in L. cbn in L. lia. }
    inversion Hf as [|? ? Ho Hos]; subst.
    assert (Hr' : received (e ++ [RdErr]) ++ [] = concat (o :: os)) by (rewrite received_err, app_nil_r; exact Hr).
    destruct (packet_frame _ _ _ _ _ _ H Ho Hr' (fun _ => eq_refl)) as (-> & E & _). rewrite app_nil_r, received_err in E. f_equal. apply (IH Hh _ Hos E).
Qed.
(** The packets there are with an error after them are those that are complete. *)
Lemma packets_eats : forall n e, (pending e < n)%nat -> exists r, eats e (packets (e ++ [RdErr])) r /\ packet (r ++ [RdErr]) = None /\ forall more, packets (e ++ more) = packets (e ++ [RdErr]) ++ packets (r ++ more).
Proof.
  induction n as [|n IH]; intros e Hn; [lia|]. destruct (packet (e ++ [RdErr])) as [[b r]|] eqn:E.
  - destruct (packet_err _ _ _ E) as (r' & -> & K). pose proof (K []) as K0. rewrite !app_nil_r in K0. apply packet_pending in K0.
    destruct (IH r' ltac:(lia)) as (r & A & B & D). exists r. split; [|split; [exact B|]].
    + rewrite (packets_cons _ _ _ E). eapply eats_cons; [exact E|exact A].
    + intros more. rewrite (packets_cons _ _ _ (K more)), (packets_cons _ _ _ E). cbn [app]. f_equal. apply D.
  - exists e. assert (Z : packets (e ++ [RdErr]) = []) by (unfold packets; cbn [packets_n]; rewrite E; reflexivity). rewrite Z. split; [constructor|]. split; [exact E|reflexivity].
Qed.
Lemma packets_none e : packet e = None -> packets e = [].
Proof. intros E. unfold packets. cbn [packets_n]. rewrite E. reflexivity. Qed.
Definition seven : bytes := [x07; x00; x00; x00; x00; x00; x00].
Lemma seven_packets : packets [Chunk seven] = [seven]. Proof. vm_compute. reflexivity. Qed.
(** What has been read, as a reader that waits can tell. *)
Lemma starved D ps : packets (D ++ [RdErr]) = ps -> (packets D <> ps \/ packets (D ++ [Chunk seven]) = ps ++ [seven]) -> exists e, eats D ps e /\ hungry e.
Proof.
  intros <- H. destruct (packets_eats (S (pending D)) D ltac:(lia)) as (e & A & B & K). exists e. split; [exact A|]. split; [exact B|].
  pose proof (K []) as K0. rewrite !app_nil_r in K0. rewrite K0 in H. rewrite (K [Chunk seven]) in H.
  destruct (packet e) as [[b r]|] eqn:E; [right; discriminate|]. left. rewrite (packets_none _ E) in H. rewrite app_nil_r in H. destruct H as [H|H]; [contradiction|].
  apply app_inv_head in H. destruct e as [|x e0] eqn:Ee; [reflexivity|]. exfalso. rewrite <- Ee in *. assert (Hne : e <> []) by (rewrite Ee; discriminate). clear x e0 Ee.
  assert (Z : packet (e ++ [Chunk seven]) = None); [|rewrite (packets_none _ Z) in H; discriminate H].
  unfold packet in *. rewrite (read_more 7 e _ Hne). destruct (net_read 7 e) as [| |l e1]; try reflexivity.
  destruct l as [|l0 [|l1 [|l2 [|l3 [|l4 [|l5 [|l6 [|]]]]]]]]; try reflexivity.
  destruct (copy_limit _ e1) as [[c r]|] eqn:Ec; [discriminate E|]. rewrite (copy_fails _ _ _ Ec). reflexivity.
Qed.
