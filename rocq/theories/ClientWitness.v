(** Cases for the client theorems. *)
From Verif Require Import Base GoBuf CodecPrim Types Codec Msgs CodecSpec StubPrim Server ServerSpec Rpc ServerWitness Client ClientSpec
  ClientLemmas ClientLemmas2 ClientLemmas3 ClientLemmas4 ClientLemmas5 ClientLemmas6 ClientLemmas7.
Local Opaque NumTags all_tags.

(** A server that sends every request back. *)
Definition echo (q a : bytes) : Prop := a = q /\ (7 <= List.length q)%nat.
Lemma echo_tag : answers_with_tag echo. Proof. intros q a [-> H]. split; [exact H|reflexivity]. Qed.
Lemma echo_total q : (7 <= List.length q)%nat -> exists a, echo q a. Proof. intros H. exists q. split; [reflexivity|exact H]. Qed.
(** Calls one after the other. *)
Definition chain (c : nat) : list nat := match c with O => [] | S p => [p] end.
Lemma chain_lt c p : In p (chain c) -> (p < c)%nat. Proof. destruct c; cbn; intuition lia. Qed.

Lemma first_call_writes : exists s, csteps true (init true) (firstn 6 one_call) s /\ holds s 0%nat 1.
Proof.
  destruct all_tags_cons as [ts Hts].
  pose proof (cs_start true (init true) 0%nat q0 eq_refl eq_refl ltac:(cbn; lia)) as S1. unfold init in S1; simps S1.
  match type of S1 with cstep _ _ _ ?s => pose proof (cs_enqueue true s 0%nat q0 eq_refl eq_refl numtags_pos) as S2 end. simps S2.
  pose proof (csteps_app _ _ _ _ _ _ (csteps_one _ _ _ _ S1) (csteps_one _ _ _ _ S2)) as R. cbn [app] in R.
  match type of R with csteps _ _ _ ?s => pose proof (cs_take true s 0%nat q0 [] eq_refl eq_refl eq_refl) as S3 end. simps S3.
  pose proof (csteps_app _ _ _ _ _ _ R (csteps_one _ _ _ _ S3)) as R1. cbn [app] in R1.
  match type of R1 with csteps _ _ _ ?s => pose proof (cs_tag true s 0%nat q0 1 ts eq_refl eq_refl Hts) as S4 end. simps S4.
  pose proof (csteps_app _ _ _ _ _ _ R1 (csteps_one _ _ _ _ S4)) as R2. cbn [app] in R2.
  match type of R2 with csteps _ _ _ ?s => pose proof (cs_slot true s 0%nat 1 (set_tag 1 q0) eq_refl eq_refl) as S5 end. simps S5.
  pose proof (csteps_app _ _ _ _ _ _ R2 (csteps_one _ _ _ _ S5)) as R3. cbn [app] in R3.
  match type of R3 with csteps _ _ _ ?s => pose proof (cs_write true s 0%nat 1 (set_tag 1 q0) eq_refl eq_refl) as S6 end. simps S6.
  pose proof (csteps_app _ _ _ _ _ _ R3 (csteps_one _ _ _ _ S6)) as R4. cbn [app] in R4.
  match type of R4 with csteps true ?s ?l ?s' => change (csteps true (init true) l s') in R4 end.
  eexists. split; [exact R4|]. split; [exists q0; reflexivity|]. right. reflexivity.
Qed.
Ltac stp HC R S := let X := fresh in
  pose proof (HC _ _ _ _ _ _ R S ltac:(discriminate) ltac:(discriminate) ltac:(discriminate) ltac:(discriminate)) as X; clear R S; rename X into R.
(** The same call, with the counting file server answering. *)
Lemma honest_call : exists h, hreach true (answered_by (counting false)) h /\ callers (cl h) 0%nat = CDone q0 b1.
Proof.
  destruct all_tags_cons as [ts Hts].
  assert (HC : forall s us fl an l s', hreach true (answered_by (counting false)) (mkH s us fl an) -> cstep true s l s' ->
     (forall c q, l <> LWrite c q) -> (forall b, l <> LRead b) -> l <> LEof -> l <> LFatal ->
     hreach true (answered_by (counting false)) (mkH s' us fl an)).
  { intros s us fl an l s' R S N1 N2 N3 N4. eapply hr_step; [exact R|]. exact (h_client true (answered_by (counting false)) (mkH s us fl an) l s' S N1 N2 N3 N4). }
  pose proof (hr_init true (answered_by (counting false))) as R. unfold hinit in R.
  pose proof (cs_start true (init true) 0%nat q0 eq_refl eq_refl ltac:(cbn; lia)) as S1.
  unfold init in S1, R. simps S1. stp HC R S1.
  match type of R with hreach _ _ (mkH ?s _ _ _) => pose proof (cs_enqueue true s 0%nat q0 eq_refl eq_refl numtags_pos) as S end. simps S.
  stp HC R S.
  match type of R with hreach _ _ (mkH ?s _ _ _) => pose proof (cs_take true s 0%nat q0 [] eq_refl eq_refl eq_refl) as S end. simps S.
  stp HC R S.
  match type of R with hreach _ _ (mkH ?s _ _ _) => pose proof (cs_tag true s 0%nat q0 1 ts eq_refl eq_refl Hts) as S end. simps S.
  stp HC R S.
  match type of R with hreach _ _ (mkH ?s _ _ _) => pose proof (cs_slot true s 0%nat 1 (set_tag 1 q0) eq_refl eq_refl) as S end. simps S.
  stp HC R S.
  match type of R with hreach _ _ (mkH ?s _ _ _) => pose proof (cs_write true s 0%nat 1 (set_tag 1 q0) eq_refl eq_refl) as S end. simps S.
  pose proof (hr_step _ _ _ _ _ R (h_write _ _ (mkH _ _ _ _) _ _ _ S)) as R'. simpj. clear S R.
  assert (A : answered_by (counting false) (set_tag 1 q0) b1).
  { exists 1, (MTclunk (mkTclunkPkt 5)), 0, 1. split; [reflexivity|]. split; [reflexivity|]. split; [reflexivity|].
    exists (MRclunk mkRclunkPkt). left. split; [reflexivity|]. split; [exact Logic.I|reflexivity]. }
  pose proof (hr_step _ _ _ _ _ R' (h_answer true _ (mkH _ _ _ _) [] 0%nat (set_tag 1 q0) [] b1 eq_refl A)) as R. simpj. clear R'.
  match type of R with hreach _ _ (mkH ?s _ _ _) => pose proof (cs_read true s b1 eq_refl eq_refl ltac:(cbn; lia)) as S end. simps S.
  pose proof (hr_step _ _ _ _ _ R (h_read _ _ (mkH _ _ _ _) _ [] _ eq_refl S)) as R'. simpj. clear S R.
  assert (T : tag_of b1 = 1) by reflexivity.
  match type of R' with hreach _ _ (mkH ?s _ _ _) => pose proof (cs_pass true s b1 eq_refl eq_refl eq_refl) as S end. simps S.
  stp HC R' S.
  match type of R' with hreach _ _ (mkH ?s _ _ _) => pose proof (cs_lookup true s b1 eq_refl eq_refl) as S; rewrite (receive_good s b1 0%nat ltac:(rewrite T; unfold good_tag; lia) eq_refl) in S end. simps S.
  stp HC R' S.
  match type of R' with hreach _ _ (mkH ?s _ _ _) => pose proof (cs_deliver true s b1 1 0%nat q0 eq_refl eq_refl eq_refl) as S end. simps S.
  stp HC R' S.
  eexists. split; [exact R'|reflexivity].
Qed.

Lemma finish_bound n k h : (work n h + k = 12 * n)%nat -> (k <= 12 * n)%nat. Proof. lia. Qed.
Lemma sumw_zero f n : sumw f n = 0%nat -> forall c, (c < n)%nat -> f c <> CIdle.
Proof.
  induction n as [|n IH]; intros H c Hc; [lia|]. cbn in H. destruct (Nat.eq_dec c n) as [->|]; [intros E; rewrite E in H; cbn in H; lia|]. apply IH; lia.
Qed.
Lemma sumw_done f n : (forall c, (c < n)%nat -> exists q r, f c = CDone q r) -> sumw f n = 0%nat.
Proof.
  induction n as [|n IH]; intros H; [reflexivity|]. cbn. destruct (H n ltac:(lia)) as (q & r & ->). rewrite IH; [reflexivity|]. intros c Hc. apply H. lia.
Qed.
(** When nothing more can happen, the queues are empty as well. *)
Lemma finish_done srv n pre k h : (forall q, (7 <= List.length q)%nat -> exists a, srv q a) -> (forall c p, In p (pre c) -> (p < c)%nat) ->
  K srv n h -> (work n h + k = 12 * n)%nat -> (forall h', ~ wstep srv n pre h h') -> k = (12 * n)%nat /\ forall c, (c < n)%nat -> done h c.
Proof.
  intros HT HP KK E NS.
  assert (D : forall c, (c < n)%nat -> done h c).
  { intros c Hc. destruct (callers (cl h) c) as [|q|q|q r] eqn:X; try (exists q, r; exact X);
      (exfalso; destruct (progress srv n pre h c HT HP KK Hc) as (h' & S); [intros (q' & r' & Y); congruence|exact (NS h' S)]). }
  split; [|exact D]. destruct KK as [HJ HU HC].
  (* all calls are done, so nothing is under way *)
  pose proof (j_cnt srv h HJ) as JC. pose proof (j_flight srv h HJ) as JF.
  assert (NW : forall c q, callers (cl h) c <> CWait q).
  { intros c q X. destruct (Nat.lt_ge_cases c n) as [Y|Y]; [destruct (D c Y) as (? & ? & Z); congruence|rewrite HC in X by exact Y; discriminate]. }
  assert (FL : flight h = []).
  { destruct (flight h) as [|t l] eqn:X; [reflexivity|]. exfalso. destruct (flight_slot srv h t HJ) as (c & q & _ & Y & _); [rewrite X; left; reflexivity|].
    exact (NW c q Y). }
  assert (QE : queue (cl h) = []).
  { destruct (queue (cl h)) as [|[c q] l] eqn:X; [reflexivity|]. exfalso. destruct (j_queue srv h HJ c q) as [Y _]; [rewrite X; left; reflexivity|]. exact (NW c q Y). }
  assert (SE : snd_ (cl h) = SIdle).
  { pose proof (j_snd srv h HJ) as X. destruct (snd_ (cl h)) as [|c q|c t q|c t q]; [reflexivity|exfalso..].
    - destruct X as [X _]. exact (NW c q X).
    - destruct X as (_ & q' & _ & X). exact (NW c q' X).
    - destruct X as (_ & (q' & _ & X) & _). exact (NW c q' X). }
  unfold flight in FL. apply app_eq_nil in FL. destruct FL as [F1 F2]. apply app_eq_nil in F2. destruct F2 as [F2 F3]. apply app_eq_nil in F3. destruct F3 as [F3 F4].
  apply map_eq_nil in F1. apply map_eq_nil in F2.
  assert (VR : rcv (cl h) = VWait).
  { destruct (rcv (cl h)) as [|b| |b t c|t] eqn:X; [reflexivity|discriminate F4|exfalso; exact (j_doom srv h HJ X)|discriminate F4|]. exfalso.
    eapply NS. exists LTau. split; [eapply h_client; [eapply cs_return; [apply (j_live srv h HJ)|exact X|apply (tags_short _ (j_inv srv h HJ) t X)]|..]; discriminate|exact Logic.I]. }
  unfold work in E. rewrite F1, F2, QE, SE, VR in E. cbn [List.length wsender wrecv] in E.
  rewrite (sumw_done _ n D) in E. destruct (rdr (cl h)); cbn [wreader rtags] in *; try discriminate F3; lia.
Qed.
Lemma fid_sequence tr hn ls s k : csteps tr (init hn) ls s -> (k < List.length (fids s))%nat ->
  nth_error (fids s) k = Some ((N.of_nat k + 2) mod 4294967296).
Proof.
  intros H L. destruct (fid_inv _ _ _ _ H) as [E _]. rewrite E. erewrite map_nth_error; [reflexivity|].
  rewrite (nth_error_nth' _ 0%nat) by (rewrite seq_length; exact L). rewrite seq_nth by exact L. reflexivity.
Qed.
Lemma no_invented tr hn ls s : csteps tr (init hn) ls s ->
  (forall c q r, callers s c = CDone q r -> In (LRead r) ls) /\ (In LEof ls -> forall b s', ~ cstep tr s (LRead b) s').
Proof.
  intros H. destruct (reply_read _ _ _ _ H) as (_ & _ & C & D). split; [exact C|]. intros X b s' S. specialize (D X).
  inversion S; subst; congruence.
Qed.
Lemma c28_case : exists s, csteps true (init true) one_call s /\ callers s 0%nat = CDone q0 b1.
Proof. destruct one_call_run as (s & A & _ & _ & _ & B & _). exists s. split; [exact A|]. rewrite B. reflexivity. Qed.
Lemma c26_case : answers_with_tag echo /\ (forall q, (7 <= List.length q)%nat -> exists a, echo q a) /\ (forall c p, In p (chain c) -> (p < c)%nat) /\
  forall h, wsteps echo (N.to_nat 100000) chain 0 h -> exists h', wstep echo (N.to_nat 100000) chain h h'.
Proof.
  split; [exact echo_tag|]. split; [exact echo_total|]. split; [exact chain_lt|]. intros h W.
  destruct (wsteps_K echo echo_tag _ _ _ _ W) as [KK _]. apply (progress echo _ _ _ 0%nat echo_total chain_lt KK); [lia|].
  inversion W; subst. intros (q & r & X). discriminate.
Qed.
