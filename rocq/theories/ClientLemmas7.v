(** Concrete runs of the client, tracing, packets, the file server behind the client. *)
From Verif Require Import Base GoBuf CodecPrim Types Codec Gen Msgs GenEq GenThm GenInv CodecSpec MsgThm CodecLemmas CodecLemmas2 CodecLemmas3 CodecLemmas4 StubPrim Stubs
  Server ServerSpec ServerLemmas ServerLemmas2 ServerLemmas3 Rpc ServerLemmas4
  Client ClientSpec ClientLemmas ClientLemmas2 ClientLemmas3 ClientLemmas4 ClientLemmas5 ClientLemmas6.
Local Opaque NumTags all_tags.

(** * One call, then its reply once more, then another call *)
Definition q0 : bytes := marshalT 0 (MTclunk (mkTclunkPkt 5)).
Definition q1 : bytes := marshalT 1 (MTclunk (mkTclunkPkt 5)).
Definition b1 : bytes := marshalR 1 (MRclunk mkRclunkPkt).
Definition one_call : list lbl := [LStart 0 q0; LTau; LTau; LTau; LTau; LWrite 0 q1; LRead b1; LTau; LTau; LDone 0 b1].
Definition replay : list lbl := one_call ++ [LTau; LRead b1; LTau; LTau] ++ [LStart 1 q0; LTau].

Lemma cs_pass' s b c : crashed s = false -> rdr s = RHave b -> rcv s = VWait -> good_tag (tag_of b) -> rpc s (tag_of b) = Some c ->
  csteps true s [LTau; LTau] (mkC (tags s) (fid s) (rpc s) (queue s) (callers s) (snd_ s) RRead (VDeliver b (tag_of b) c) (user s) (fids s) false).
Proof.
  intros A B C D E. pose proof (cs_pass true s b A B C) as S1. match type of S1 with cstep _ _ _ ?x => pose proof (cs_lookup true x b eq_refl eq_refl) as S2; rewrite (receive_good x b c D E) in S2 end.
  exact (csteps_app _ _ _ _ _ _ (csteps_one _ _ _ _ S1) (csteps_one _ _ _ _ S2)).
Qed.
Ltac simps H := cbn [tags fid rpc queue callers snd_ rdr rcv user fids crashed] in H.
Lemma one_call_run : exists s, csteps true (init true) one_call s /\ crashed s = false /\ rdr s = RRead /\ rcv s = VReturn 1 /\ callers s = upd (upd (upd (fun _ => CIdle) 0%nat (CSend q0)) 0%nat (CWait q0)) 0%nat (CDone q0 b1)
  /\ rpc s 1 = Some 0%nat /\ snd_ s = SIdle /\ queue s = [] /\ Inv s.
Proof.
  destruct all_tags_cons as [ts Hts].
  pose proof (cs_start true (init true) 0%nat q0 eq_refl eq_refl ltac:(cbn; lia)) as S1. unfold init in S1; simps S1.
  match type of S1 with cstep _ _ _ ?s => pose proof (cs_enqueue true s 0%nat q0 eq_refl eq_refl numtags_pos) as S2 end. simps S2.
  pose proof (csteps_app _ _ _ _ _ _ (csteps_one _ _ _ _ S1) (csteps_one _ _ _ _ S2)) as R. cbn [app] in R.
  match type of R with csteps _ _ _ ?s => pose proof (cs_take true s 0%nat q0 [] eq_refl eq_refl eq_refl) as S3 end. simps S3.
  pose proof (csteps_app _ _ _ _ _ _ R (csteps_one _ _ _ _ S3)) as R1. cbn [app] in R1.
  match type of R1 with csteps _ _ _ ?s => pose proof (cs_tag true s 0%nat q0 1 ts eq_refl eq_refl Hts) as S4 end. simps S4.
  pose proof (csteps_app _ _ _ _ _ _ R1 (csteps_one _ _ _ _ S4)) as R2. cbn [app] in R2.
  match type of R2 with csteps _ _ _ ?s => pose proof (cs_slot true s 0%nat 1 (set_tag 1 q0) eq_refl eq_refl) as S5 end. simps S5.
  pose proof (csteps_app _ _ _ _ _ _ R2 (csteps_one _ _ _ _ S5)) as R3. cbn [app] in R3.
  match type of R3 with csteps _ _ _ ?s => pose proof (cs_write true s 0%nat 1 (set_tag 1 q0) eq_refl eq_refl) as S6 end. simps S6.
  pose proof (csteps_app _ _ _ _ _ _ R3 (csteps_one _ _ _ _ S6)) as R4. cbn [app] in R4.
  match type of R4 with csteps _ _ _ ?s => pose proof (cs_read true s b1 eq_refl eq_refl ltac:(cbn; lia)) as S7 end. simps S7.
  pose proof (csteps_app _ _ _ _ _ _ R4 (csteps_one _ _ _ _ S7)) as R5. cbn [app] in R5.
  assert (T : tag_of b1 = 1) by reflexivity.
  match type of R5 with csteps _ _ _ ?s => pose proof (cs_pass' s b1 0%nat eq_refl eq_refl eq_refl ltac:(rewrite T; unfold good_tag; lia) eq_refl) as S8 end. simps S8.
  pose proof (csteps_app _ _ _ _ _ _ R5 S8) as R6. cbn [app] in R6.
  match type of R6 with csteps _ _ _ ?s => pose proof (cs_deliver true s b1 1 0%nat q0 eq_refl eq_refl eq_refl) as S9 end. simps S9.
  pose proof (csteps_app _ _ _ _ _ _ R6 (csteps_one _ _ _ _ S9)) as R7. cbn [app] in R7.
  match type of R7 with csteps true ?s ?l ?s' => change (csteps true (init true) l s') in R7 end.
  pose proof (inv_steps _ _ _ _ R7) as I.
  eexists. split; [exact R7|]. do 7 (split; [reflexivity|]). exact I.
Qed.
Lemma replay_run : exists s, csteps true (init true) replay s /\ crashed s = false /\ wedged s /\ callers s 1%nat = CWait q0.
Proof.
  destruct one_call_run as (s & R & A & B & C & D & E & F & G & I).
  pose proof (cs_return true s 1 A C (tags_short s I 1 C)) as S1. simps S1.
  match type of S1 with cstep _ _ _ ?s => pose proof (cs_read true s b1 eq_refl B ltac:(cbn; lia)) as S2 end. simps S2.
  assert (T : tag_of b1 = 1) by reflexivity.
  match type of S2 with cstep _ _ _ ?s => pose proof (cs_pass' s b1 0%nat eq_refl eq_refl eq_refl ltac:(rewrite T; unfold good_tag; lia) E) as S3 end. simps S3.
  match type of S3 with csteps _ _ _ ?s => pose proof (cs_start true s 1%nat q0 eq_refl ltac:(cbn [callers]; rewrite D; reflexivity) ltac:(cbn; lia)) as S4 end. simps S4.
  match type of S4 with cstep _ _ _ ?s => pose proof (cs_enqueue true s 1%nat q0 eq_refl ltac:(apply upd_same) ltac:(cbn [queue]; rewrite G; apply numtags_pos)) as S5 end. simps S5.
  pose proof (csteps_app _ _ _ _ _ _ R (csteps_app _ _ _ _ _ _ (csteps_app _ _ _ _ _ _ (csteps_app _ _ _ _ _ _ (csteps_app _ _ _ _ _ _ (csteps_one _ _ _ _ S1) (csteps_one _ _ _ _ S2)) S3) (csteps_one _ _ _ _ S4)) (csteps_one _ _ _ _ S5))) as RR.
  eexists. split; [exact RR|]. simpj. split; [reflexivity|]. split.
  - exists b1, (tag_of b1), 0%nat, q0, b1. simpj. split; [reflexivity|]. rewrite !upd_other by discriminate. rewrite D. apply upd_same.
  - apply upd_same.
Qed.
Lemma wedge_refuted :
  ~ (forall ls s c q, csteps true (init true) ls s -> crashed s = false -> callers s c = CWait q ->
       exists ls' s' r, csteps true s ls' s' /\ callers s' c = CDone q r).
Proof.
  intros H. destruct replay_run as (s & R & A & B & C). destruct (H _ _ _ _ R A C) as (ls' & s' & r & R' & X).
  pose proof (wedged_forever _ _ _ _ (inv_steps _ _ _ _ R) B R') as (_ & Y & _). rewrite (Y 1%nat q0 C) in X. discriminate.
Qed.
Lemma hostile_refuted : ~ (forall ls s, csteps true (init true) ls s -> ~ In LEof ls -> ~ In LFatal ls -> crashed s = false).
Proof.
  intros H. pose proof (cs_read true (init true) b1 eq_refl eq_refl ltac:(cbn; lia)) as S1.
  match type of S1 with cstep _ _ _ ?s => pose proof (cs_pass true s b1 eq_refl eq_refl eq_refl) as S2 end.
  match type of S2 with cstep _ _ _ ?s => pose proof (cs_lookup true s b1 eq_refl eq_refl) as S3; rewrite (receive_bad s b1) in S3 by (right; right; reflexivity) end.
  match type of S3 with cstep _ _ _ ?s => pose proof (cs_doomed true s eq_refl eq_refl) as S4 end.
  pose proof (csteps_app _ _ _ _ _ _ (csteps_app _ _ _ _ _ _ (csteps_one _ _ _ _ S1) (csteps_one _ _ _ _ S2)) (csteps_app _ _ _ _ _ _ (csteps_one _ _ _ _ S3) (csteps_one _ _ _ _ S4))) as R.
  specialize (H _ _ R). cbn in H. enough (true = false) by discriminate. apply H; intuition discriminate.
Qed.
Lemma hostile_reply_refuted : ~ (forall m bb sp, (7 <= List.length bb)%nat -> call_result m bb sp <> CallPanic).
Proof.
  intros H. apply (H (MTread (mkTreadPkt 0 0 1)) (raw 117 1 (le 4 100)) []); [vm_compute; lia|]. vm_compute. reflexivity.
Qed.
Lemma call_total m bb sp : (7 <= List.length bb)%nat -> ttype m <> Tread_t -> ttype m <> Tstat_t -> call_result m bb sp <> CallPanic.
Proof.
  intros L N1 N2. rewrite call_result_gen. destruct (nth_error bb 4) as [ty|] eqn:E; [|apply nth_error_None in E; lia].
  destruct c09_partial as (_ & P & _).
  destruct (b2n ty =? 107).
  - pose proof (P 107 (Buf (skipn 5 bb) sp) ltac:(discriminate) ltac:(discriminate)) as X.
    change (unmarshalR 107 (Buf (skipn 5 bb) sp)) with (Some (umap MRerror (UnmarshalRerrorPkt (Buf (skipn 5 bb) sp)))) in *.
    destruct (UnmarshalRerrorPkt _) as [p t b e|]; cbn [umap] in *; [destruct e; discriminate|congruence].
  - assert (X : unmarshalR (ttype m + 1) (Buf (skipn 5 bb) sp) <> Some UPanic) by (apply P; destruct m; vm_compute in N1, N2 |- *; congruence).
    unfold ures_call. destruct (unmarshalR (ttype m + 1) (Buf (skipn 5 bb) sp)) as [[]|] eqn:Y; try discriminate; [congruence|].
    exfalso. destruct m; discriminate Y.
Qed.

(** * Tracing *)
Lemma untraced_inv ls s hn : csteps false (init hn) ls s -> (rcv s = VWait \/ (exists b, rcv s = VHave b) \/ rcv s = VDoomed) /\ forall c r, ~ In (LDone c r) ls.
Proof.
  induction 1 as [|ls s1 l s2 _ [A B] S]; [split; [left; reflexivity|intros c r []]|].
  assert (B' : forall x, (forall c r, x <> LDone c r) -> forall c r, ~ In (LDone c r) (ls ++ [x])).
  { intros x N c' r' X. apply in_app_iff in X. destruct X as [X|[X|[]]]; [eapply B, X|eapply N, X]. }
  destruct S; simpj; try congruence; try (split; [assumption|apply B'; discriminate]).
  - split; [eauto|apply B'; discriminate].
  - destruct (receive_cases false s1 b) as [X|(c & _ & _ & Y & _)]; [|discriminate Y]. rewrite X.
    split; [auto|apply B'; discriminate].
  - exfalso. destruct A as [A|[(b' & A)|A]]; congruence.
  - split; [auto|apply B'; discriminate].
Qed.
Lemma trace_refuted : ~ (forall ls s, csteps true (init true) ls s -> exists s', csteps false (init true) ls s').
Proof.
  intros H. destruct one_call_run as (s & R & _). destruct (H _ _ R) as (s' & R').
  destruct (untraced_inv _ _ _ R') as [_ X]. apply (X 0%nat b1). cbn. tauto.
Qed.
Lemma trace_same s l s' : (forall b, rcv s <> VHave b) -> (cstep true s l s' <-> cstep false s l s').
Proof.
  intros H. split; intros S; destruct S; try (exfalso; eapply H; eassumption); econstructor; eassumption.
Qed.
Lemma untraced_crash s b : crashed s = false -> rcv s = VHave b ->
  (exists s1, cstep false s LTau s1 /\ rcv s1 = VDoomed /\ cstep false s1 LCrash (crash s1)) /\
  forall l s', cstep false s l s' -> rcv s' = VHave b \/ rcv s' = VDoomed.
Proof.
  intros A B. assert (X : forall b, receive false s b = VDoomed).
  { intros b'. destruct (receive_cases false s b') as [X|(c & _ & _ & Y & _)]; [exact X|discriminate Y]. }
  split.
  - pose proof (cs_lookup false s b A B) as S. rewrite X in S. eexists. split; [exact S|]. split; [reflexivity|]. apply cs_doomed; reflexivity.
  - intros l s' S. destruct S; cbn [crash rcv]; try congruence; auto.
Qed.
Lemma untraced_doomed s l s' : cstep false s l s' -> rcv s = VDoomed -> rcv s' = VDoomed.
Proof. intros S H. destruct S; cbn [crash rcv]; congruence. Qed.

(** * Packets *)
Lemma packet_chunks cs :
  nonempty cs -> headers_whole cs -> (7 <= List.length (concat cs))%nat ->
  exists size ty tag rb cs',
    size < 4294967296 /\ ty < 256 /\ tag < 65536 /\
    concat cs = le 4 size ++ le 1 ty ++ le 2 tag ++ rb /\
    concat cs' = skipn (N.to_nat (size - 7)) rb /\ nonempty cs' /\ headers_whole cs' /\
    packet (map Chunk cs) = Some (le 4 size ++ le 1 ty ++ le 2 tag ++ firstn (N.to_nat (size - 7)) rb, map Chunk cs').
Proof.
  intros Hne Hw L. destruct cs as [|c cs]; [cbn in L; lia|]. inversion Hne as [|? ? Hc Hne']; subst.
  assert (Lc : (7 <= List.length c)%nat).
  { specialize (Hw 0%nat (List.length c) (ha_0 _)).
    assert (0 < List.length c)%nat by (destruct c; [contradiction|cbn; lia]).
    destruct (Nat.le_gt_cases 7 (List.length c)); [assumption|]. exfalso. apply Hw; try lia.
    exists [c], cs. split; [reflexivity|]. cbn [concat]. rewrite app_nil_r. reflexivity. }
  assert (exists l0 l1 l2 l3 l4 l5 l6 rb, concat (c :: cs) = [l0; l1; l2; l3; l4; l5; l6] ++ rb) as (l0 & l1 & l2 & l3 & l4 & l5 & l6 & rb & Q).
  { revert L. generalize (concat (c :: cs)) as x. intros x L.
    destruct x as [|l0 [|l1 [|l2 [|l3 [|l4 [|l5 [|l6 rb]]]]]]]; cbn [List.length] in L; try lia.
    exists l0, l1, l2, l3, l4, l5, l6, rb. reflexivity. }
  destruct (header_bytes l0 l1 l2 l3 l4 l5 l6) as (size & ty & tag & A & B & C & D & X1 & X2 & X3).
  exists size, ty, tag, rb, (dropc (N.to_nat (size - 7)) (dropc 7 (c :: cs))).
  repeat (split; [assumption|]).
  assert (Q' : concat (c :: cs) = le 4 size ++ le 1 ty ++ le 2 tag ++ rb) by (rewrite Q, D, <- !app_assoc; reflexivity).
  assert (Q7 : skipn 7 (concat (c :: cs)) = rb) by (rewrite Q; reflexivity).
  split; [exact Q'|]. split; [rewrite !dropc_concat, Q7; reflexivity|].
  split; [apply dropc_nonempty, dropc_nonempty; exact Hne|].
  split.
  { rewrite dropc_dropc. apply headers_whole_drop; [exact Hw|].
    replace (7 + N.to_nat (size - 7))%nat with (0 + Nat.max 7 (N.to_nat (unle (firstn 4 (skipn 0 (concat (c :: cs)))))))%nat.
    - apply ha_next; [constructor|lia].
    - cbn [skipn]. rewrite Q'. replace (firstn 4 (le 4 size ++ le 1 ty ++ le 2 tag ++ rb)) with (le 4 size) by reflexivity.
      rewrite unle_le_small by exact A. lia. }
  pose proof (net_read_drop c cs Lc Hne') as NR. rewrite Q in NR. cbn [firstn app] in NR.
  unfold packet. rewrite NR.
  rewrite X1. rewrite copy_limit_drop by (apply dropc_nonempty; exact Hne).
  rewrite dropc_concat, Q7, D, <- !app_assoc. reflexivity.
Qed.
Lemma chunks_pending cs : pending (map Chunk cs) = List.length (concat cs).
Proof. induction cs as [|c cs IH]; cbn [map pending concat]; [reflexivity|]. rewrite app_length, IH. reflexivity. Qed.
Lemma packets_frames n : forall fs cs, (pending (map Chunk cs) < n)%nat -> nonempty cs -> headers_whole cs -> strict_frames (concat cs) fs ->
  packets_n n (map Chunk cs) = map (fun f => raw (f_type f) (f_tag f) (f_body f)) fs.
Proof.
  induction n as [|n IH]; intros fs cs Hn Hne Hw H; [lia|]. rewrite chunks_pending in Hn.
  remember (concat cs) as x eqn:Ex. destruct H as [|size ty tag body rest fs Hs Hty Htag Hb H].
  - destruct cs as [|c cs]; [reflexivity|]. exfalso. inversion Hne; subst. cbn [concat] in Ex. destruct c; [contradiction|discriminate].
  - destruct (packet_chunks cs Hne Hw) as (size' & ty' & tag' & rb & cs' & A & B & C & D & E & F & G & P).
    { rewrite <- Ex, !app_length, !le_length. lia. }
    rewrite <- Ex in D. apply header_inj in D; try assumption; try lia. destruct D as (<- & <- & <- & <-).
    assert (X : N.to_nat (size - 7) = List.length body) by (rewrite <- Hb; unfold blen; lia).
    rewrite X in *. rewrite skipn_app, skipn_all, Nat.sub_diag in E. rewrite firstn_app_le, firstn_all in P by lia. cbn [skipn app] in E.
    cbn [packets_n map f_type f_tag f_body]. rewrite P. unfold raw at 1. replace (7 + blen body) with size by lia. f_equal.
    apply IH; try assumption.
    + rewrite chunks_pending, E. rewrite !app_length, !le_length in Hn. lia.
    + rewrite E. exact H.
Qed.
Lemma packets_split_refuted :
  ~ (forall cs fs, nonempty cs -> strict_frames (concat cs) fs -> packets (map Chunk cs) = map (fun f => raw (f_type f) (f_tag f) (f_body f)) fs).
Proof.
  intros H. specialize (H [firstn 3 b1; skipn 3 b1] [mkFrame 121 1 []]).
  assert (X : strict_frames (concat [firstn 3 b1; skipn 3 b1]) [mkFrame 121 1 []]).
  { change (concat [firstn 3 b1; skipn 3 b1]) with (le 4 7 ++ le 1 121 ++ le 2 1 ++ [] ++ []). constructor; try lia; try reflexivity. constructor. }
  assert (Y : nonempty [firstn 3 b1; skipn 3 b1]) by (repeat constructor; discriminate).
  specialize (H Y X). vm_compute in H. discriminate.
Qed.

(** * The file server behind the client *)
Lemma tag_of_marshalT t m : t < 65536 -> tag_of (marshalT t m) = t.
Proof.
  intros H. rewrite layoutT. unfold frame, tag_of. rewrite le2_bytes. cbn [le app nth]. apply tag_of_bytes16, H.
Qed.
Lemma tag_of_marshalR t m : t < 65536 -> tag_of (marshalR t m) = t.
Proof.
  intros H. rewrite layoutR. unfold frame, tag_of. rewrite le2_bytes. cbn [le app nth]. apply tag_of_bytes16, H.
Qed.
Lemma marshalR_len t r : (7 <= List.length (marshalR t r))%nat.
Proof. rewrite layoutR. unfold frame. rewrite !app_length, !le_length. lia. Qed.
Lemma answered_by_tag {St} (ns : NineServer St) : answers_with_tag (answered_by ns).
Proof.
  intros q a (t & m & s & s' & Ht & Hf & -> & r & [(_ & _ & ->)|(err & _ & _ & ->)]);
    (split; [apply marshalR_len|]; rewrite tag_of_marshalT, tag_of_marshalR by exact Ht; reflexivity).
Qed.
Lemma marshalT_inj t m m' : t < 65536 -> fitsT m -> fitsT m' -> marshalT t m = marshalT t m' -> m = m'.
Proof.
  intros Ht F F' E. 
  assert (X : ttype m = ttype m').
  { assert (Y : nth 4 (marshalT t m) x00 = nth 4 (marshalT t m') x00) by (rewrite E; reflexivity).
    rewrite !layoutT in Y. unfold frame in Y. cbn [le app nth] in Y. apply (f_equal b2n) in Y. rewrite !b2n_u8 in Y.
    rewrite !ttype_wire in Y. destruct m, m'; vm_compute in Y; discriminate Y || reflexivity. }
  pose proof (roundtripT m t [] F Ht) as A. pose proof (roundtripT m' t [] F' Ht) as B. rewrite E, X, B in A. congruence.
Qed.
Lemma end_to_end {St} (ns : NineServer St) h c m bb sp : hreach true (answered_by ns) h -> fitsT m ->
  callers (cl h) c = CDone (call_request m) bb ->
  exists s s', (exists r, invoke ns s m = NSOk s' r /\ call_result m bb sp = CallRet r None) \/
    (exists err, invoke ns s m = NSErr s' err /\ call_result m bb sp = CallRet (zero_reply m) (Some err)).
Proof.
  intros R F D. destruct (right_caller _ _ _ _ _ (answered_by_tag ns) R D) as (t & [T1 T2] & (t' & m' & s & s' & T' & F' & E & A) & _).
  rewrite set_tag_request in E. assert (t' = t).
  { apply (f_equal tag_of) in E. rewrite !tag_of_marshalT in E by lia. congruence. }
  subst t'. apply marshalT_inj in E; try assumption; try lia. subst m'. exists s, s'.
  destruct A as (r & [(I & Fr & ->)|(err & I & Fe & ->)]).
  - left. exists r. split; [exact I|]. pose proof (invoke_type _ _ _ _ _ I) as Ty.
    apply call_of_reply; try assumption. rewrite Ty. destruct m; vm_compute; discriminate.
  - right. exists err. split; [exact I|]. apply call_of_error; assumption.
Qed.
