(** A client and a server that run from their texts: what the calls get. *)
From Verif Require Import Base GoBuf CodecPrim CodecLemmas Types Codec Msgs CodecSpec StubPrim Stubs Server ServerSpec ServerLemmas ServerLemmas4 Rpc GoSyntax Ufs GoRun GoFmt GoProg GoWp
  ServerRun ServerRunLemmas ServerRunThm Client ClientSpec ClientLemmas7 ClientRun ClientRunSim ClientHist ClientRunThm NetRun NetLemmas NetModel NetServer NetThm.
Local Opaque NumTags all_tags.

Section Net.
Context {St : Type} (ns : NineServer St) (E : Server.env) (remote : bytes) (srn crn : N) (opt : oserr + (value * value * value * N)) (C : N).
Context (HE : forall j, e_write E j = None) (x : St) {K : tmsg -> Prop} (HF : fitting_from K ns x).
Notation jsteps := (jsteps ns E remote srn crn opt C).
Context (n0 : @net St) (HC : connected ns E remote srn crn opt C true true x n0).

(** What has been read are the first of the answers to what has been written. *)
Lemma served l n reqs : jsteps n0 l n -> writes l = map enc_req reqs -> Forall (ok_in K) reqs ->
  exists reps st, answers ns false x (firstn (List.length (reads l)) reqs) = Some (reps, st) /\ reads l = map enc_rep reps /\ Forall fits_rep reps.
Proof.
  intros R Ew HK. pose proof (ok_all _ _ HK) as Hok. destruct (start_inv _ _ _ _ _ _ _ x true true n0 HC) as (m1 & Ha & Ho & I0).
  destruct (jsteps_inv _ _ _ _ _ _ _ n0 m1 l n I0 R) as (U & D & I).
  destruct (client_part _ _ _ _ _ _ _ true true n0 m1 l n U D Ho I) as (net & _ & _ & _ & _ & _ & (up & Hp) & Hr & Hn).
  destruct I as [_ Hs (ta & F1 & _) (os & ot & tb & G0 & G1 & G2) _].
  destruct (accepted_serves _ _ _ _ _ _ _ Ha) as (_ & _ & Hv). destruct (Hv (U ++ [RdErr])) as (out & z & Hz & Hout).
  destruct (sruns_out _ _ _ _ _ _ _ _ _ _ (Hs [RdErr]) Hz) as (m2 & Hm2). rewrite w_out_more, Hout in Hm2.
  rewrite Ew in F1. destruct (serve_beginning ns E HE reqs (U ++ [RdErr]) ta 0 false x Hok) as (n' & reps & st & L1 & A & B & L2).
  { rewrite received_err. exact F1. }
  { apply intact_err. }
  change (serve_from ns E 0 (mkSrv false x) (U ++ [RdErr])) with (serve ns E x (U ++ [RdErr])) in B. rewrite B, G0 in Hm2.
  pose proof (HF _ _ _ (ok_firstn K n' reqs HK) A) as Hfit.
  assert (Hos : Forall NetLemmas.framed os).
  { apply Forall_forall. intros o Io. assert (X : In o (map enc_rep reps)) by (rewrite Hm2, !in_app_iff; tauto). apply in_map_iff in X. destruct X as ([t a] & <- & X).
    rewrite Forall_forall in Hfit. destruct (Hfit _ X) as (Q1 & Q2 & Q3). apply rep_framed; assumption. }
  rewrite <- Hr in G1. destruct (packets_prefix os net tb Hos G1) as (m3 & Hm3).
  { intros Hi. destruct (n_end n); [subst net; exact (G2 Hi)|congruence]. }
  rewrite Hp in Hm3. rewrite Hm3, <- !app_assoc in Hm2.
  assert (Len : (List.length (reads l) <= List.length reps)%nat).
  { apply (f_equal (@List.length bytes)) in Hm2. rewrite map_length, !app_length in Hm2. lia. }
  destruct (firstn_answers _ _ _ _ _ _ (List.length (reads l)) A Len) as (st' & A'). rewrite firstn_firstn, Nat.min_l in A' by lia.
  exists (firstn (List.length (reads l)) reps), st'. split; [exact A'|]. split.
  - symmetry in Hm2. apply prefix_firstn in Hm2. rewrite Hm2 at 1. apply firstn_map.
  - apply Forall_forall. intros y Hy. rewrite Forall_forall in Hfit. apply Hfit. rewrite <- (firstn_skipn (List.length (reads l)) reps). apply in_app_iff. left. exact Hy.
Qed.
Lemma client_run l n : jsteps n0 l n -> exists ls k, csteps true (init true) ls k /\ seen ls = seen l /\ crashed k = g_dead (n_client n).
Proof.
  intros R. destruct (start_inv _ _ _ _ _ _ _ x true true n0 HC) as (m1 & Ha & Ho & I0).
  destruct (jsteps_inv _ _ _ _ _ _ _ n0 m1 l n I0 R) as (U & D & I).
  destruct (client_part _ _ _ _ _ _ _ true true n0 m1 l n U D Ho I) as (net & ls & k & H1 & H2 & H3 & _). exists ls, k. auto.
Qed.
Lemma proper_prefix a b : proper_calls K (a ++ b) -> proper_calls K a.
Proof. intros H c q Hi. apply (H c q). apply in_app_iff. left. exact Hi. Qed.
Lemma requests l n : jsteps n0 l n -> proper_calls K l -> causal l -> exists reqs, writes l = map enc_req reqs /\ Forall (ok_in K) reqs /\ Forall (fun y => good_tag (fst y)) reqs.
Proof.
  intros R Hp Hc. destruct (client_run l n R) as (ls & k & H1 & H2 & _). apply requests_of. intros w Hw.
  destruct (t_written l ls k H1 H2 Hc w Hw) as (c & q & t & Hs & -> & Ht). destruct (Hp c q Hs) as (m & -> & Hm & Hl & HK).
  exists (t, m). rewrite set_tag_request. split; [reflexivity|]. split; [|exact Ht]. split; [|exact HK]. split; [cbn; unfold good_tag in Ht; lia|]. split; [exact Hm|].
  unfold enc_req. cbn [fst snd]. rewrite call_request_marshal in Hl. pose proof (marshalM_blen t (MT m)) as L1. pose proof (marshalM_blen 0 (MT m)) as L0. cbn [marshalM wireM] in *. lia.
Qed.
Theorem net_causal l n : jsteps n0 l n -> proper_calls K l -> causal l.
Proof.
  intros R. induction R as [|l y a z R IH S]; intros Hp.
  - intros la b lb H. destruct la; discriminate H.
  - specialize (IH (proper_prefix _ _ Hp)).
    assert (Ha : a = [] \/ exists u, a = [u]) by (destruct S; eauto). destruct Ha as [->|(u & ->)]; [rewrite app_nil_r; exact IH|].
    intros la b lb H. destruct (@exists_last _ (LRead b :: lb) ltac:(discriminate)) as (w & v & Hw).
    assert (H' : l = la ++ w /\ u = v) by (rewrite Hw, app_assoc in H; apply app_inj_tail in H; exact H). destruct H' as [H1 <-].
    destruct w as [|w0 w].
    + cbn [app] in Hw. injection Hw as <- ->. rewrite app_nil_r in H1. subst la. clear H.
      destruct (requests l y R (proper_prefix _ _ Hp) IH) as (reqs & Ew & Hok & Hg).
      destruct (served (l ++ [LRead b]) z reqs (js_snoc _ _ _ _ _ _ _ _ _ _ _ _ R S)) as (reps & st & A & B & _).
      { rewrite writes_app, app_nil_r. exact Ew. }
      { exact Hok. }
      rewrite reads_app in A, B. cbn [reads flat_map app] in A, B. fold (reads l) in A, B. rewrite app_length in A. cbn [List.length] in A.
      pose proof (answers_length _ _ _ _ _ _ A) as HL.
      destruct (@exists_last _ reps) as (reps0 & [t a] & ->). { intros ->. cbn in B. destruct (reads l); discriminate B. }
      rewrite map_app in B, HL. cbn [map fst enc_rep] in B, HL. apply app_inj_tail in B. destruct B as [B1 B2].
      assert (L0 : List.length reps0 = List.length (reads l)) by (rewrite B1, map_length; reflexivity).
      assert (Hnth : nth_error (map fst reqs) (List.length (reads l)) = Some t).
      { rewrite <- firstn_map in HL. rewrite <- (firstn_skipn (List.length (reads l) + 1) (map fst reqs)), <- HL, <- app_assoc.
        rewrite nth_error_app2; rewrite map_length, L0; [|lia]. rewrite Nat.sub_diag. reflexivity. }
      rewrite nth_error_map in Hnth. destruct (nth_error reqs (List.length (reads l))) as [[t' m]|] eqn:En; [|discriminate Hnth]. injection Hnth as ->.
      rewrite Forall_forall in Hg. pose proof (Hg _ (nth_error_In _ _ En)) as Ht. cbn [fst] in Ht. unfold good_tag in Ht.
      exists (marshalT t m). split; [rewrite Ew, nth_error_map, En; reflexivity|]. rewrite B2. change (enc_rep (t, a)) with (marshalR t a). split; [apply marshalR_len|].
      rewrite tag_of_marshalT, tag_of_marshalR by lia. reflexivity.
    + injection Hw as <- ->. apply (IH la b w). exact H1.
Qed.
Theorem net_alive l n : jsteps n0 l n -> proper_calls K l -> ~ In LEof l -> ~ In LFatal l -> g_dead (n_client n) = false.
Proof.
  intros R Hp N1 N2. destruct (client_run l n R) as (ls & k & H1 & H2 & <-). exact (t_alive l ls k H1 H2 (net_causal l n R Hp) N1 N2).
Qed.
(** The answer to request number k. *)
Lemma answers_nth reqs : forall v s reps st k t m, answers ns v s reqs = Some (reps, st) -> nth_error reqs k = Some (t, m) ->
  exists a v1 s1 v2 s2 reps1, nth_error reps k = Some (t, a) /\ answers ns v s (firstn k reqs) = Some (reps1, (v1, s1)) /\ ServerSpec.answer ns v1 s1 m = Some (v2, s2, a).
Proof.
  induction reqs as [|[t0 m0] reqs IH]; intros v s reps st k t m H Hk; [destruct k; discriminate Hk|]. cbn [answers] in H.
  destruct (ServerSpec.answer ns v s m0) as [[[v1 s1] a0]|] eqn:Ea; [|discriminate H]. destruct (answers ns v1 s1 reqs) as [[rs st']|] eqn:Er; [|discriminate H]. injection H as <- <-.
  destruct k as [|k]; cbn [nth_error firstn answers] in *.
  - injection Hk as -> ->. exists a0, v, s, v1, s1, []. auto.
  - destruct (IH _ _ _ _ _ _ _ Er Hk) as (a & w1 & z1 & w2 & z2 & rs1 & A & B & D). exists a, w1, z1, w2, z2, ((t0, a0) :: rs1). rewrite Ea, B. auto.
Qed.
Lemma nth_firstn {A} (l : list A) n k y : nth_error (firstn n l) k = Some y -> nth_error l k = Some y.
Proof. revert l k. induction n as [|n IH]; intros [|a l] [|k] H; try discriminate H; cbn in *; auto. Qed.
Lemma firstn_nth {A} (l : list A) n k y : nth_error l k = Some y -> (k < n)%nat -> nth_error (firstn n l) k = Some y.
Proof. revert l k. induction n as [|n IH]; intros [|a l] [|k] H L; try discriminate H; try lia; cbn in *; auto. apply IH; [exact H|lia]. Qed.

Lemma started_proper l la lb c q : proper_calls K l -> l = la ++ lb -> starts c la = [q] -> exists m, q = call_request m /\ fitsT m.
Proof.
  intros Hp El H. assert (Hi : In (LStart c q) l).
  { assert (X : In q (starts c la)) by (rewrite H; left; reflexivity). unfold starts in X. apply in_flat_map in X. destruct X as (u & Hu & X).
    destruct u as [|c0 q0| | | | | | | |]; try contradiction X. destruct (Nat.eqb_spec c0 c) as [->|]; [|contradiction X]. destruct X as [->|[]].
    rewrite El. rewrite !in_app_iff. auto. }
  destruct (Hp c q Hi) as (m & X1 & X2 & _). eauto.
Qed.
Lemma written_as l reqs k t m : writes l = map enc_req reqs -> Forall ok_req reqs -> good_tag t -> fitsT m -> nth_error (writes l) k = Some (marshalT t m) -> nth_error reqs k = Some (t, m).
Proof.
  intros Ew Hok D5 Hm Hw. unfold good_tag in D5. rewrite Ew, nth_error_map in Hw. destruct (nth_error reqs k) as [[t' m']|] eqn:En; [|discriminate Hw]. injection Hw as Hw. unfold enc_req in Hw. cbn [fst snd] in Hw.
  rewrite Forall_forall in Hok. destruct (Hok _ (nth_error_In _ _ En)) as (O1 & O2 & _). cbn [fst snd] in O1, O2.
  assert (t' = t). { apply (f_equal tag_of) in Hw. rewrite !tag_of_marshalT in Hw by lia. exact Hw. } subst t'.
  apply marshalT_inj in Hw; [|lia|assumption|assumption]. subst m'. reflexivity.
Qed.
Theorem net_serial l n : jsteps n0 l n -> proper_calls K l ->
  exists reqs cs reps st, writes l = map enc_req reqs /\ Forall (ok_in K) reqs /\ NoDup cs /\ List.length cs = List.length reqs /\
    answers ns false x (firstn (List.length (reads l)) reqs) = Some (reps, st) /\ reads l = map enc_rep reps /\
    (forall la lb k c, l = la ++ lb -> nth_error cs k = Some c -> (k < List.length (writes la))%nat -> exists t m, nth_error reqs k = Some (t, m) /\ starts c la = [call_request m]) /\
    (forall l1 c r l2, l = l1 ++ LDone c r :: l2 -> exists k t m a, nth_error cs k = Some c /\ nth_error reqs k = Some (t, m) /\ nth_error reps k = Some (t, a) /\
       r = marshalR t a /\ (forall sp, call_result m r sp = returns m a) /\
       exists la y lb, l1 = la ++ LWrite y (marshalT t m) :: lb /\ List.length (writes la) = k /\ starts c la = [call_request m]) /\
    (forall l1 c r l2 k k' c', l = l1 ++ LDone c r :: l2 -> nth_error cs k = Some c -> nth_error cs k' = Some c' -> starts c' l1 = [] -> (k < k')%nat).
Proof.
  intros R Hp. pose proof (net_causal l n R Hp) as Hc. destruct (requests l n R Hp Hc) as (reqs & Ew & HK & Hg). pose proof (ok_all _ _ HK) as Hok.
  destruct (served l n reqs R Ew HK) as (reps & st & A & B & Hfit). destruct (client_run l n R) as (ls & k0 & H1 & H2 & _).
  destruct (t_done l ls k0 H1 H2 Hc) as (cs & C1 & C2 & C3 & C4). exists reqs, cs, reps, st. split; [exact Ew|]. split; [exact HK|]. split; [exact C1|].
  split; [rewrite C2, Ew, map_length; reflexivity|]. split; [exact A|]. split; [exact B|]. split; [|split].
  - intros la lb k c El Hk Hl. destruct (C3 la lb k c El Hk Hl) as (q & t & S1 & S2 & S3).
    destruct (started_proper l la lb c q Hp El S1) as (m & -> & Hm). rewrite set_tag_request in S2. exists t, m. split; [|exact S1].
    apply (written_as l reqs k t m Ew Hok S3 Hm). rewrite El, writes_app, nth_error_app1 by exact Hl. exact S2.
  - intros l1 c r l2 El. destruct (C4 l1 c r l2 El) as (q & t & la & y & lb & D1 & D2 & D3 & D4 & D5).
    assert (Hs : exists m, q = call_request m /\ fitsT m) by (apply (started_proper l la (LWrite y (set_tag t q) :: lb ++ LDone c r :: l2) c q Hp); [rewrite El, D2, <- app_assoc; reflexivity|exact D3]).
    destruct Hs as (m & -> & Hm). rewrite set_tag_request in D2.
    set (k := List.length (writes la)) in *.
    assert (Hw : nth_error (writes l) k = Some (marshalT t m)).
    { rewrite El, D2, <- app_assoc, writes_app. cbn [writes flat_map app]. rewrite nth_error_app2 by (unfold k; lia). replace (_ - _)%nat with 0%nat by (unfold k; lia). reflexivity. }
    pose proof (written_as l reqs k t m Ew Hok D5 Hm Hw) as En.
    assert (Hr : nth_error (reads l) k = Some r).
    { rewrite El, reads_app. rewrite nth_error_app1; [exact D4|]. apply nth_error_Some. congruence. }
    assert (Hk : (k < List.length (reads l))%nat) by (apply nth_error_Some; congruence).
    destruct (answers_nth _ _ _ _ _ k t m A) as (a & v1 & s1 & v2 & s2 & reps1 & K1 & _ & K2). { apply firstn_nth; assumption. }
    rewrite B, nth_error_map, K1 in Hr. injection Hr as <-.
    unfold good_tag in D5. exists k, t, m, a. split; [exact D1|]. split; [exact En|]. split; [exact K1|]. split; [reflexivity|]. split.
    + intros sp. unfold enc_rep. cbn [fst snd]. rewrite Forall_forall in Hfit. destruct (Hfit _ (nth_error_In _ _ K1)) as (_ & X & _). cbn [snd] in X.
      eapply returned; [exact X|lia|exact K2].
    + exists la, y, lb. split; [exact D2|]. split; [reflexivity|exact D3].
  - intros l1 c r l2 k k' c' El Hk Hk' Hst. destruct (C4 l1 c r l2 El) as (q & t & la & y & lb & D1 & D2 & D3 & D4 & D5).
    assert (k = List.length (writes la)).
    { apply (proj1 (NoDup_nth_error cs) C1); [apply nth_error_Some; congruence|congruence]. }
    destruct (Nat.lt_ge_cases k k') as [|Hge]; [assumption|]. exfalso.
    destruct (C3 l1 (LDone c r :: l2) k' c' El Hk') as (q' & t' & X & _).
    { rewrite D2, writes_app. cbn [writes flat_map app]. rewrite app_length. cbn [List.length]. lia. }
    rewrite Hst in X. discriminate X.
Qed.
End Net.
