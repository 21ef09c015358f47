(** What is written is what is read, through client, network and server. *)
From Verif Require Import Base GoBuf CodecPrim CodecLemmas Types Codec Msgs CodecSpec StubPrim Stubs GoPath Server ServerSpec ServerLemmas4 Rpc GoSyntax Ufs UfsSpec GoRun GoFmt GoProg GoWp
  ServerRun Client ClientSpec ClientLemmas7 ClientRun ClientRunSim ClientHist ClientRunThm NetRun NetLemmas NetModel NetThm NetThm2 NetStays UfsFits UfsStored.
Local Opaque NumTags all_tags.

Lemma call_request_inj m m' : fitsT m -> fitsT m' -> call_request m = call_request m' -> m = m'.
Proof. intros H H' E. rewrite !call_request_marshal in E. apply (marshalT_inj 0); [lia|assumption|assumption|exact E]. Qed.
Lemma In_starts c q ls : In q (starts c ls) -> In (LStart c q) ls.
Proof.
  unfold starts. intros X. apply in_flat_map in X. destruct X as (u & Hu & X). destruct u as [|c0 q0| | | | | | | |]; try contradiction X.
  destruct (Nat.eqb_spec c0 c) as [->|]; [|contradiction X]. destruct X as [->|[]]. exact Hu.
Qed.
Lemma nth_split3 {A} (l : list A) i j x y : (i < j)%nat -> nth_error l i = Some x -> nth_error l j = Some y ->
  exists B C, l = firstn i l ++ x :: B ++ y :: C /\ List.length B = (j - S i)%nat /\ List.length (firstn i l) = i /\ forall k z, nth_error B k = Some z -> nth_error l (S i + k) = Some z.
Proof.
  revert i j. induction l as [|a l IH]; intros i j L Hi Hj; [destruct i; discriminate Hi|]. destruct j as [|j]; [lia|]. destruct i as [|i].
  - cbn in Hi. injection Hi as ->. cbn [nth_error] in Hj. apply nth_error_split in Hj. destruct Hj as (B & C & -> & <-). exists B, C. cbn [firstn app List.length]. split; [reflexivity|]. split; [lia|]. split; [reflexivity|].
    intros k z Hk. cbn [nth_error Nat.add]. rewrite nth_error_app1; [exact Hk|]. apply nth_error_Some. congruence.
  - destruct (IH i j) as (B & C & E & E1 & E2 & E3); [lia|exact Hi|exact Hj|]. exists B, C. cbn [firstn app List.length]. split; [f_equal; exact E|]. split; [lia|]. split; [f_equal; exact E2|]. exact E3.
Qed.

Lemma nth_of_firstn {A} (l : list A) : forall n k y, nth_error (firstn n l) k = Some y -> nth_error l k = Some y.
Proof. induction l as [|a l IH]; intros [|n] [|k] y H; try discriminate H; cbn in *; eauto. Qed.
Lemma firstn_of_nth {A} (l : list A) : forall n k y, nth_error l k = Some y -> (k < n)%nat -> nth_error (firstn n l) k = Some y.
Proof. induction l as [|a l IH]; intros [|n] [|k] y H L; try discriminate H; try lia; cbn in *; auto. apply IH; [exact H|lia]. Qed.
Section Net.
Context {W St : Type} (cf : config) (h : os W) (content : W -> handle -> option bytes) (HK : keeps h content) (w : W).
(** A file server that answers as the one of filesystem.go does. *)
Context (NS : NineServer St) (x0 : St) (HF : fitting_from modest NS x0)
        (HS : forall reqs reps st, answers NS false x0 reqs = Some (reps, st) -> exists st', answers (ufs cf h) false (no_fids, w) reqs = Some (reps, st')).
Context (E : Server.env) (remote : bytes) (srn crn : N) (opt : oserr + (value * value * value * N)) (C : N) (HE : forall j, e_write E j = None).
Context (n0 : @net St) (HC : connected NS E remote srn crn opt C true true x0 n0).

Theorem stored_by l n cw cr fid o d k rw rr a b l1 l2 l3 l4 sp sp' : jsteps NS E remote srn crn opt C n0 l n -> proper_calls modest l ->
  let mw := MTwrite (mkTwritePkt fid o d) in let mr := MTread (mkTreadPkt fid o k) in
  fitsT mw -> fitsT mr -> (Z.to_nat k <= List.length d)%nat ->
  l = l1 ++ LDone cw rw :: l2 -> In (LStart cw (call_request mw)) l -> call_result mw rw sp = CallRet (MRwrite a) None ->
  l = l3 ++ LDone cr rr :: l4 -> In (LStart cr (call_request mr)) l -> call_result mr rr sp' = CallRet (MRread (mkRreadPkt b)) None ->
  starts cr l1 = [] ->
  (forall c' q, In (LStart c' q) l3 -> c' <> cw -> c' <> cr -> (exists m, q = call_request m /\ fitsT m /\ looks fid m) \/ exists lx r ly, l = lx ++ LDone c' r :: ly /\ starts cw lx = []) ->
  b = firstn (Z.to_nat k) d \/
  exists reqs more reps u w' f, writes l = map enc_req (reqs ++ more) /\ Forall ok_req (reqs ++ more) /\ answers (ufs cf h) false (no_fids, w) reqs = Some (reps, (true, (u, w'))) /\
    u fid = Some f /\ N.land (QID_Type (f_QID f)) QTDIR <> 0.
Proof.
  intros R Hp mw mr Fw Fr Hk El1 Sw Rw El2 Sr Rr Hcr Hoth.
  destruct (net_serial NS E remote srn crn opt C HE x0 HF n0 HC l n R Hp) as (reqs & cs & reps & st & Ew & Hok & Hnd & Hlen & HA & HR & Hown & Hdone & Hord).
  destruct (client_run NS E remote srn crn opt C x0 n0 HC l n R) as (ls & k0 & Hcs & Hseen & _).
  assert (One : forall c q q' la lb, l = la ++ lb -> starts c la = [q] -> In (LStart c q') l -> q' = q).
  { intros c q q' la lb El Hs Hi. pose proof (ClientHist.hist _ _ _ _ Hcs) as (Hh & _). specialize (Hh c).
    assert (Sl : starts c l = starts c ls) by (rewrite <- (starts_seen c l), <- Hseen, starts_seen; reflexivity). rewrite Hh in Sl.
    assert (X : In q' (starts c l)). { unfold starts. apply in_flat_map. exists (LStart c q'). split; [exact Hi|]. rewrite Nat.eqb_refl. left. reflexivity. }
    rewrite Sl in X. assert (Y : In q (starts c l)) by (rewrite El, starts_app, Hs; left; reflexivity). rewrite Sl in Y.
    destruct (callers k0 c); cbn in X, Y; try contradiction; destruct X as [<-|[]]; destruct Y as [<-|[]]; reflexivity. }
  destruct (Hdone _ _ _ _ El1) as (k1 & t1 & m1 & a1 & K1 & K2 & K3 & K4 & K5 & la1 & y1 & lb1 & K6 & K7 & K8).
  destruct (Hdone _ _ _ _ El2) as (k2 & t2 & m2 & a2 & J1 & J2 & J3 & J4 & J5 & la2 & y2 & lb2 & J6 & J7 & J8).
  rewrite Forall_forall in Hok.
  assert (Em1 : m1 = mw).
  { apply call_request_inj; [apply (Hok _ (nth_error_In _ _ K2))|exact Fw|]. symmetry. apply (One cw _ _ la1 (LWrite y1 (marshalT t1 m1) :: lb1 ++ LDone cw rw :: l2)); [rewrite El1, K6, <- app_assoc; reflexivity|exact K8|exact Sw]. }
  assert (El3 : l = la2 ++ LWrite y2 (marshalT t2 m2) :: lb2 ++ LDone cr rr :: l4) by (rewrite El2, J6, <- app_assoc; reflexivity).
  assert (Em2 : m2 = mr). { apply call_request_inj; [apply (Hok _ (nth_error_In _ _ J2))|exact Fr|]. symmetry. exact (One cr _ _ la2 _ El3 J8 Sr). }
  subst m1 m2.
  assert (Ea1 : a1 = MRwrite a). { rewrite (K5 sp) in Rw. unfold returns in Rw. destruct a1 as [| |[e]| | | | | | | | | |]; try discriminate Rw. injection Rw as ->. reflexivity. }
  assert (Ea2 : a2 = MRread (mkRreadPkt b)). { rewrite (J5 sp') in Rr. unfold returns in Rr. destruct a2 as [| |[e]| | | | | | | | | |]; try discriminate Rr. injection Rr as ->. reflexivity. }
  subst a1 a2. pose proof (Hord _ _ _ _ _ _ _ El1 K1 J1 Hcr) as Hlt.
  set (N := List.length (reads l)) in *.
  assert (LN : (k2 < N)%nat).
  { unfold N. rewrite HR, map_length. apply nth_error_Some. congruence. }
  assert (P1 : nth_error (firstn N reqs) k1 = Some (t1, mw)) by (apply firstn_of_nth; [exact K2|lia]).
  assert (P2 : nth_error (firstn N reqs) k2 = Some (t2, mr)) by (apply firstn_of_nth; [exact J2|lia]).
  destruct (nth_split3 _ _ _ _ _ Hlt P1 P2) as (B & C0 & EB & LB & LA & HB).
  destruct (HS _ _ _ HA) as (st1 & HA1). rewrite EB in HA1. destruct (write_look_read cf h content HK (firstn k1 (firstn N reqs)) B C0 t1 t2 fid o k d false (no_fids, w) reps st1 a b Hk) as [X|(reps0 & u & w' & f & X1 & X2 & X3)]; [|exact HA1| | | |].
  - apply Forall_forall. intros [t m] Hi. cbn [snd]. apply In_nth_error in Hi. destruct Hi as (i & Hi).
    assert (Li : (i < List.length B)%nat) by (apply nth_error_Some; congruence). pose proof (HB _ _ Hi) as Hn. apply nth_of_firstn in Hn. set (k' := (S k1 + i)%nat) in *.
    destruct (nth_error cs k') as [c'|] eqn:Ec. 2: { apply nth_error_None in Ec. assert (k' < List.length reqs)%nat by (apply nth_error_Some; congruence). lia. }
    destruct (Hown la2 _ k' c' El3 Ec) as (t' & m' & M1 & M2). { rewrite J7. unfold k'. lia. }
    rewrite Hn in M1. injection M1 as <- <-.
    assert (N1 : c' <> cw). { intros ->. assert (k' = k1); [|unfold k' in *; lia]. apply (proj1 (NoDup_nth_error cs) Hnd); [apply nth_error_Some; congruence|congruence]. }
    assert (N2 : c' <> cr). { intros ->. assert (k' = k2); [|unfold k' in *; lia]. apply (proj1 (NoDup_nth_error cs) Hnd); [apply nth_error_Some; congruence|congruence]. }
    destruct (Hoth c' (call_request m)) as [(m' & Q1 & Q2 & Q3)|(lx & r & ly & Q1 & Q2)]; [|exact N1|exact N2| |].
    + rewrite J6. apply in_app_iff. left. apply In_starts. rewrite M2. left. reflexivity.
    + apply call_request_inj in Q1; [|apply (Hok _ (nth_error_In _ _ Hn))|exact Q2]. subst m'. exact Q3.
    + exfalso. pose proof (Hord _ _ _ _ _ _ _ Q1 Ec K1 Q2). unfold k' in *. lia.
  - rewrite LA. exact K3.
  - rewrite LA, LB. replace (k1 + S (k2 - S k1))%nat with k2 by lia. exact J3.
  - left. exact X.
  - right. rewrite firstn_firstn, Nat.min_l in X1 by lia. exists (firstn k1 reqs), (skipn k1 reqs), reps0, u, w', f. rewrite firstn_skipn. split; [exact Ew|].
    split; [apply Forall_forall; intros y Hy; apply (Hok y Hy)|]. auto.
Qed.
End Net.
Definition stored {W} cf (h : os W) content HK (HD : decent cf h) w :=
  stored_by cf h content HK w (ufs cf h) (no_fids, w) (ufs_fitting cf h w HD) (fun reqs reps st H => ex_intro _ st H).
