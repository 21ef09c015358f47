(** A client and a server that run from their texts, as long as nothing fails: every call returns. *)
From Verif Require Import Base GoBuf CodecPrim CodecLemmas Types Codec Msgs CodecSpec StubPrim Stubs Server ServerSpec ServerLemmas ServerLemmas4 Rpc GoSyntax Ufs GoRun GoFmt GoProg GoWp
  ServerRun ServerRunLemmas ServerRunThm Client ClientSpec ClientLemmas ClientLemmas2 ClientRun ClientRunLemmas ClientRunText ClientRunSim ClientRunSim6 ClientHist ClientRunThm ClientRank ClientRank2 ClientRank3 ClientWell
  NetRun NetLemmas NetCase NetEats NetModel NetServer NetWait2 NetThm NetThm2 NetClient NetLive NetEnds NetEnds2 NetTidy NetStays NetWell.
Local Opaque NumTags all_tags.

(** A thread that is about to write. *)
Definition writing (m : machine) : Prop := exists x b m1, step protocol_program m = Ask (RExt (str "io.WriteCloser.Write") [x; VBytes b]) m1.
Lemma writing_or m : writing m \/ ~ writing m.
Proof.
  unfold writing. destruct (step protocol_program m) as [| | | |r m1| | |]; try (right; intros (?x & ?b & ?m2 & X); discriminate X).
  destruct r as [v|a p|a p v|d|a x|a x v|a x|a|x|x v|f vs|f vs|ch v|ch|n]; try (right; intros (?x & ?b & ?m2 & X); discriminate X).
  destruct (beq f (str "io.WriteCloser.Write")) eqn:Hb.
  2: { right. intros (?x & ?b & ?m2 & X). injection X as -> _ _. vm_compute in Hb. discriminate Hb. }
  apply beq_eq in Hb. subst f.
  destruct vs as [|v [|w [|]]]; try (right; intros (?x & ?b & ?m2 & X); discriminate X).
  destruct w; try (right; intros (?x & ?b & ?m2 & X); discriminate X). left. eauto.
Qed.
Lemma some_writing ms : (exists i m, nth_error ms i = Some m /\ writing m) \/ forall i m, nth_error ms i = Some m -> ~ writing m.
Proof.
  induction ms as [|m ms [(i & m' & X & Y)|IH]].
  - right. intros [|i] m X; discriminate X.
  - left. exists (S i), m'. auto.
  - destruct (writing_or m) as [X|X]; [left; exists 0%nat, m; auto|]. right. intros [|i] m' Hi; [injection Hi as <-; exact X|exact (IH i m' Hi)].
Qed.
Lemma writer RN opt C tg fc fs wn rn tn msz tr hn cc f s us ths k i m : good_q RN opt C tg fc fs wn rn tn msz tr hn cc f s us ths k -> nth_error ths i = Some m -> writing m -> i = 2%nat.
Proof.
  intros (adr & rch & mi & mn & ms & o & f1 & f2 & f3 & _ & -> & (I1 & Q1 & D1 & H1 & A1) & (I2 & Q2 & D2 & H2 & A2) & R3 & _) Hi (x & b & m1 & Es).
  destruct i as [|[|[|i]]]; [| |reflexivity|].
  - exfalso. injection Hi as <-. exact (io_writes _ _ _ _ _ _ _ _ _ _ _ _ _ _ _ _ _ _ _ _ _ _ _ _ D1 (ask_leads _ _ _ _ _ _ _ A1 Es eq_refl) Es).
  - exfalso. injection Hi as <-. exact (rd_writes _ _ _ _ _ _ _ _ _ _ _ _ _ _ _ _ _ _ _ _ D2 (ask_leads _ _ _ _ _ _ _ A2 Es eq_refl) Es).
  - exfalso. cbn [nth_error] in Hi. destruct o as [B|]; cbn in R3.
    + destruct R3 as (m3 & -> & _). cbn in Hi. destruct i; discriminate Hi.
    + destruct R3 as (-> & _). destruct i; discriminate Hi.
Qed.

Section Well.
Context {St : Type} (ns : NineServer St) (E : Server.env) (remote : bytes) (srn crn : N) (opt : oserr + (value * value * value * N)) (C : N).
Notation net := (@net St).
Notation jsteps := (jsteps ns E remote srn crn opt C).
Notation wstep := (wstep ns E remote srn crn opt C cut).
Notation wsteps := (wsteps ns E remote srn crn opt C cut).
Notation wmoves := (wmoves ns E remote srn crn opt C cut).
Context (HE : forall j, e_write E j = None) (x : St) {K : tmsg -> Prop} (HF : fitting_from K ns x) (HA : answering K ns x).
Context (n0 : net) (HC : connected ns E remote srn crn opt C true true x n0).
(** As long as a call has not returned, something can happen by itself without a failure. *)
Theorem well_live l n u d c q : wsteps n0 l n u d -> proper_calls K l -> (forall t, ~ In (LTag t) l) -> In (LStart c q) l ->
  (exists r, In (LDone c r) l) \/ exists l' n' u' d', wstep n u d l' n' u' d' /\ forall a, In a l' -> own a.
Proof.
  intros R Hp Ht Hs. pose proof (wsteps_jsteps _ _ _ _ _ _ _ _ _ _ _ _ _ R) as Rj.
  destruct (wsteps_well ns E remote srn crn opt C HE x HF HA n0 HC l n u d R Hp) as (m1 & tg & fc & fs & wn & rn & tn & msz & U & D & Ha & W).
  pose proof (well_stays ns E remote srn crn opt C HE x HF HA n0 HC m1 Ha _ _ _ _ _ _ _ _ _ _ _ _ _ Rj Hp W) as [Hs1 Hs2].
  destruct W as [I TU TD EU ED He Hd (L1 & L2) (ls & k & f & K1 & K2 & K3)].
  destruct (net_live ns E remote srn crn opt C HE x HF n0 HC l n c q Rj Hp Ht Hd Hs) as [X|(l' & n' & Mv)]; [left; exact X|]. right.
  pose proof (net_causal ns E remote srn crn opt C HE x HF n0 HC l n Rj Hp) as Hc.
  destruct (requests ns E remote srn crn opt C HE x n0 HC l n Rj Hp Hc) as (reqs & Ew & HK & _). pose proof (ok_all _ _ HK) as Hok.
  pose proof (out_framed ns E remote srn crn opt C HE x HF n0 m1 l n U D reqs Ha I Ew HK) as Hof.
  destruct I as [_ _ (ta & F1 & F2) (os & ot & tb & G0 & G1 & G2) _]. rewrite He in G2.
  destruct Mv as [y g Hy Hne Hst|y g Hy Hne Hst|m m' s Hm Hst|b up Hu Hb|b dn Hdn Hb Hne|X Hdn Hne]; try congruence.
  - destruct (some_writing (g_threads (n_client n))) as [(i & m & Ei & Hw)|Hnw].
    + destruct Hw as (o & b & m2 & Es). pose proof (writer _ _ _ _ _ _ _ _ _ _ _ _ _ _ _ _ _ _ _ _ K3 Ei (ex_intro _ o (ex_intro _ b (ex_intro _ m2 Es)))) as ->.
      exists [LWrite 0 b]. eexists _, u, d. split; [|intros a [<-|[]]; exact Logic.I].
      eapply (wl_client ns E remote srn crn opt C cut n u d (LWrite 0 b) (mkG (put_nth 2 (resume m2 [VI 64 (Z.of_N (blen b)); VNil]) (g_threads (n_client n))) (g_mem (n_client n)) (g_users (n_client n)) false)); [exact Hne| |].
      * intros more. unfold more_net. cbn [g_threads g_mem g_users g_dead]. exact (t_one crn opt C (more_net (n_client n) more) 2 m _ _ _ Hd Ei (l_write crn opt m _ o b m2 Es)).
      * intros (j & m' & o' & b' & m2' & z & e & Ej & Es' & Et). cbn [g_threads] in Et.
        pose proof (writer _ _ _ _ _ _ _ _ _ _ _ _ _ _ _ _ _ _ _ _ K3 Ej (ex_intro _ o' (ex_intro _ b' (ex_intro _ m2' Es')))) as ->.
        rewrite Ei in Ej. injection Ej as <-. rewrite Es in Es'. injection Es' as <- <- <-.
        apply (f_equal (fun x => nth_error x 2)) in Et. rewrite !nth_put in Et. cbn [Nat.eqb] in Et. rewrite Ei in Et. assert (Et' : resume m2 [VI 64 (Z.of_N (blen b)); VNil] = resume m2 [VI 64 z; VErr e]) by congruence.
        apply resume_inj in Et'. discriminate Et'.
    + exists [y]. eexists _, u, d. split; [|intros a [<-|[]]; exact Hy]. eapply wl_client; [exact Hne|exact Hst|].
      intros (j & m' & o' & b' & m2' & z & e & Ej & Es' & Et). apply (Hnw _ _ Ej). exists o', b', m2'. exact Es'.
  - exists []. eexists _, u, d. split; [|intros a []]. eapply wl_server; eassumption.
  - exists []. eexists _, _, d. split; [|intros a []]. apply (wl_up _ _ _ _ _ _ _ _ _ _ _ (n_up n) []).
    + symmetry. apply app_nil_r.
    + rewrite Hu. intros Y. apply app_eq_nil in Y. tauto.
    + rewrite (F2 (tidy_intact _ _ TU)), EU in F1. rewrite F1, Ew. apply cut_whole. apply Forall_forall. intros y Hy. apply in_map_iff in Hy. destruct Hy as (z & <- & Hz).
      apply enc_framed. rewrite Forall_forall in Hok. exact (Hok _ Hz).
  - exists []. eexists _, u, _. split; [|intros a []]. apply (wl_down _ _ _ _ _ _ _ _ _ _ _ (n_down n) []).
    + symmetry. apply app_nil_r.
    + rewrite Hdn. intros Y. apply app_eq_nil in Y. tauto.
    + destruct (G2 (tidy_intact _ _ TD)) as [-> ->]. rewrite app_nil_r in G0. rewrite <- ED, G1, <- G0. apply cut_whole, Hof.
    + exact Hne.
  - destruct X; congruence.
Qed.
(** One can always go on to where every call has returned. *)
Theorem well_returns l n u d : wsteps n0 l n u d -> proper_calls K l -> (forall t, ~ In (LTag t) l) -> exists l' n' u' d', wmoves n u d l' n' u' d' /\ returned (l ++ l').
Proof.
  intros R Hp Ht. pose proof (net_ends _ _ _ _ _ _ _ _ _ _ _ _ _ HC (wsteps_jsteps _ _ _ _ _ _ _ _ _ _ _ _ _ R)) as A. revert l u d R Hp Ht. induction A as [n _ IH]. intros l u d R Hp Ht.
  destruct (returned_or l) as [H|(c & q & H1 & H2)]; [exists [], n, u, d; split; [constructor|rewrite app_nil_r; auto]|].
  destruct (well_live l n u d c q R Hp Ht H1) as [(r & D)|(l2 & n2 & u2 & d2 & D & Ho)]; [destruct (H2 _ D)|].
  destruct (IH n2 (ex_intro _ l2 (wstep_moves _ _ _ _ _ _ _ _ _ _ _ _ _ _ _ D Ho)) (l ++ l2) u2 d2) as (l' & n' & u' & d' & M & Q).
  - eapply ws_snoc; eassumption.
  - exact (own_proper _ _ Hp Ho).
  - exact (own_untagged _ _ Ht Ho).
  - exists (l2 ++ l'), n', u', d'. split; [|rewrite app_assoc; exact Q]. clear - D M Ho. induction M as [|ls y u1 d1 l1 z u3 d3 M IM Hm Hw].
    + rewrite app_nil_r. exact (wm_snoc _ _ _ _ _ _ _ _ _ _ _ [] _ _ _ _ _ _ _ (wm_nil _ _ _ _ _ _ _ _ _ _ _) D Ho).
    + rewrite app_assoc. eapply wm_snoc; eassumption.
Qed.
(** When nothing more can happen by itself without a failure, every call has returned. *)
Theorem well_stopped l n u d l' n' u' d' : wsteps n0 l n u d -> proper_calls K l -> (forall t, ~ In (LTag t) l) -> wmoves n u d l' n' u' d' ->
  (forall l2 n2 u2 d2, wstep n' u' d' l2 n2 u2 d2 -> exists a, In a l2 /\ ~ own a) -> returned (l ++ l').
Proof.
  intros R Hp Ht Hm Hs c q Hi. pose proof (wmoves_wsteps _ _ _ _ _ _ _ _ _ _ _ _ _ _ _ _ _ R Hm) as R'. pose proof (fun a => wmoves_own _ _ _ _ _ _ _ _ _ _ _ _ _ _ _ a Hm) as Ho.
  destruct (well_live (l ++ l') n' u' d' c q R' (own_proper _ _ Hp Ho) (own_untagged _ _ Ht Ho) Hi) as [X|(l2 & n2 & u2 & d2 & D & Hx)]; [exact X|].
  destruct (Hs _ _ _ _ D) as (a & X1 & X2). destruct (X2 (Hx a X1)).
Qed.
(** It does not go on forever by itself. *)
Theorem well_finite l n u d : wsteps n0 l n u d ->
  ~ exists f : nat -> net * bytes * bytes, f 0%nat = (n, u, d) /\ forall i, let '(n1, u1, d1) := f i in let '(n2, u2, d2) := f (S i) in exists l', wstep n1 u1 d1 l' n2 u2 d2 /\ forall a, In a l' -> own a.
Proof.
  intros R (f & F0 & F). apply (net_finite ns E remote srn crn opt C true true x n0 l n HC (wsteps_jsteps _ _ _ _ _ _ _ _ _ _ _ _ _ R)).
  exists (fun i => fst (fst (f i))). split; [rewrite F0; reflexivity|]. intros i. specialize (F i). destruct (f i) as [[n1 u1] d1], (f (S i)) as [[n2 u2] d2].
  destruct F as (l' & S1 & S2). exists l'. exact (wstep_moves _ _ _ _ _ _ _ _ _ _ _ _ _ _ _ S1 S2).
Qed.
End Well.
