(** A client and a server that run from their texts come to a stop, and then every call has returned or the client is dead. *)
From Verif Require Import Base GoBuf CodecPrim Types Codec Msgs CodecSpec StubPrim Stubs Server ServerSpec ServerLemmas Rpc GoSyntax Ufs GoRun GoFmt GoProg GoWp
  ServerRun ServerRunLemmas ServerRunThm Client ClientSpec ClientLemmas ClientLemmas2 ClientLemmas6 ClientRun ClientRunLemmas ClientRunText ClientRunSim ClientRunSim6 ClientHist ClientRunThm
  ClientRank ClientRank2 ClientRank3 NetRun NetLemmas NetModel NetWait NetWait2 NetThm NetThm2 NetClient NetLive NetEnds.
Local Opaque NumTags all_tags.

Section Ends.
Context {St : Type} (ns : NineServer St) (E : Server.env) (remote : bytes) (srn crn : N) (opt : oserr + (value * value * value * N)) (C : N).
Notation jsteps := (jsteps ns E remote srn crn opt C).
Notation moves := (moves ns E remote srn crn opt C).
Notation net := (@net St).
Notation next := (next ns E remote srn crn opt C).
(** Several things that happen by themselves. *)
Inductive msteps (x : net) : list lbl -> net -> Prop :=
| ms_nil : msteps x [] x
| ms_snoc ls y l z : msteps x ls y -> moves y l z -> msteps x (ls ++ l) z.
Lemma msteps_jsteps n0 l n l' n' : jsteps n0 l n -> msteps n l' n' -> jsteps n0 (l ++ l') n'.
Proof.
  intros R H. induction H as [|ls y l1 z H IH Hm]; [rewrite app_nil_r; exact R|]. rewrite app_assoc. eapply js_snoc; [exact IH|]. apply moves_jstep, Hm.
Qed.
Lemma moves_own n l n' y : moves n l n' -> In y l -> own y.
Proof. destruct 1; intros Hy; try contradiction Hy; destruct Hy as [<-|[]]; assumption. Qed.
Lemma msteps_own n l n' y : msteps n l n' -> In y l -> own y.
Proof. intros H. induction H as [|ls y' l1 z H IH Hm]; intros Hy; [contradiction Hy|]. apply in_app_iff in Hy. destruct Hy as [Hy|Hy]; [auto|exact (moves_own _ _ _ _ Hm Hy)]. Qed.
Lemma own_proper {K} l l' : proper_calls K l -> (forall y, In y l' -> own y) -> proper_calls K (l ++ l').
Proof. intros Hp Ho c q H. apply in_app_iff in H. destruct H as [H|H]; [exact (Hp c q H)|]. destruct (Ho _ H). Qed.
Lemma own_untagged l l' : (forall t, ~ In (LTag t) l) -> (forall y, In y l' -> own y) -> forall t, ~ In (LTag t) (l ++ l').
Proof. intros Hp Ho t H. apply in_app_iff in H. destruct H as [H|H]; [exact (Hp t H)|]. exact (Ho _ H). Qed.

Theorem net_ends tr hn x n0 l n : connected ns E remote srn crn opt C tr hn x n0 -> jsteps n0 l n -> Acc next n.
Proof.
  intros HC R. destruct (start_inv _ _ _ _ _ _ _ x tr hn n0 HC) as (m1 & Ha & Ho & I0).
  destruct (jsteps_inv _ _ _ _ _ _ _ n0 m1 l n I0 R) as (U & D & I).
  assert (Hj : J ns E remote srn crn opt C (n_client n0) m1 (n_mem n0) n) by (exists l, U, D; exact I).
  destruct (g_dead (n_client n)) eqn:Hd; [eapply dead_stops; eassumption|].
  assert (T : tsteps crn opt C (more_net (n_client n0) D) l (n_client n)).
  { destruct I as [A _ _ _ _]. destruct (n_end n); [exact A|]. specialize (A []). rewrite app_nil_r, more_net_nil in A. exact A. }
  destruct (opened_related _ _ _ _ _ _ _ (opened_more _ _ _ _ _ _ D Ho)) as (tg & fc & fs & wn & rn & tn & msz & Hrel).
  destruct (sim_steps _ _ _ _ _ _ _ _ _ _ _ _ _ _ _ _ _ _ Hrel T) as (ls & k & H1 & H2 & H3). cbn [app] in H3.
  destruct H3 as [_ Hdk (up & _ & Hk)]. rewrite Hd in Hdk. destruct (Hk (eq_sym Hdk)) as (adr & rch & mi & mn & ms & o & Hm & [Eth Hio Hrd Hsn]).
  destruct (io_ranked _ _ _ _ _ _ _ _ _ _ _ _ _ _ _ _ _ _ _ Hio) as (f1 & F1).
  destruct (rd_ranked _ _ _ _ _ _ _ _ _ _ _ _ _ _ _ _ Hrd) as (f2 & F2).
  assert (F3 : exists f3, snds_r crn opt C tg fc fs wn rn tn msz tr hn adr rch (g_mem (n_client n)) f3 ms o (snd_ k)).
  { unfold snds in Hsn. unfold snds_r. destruct o as [B|].
    - destruct Hsn as (m & -> & Hs). destruct (snd_ranked _ _ _ _ _ _ _ _ _ _ _ _ _ _ _ _ _ _ Hs) as (f3 & F3). exists f3, m. auto.
    - destruct Hsn as (-> & Hs). exists 0%nat. auto. }
  destruct F3 as (f3 & F3). destruct (covered _ _ _ _ H1) as (L & HL). destruct (fuel_some _ _ _ _ _ _ _ x _ _ _ Ha _ Hj) as (c & Hc).
  eapply live_ends; [exact Ha|reflexivity|exact Hj| |reflexivity|exact Hc|reflexivity].
  split; [exact Hd|]. exists ls, k, L. split; [exact H1|]. split; [symmetry; exact Hdk|]. split; [exact HL|]. split; [|split; reflexivity].
  exists adr, rch, mi, mn, ms, o, f1, f2, f3. split; [exact Hm|]. split; [exact Eth|]. split; [exact F1|]. split; [exact F2|]. split; [exact F3|]. split; [reflexivity|intros []].
Qed.
(** No execution goes on forever by itself. *)
Theorem net_finite tr hn x n0 l n : connected ns E remote srn crn opt C tr hn x n0 -> jsteps n0 l n ->
  ~ exists f : nat -> net, f 0%nat = n /\ forall i, exists l', moves (f i) l' (f (S i)).
Proof.
  intros HC R (f & F0 & F). pose proof (net_ends _ _ _ _ _ _ HC R) as A. clear HC R. revert F0. generalize 0%nat. induction A as [n _ IH]. intros i <-.
  refine (IH (f (S i)) _ (S i) eq_refl). exact (F i).
Qed.

Context (HE : forall j, e_write E j = None) (x : St) {K : tmsg -> Prop} (HF : fitting_from K ns x).
Context (n0 : net) (HC : connected ns E remote srn crn opt C true true x n0).
(** When nothing can happen by itself any more, the calls have returned, or the client is dead. *)
Theorem net_stopped l n l' n' c q : jsteps n0 l n -> proper_calls K l -> (forall t, ~ In (LTag t) l) -> msteps n l' n' -> (forall l2 n2, ~ moves n' l2 n2) ->
  In (LStart c q) l -> In LEof (l ++ l') \/ In LFatal (l ++ l') \/ exists r, In (LDone c r) (l ++ l').
Proof.
  intros R Hp Ht Hm Hs Hi. pose proof (msteps_jsteps _ _ _ _ _ R Hm) as R'. pose proof (fun y => msteps_own _ _ _ y Hm) as Ho.
  pose proof (own_proper _ _ Hp Ho) as Hp'. pose proof (own_untagged _ _ Ht Ho) as Ht'.
  assert (Dec : forall y, (y = LEof \/ y = LFatal) -> In y (l ++ l') \/ ~ In y (l ++ l')).
  { generalize (l ++ l'). clear. intros ys y Hy. induction ys as [|z zs IH]; [right; intros []|]. destruct IH as [IH|IH]; [left; right; exact IH|].
    assert (D : y = z \/ y <> z) by (destruct Hy as [-> | ->]; destruct z; ((left; reflexivity) || (right; discriminate))).
    destruct D as [->|D]; [left; left; reflexivity|right]. intros [X|X]; [congruence|exact (IH X)]. }
  destruct (Dec LEof (or_introl eq_refl)) as [|N1]; [auto|]. destruct (Dec LFatal (or_intror eq_refl)) as [|N2]; [auto|]. right. right.
  destruct (net_live ns E remote srn crn opt C HE x HF n0 HC (l ++ l') n' c q R' Hp' Ht') as [D|(l2 & n2 & D)].
  - exact (net_alive ns E remote srn crn opt C HE x HF n0 HC _ _ R' Hp' N1 N2).
  - apply in_app_iff. auto.
  - exact D.
  - destruct (Hs _ _ D).
Qed.
(** One can always go on to where the calls have returned, or the client is dead. *)
Definition returned (l : list lbl) : Prop := forall c q, In (LStart c q) l -> exists r, In (LDone c r) l.
Lemma returned_or l : returned l \/ exists c q, In (LStart c q) l /\ forall r, ~ In (LDone c r) l.
Proof.
  assert (D : forall c ls, (exists r, In (LDone c r) ls) \/ forall r, ~ In (LDone c r) ls).
  { intros c ls. induction ls as [|y ls [(r & IH)|IH]]; [right; intros r []|left; exists r; right; exact IH|].
    destruct y; try (right; intros r [X|X]; [discriminate X|exact (IH r X)]).
    destruct (Nat.eq_dec c0 c) as [->|Hn]; [left; eexists; left; reflexivity|]. right. intros r0 [X|X]; [congruence|exact (IH r0 X)]. }
  assert (G : forall ls, (forall c q, In (LStart c q) ls -> exists r, In (LDone c r) l) \/ exists c q, In (LStart c q) ls /\ forall r, ~ In (LDone c r) l).
  { intros ls. induction ls as [|y ls [IH|(c & q & IH & IH2)]]; [left; intros c q []| |right; exists c, q; split; [right; exact IH|exact IH2]].
    destruct y; try (left; intros c1 q1 [X|X]; [discriminate X|exact (IH c1 q1 X)]).
    destruct (D c l) as [H|H]; [left|right; exists c, q; split; [left; reflexivity|exact H]]. intros c1 q1 [X|X]; [|exact (IH c1 q1 X)]. injection X as <- <-. exact H. }
  exact (G l).
Qed.
Theorem net_returns l n : jsteps n0 l n -> proper_calls K l -> (forall t, ~ In (LTag t) l) -> exists l' n', msteps n l' n' /\ (g_dead (n_client n') = true \/ returned (l ++ l')).
Proof.
  intros R Hp Ht. pose proof (net_ends _ _ _ _ _ _ HC R) as A. revert l R Hp Ht. induction A as [n _ IH]. intros l R Hp Ht.
  destruct (g_dead (n_client n)) eqn:Hd; [exists [], n; split; [constructor|auto]|].
  destruct (returned_or l) as [H|(c & q & H1 & H2)]; [exists [], n; split; [constructor|rewrite app_nil_r; auto]|].
  destruct (net_live ns E remote srn crn opt C HE x HF n0 HC l n c q R Hp Ht Hd H1) as [(r & D)|(l2 & n2 & D)]; [destruct (H2 _ D)|].
  pose proof (fun y => moves_own _ _ _ y D) as Ho.
  destruct (IH n2 (ex_intro _ l2 D) (l ++ l2)) as (l' & n' & M & Q).
  - eapply js_snoc; [exact R|]. apply moves_jstep, D.
  - exact (own_proper _ _ Hp Ho).
  - exact (own_untagged _ _ Ht Ho).
  - exists (l2 ++ l'), n'. split; [|rewrite app_assoc; exact Q]. clear - D M. induction M as [|ls y l1 z M IM Hm].
    + rewrite app_nil_r. exact (ms_snoc _ [] _ _ _ (ms_nil _) D).
    + rewrite app_assoc. eapply ms_snoc; eassumption.
Qed.
End Ends.
