(** A client and a server that run from their texts, as long as nothing fails. *)
From Verif Require Import Base GoBuf CodecPrim CodecLemmas Types Codec Msgs CodecSpec StubPrim Stubs Server ServerSpec ServerLemmas ServerLemmas4 Rpc GoSyntax Ufs GoRun GoFmt GoProg GoWp
  ServerRun ServerRunLemmas ServerRunThm Client ClientSpec ClientLemmas ClientLemmas2 ClientRun ClientRunLemmas ClientRunText ClientRunSim ClientRunSim6 ClientHist ClientRunThm ClientRank ClientRank2 ClientWell
  NetRun NetLemmas NetCase NetEats NetModel NetServer NetWait2 NetThm NetThm2 NetClient NetLive NetEnds NetEnds2 NetTidy NetStays.
Local Opaque NumTags all_tags.

Section Steps.
Context {St : Type} (ns : NineServer St) (E : Server.env) (remote : bytes) (srn crn : N) (opt : oserr + (value * value * value * N)) (C : N) (ok : bytes -> Prop).
Notation tstep := (tstep crn opt C).
Notation sstep := (sstep ns E remote srn).
Notation net := (@net St).
(** Nothing fails: not a write of the client, not the connection.  u and d: what has arrived at the server and at the client; ok: it may arrive
    so, up to here. *)
Inductive wstep (x : net) (u d : bytes) : list lbl -> net -> bytes -> bytes -> Prop :=
| wl_client l g : n_end x = false -> (forall more, tstep (more_net (n_client x) more) l (more_net g more)) -> ~ failing (n_client x) g ->
    wstep x u d [l] (mkNet g (n_up x ++ sent l) (n_server x) (n_mem x) (n_down x) false) u d
| wl_ended l g : n_end x = true -> tstep (n_client x) l g -> ~ failing (n_client x) g ->
    wstep x u d [l] (mkNet g (n_up x ++ sent l) (n_server x) (n_mem x) (n_down x) true) u d
| wl_server m m' s : n_server x = Some m -> (forall more, sstep m (more_in (n_mem x) more) m' (more_in s more)) ->
    wstep x u d [] (mkNet (n_client x) (n_up x) m' s (n_down x ++ concat (skipn (List.length (w_out (rest (n_mem x)))) (w_out (rest s)))) (n_end x)) u d
| wl_up c up : n_up x = c ++ up -> c <> [] -> ok (u ++ c) ->
    wstep x u d [] (mkNet (n_client x) up (n_server x) (more_in (n_mem x) [Chunk c]) (n_down x) (n_end x)) (u ++ c) d
| wl_down c down : n_down x = c ++ down -> c <> [] -> ok (d ++ c) -> n_end x = false ->
    wstep x u d [] (mkNet (more_net (n_client x) [Chunk c]) (n_up x) (n_server x) (n_mem x) down false) u (d ++ c)
| wl_end : n_server x = None \/ w_open (rest (n_mem x)) = false -> n_down x = [] -> n_end x = false -> wstep x u d [] (mkNet (n_client x) (n_up x) (n_server x) (n_mem x) [] true) u d.
Inductive wsteps (x : net) : list lbl -> net -> bytes -> bytes -> Prop :=
| ws_nil : wsteps x [] x [] []
| ws_snoc ls y u d l z u' d' : wsteps x ls y u d -> wstep y u d l z u' d' -> wsteps x (ls ++ l) z u' d'.
Notation jsteps := (jsteps ns E remote srn crn opt C).
Notation jstep := (jstep ns E remote srn crn opt C).
Lemma wstep_jstep n u d l n' u' d' : wstep n u d l n' u' d' -> jstep n l n'.
Proof. destruct 1; econstructor; eassumption. Qed.
Lemma wsteps_jsteps n l n' u d : wsteps n l n' u d -> jsteps n l n'.
Proof. induction 1 as [|ls y u d l z u' d' H IH S]; [constructor|]. eapply js_snoc; [exact IH|eapply wstep_jstep, S]. Qed.
(** Several that happen by themselves: no new call, no GetTag, no GetFID. *)
Inductive wmoves (x : net) (u d : bytes) : list lbl -> net -> bytes -> bytes -> Prop :=
| wm_nil : wmoves x u d [] x u d
| wm_snoc ls y u1 d1 l z u2 d2 : wmoves x u d ls y u1 d1 -> wstep y u1 d1 l z u2 d2 -> (forall a, In a l -> own a) -> wmoves x u d (ls ++ l) z u2 d2.
Lemma wmoves_wsteps n0 l n u d l' n' u' d' : wsteps n0 l n u d -> wmoves n u d l' n' u' d' -> wsteps n0 (l ++ l') n' u' d'.
Proof. intros R H. induction H as [|ls y u1 d1 l1 z u2 d2 H IH S Ho]; [rewrite app_nil_r; exact R|]. rewrite app_assoc. eapply ws_snoc; eassumption. Qed.
Lemma wmoves_own n u d l n' u' d' a : wmoves n u d l n' u' d' -> In a l -> own a.
Proof. intros H. induction H as [|ls y u1 d1 l1 z u2 d2 H IH S Ho]; intros Hi; [contradiction Hi|]. apply in_app_iff in Hi. destruct Hi; auto. Qed.
Lemma wstep_moves n u d l n' u' d' : wstep n u d l n' u' d' -> (forall a, In a l -> own a) -> moves ns E remote srn crn opt C n l n'.
Proof. intros H Ho. destruct H; try (econstructor; eassumption); try (econstructor; [apply Ho; left; reflexivity|eassumption|eassumption]). Qed.
End Steps.

Section Well.
Context {St : Type} (ns : NineServer St) (E : Server.env) (remote : bytes) (srn crn : N) (opt : oserr + (value * value * value * N)) (C : N).
Notation P := protocol_program.
Notation tstep := (tstep crn opt C).
Notation net := (@net St).
Notation jsteps := (jsteps ns E remote srn crn opt C).
Notation jstep := (jstep ns E remote srn crn opt C).
Notation inv := (inv ns E remote srn crn opt C).
Notation wstep := (wstep ns E remote srn crn opt C cut).
Notation wsteps := (wsteps ns E remote srn crn opt C cut).
Notation wmoves := (wmoves ns E remote srn crn opt C cut).
(** * The client gets what it asks for *)
Lemma nth_put {A} (x : A) l : forall i j, nth_error (put_nth i x l) j = if Nat.eqb i j then match nth_error l j with Some _ => Some x | None => None end else nth_error l j.
Proof. induction l as [|y l IH]; intros [|i] [|j]; cbn [put_nth nth_error Nat.eqb]; try reflexivity; [destruct (Nat.eqb i j); reflexivity|]. apply IH. Qed.
Lemma resume_inj m a b : resume m a = resume m b -> a = b.
Proof. unfold resume. congruence. Qed.
Lemma thread_moves g l g' mn m1 f args : tstep g l g' -> nth_error (g_threads g) 1 = Some mn -> nth_error (g_threads g') 1 <> Some mn -> step P mn = Ask (RExt f args) m1 ->
  beq f (str "io.WriteCloser.Write") = false -> exists vs s', answer (lib crn opt) (RExt f args) (g_mem g) = Answer vs s' /\ nth_error (g_threads g') 1 = Some (resume m1 vs).
Proof.
  intros Sx N1 Nn Es Hf.
  destruct Sx as [i m l m' s' D Ei Sx|i m l D Ei Sx|i m ff vs m' D Ei Eg|i j ma mb kk kk' n v m1' m2' c D Hij E1 E2 Esn Er Ec Ecap Ecl|c q D Eu Hq s w|c q a n kk ff b D Eu Ef Ech Hroom Ecl|i m kk n r m' c q b D Ei Esn Ech Ecap Ecl Eu|kk n b t l D Ef Ech Eb|n s' D Ea];
    cbn [g_threads g_mem] in *; try (destruct (Nn N1)).
  - rewrite nth_put in *. destruct (Nat.eqb_spec i 1) as [->|Hi]; [|destruct (Nn N1)]. rewrite N1 in Ei. injection Ei as <-. rewrite N1 in Nn |- *.
    destruct Sx as [m2 Q|r m2 vs s2 Q A|kk n m2 c v b Q _ _|kk n m2 c Q _ _ _|kk n m2 c v Q _ _ _|o b m2 Q|o b m2 z e Q]; try (rewrite Es in Q); try discriminate Q.
    + injection Q as <- <-. eauto.
    + injection Q as -> _ _. vm_compute in Hf. discriminate Hf.
    + injection Q as -> _ _. vm_compute in Hf. discriminate Hf.
  - exfalso. assert (X : nth_error (put_nth i (resume m' []) (g_threads g) ++ [mkM (CApply ff false Now vs) [] [] []]) 1 = nth_error (put_nth i (resume m' []) (g_threads g)) 1).
    { apply nth_error_app1. assert (nth_error (put_nth i (resume m' []) (g_threads g)) 1 <> None) by (rewrite nth_put; destruct (Nat.eqb i 1); rewrite N1; discriminate). apply nth_error_Some. assumption. }
    rewrite X, nth_put in Nn. destruct (Nat.eqb_spec i 1) as [->|Hi]; [|destruct (Nn N1)]. rewrite N1 in Ei. injection Ei as <-. rewrite Es in Eg. discriminate Eg.
  - exfalso. rewrite !nth_put in Nn. destruct (Nat.eqb_spec i 1) as [->|Hi]; [rewrite N1 in E1; injection E1 as <-; rewrite Es in Esn; discriminate Esn|].
    destruct (Nat.eqb_spec j 1) as [->|Hj]; [rewrite N1 in E2; injection E2 as <-; rewrite Es in Er; discriminate Er|]. destruct (Nn N1).
  - exfalso. rewrite nth_put in Nn. destruct (Nat.eqb_spec i 1) as [->|Hi]; [rewrite N1 in Ei; injection Ei as <-; rewrite Es in Esn; discriminate Esn|]. destruct (Nn N1).
Qed.
Definition reader_in (l : list lbl) (D : list rev) (m : machine) (s : memory nworld) : Prop := forall more r m', step P m = Ask r m' ->
  ((exists o a, r = RExt (str "io.ReadCloser.Read") [o; VSl a 0 7]) -> packets (D ++ more) = reads l ++ packets (w_net (rest s) ++ more)) /\
  (forall b z, r = RExt (str "io.Copy") [VPtr (str "bytes.Buffer") b []; VStruct (str "io.LimitedReader") [(str "N", VI 64 z)]] ->
     exists e h, packets (D ++ more) = reads l ++ packets e /\ net_read 7 e = RdData h (w_net (rest s) ++ more) /\ List.length h = 7%nat /\ Z.to_nat z = N.to_nat (psize h - 7)).
Lemma reader_everywhere g0 m1 s1 l n U D m : opened crn opt [] true true C g0 -> inv g0 m1 s1 l n U D -> n_end n = false -> g_dead (n_client n) = false ->
  nth_error (g_threads (n_client n)) 1 = Some m -> reader_in l D m (g_mem (n_client n)).
Proof.
  intros O [A _ _ _ _] He Hd N1 more r m' Es. rewrite He in A.
  destruct (opened_related _ _ _ _ _ _ _ (opened_more _ _ _ _ _ _ (D ++ more) O)) as (tg & fc & fs & wn & rn & tn & msz & Hrel).
  destruct (sim_steps _ _ _ _ _ _ _ _ _ _ _ _ _ _ _ _ _ _ Hrel (A more)) as (ls & k & H1 & H2 & H3).
  replace (reads l) with (reads ls) by (rewrite <- (reads_seen ls), H2, reads_seen; reflexivity).
  exact (reader_at _ _ _ _ _ _ _ _ _ _ _ _ _ _ m r m' H3 Hd N1 Es).
Qed.
Lemma uniform_fed g l' g' mn l D : (forall more, tstep (more_net g more) l' (more_net g' more)) -> nth_error (g_threads g) 1 = Some mn -> nth_error (g_threads g') 1 <> Some mn ->
  reader_in l D mn (g_mem g) -> (exists a b, packets (D ++ a) <> packets (D ++ b)) -> fed mn (g_mem g).
Proof.
  intros Hu N1 Nn HR (a0 & b0 & Hne).
  assert (K : (forall more, packets (D ++ more) = reads l) -> False) by (intros X; apply Hne; rewrite !X; reflexivity).
  split.
  - intros x a m1 Es.
    assert (Hnil : w_net (rest (g_mem g)) <> []).
    { intros En. destruct (thread_moves _ _ _ mn m1 _ _ (Hu []) N1 Nn Es eq_refl) as (v1 & s1 & A1 & T1).
      destruct (thread_moves _ _ _ mn m1 _ _ (Hu [Chunk seven]) N1 Nn Es eq_refl) as (v2 & s2 & A2 & T2).
      cbn [more_net g_threads] in T1, T2. rewrite T1 in T2. assert (X : resume m1 v1 = resume m1 v2) by congruence. apply resume_inj in X. subst v2.
      cbn in A1, A2. rewrite En in A1, A2. cbn in A1, A2. destruct x; try discriminate A1; destruct (cells (g_mem g) a) as [[]|]; try discriminate A1; try discriminate A2. inversion A1 as [[X1 X2]]. rewrite <- X1 in A2. inversion A2. }
    destruct (net_read 7 (w_net (rest (g_mem g)))) as [| |h r] eqn:En.
    + destruct (w_net (rest (g_mem g))) as [|[c|] w]; [contradiction|discriminate En|discriminate En].
    + exfalso. apply K. intros more. destruct (HR more _ _ Es) as [X _]. rewrite X by eauto. rewrite packets_none; [apply app_nil_r|]. unfold packet. rewrite read_more, En by exact Hnil. reflexivity.
    + destruct (Nat.eq_dec (List.length h) 7) as [e7|n7]; [eauto|]. exfalso. apply K. intros more. destruct (HR more _ _ Es) as [X _]. rewrite X by eauto. rewrite packets_none; [apply app_nil_r|].
      unfold packet. rewrite read_more, En by exact Hnil. do 7 (destruct h as [|? h]; [reflexivity|]). destruct h; [destruct n7; reflexivity|reflexivity].
  - intros b z m1 Es Ec. apply K. intros more. destruct (HR more _ _ Es) as [_ X]. destruct (X _ _ eq_refl) as (e & h & -> & X2 & X3 & X4). rewrite packets_none; [apply app_nil_r|].
    unfold packet. rewrite X2. do 7 (destruct h as [|? h]; [discriminate|]). destruct h; [|discriminate]. unfold psize in X4. cbn [nth] in X4. rewrite <- X4.
    rewrite (copy_fails _ _ _ Ec). reflexivity.
Qed.

Context (HE : forall j, e_write E j = None) (x : St) {K : tmsg -> Prop} (HF : fitting_from K ns x) (HA : answering K ns x).
Context (n0 : net) (HC : connected ns E remote srn crn opt C true true x n0).
Section Inv.
Context (m1 : machine) (Ha : accepted ns E remote srn x m1 (n_mem n0)) (Ho : opened crn opt [] true true C (n_client n0)).
Context (tg fc fs wn rn tn msz : N).
Record well (l : list lbl) (n : net) (u d : bytes) (U D : list rev) : Prop := {
  y_inv : inv (n_client n0) m1 (n_mem n0) l n U D;
  y_up : tidy [] U;
  y_down : tidy [] D;
  y_u : received U = u;
  y_d : received D = d;
  y_end : n_end n = false;
  y_live : g_dead (n_client n) = false;
  y_lbl : ~ In LEof l /\ ~ In LFatal l;
  y_calm : exists ls k f, csteps true (init true) ls k /\ crashed k = false /\
    good_q crn opt C tg fc fs wn rn tn msz true true True f (g_mem (n_client n)) (g_users (n_client n)) (g_threads (n_client n)) k
}.
Lemma well_undecided l n u d U D : jsteps n0 l n -> proper_calls K l -> well l n u d U D -> exists a b, packets (D ++ a) <> packets (D ++ b).
Proof.
  intros R Hp [I _ TD _ _ He _ _ _]. pose proof (net_causal ns E remote srn crn opt C HE x HF n0 HC l n R Hp) as Hc.
  destruct (requests ns E remote srn crn opt C HE x n0 HC l n R Hp Hc) as (reqs & Ew & Hok & _).
  pose proof (out_framed ns E remote srn crn opt C HE x HF n0 m1 l n U D reqs Ha I Ew Hok) as Hof.
  destruct I as [_ _ _ (os & ot & tb & G0 & G1 & G2) _]. rewrite He in G2. destruct (G2 (tidy_intact _ _ TD)) as [-> _]. rewrite app_nil_r in G0.
  eapply undecided; [exact TD|exact G1|]. rewrite <- G0. exact Hof.
Qed.
Lemma well_stays l n u d U D : jsteps n0 l n -> proper_calls K l -> well l n u d U D -> n_server n <> None /\ w_open (rest (n_mem n)) = true.
Proof.
  intros R Hp [I TU _ _ _ _ _ _ _]. pose proof (net_causal ns E remote srn crn opt C HE x HF n0 HC l n R Hp) as Hc.
  destruct (requests ns E remote srn crn opt C HE x n0 HC l n R Hp Hc) as (reqs & Ew & Hok & _).
  eapply server_stays; eassumption.
Qed.
Lemma well_next l n u d U D y n' u' d' : jsteps n0 l n -> proper_calls K (l ++ y) -> well l n u d U D -> wstep n u d y n' u' d' -> exists U' D', well (l ++ y) n' u' d' U' D'.
Proof.
  intros R Hp W S. assert (Hp0 : proper_calls K l) by (intros c q Hx; apply (Hp c q), in_app_iff; left; exact Hx).
  pose proof (wstep_jstep _ _ _ _ _ _ _ _ _ _ _ _ _ _ _ S) as Sj. pose proof (js_snoc _ _ _ _ _ _ _ _ _ _ _ _ R Sj) as R'.
  destruct (well_stays _ _ _ _ _ _ R Hp0 W) as [Hs1 Hs2]. pose proof (well_undecided _ _ _ _ _ _ R Hp0 W) as Hun.
  destruct W as [I TU TD EU ED He Hd (L1 & L2) (ls & k & f & K1 & K2 & K3)].
  destruct S as [y g Hne Ht Hnf|y g Hne Ht Hnf|m m' s Hm Hs|c up Hu Hnn Hcut|c dn Hdn Hnn Hcut Hne|Hx Hdn Hne].
  - assert (Hth : exists mi mn ms, g_threads (n_client n) = mi :: mn :: ms) by (destruct K3 as (adr & rch & mi & mn & ms & o & f1 & f2 & f3 & _ & X & _); eauto).
    destruct Hth as (mi & mn & ms & Hth).
    assert (En : n_client n = mkG (mi :: mn :: ms) (g_mem (n_client n)) (g_users (n_client n)) false) by (rewrite <- Hth, <- Hd; destruct (n_client n); reflexivity).
    assert (N1 : nth_error (g_threads (n_client n)) 1 = Some mn) by (rewrite Hth; reflexivity).
    pose proof (reader_everywhere _ _ _ _ _ _ _ _ Ho I He Hd N1) as HR.
    assert (T0 : tstep (n_client n) y g) by (specialize (Ht []); rewrite !more_net_nil in Ht; exact Ht).
    rewrite Hth in K3.
    destruct (well_step crn opt C tg fc fs wn rn tn msz true true ls k f (g_mem (n_client n)) (g_users (n_client n)) mi mn ms y g K1 K2 K3) as (Y1 & Y2 & Y3).
    { rewrite <- En. exact T0. }
    { intros X. eapply uniform_fed; eassumption. }
    { rewrite <- En. exact Hnf. }
    assert (L1' : ~ In LEof (l ++ [y])) by (rewrite in_app_iff; intros [X|[X|[]]]; [exact (L1 X)|exact (Y1 X)]).
    assert (L2' : ~ In LFatal (l ++ [y])) by (rewrite in_app_iff; intros [X|[X|[]]]; [exact (L2 X)|exact (Y2 X)]).
    pose proof (net_alive ns E remote srn crn opt C HE x HF n0 HC _ _ R' Hp L1' L2') as Hd'. cbn [n_client] in Hd'.
    exists U, D. constructor; cbn [n_client n_end]; auto.
    destruct I as [A B (ta & F1 & F2) (os & ot & tb & G0 & G1 & G2) Pt]. rewrite Hne in *. constructor; cbn [n_client n_up n_server n_mem n_down n_end]; try assumption.
    + intros more. eapply ts_snoc; [apply A|apply Ht].
    + exists (ta ++ sent y). rewrite writes_app, concat_app, app_assoc, F1. split; [f_equal; destruct y; cbn; rewrite ?app_nil_r; reflexivity|]. intros H. rewrite (F2 H). reflexivity.
    + exists os, ot, tb. auto.
  - congruence.
  - assert (Q : exists U' D', U' = U /\ D' = D /\ inv (n_client n0) m1 (n_mem n0) (l ++ []) (mkNet (n_client n) (n_up n) m' s (n_down n ++ concat (skipn (List.length (w_out (rest (n_mem n)))) (w_out (rest s)))) (n_end n)) U' D').
    { exists U, D. split; [reflexivity|]. split; [reflexivity|]. destruct I as [A B (ta & F1 & F2) (os & ot & tb & G0 & G1 & G2) Pt].
      rewrite app_nil_r. pose proof (Hs []) as H0. apply sstep_grows in H0. destruct H0 as (new & H0). rewrite !w_out_more in H0.
      constructor; cbn [n_client n_up n_server n_mem n_down n_end]; try assumption.
      - intros more. eapply sr_snoc; [rewrite <- Hm; apply B|apply Hs].
      - exists ta. auto.
      - rewrite H0. rewrite skipn_app, skipn_all, Nat.sub_diag. cbn [app skipn]. rewrite He in *.
        destruct (G2 (tidy_intact _ _ TD)) as [-> ->]. exists (os ++ new), [], (n_down n ++ concat new). rewrite G0, !app_nil_r, concat_app, app_assoc, G1. auto.
      - intros m2 ->. specialize (Hs []) as H1. rewrite !more_in_nil in H1. eapply pr_snoc; [exact (Pt _ Hm)|exact (uniform_ready _ _ _ _ _ _ _ _ Hs)|exact H1]. }
    destruct Q as (U' & D' & -> & -> & Q). exists U, D. constructor; cbn [n_client n_end]; auto; [rewrite app_nil_r; auto|]. exists ls, k, f. auto.
  - exists (U ++ [Chunk c]), D. pose proof (tidy_intact _ _ TU) as Ei. constructor; cbn [n_client n_end]; auto.
    + destruct I as [A B (ta & F1 & F2) (os & ot & tb & G0 & G1 & G2) Pt]. rewrite app_nil_r. constructor; cbn [n_client n_up n_server n_mem n_down n_end]; try assumption.
      * intros more. rewrite more_in_more, <- app_assoc. cbn [app]. apply B.
      * rewrite NetThm.received_app, intact_snoc, Ei. specialize (F2 Ei). subst ta. rewrite Hu in F1. exists up. cbn [received]. rewrite app_nil_r, <- app_assoc. split; [exact F1|reflexivity].
      * exists os, ot, tb. auto.
      * intros m Hm. rewrite <- more_in_more. apply pruns_more, Pt, Hm.
    + apply tidy_snoc; [exact TU|exact Hnn|]. cbn [app]. rewrite EU. exact Hcut.
    + rewrite NetThm.received_app, Ei, EU. cbn [received]. rewrite app_nil_r. reflexivity.
    + rewrite app_nil_r. auto.
    + exists ls, k, f. auto.
  - exists U, (D ++ [Chunk c]). pose proof (tidy_intact _ _ TD) as Ei. constructor; cbn [n_client n_end]; auto.
    + destruct I as [A B (ta & F1 & F2) (os & ot & tb & G0 & G1 & G2) Pt]. rewrite app_nil_r. rewrite He in *. constructor; cbn [n_client n_up n_server n_mem n_down n_end]; try assumption.
      * intros more. rewrite more_net_more, <- app_assoc. cbn [app]. apply A.
      * exists ta. auto.
      * rewrite NetThm.received_app, intact_snoc, Ei. destruct (G2 Ei) as [-> ->]. exists os, [], dn. rewrite Hdn in G1. split; [exact G0|]. split; [|auto]. cbn [received]. rewrite app_nil_r, <- app_assoc. exact G1.
    + apply tidy_snoc; [exact TD|exact Hnn|]. cbn [app]. rewrite ED. exact Hcut.
    + rewrite NetThm.received_app, Ei, ED. cbn [received]. rewrite app_nil_r. reflexivity.
    + rewrite app_nil_r. auto.
    + exists ls, k, f. split; [exact K1|]. split; [exact K2|]. cbn [more_net g_mem g_users g_threads]. apply good_more, K3.
  - destruct Hx as [Hx|Hx]; congruence.
Qed.
End Inv.
Lemma wsteps_well l n u d : wsteps n0 l n u d -> proper_calls K l -> exists m1 tg fc fs wn rn tn msz U D, accepted ns E remote srn x m1 (n_mem n0) /\ well m1 tg fc fs wn rn tn msz l n u d U D.
Proof.
  destruct (start_inv _ _ _ _ _ _ _ x true true n0 HC) as (m1 & Ha & Ho & I0). destruct (opened_well _ _ _ _ _ _ Ho) as (tg & fc & fs & wn & rn & tn & msz & f & Hg).
  intros R Hp. exists m1, tg, fc, fs, wn, rn, tn, msz. cut (exists U D, well m1 tg fc fs wn rn tn msz l n u d U D); [intros (U & D & X); eauto|].
  induction R as [|ls y u d l z u' d' H IH S].
  - exists [], []. constructor; try reflexivity; try exact I0; try constructor; try (intros []).
    + exact (proj2 (proj2 (proj2 (proj2 HC)))).
    + destruct Ho as [_ _ X]. exact X.
    + exists [], (init true), f. split; [constructor|]. split; [reflexivity|exact Hg].
  - destruct IH as (U & D & W); [intros c q Hx; apply (Hp c q), in_app_iff; left; exact Hx|].
    exact (well_next m1 Ha Ho tg fc fs wn rn tn msz _ _ _ _ _ _ _ _ _ _ (wsteps_jsteps _ _ _ _ _ _ _ _ _ _ _ _ _ H) Hp W S).
Qed.
(** The client stays alive and goes on reading, and the server goes on serving. *)
Theorem well_alive l n u d : wsteps n0 l n u d -> proper_calls K l ->
  g_dead (n_client n) = false /\ ~ In LEof l /\ ~ In LFatal l /\ n_end n = false /\ n_server n <> None /\ w_open (rest (n_mem n)) = true.
Proof.
  intros R Hp. destruct (wsteps_well l n u d R Hp) as (m1 & tg & fc & fs & wn & rn & tn & msz & U & D & Ha & W).
  pose proof (well_stays m1 Ha _ _ _ _ _ _ _ _ _ _ _ _ _ (wsteps_jsteps _ _ _ _ _ _ _ _ _ _ _ _ _ R) Hp W) as [X1 X2]. destruct W as [_ _ _ _ _ He Hd [L1 L2] _]. auto 10.
Qed.
End Well.
