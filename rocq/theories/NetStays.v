(** The server goes on as long as nothing fails. *)
From Verif Require Import Base GoBuf CodecPrim CodecLemmas Types Codec Msgs CodecSpec StubPrim Stubs Server ServerSpec ServerLemmas ServerLemmas4 Rpc GoSyntax Ufs GoRun GoFmt GoProg GoWp
  ServerRun ServerRunLemmas ServerRunThm Client ClientSpec ClientRun ClientRunSim ClientHist ClientRunThm NetRun NetLemmas NetCase NetEats NetModel NetServer NetThm NetTidy.
Local Opaque NumTags all_tags.

(** The file server never panics when it is asked only what is among K. *)
Definition answering (K : tmsg -> Prop) {St} (ns : NineServer St) (x : St) : Prop := forall reqs, Forall (ok_in K) reqs -> answers ns false x reqs <> None.

Section Stays.
Context {St : Type} (ns : NineServer St) (E : Server.env) (remote : bytes) (srn crn : N) (opt : oserr + (value * value * value * N)) (C : N).
Notation P := protocol_program.
Notation OUT := (ServerRun.outside ns E remote srn).
Notation M := (memory (cworld St)).
(** Nothing is written to a connection that has been closed, and it stays closed. *)
Definition shut (s s' : M) : Prop := w_open (rest s) = false -> w_open (rest s') = false /\ w_out (rest s') = w_out (rest s).
Lemma shut_trans a b c : shut a b -> shut b c -> shut a c.
Proof. intros X Y H. destruct (X H) as [X1 X2]. destruct (Y X1) as [Y1 Y2]. split; congruence. Qed.
Definition answer_shut (s : M) (a : reply (cworld St)) : Prop := match a with Answer _ s' | Exit s' => shut s s' | _ => True end.
Lemma call_shut f vs s : answer_shut s (net_call ns E remote f vs s).
Proof.
  unfold net_call. cbv zeta.
  repeat match goal with
  | |- answer_shut _ NoAnswer => exact Logic.I
  | |- answer_shut _ Crash => exact Logic.I
  | |- answer_shut _ (Answer _ ?x) => intros Ho; cbn [GoWp.rest with_rest w_open w_out upd_in upd_ns]; first [split; [first [exact Ho|reflexivity]|reflexivity]|congruence]
  | |- answer_shut _ (match ?x with _ => _ end) => destruct x eqn:?
  end.
Qed.
Lemma answer_shuts r s : answer_shut s (answer OUT r s).
Proof.
  unfold answer. destruct r; try (intros Ho; split; [exact Ho|reflexivity]); unfold ServerRun.outside; cbv zeta;
  repeat match goal with
  | |- answer_shut _ (net_call _ _ _ _ _ _) => apply call_shut
  | |- answer_shut _ NoAnswer => exact Logic.I
  | |- answer_shut _ Crash => exact Logic.I
  | |- answer_shut _ (Answer _ ?x) => intros Ho; cbn [GoWp.rest with_rest w_open w_out upd_in upd_ns]; split; [exact Ho|reflexivity]
  | |- answer_shut _ (match ?x with _ => _ end) => destruct x
  end.
Qed.
Lemma run_shut n : forall m s out s', run P OUT n m s = Some (out, s') -> shut s s'.
Proof.
  induction n as [|n IH]; intros m s out s' H; [discriminate H|]. cbn [run] in H. assert (Refl : shut s s) by (intros Ho; auto).
  destruct (step P m) as [m1|b m1 m2|l m1 f|v f|q m1|vs| |x]; try discriminate H; try (injection H as <- <-; exact Refl); try (eapply IH; exact H).
  - destruct l; eapply IH; exact H.
  - destruct v; [eapply IH; exact H|injection H as <- <-; exact Refl].
  - pose proof (answer_shuts q s) as G. destruct (answer OUT q s) as [vs1 s1| |s1|]; try discriminate H; cbn [answer_shut] in G.
    + eapply shut_trans; [exact G|]. eapply IH; exact H.
    + injection H as <- <-. exact Refl.
    + injection H as <- <-. exact G.
Qed.
Context (HE : forall j, e_write E j = None) (x : St) {K : tmsg -> Prop} (HA : answering K ns x).
Lemma server_stays g0 m1 s1 l n U D reqs : accepted ns E remote srn x m1 s1 -> inv ns E remote srn crn opt C g0 m1 s1 l n U D -> tidy [] U ->
  writes l = map enc_req reqs -> Forall (ok_in K) reqs -> n_server n <> None /\ w_open (rest (n_mem n)) = true.
Proof.
  intros Ha [_ Hs (ta & F1 & _) _ _] HU Ew HK. pose proof (ok_all _ _ HK) as Hok. destruct (accepted_serves _ _ _ _ _ _ _ Ha) as (_ & _ & Hv).
  assert (Hk : ~ (n_server n = None \/ w_open (rest (n_mem n)) = false)).
  { intros Hx. assert (Hr : forall more, r_out (serve ns E x (U ++ more)) = w_out (rest (n_mem n))).
    { intros more. destruct (Hv (U ++ more)) as (out & z & Hz & <-). pose proof (sruns_ends _ _ _ _ _ _ _ _ _ _ (Hs more) Hz) as X.
      destruct (n_server n) as [m|]; [|rewrite X; reflexivity]. destruct Hx as [Hx|Hx]; [discriminate Hx|]. destruct X as (i & X). apply run_shut in X. destruct (X Hx) as [_ X2]. exact X2. }
    rewrite Ew in F1. assert (Hfr : forall l, Forall ok_req l -> Forall NetLemmas.framed (map enc_req l)).
    { intros l0 H0. apply Forall_forall. intros y Hy. apply in_map_iff in Hy. destruct Hy as (a & <- & Hy). apply enc_framed. rewrite Forall_forall in H0. apply H0, Hy. }
    pose proof (tidy_intact _ _ HU) as Hi.
    assert (X : exists m1, tidy [] (U ++ m1) /\ received (U ++ m1) = concat (map enc_req reqs) /\ intact (U ++ m1) = true).
    { destruct ta as [|y ys].
      - exists []. rewrite app_nil_r in *. auto.
      - exists [Chunk (y :: ys)]. assert (X : received (U ++ [Chunk (y :: ys)]) = concat (map enc_req reqs)) by (rewrite NetLemmas.received_app, Hi; cbn [received]; rewrite app_nil_r; exact F1).
        split; [|split; [exact X|rewrite intact_app, Hi; reflexivity]]. apply tidy_snoc; [exact HU|discriminate|]. cbn [app]. rewrite F1. apply cut_whole, Hfr, Hok. }
    destruct X as (mo & H1 & H2 & H3).
    assert (Hfr' : Forall NetLemmas.framed (map enc_req reqs ++ [seven])) by (apply Forall_app; split; [apply Hfr, Hok|constructor; [apply seven_framed|constructor]]).
    assert (Em : concat (map enc_req reqs) ++ seven = concat (map enc_req reqs ++ [seven])) by (rewrite concat_app; cbn [concat]; rewrite app_nil_r; reflexivity).
    assert (H4 : tidy [] ((U ++ mo) ++ [Chunk seven])).
    { apply tidy_snoc; [exact H1|discriminate|]. cbn [app]. rewrite H2, Em. apply cut_whole, Hfr'. }
    assert (H5 : received ((U ++ mo) ++ [Chunk seven]) = concat (map enc_req reqs ++ [seven])) by (rewrite NetLemmas.received_app, H3, H2, <- Em; cbn [received]; rewrite app_nil_r; reflexivity).
    pose proof (HA _ HK) as A1. destruct (answers ns false x reqs) as [[r1 st1]|] eqn:E1; [|contradiction].
    pose proof (whole_serve ns E HE reqs [] _ 0 false x _ _ H1 (Forall_nil _) Hok H2 E1) as Y1. destruct (whole_serve_more ns E HE reqs [] _ 0 false x _ _ H4 (Forall_nil _) Hok H5 E1) as (w & ws & Y2).
    change (serve_from ns E 0 (mkSrv false x)) with (serve ns E x) in Y1, Y2. rewrite <- app_assoc in Y2. rewrite Hr in Y1, Y2. rewrite Y1 in Y2.
    apply (f_equal (@List.length bytes)) in Y2. rewrite app_length in Y2. cbn [List.length] in Y2. lia. }
  split; [intros X; apply Hk; auto|]. destruct (w_open (rest (n_mem n))); [reflexivity|destruct Hk; auto].
Qed.
End Stays.
