(** The file server that runs from the text of filesystem.go, as the file server behind server.go. *)
From Coq Require Import ConstructiveEpsilon.
From Verif Require Import Base GoBuf CodecPrim Types Codec Msgs StubPrim GoPath GoSyntax GoRun GoProg GoText Ufs GoFmt UfsRun UfsRunLemmas UfsRunThm UfsRunThm2 UfsRunThm3 MemOS.
From Verif Require Import Server ServerSpec ServerLemmas UfsSpec NetLemmas UfsFits NetRun NetStays.

(** ns is a file server whose states x hold a memory of the program, [view x].  A method call on ns does what the text of the method in filesystem.go
    does on that memory: it panics, or returns the values that the text returns and goes on with the memory that the text leaves. *)
Definition runs_text {W St} (h : os W) (L : layout) (view : St -> store W) (ns : NineServer St) : Prop :=
  forall x m n out s', UfsRun.run h L n (request L m) (view x) = Some (out, s') ->
    match out with
    | Panicked => invoke ns x m = NSPanic
    | Returned vs =>
        match reply_of s' m vs with
        | Some (inl e) => exists x', invoke ns x m = NSErr x' e /\ view x' = s'
        | Some (inr r) => exists x', invoke ns x m = NSOk x' r /\ view x' = s'
        | None => True
        end
    end.
(** s0 is the memory after the function literal in NewUFS has made a FileServer, for an operating system in state w. *)
Definition fresh_server {W} (h : os W) (c : config) (w : W) (L : layout) (s0 : store W) : Prop :=
  exists L0 s n, a_user L0 = a_user L /\ a_root L0 = a_root L /\ a_debug L0 = a_debug L /\ osw s = w /\ locked s = false /\ (forall a, next s <= a -> heap s a = None) /\
    heap s (a_user L) = Some (VStr (user c)) /\ heap s (a_root L) = Some (VStr (rootPath c)) /\ heap s (a_debug L) = Some (VI 64 0) /\
    UfsRun.run h L0 n create_server s = Some (Returned [VPtr (str "FileServer") (a_fs L) []], s0) /\
    exists t fs, heap s0 (a_fs L) = Some (VStruct t fs) /\ assoc (str "files") fs = Some (VPtr [] (a_files L) []).

Section Text.
Context {W : Type} (h : os W) (c : config) (L : layout).
Lemma made_holds w s0 : IOunit c = 8192 -> fresh_server h c w L s0 -> holds c L s0 no_fids /\ osw s0 = w.
Proof.
  intros Hio (L0 & s & n & E1 & E2 & E3 & Hw & Hl & HN & HU & HR & HD & Er & t & fs & Hf & Hfs).
  destruct L0 as [A0 M0 U RT DB], s as [hp nx lk w0 ev], L as [A M U' RT' DB']. cbn [heap next locked osw calls_made a_fs a_files a_user a_root a_debug] in *. subst.
  destruct (creator_runs h c A0 M0 _ _ _ hp nx w ev HU HR HD Hio HN) as (n' & out & s1 & Er1 & A' & M' & -> & HH & Hw1 & _).
  pose proof (run_one _ _ _ _ _ _ _ _ Er Er1) as Q. injection Q as -> ->.
  destruct (h_fs _ _ _ _ HH) as (ro & ve & Hx). cbn [a_fs] in Hx. rewrite Hx in Hf. unfold v_fs in Hf. injection Hf as <- <-. cbn in Hfs. injection Hfs as <-. auto.
Qed.
Context {St : Type} (view : St -> store W) (ns : NineServer St) (HT : runs_text h L view ns).
(** One request to the text and to the model. *)
Lemma same_invoke x u m : holds c L (view x) u ->
  match invoke (ufs c h) (u, osw (view x)) m with
  | NSPanic => invoke ns x m = NSPanic
  | NSErr (u', w') e => exists x', invoke ns x m = NSErr x' e /\ holds c L (view x') u' /\ osw (view x') = w'
  | NSOk (u', w') r => exists x', invoke ns x m = NSOk x' r /\ holds c L (view x') u' /\ osw (view x') = w'
  end.
Proof.
  intros H. rewrite ufs_method. destruct (run_prog h (method c m) u (osw (view x))) as [[[r u'] w'] tr] eqn:Ep.
  destruct (text_request h c L (view x) u m r u' w' tr H Ep) as (n & out & s' & Er & Hs & Hh & Hw & _).
  pose proof (HT x m n out s' Er) as X. destruct r as [[e|a]|], out as [vs|]; cbn [same_result] in Hs; try contradiction; try exact X.
  all: rewrite Hs in X; destruct X as (x' & X1 & X2); exists x'; rewrite X2; split; [exact X1|]; split; [apply Hh; discriminate|exact Hw].
Qed.
Lemma same_answers reqs : forall o x u, holds c L (view x) u ->
  match ServerSpec.answers (ufs c h) o (u, osw (view x)) reqs with
  | None => ServerSpec.answers ns o x reqs = None
  | Some (reps, (o', (u', w'))) => exists x', ServerSpec.answers ns o x reqs = Some (reps, (o', x')) /\ holds c L (view x') u' /\ osw (view x') = w'
  end.
Proof.
  induction reqs as [|[t m] reqs IH]; intros o x u H; cbn [ServerSpec.answers]; [exists x; auto|].
  unfold ServerSpec.answer. destruct (o || is_version m).
  - pose proof (same_invoke x u m H) as X. destruct (invoke (ufs c h) (u, osw (view x)) m) as [[u' w'] r|[u' w'] e|].
    + destruct X as (x' & -> & Hh & <-). specialize (IH true x' u' Hh). destruct (ServerSpec.answers (ufs c h) true (u', osw (view x')) reqs) as [[reps [o' [u2 w2]]]|].
      * destruct IH as (x2 & -> & I). exists x2. split; [reflexivity|exact I].
      * rewrite IH. reflexivity.
    + destruct X as (x' & -> & Hh & <-). specialize (IH true x' u' Hh). destruct (ServerSpec.answers (ufs c h) true (u', osw (view x')) reqs) as [[reps [o' [u2 w2]]]|].
      * destruct IH as (x2 & -> & I). exists x2. split; [reflexivity|exact I].
      * rewrite IH. reflexivity.
    + rewrite X. reflexivity.
  - specialize (IH false x u H). destruct (ServerSpec.answers (ufs c h) false (u, osw (view x)) reqs) as [[reps [o' [u2 w2]]]|].
    + destruct IH as (x2 & -> & I). exists x2. split; [reflexivity|exact I].
    + rewrite IH. reflexivity.
Qed.
End Text.

(** What C77 and C78 use of the file server holds of the text. *)
Section Uses.
Context {W St : Type} (h : os W) (c : config) (L : layout) (view : St -> store W) (ns : NineServer St) (x : St) (w : W).
Context (HT : runs_text h L view ns) (HM : fresh_server h c w L (view x)) (HI : IOunit c = 8192).
Lemma text_answers_as reqs reps st : ServerSpec.answers ns false x reqs = Some (reps, st) ->
  exists u w', ServerSpec.answers (ufs c h) false (no_fids, w) reqs = Some (reps, (fst st, (u, w'))) /\ holds c L (view (snd st)) u /\ osw (view (snd st)) = w'.
Proof.
  destruct (made_holds h c L w _ HI HM) as [Hh Hw]. intros H. pose proof (same_answers h c L view ns HT reqs false x no_fids Hh) as X. rewrite Hw in X.
  destruct (ServerSpec.answers (ufs c h) false (no_fids, w) reqs) as [[reps' [o' [u w']]]|]; [|congruence].
  destruct X as (x' & X1 & X2 & X3). rewrite X1 in H. injection H as <- <-. exists u, w'. cbn [fst snd]. auto.
Qed.
Lemma text_does reqs : Forall (ok_in modest) reqs -> decent c h -> exists reps st, ServerSpec.answers ns false x reqs = Some (reps, st) /\ Forall fits_rep reps.
Proof.
  intros Hr Hd. destruct (made_holds h c L w _ HI HM) as [Hh Hw]. pose proof (same_answers h c L view ns HT reqs false x no_fids Hh) as X. rewrite Hw in X.
  destruct (ufs_answers c h Hd reqs false no_fids w Hr no_fids_fine) as (reps & [o' [u w']] & E & F). rewrite E in X. destruct X as (x' & X1 & _). eauto.
Qed.
Lemma text_fitting : decent c h -> fitting_from modest ns x.
Proof. intros Hd reqs reps st Hr H. destruct (text_does reqs Hr Hd) as (reps' & st' & E & F). rewrite E in H. injection H as <- <-. exact F. Qed.
Lemma text_answering : decent c h -> answering modest ns x.
Proof. intros Hd reqs Hr H. destruct (text_does reqs Hr Hd) as (reps' & st' & E & F). congruence. Qed.
End Uses.

(** * There is such a file server *)
Section Make.
Context {W : Type} (h : os W) (c : config) (L : layout).
Definition tstate : Type := { s : store W | exists u, holds c L s u }.
Definition does (x : tstate) (m : tmsg) (r : nsres tstate rmsg) : Prop :=
  forall n out s', UfsRun.run h L n (request L m) (proj1_sig x) = Some (out, s') ->
    match out with
    | Panicked => r = NSPanic
    | Returned vs =>
        match reply_of s' m vs with
        | Some (inl e) => exists x', r = NSErr x' e /\ proj1_sig x' = s'
        | Some (inr a) => exists x', r = NSOk x' a /\ proj1_sig x' = s'
        | None => True
        end
    end.
Lemma ends (x : tstate) m : exists n, UfsRun.run h L n (request L m) (proj1_sig x) <> None.
Proof.
  destruct x as [s (u & H)]. cbn [proj1_sig]. destruct (run_prog h (method c m) u (osw s)) as [[[r u'] w'] tr] eqn:Ep.
  destruct (text_request h c L s u m r u' w' tr H Ep) as (n & out & s' & Er & _). exists n. congruence.
Qed.
Lemma goes_on (x : tstate) m n vs s' : UfsRun.run h L n (request L m) (proj1_sig x) = Some (Returned vs, s') -> exists u, holds c L s' u.
Proof.
  destruct x as [s (u & H)]. cbn [proj1_sig]. intros E. destruct (run_prog h (method c m) u (osw s)) as [[[r u'] w'] tr] eqn:Ep.
  destruct (text_request h c L s u m r u' w' tr H Ep) as (n' & out & s2 & Er & Hs & Hh & _). pose proof (run_one _ _ _ _ _ _ _ _ E Er) as Q. injection Q as <- <-.
  exists u'. apply Hh. destruct r; [discriminate|contradiction Hs].
Qed.
Lemma asked_sig (x : tstate) (m : tmsg) : { r | does x m r }.
Proof.
  destruct (constructive_indefinite_ground_description_nat (fun n => UfsRun.run h L n (request L m) (proj1_sig x) <> None)) as [n Hn].
  { intros n. destruct (UfsRun.run h L n (request L m) (proj1_sig x)); [left; discriminate|right; intros H; apply H; reflexivity]. }
  { apply ends. }
  destruct (UfsRun.run h L n (request L m) (proj1_sig x)) as [[[vs|] s']|] eqn:E; [| |contradiction Hn; reflexivity].
  - pose proof (goes_on x m n vs s' E) as G. destruct (reply_of s' m vs) as [[e|a]|] eqn:Er.
    + exists (NSErr (Specif.exist _ s' G) e). intros n' out s2 E2. pose proof (run_one _ _ _ _ _ _ _ _ E E2) as Q. injection Q as <- <-. rewrite Er. eexists. split; [reflexivity|reflexivity].
    + exists (NSOk (Specif.exist _ s' G) a). intros n' out s2 E2. pose proof (run_one _ _ _ _ _ _ _ _ E E2) as Q. injection Q as <- <-. rewrite Er. eexists. split; [reflexivity|reflexivity].
    + exists NSPanic. intros n' out s2 E2. pose proof (run_one _ _ _ _ _ _ _ _ E E2) as Q. injection Q as <- <-. rewrite Er. exact Logic.I.
  - exists NSPanic. intros n' out s2 E2. pose proof (run_one _ _ _ _ _ _ _ _ E E2) as Q. injection Q as <- <-. reflexivity.
Qed.
(** Computed, when a few steps suffice. *)
Definition few : nat := N.to_nat 5000.
Definition asked (x : tstate) (m : tmsg) : nsres tstate rmsg :=
  match UfsRun.run h L few (request L m) (proj1_sig x) as o return UfsRun.run h L few (request L m) (proj1_sig x) = o -> nsres tstate rmsg with
  | Some (Returned vs, s') => fun E =>
      match reply_of s' m vs with
      | Some (inl e) => NSErr (Specif.exist _ s' (goes_on x m few vs s' E)) e
      | Some (inr a) => NSOk (Specif.exist _ s' (goes_on x m few vs s' E)) a
      | None => NSPanic
      end
  | Some (Panicked, _) => fun _ => NSPanic
  | None => fun _ => proj1_sig (asked_sig x m)
  end eq_refl.
Lemma asked_does x m : does x m (asked x m).
Proof.
  unfold asked. generalize (goes_on x m few). destruct (UfsRun.run h L few (request L m) (proj1_sig x)) as [[[vs|] s']|] eqn:E; intros G; [| |exact (proj2_sig (asked_sig x m))];
    intros n out s2 E2; pose proof (run_one _ _ _ _ _ _ _ _ E E2) as Q; injection Q as <- <-; [|reflexivity].
  destruct (reply_of s' m vs) as [[e|a]|]; [eexists; split; reflexivity|eexists; split; reflexivity|exact Logic.I].
Qed.
Definition text_server : NineServer tstate := mkNineServer tstate
  (fun x a b => nsmap (fun r => match r with MRversion p => p | _ => mkRversionPkt 0 [] end) (asked x (MTversion (mkTversionPkt a b))))
  (fun x a b d e => nsmap (fun r => match r with MRattach p => p | _ => mkRattachPkt (mkQID 0 0 0) end) (asked x (MTattach (mkTattachPkt a b d e))))
  (fun x a b d => nsmap (fun r => match r with MRwalk p => p | _ => mkRwalkPkt [] end) (asked x (MTwalk (mkTwalkPkt a b d))))
  (fun x a b => nsmap (fun r => match r with MRopen p => p | _ => mkRopenPkt (mkQID 0 0 0) 0 end) (asked x (MTopen (mkTopenPkt a b))))
  (fun x a b d e => nsmap (fun r => match r with MRcreate p => p | _ => mkRcreatePkt (mkQID 0 0 0) 0 end) (asked x (MTcreate (mkTcreatePkt a b d e))))
  (fun x a => nsmap (fun r => match r with MRstat p => p | _ => mkRstatPkt [] end) (asked x (MTstat (mkTstatPkt a))))
  (fun x a b => nsmap (fun _ => mkRwstatPkt) (asked x (MTwstat (mkTwstatPkt a b))))
  (fun x a => nsmap (fun _ => mkRclunkPkt) (asked x (MTclunk (mkTclunkPkt a))))
  (fun x a => nsmap (fun _ => mkRremovePkt) (asked x (MTremove (mkTremovePkt a))))
  (fun x a b d => nsmap (fun r => match r with MRread p => p | _ => mkRreadPkt [] end) (asked x (MTread (mkTreadPkt a b d))))
  (fun x a b d => nsmap (fun r => match r with MRwrite p => p | _ => mkRwritePkt 0 end) (asked x (MTwrite (mkTwritePkt a b d))))
  (fun x a => nsmap (fun _ => mkRflushPkt) (asked x (MTflush (mkTflushPkt a)))).
Lemma reply_shape (s : store W) m vs r : reply_of s m vs = Some (inr r) -> rtype r = ttype m + 1.
Proof.
  unfold reply_of. destruct (last vs VNil); try discriminate.
  destruct m; repeat (match goal with |- match ?v with _ => _ end = _ -> _ => destruct v; try discriminate end); intros H; injection H as <-; reflexivity.
Qed.
Lemma text_server_asked x m vs n s' r x' : UfsRun.run h L n (request L m) (proj1_sig x) = Some (Returned vs, s') -> reply_of s' m vs = Some (inr r) -> asked x m = NSOk x' r -> invoke text_server x m = NSOk x' r.
Proof.
  intros _ H E. apply reply_shape in H. destruct m as [[]|[]|[]|[]|[]|[]|[]|[]|[]|[]|[]|[]];
    cbn [invoke text_server ns_Rversion ns_Rattach ns_Rflush ns_Rwalk ns_Ropen ns_Rcreate ns_Rread ns_Rwrite ns_Rclunk ns_Rremove ns_Rstat ns_Rwstat]; rewrite E;
    destruct r as [[]|[]|[]|[]|[]|[]|[]|[]|[]|[]|[]|[]|[]]; try discriminate H; reflexivity.
Qed.
Theorem text_server_runs : runs_text h L (fun x : tstate => proj1_sig x) text_server.
Proof.
  intros x m n out s' E. pose proof (asked_does x m n out s' E) as X. destruct out as [vs|].
  - destruct (reply_of s' m vs) as [[e|r]|] eqn:Er; [| |exact Logic.I].
    + destruct X as (x' & X1 & X2). exists x'. split; [|exact X2].
      destruct m as [[]|[]|[]|[]|[]|[]|[]|[]|[]|[]|[]|[]]; cbn [invoke text_server ns_Rversion ns_Rattach ns_Rflush ns_Rwalk ns_Ropen ns_Rcreate ns_Rread ns_Rwrite ns_Rclunk ns_Rremove ns_Rstat ns_Rwstat]; rewrite X1; reflexivity.
    + destruct X as (x' & X1 & X2). exists x'. split; [|exact X2]. exact (text_server_asked x m vs n s' r x' E Er X1).
  - destruct m as [[]|[]|[]|[]|[]|[]|[]|[]|[]|[]|[]|[]]; cbn [invoke text_server ns_Rversion ns_Rattach ns_Rflush ns_Rwalk ns_Ropen ns_Rcreate ns_Rread ns_Rwrite ns_Rclunk ns_Rremove ns_Rstat ns_Rwstat]; rewrite X; reflexivity.
Qed.
End Make.
