(** File servers that behave alike, behind a client and a network: the debug wrapper. *)
From Verif Require Import Base GoBuf CodecPrim CodecLemmas Types Codec Msgs CodecSpec StubPrim Server ServerSpec Rpc GoSyntax Ufs UfsSpec Debugfs DebugLemmas
  NetRun NetLemmas NetStays.

Section Alike.
Context {A B : Type} (R : A -> B -> Prop) (n1 : NineServer A) (n2 : NineServer B) (H : alike R n1 n2).
Lemma answers_alike reqs : forall o s1 s2, R s1 s2 ->
  match answers n1 o s1 reqs, answers n2 o s2 reqs with
  | Some (reps, (o1, x1)), Some (reps', (o2, x2)) => reps = reps' /\ o1 = o2 /\ R x1 x2
  | None, None => True
  | _, _ => False
  end.
Proof.
  induction reqs as [|[t m] reqs IH]; intros o s1 s2 HR; cbn [answers]; [auto|].
  unfold answer. destruct (o || is_version m).
  - pose proof (H s1 s2 m HR) as X. destruct (invoke n1 s1 m) as [y1 r1|y1 e1|], (invoke n2 s2 m) as [y2 r2|y2 e2|]; cbn [res_rel] in X; try contradiction X; [| |exact Logic.I]; destruct X as [X ->].
    all: specialize (IH true y1 y2 X); destruct (answers n1 true y1 reqs) as [[ra [oa xa]]|], (answers n2 true y2 reqs) as [[rb [ob xb]]|]; try contradiction IH; [|exact Logic.I];
      destruct IH as (-> & -> & IH); auto.
  - specialize (IH false s1 s2 HR). destruct (answers n1 false s1 reqs) as [[ra [oa xa]]|], (answers n2 false s2 reqs) as [[rb [ob xb]]|]; try contradiction IH; [|exact Logic.I].
    destruct IH as (-> & -> & IH); auto.
Qed.
Lemma answers_as o s1 s2 reqs reps st : R s1 s2 -> answers n1 o s1 reqs = Some (reps, st) -> exists st', answers n2 o s2 reqs = Some (reps, st') /\ R (snd st) (snd st') /\ fst st = fst st'.
Proof.
  intros HR E. pose proof (answers_alike reqs o s1 s2 HR) as X. rewrite E in X. destruct st as [o1 x1]. destruct (answers n2 o s2 reqs) as [[reps' [o2 x2]]|]; [|contradiction X].
  destruct X as (-> & -> & X). eexists. split; [reflexivity|]. auto.
Qed.
Lemma fitting_alike K s1 s2 : R s1 s2 -> fitting_from K n2 s2 -> fitting_from K n1 s1.
Proof. intros HR HF reqs reps st Hr E. destruct (answers_as false s1 s2 reqs reps st HR E) as (st' & E' & _). exact (HF reqs reps st' Hr E'). Qed.
Lemma answering_alike K s1 s2 : R s1 s2 -> answering K n2 s2 -> answering K n1 s1.
Proof.
  intros HR HA reqs Hr E. pose proof (answers_alike reqs false s1 s2 HR) as X. rewrite E in X. apply (HA reqs Hr). destruct (answers n2 false s2 reqs) as [[? [? ?]]|]; [contradiction X|reflexivity].
Qed.
End Alike.

Section Debug.
Context {St : Type} (ns : NineServer St).
Lemma debug_fitting K x log : fitting_from K ns x -> fitting_from K (debugfs St ns) (x, log).
Proof. exact (fitting_alike forget_log _ _ (debug_alike ns) K (x, log) x eq_refl). Qed.
Lemma debug_answering K x log : answering K ns x -> answering K (debugfs St ns) (x, log).
Proof. exact (answering_alike forget_log _ _ (debug_alike ns) K (x, log) x eq_refl). Qed.
Lemma debug_answers o x log reqs reps st : answers (debugfs St ns) o (x, log) reqs = Some (reps, st) -> answers ns o x reqs = Some (reps, (fst st, fst (snd st))).
Proof.
  intros E. destruct (answers_as forget_log _ _ (debug_alike ns) o (x, log) x reqs reps st eq_refl E) as ([o' x'] & E' & E1 & E2). unfold forget_log in E1. cbn [fst snd] in *. subst. exact E'.
Qed.
(** Two lines for every request that is put to the file server. *)
Lemma debug_lines reqs : forall x log reps st, answers (debugfs St ns) true (x, log) reqs = Some (reps, st) -> exists lines, snd (snd st) = log ++ lines /\ List.length lines = (2 * List.length reqs)%nat.
Proof.
  induction reqs as [|[t m] reqs IH]; intros x log reps st E; cbn [answers] in E; [injection E as <- <-; exists []; rewrite app_nil_r; auto|].
  unfold answer in E. cbn [orb] in E. pose proof (debug_step ns x log m) as D.
  destruct (invoke ns x m) as [y r|y e|], (invoke (debugfs St ns) (x, log) m) as [[y1 log1] r1|[y1 log1] e1|]; try contradiction D; [| |discriminate E].
  - destruct D as (-> & -> & q & a & ->). destruct (answers (debugfs St ns) true (y, log ++ [q; a]) reqs) as [[rs st']|] eqn:E1; [|discriminate E]. injection E as <- <-.
    destruct (IH _ _ _ _ E1) as (lines & L1 & L2). exists ([q; a] ++ lines). rewrite L1, <- app_assoc. split; [reflexivity|]. cbn [app List.length]. lia.
  - destruct D as (-> & -> & q & ->). destruct (answers (debugfs St ns) true (y, log ++ [q; str "<<< Error " ++ e]) reqs) as [[rs st']|] eqn:E1; [|discriminate E]. injection E as <- <-.
    destruct (IH _ _ _ _ E1) as (lines & L1 & L2). exists ([q; str "<<< Error " ++ e] ++ lines). rewrite L1, <- app_assoc. split; [reflexivity|]. cbn [app List.length]. lia.
Qed.
End Debug.
