(** Several connections on one small file system, by turns: executions by computation. *)
From Verif Require Import Base GoBuf CodecPrim Types Codec Msgs StubPrim GoPath GoSyntax GoRun GoProg Ufs UfsSpec GoFmt UfsRun UfsRunThm3 MemOS Conns ConnsRun.

(** One step of a goroutine; qs are the requests it is going to get. *)
Inductive took := Took (l : list deed) (qs : list tmsg) (t : thread) (w : world) | Dead | Waits.
Definition turn (t : thread) (qs : list tmsg) (w : world) : took :=
  let s := th_mem t in
  match th_job t with
  | Idle fs => match qs with [] => Waits | q :: qs => Took [DRequest q] qs (mkThread s (Busy (For fs q) (request (flags_at fs) q))) w end
  | Busy p m =>
      match look m s with
      | Tau m s => Took [] qs (mkThread s (Busy p m)) w
      | Do o k => let (x, w) := answer_op mem_os no_fids o w in Took [DCall (Ev o x)] qs (mkThread (snd (k x)) (Busy p (fst (k x)))) w
      | Finish vs =>
          match p with
          | New => match vs with [VPtr t a []] => if beq t (str "FileServer") then Took [] qs (mkThread s (Idle a)) w else Waits | _ => Waits end
          | For fs q => match reply_of s q vs with Some r => Took [DReply r] qs (mkThread s (Idle fs)) w | None => Waits end
          end
      | Die => Dead
      | Off => Waits
      end
  end.
(** Two connections; the list says whose turn it is. *)
Record two := mkTwo { t0 : thread; q0 : list tmsg; t1 : thread; q1 : list tmsg; files_now : world; out : list (nat * deed) }.
Fixpoint play (turns : list bool) (z : two) : two * bool :=
  match turns with
  | [] => (z, true)
  | true :: turns =>
      match turn (t0 z) (q0 z) (files_now z) with
      | Took l q t w => play turns (mkTwo t q (t1 z) (q1 z) w (out z ++ map (pair 0%nat) l))
      | Dead => (mkTwo (t0 z) (q0 z) (t1 z) (q1 z) (files_now z) (out z), false)
      | Waits => play turns z
      end
  | false :: turns =>
      match turn (t1 z) (q1 z) (files_now z) with
      | Took l q t w => play turns (mkTwo (t0 z) (q0 z) t q w (out z ++ map (pair 1%nat) l))
      | Dead => (mkTwo (t0 z) (q0 z) (t1 z) (q1 z) (files_now z) (out z), false)
      | Waits => play turns z
      end
  end.
Definition both_open (c : config) (a b : list tmsg) (w : world) : two := mkTwo (new_thread c) a (new_thread c) b w [(0%nat, DOpen); (1%nat, DOpen)].
Definition is_state (z : two) (x : threads) : Prop := x 0%nat = Some (t0 z) /\ x 1%nat = Some (t1 z).

Lemma beq_eq a : forall b, beq a b = true -> a = b.
Proof. induction a as [|x a IH]; intros [|y b] H; try discriminate H; [reflexivity|]. cbn in H. destruct (Byte.eqb x y) eqn:E; [|discriminate H]. apply Byte.byte_dec_bl in E. subst y. f_equal. auto. Qed.
Lemma turn_sound t qs w : match turn t qs w with
  | Took l _ t' _ => th_step t l t'
  | Dead => exists s p m, t = mkThread s (Busy p m) /\ look m s = Die
  | Waits => True
  end.
Proof.
  destruct t as [s [fs|p m]]; unfold turn; cbn [th_job th_mem].
  - destruct qs; [exact I|]. apply th_request.
  - destruct (look m s) as [m' s'|o k|vs| |] eqn:El.
    + apply th_tau. exact El.
    + destruct (answer_op mem_os no_fids o w) as [x w']. apply th_do. exact El.
    + destruct p as [|fs q].
      * destruct vs as [|v [|? ?]]; [exact I| |destruct v; try exact I; destruct p; exact I]. destruct v as [| | | | | | | | | | |t a p| | | | | | | | | |]; try exact I.
        destruct p; [|exact I]. destruct (beq t (str "FileServer")) eqn:Et; [|exact I]. apply beq_eq in Et. subst t. apply th_made. exact El.
      * destruct (reply_of s q vs) eqn:Er; [|exact I]. eapply th_reply; eassumption.
    + eauto 10.
    + exact I.
Qed.
Lemma play_sound c turns : forall z x, t_runs c (out z) (Some x) -> is_state z x ->
  let (z', b) := play turns z in exists x', t_runs c (out z') (Some x') /\ is_state z' x' /\ (b = false -> exists i, t_step c (Some x') [(i, DPanic)] None).
Proof.
  induction turns as [|[|] turns IH]; intros z x H [H0 H1]; cbn [play].
  - exists x. split; [exact H|]. split; [split; assumption|]. discriminate.
  - pose proof (turn_sound (t0 z) (q0 z) (files_now z)) as S. destruct (turn (t0 z) (q0 z) (files_now z)) as [l q t w| |].
    + eapply IH; [cbn [out]; eapply tr_step; [exact H|]; eapply t_acts; eassumption|]. split; cbn [t0 t1]; unfold set_thread; cbn; [reflexivity|exact H1].
    + destruct S as (s & p & m & E & El). exists x. split; [exact H|]. split; [split; assumption|]. intros _. exists 0%nat. eapply t_panic; [rewrite H0, E; reflexivity|exact El].
    + eapply IH; [exact H|split; assumption].
  - pose proof (turn_sound (t1 z) (q1 z) (files_now z)) as S. destruct (turn (t1 z) (q1 z) (files_now z)) as [l q t w| |].
    + eapply IH; [cbn [out]; eapply tr_step; [exact H|]; eapply t_acts; eassumption|]. split; cbn [t0 t1]; unfold set_thread; cbn; [exact H0|reflexivity].
    + destruct S as (s & p & m & E & El). exists x. split; [exact H|]. split; [split; assumption|]. intros _. exists 1%nat. eapply t_panic; [rewrite H1, E; reflexivity|exact El].
    + eapply IH; [exact H|split; assumption].
Qed.
Lemma both_open_runs c a b w : exists x, t_runs c (out (both_open c a b w)) (Some x) /\ is_state (both_open c a b w) x.
Proof.
  eexists. split.
  - eapply (tr_step c [(0%nat, DOpen)]); [eapply (tr_step c []); [constructor|]; apply t_open; reflexivity|]. apply (t_open c _ 1%nat). reflexivity.
  - split; reflexivity.
Qed.
Definition c_x : config := mkConfig (str "/x") (str "me") 8192.
Definition files_x : world :=
  mkWorld [(str "/", 1); (str "/x", 2); (str "/x/a", 3)] (fun i => mkNode (i <? 3) 493 (str "hello") (mkTime 100 0) (mkTime 100 0)) 4 (fun _ => None) 100 (mkTime 1000 0).
Definition ask_0 : list tmsg := [MTattach (mkTattachPkt 1 NOFID (str "me") (str "/")); MTwalk (mkTwalkPkt 1 2 [str "a"]); MTopen (mkTopenPkt 2 2); MTwrite (mkTwritePkt 2 1 (str "ALL"))].
Definition ask_1 (n : Z) : list tmsg := [MTattach (mkTattachPkt 7 NOFID (str "me") (str "/")); MTwalk (mkTwalkPkt 7 2 [str "a"]); MTopen (mkTopenPkt 2 0); MTflush (mkTflushPkt 1);
  MTread (mkTreadPkt 2 0 n)].
Fixpoint by_turns (n : nat) : list bool := match n with O => [] | S n => true :: false :: by_turns n end.
Lemma text_crash_spreads : ~ (forall c ls x i d x' j t, IOunit c = 8192 -> t_runs c ls (Some x) -> t_step c (Some x) [(i, d)] x' -> j <> i -> x j = Some t ->
  exists y, x' = Some y /\ y j = Some t).
Proof.
  intros F. destruct (both_open_runs c_x ask_0 (ask_1 (-1)) files_x) as (x & H & Hs).
  pose proof (play_sound c_x (by_turns 1500) _ x H Hs) as P. destruct (play (by_turns 1500) (both_open c_x ask_0 (ask_1 (-1)) files_x)) as [z b] eqn:E.
  assert (b = false) by (apply (f_equal snd) in E; cbn [snd] in E; rewrite <- E; vm_compute; reflexivity).
  destruct P as (x' & P1 & [P2 P3] & P4). destruct (P4 H0) as (i & P5).
  destruct (Nat.eq_dec 0 i) as [<-|N0].
  - destruct (F c_x _ _ 0%nat DPanic None 1%nat _ eq_refl P1 P5 ltac:(discriminate) P3) as (y & K & _). discriminate K.
  - destruct (F c_x _ _ i DPanic None 0%nat _ eq_refl P1 P5 N0 P2) as (y & K & _). discriminate K.
Qed.
