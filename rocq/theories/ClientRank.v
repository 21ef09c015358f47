(** The goroutines of client.go come to a stop when nothing more arrives and no new call is made: where each of them is, with a number that goes down. *)
From Verif Require Import Base GoBuf CodecPrim Types Codec Rpc GoSyntax Ufs GoRun GoFmt GoProg GoWp Server ServerLemmas ServerRun ServerRunLemmas
  Client ClientLemmas ClientLemmas2 ClientLemmas6 ClientRun ClientRunLemmas ClientRunText ClientRunSim ClientRunSim2 ClientRunSim3.
From Coq Require String Ascii.
Local Opaque NumTags all_tags.

(** Calls that still have to be written. *)
Definition wsnd (x : sender) : nat := match x with SIdle => 0 | SCall _ _ => 8 | STagged _ _ _ => 7 | SSlotted _ _ _ => 6 end.
Definition cost (L : list nat) (k : cst) : nat := (10 * List.length L + 9 * List.length (queue k) + wsnd (snd_ k))%nat.
Definition covers (L : list nat) (k : cst) : Prop := forall c q, callers k c = CSend q -> In c L.
Definition pend (s : memory nworld) : nat := pending (w_net (rest s)).
Definition lt3 (a e f a' e' f' : nat) : Prop := (a < a' \/ a = a' /\ (e < e' \/ e = e' /\ f < f'))%nat.

Section Rank.
Context (RN : N) (opt : oserr + (value * value * value * N)) (C tg fc fs wn rn tn msz : N) (tr hn : bool) (cc : Prop).
Notation M := (memory nworld).
Notation P := protocol_program.
Notation leads := (leads RN opt).
Notation on := (on RN opt).
Notation Base := (base RN C tg fc fs wn rn tn msz tr hn).
Notation Boxed := (boxed RN C tg fc fs wn rn tn msz tr hn).
Notation HasReply := (has_reply RN C tg fc fs wn rn tn msz tr hn).
Notation HasBoth := (has_both RN C tg fc fs wn rn tn msz tr hn).
Notation HasCall := (has_call RN C tg fc fs wn rn tn msz tr hn).
Notation HasArr := (has_arr RN C tg fc fs wn rn tn msz tr hn).
Notation HasBuf := (has_buf RN C tg fc fs wn rn tn msz tr hn).
Notation memory_as := (memory_as RN C tg fc fs wn rn tn msz tr hn).
Notation "'AT' f" := (f RN opt C tg fc fs wn rn tn msz tr hn) (at level 9, f at level 0).
Definition HasSent (a : N) (p : bytes) (s : M) : Prop := Base s /\ cells s a = Some (v_reply p).

(** The places of ClientRunSim.v: the number, what memory must be like, where it leads to. *)
Inductive io_q (adr rch : nat -> N) (cl : bool) : nat -> (M -> Prop) -> (res -> Prop) -> option N -> recv -> Prop :=
| iq_0 : io_q adr rch cl 13 Base (AT at_box) None VWait
| iq_1 B : io_q adr rch cl 12 (Boxed B) (AT at_go B) None VWait
| iq_wait B : io_q adr rch cl 1 (Boxed B) (AT at_vrecv B) (Some B) VWait
| iq_nil B : cl = true -> io_q adr rch cl 0 (Boxed B) at_panic (Some B) VWait
| iq_have B a b : io_q adr rch cl 4 (HasReply B a b) (AT at_have B a b) (Some B) (VHave b)
| iq_doom B a b : io_q adr rch cl 0 (HasReply B a b) at_panic (Some B) VDoomed
| iq_del B a b t c : io_q adr rch cl 3 (HasBoth B a b (adr c) (rch c)) (AT at_deliver B b t (rch c)) (Some B) (VDeliver b t c)
| iq_ret B t : io_q adr rch cl 2 (Boxed B) (AT at_vreturn B t) (Some B) (VReturn t).
Inductive snd_q (adr rch : nat -> N) (B : N) : nat -> (M -> Prop) -> (res -> Prop) -> sender -> Prop :=
| sq_idle : snd_q adr rch B 0 (Boxed B) (AT at_srecv B) SIdle
| sq_call c q : (7 <= List.length q)%nat -> snd_q adr rch B 0 (HasCall B (adr c) q (rch c)) (AT at_stag B (adr c)) (SCall c q)
| sq_5 c t q : (7 <= List.length q)%nat -> snd_q adr rch B 3 (HasCall B (adr c) q (rch c)) (AT at_s5 B (adr c) t q (rch c)) (STagged c t (set_tag t q))
| sq_6 c t q : (7 <= List.length q)%nat -> snd_q adr rch B 2 (HasCall B (adr c) (set5 t q) (rch c)) (AT at_s6 B (adr c) t q (rch c)) (STagged c t (set_tag t q))
| sq_slot c t q : snd_q adr rch B 1 (HasCall B (adr c) q (rch c)) (AT at_sslot B (adr c) t q (rch c)) (STagged c t q)
| sq_write c t q : snd_q adr rch B 12 (HasCall B (adr c) q (rch c)) (AT at_swrite B q) (SSlotted c t q)
| sq_dead c t q : snd_q adr rch B 11 (Boxed B) (AT at_sdead B) (SSlotted c t q)
| sq_fatal c t q : snd_q adr rch B 10 (Boxed B) at_sfatal (SSlotted c t q).
Inductive rd_q : nat -> (M -> Prop) -> (res -> Prop) -> reader -> Prop :=
| rq_gone : rd_q 1 Base (AT at_gone) RGone
| rq_gone2 : rd_q 0 Base at_end RGone
| rq_load : hn = true -> rd_q 20 Base (AT at_nload) RRead
| rq_make : hn = true -> rd_q 19 Base (AT at_nmake) RRead
| rq_read a : hn = true -> rd_q 18 (HasArr a (repeat x00 7)) (AT at_nread a) RRead
| rq_buf a h : hn = true -> List.length h = 7%nat -> rd_q 32 (HasArr a h) (AT at_nbuf a h) RRead
| rq_copy a h b : hn = true -> List.length h = 7%nat -> rd_q 31 (HasBuf a h b (Buf h [])) (AT at_ncopy a h b) RRead
| rq_reply a h b p : hn = true -> (7 <= List.length p)%nat -> rd_q 30 (HasBuf a h b (Buf p [])) (AT at_nreply p) (RHave p)
| rq_send a p : hn = true -> (7 <= List.length p)%nat -> rd_q 29 (HasSent a p) (AT at_nsend a) (RHave p)
| rq_dead : rd_q 17 Base (AT at_ndead) RRead
| rq_close : rd_q 16 Base (AT at_close) RRead
| rq_end : rd_q 0 Base at_end RClosed.
Definition io_r adr rch s cl f m o v : Prop := exists I Q, io_q adr rch cl f I Q o v /\ on I m Q s.
Definition snd_r adr rch s f m B x : Prop := exists I Q, snd_q adr rch B f I Q x /\ on I m Q s.
Definition rd_r s f m x : Prop := exists I Q, rd_q f I Q x /\ on I m Q s.
Definition snds_r adr rch s f ms o x : Prop := match o with None => ms = [] /\ x = SIdle /\ f = 0%nat | Some B => exists m, ms = [m] /\ snd_r adr rch s f m B x end.

Lemma io_at adr rch s cl f I Q m o v : io_q adr rch cl f I Q o v -> I s -> leads I m Q -> io_r adr rch s cl f m o v.
Proof. intros H1 H2 H3. exists I, Q. split; [exact H1|split; assumption]. Qed.
Lemma snd_at adr rch s f I Q m B x : snd_q adr rch B f I Q x -> I s -> leads I m Q -> snds_r adr rch s f [m] (Some B) x.
Proof. intros H1 H2 H3. exists m. split; [reflexivity|]. exists I, Q. split; [exact H1|split; assumption]. Qed.
Lemma rd_at s f I Q m x : rd_q f I Q x -> I s -> leads I m Q -> rd_r s f m x.
Proof. intros H1 H2 H3. exists I, Q. split; [exact H1|split; assumption]. Qed.
(** From the relation of ClientRunSim.v. *)
Lemma io_ranked adr rch s cl m o v : io_ph RN opt C tg fc fs wn rn tn msz tr hn adr rch s cl m o v -> exists f, io_r adr rch s cl f m o v.
Proof. intros [H|B H|B H|B Hc H|B a b H|B a b H|B a b t c H|B t H]; eexists _, _, _; (split; [|exact H]); econstructor; eassumption. Qed.
Lemma snd_ranked adr rch s m B x : snd_ph RN opt C tg fc fs wn rn tn msz tr hn adr rch s m B x -> exists f, snd_r adr rch s f m B x.
Proof. intros [H|c q Hq H|c t q Hq H|c t q Hq H|c t q H|c t q H|c t q H|c t q H]; eexists _, _, _; (split; [|exact H]); econstructor; eassumption. Qed.
Lemma rd_ranked s m up x : rd_ph RN opt C tg fc fs wn rn tn msz tr hn s m up x -> exists f, rd_r s f m x.
Proof.
  intros [H|H|Hn Hu H|Hn Hu H|a Hn Hu H|a h e Hn Hu Hr Hl H|a h b e Hn Hu Hr Hl H|a h b p Hn Hu Hl H|a p Hn Hu Hl Ea H|H|H|H].
  all: try (eexists _, _, _; (split; [|exact H]); econstructor; eassumption).
  eexists _, _, _. split; [apply (rq_send a p Hn Hl)|]. destruct H as [H1 H2]. split; [split; [exact H1|exact Ea]|].
  eapply ld_stronger; [|exact H2]. intros s1 [X _]. exact X.
Qed.

(** * Changes of memory *)
Lemma io_I adr rch s s' cl f I Q o v : Base s' -> keep 0 s s' -> keep_calls s s' -> io_q adr rch cl f I Q o v -> I s -> I s'.
Proof.
  intros Hb K0 K2 H. assert (Kb : forall B, Boxed B s -> Boxed B s') by (intros B (_ & E); split; [exact Hb|]; apply K0; [reflexivity|exact E]).
  assert (Kr : forall B a b, HasReply B a b s -> HasReply B a b s') by (intros B a b (H1 & E); split; [auto|]; apply K0; [reflexivity|exact E]).
  destruct H; auto. intros (H & q & E). split; [auto|]. eapply K2. exact E.
Qed.
Lemma snd_I adr rch s s' B f I Q x : Base s' -> keep 0 s s' -> keep 2 s s' -> snd_q adr rch B f I Q x -> I s -> I s'.
Proof.
  intros Hb K0 K2 H. assert (Kb : Boxed B s -> Boxed B s') by (intros (_ & E); split; [exact Hb|]; apply K0; [reflexivity|exact E]).
  assert (Kr : forall a q ch, HasCall B a q ch s -> HasCall B a q ch s') by (intros a q ch (H1 & E); split; [auto|]; apply K2; [reflexivity|exact E]).
  destruct H; auto.
Qed.
Lemma rd_I s s' f I Q x : Base s' -> keep 0 s s' -> keep 1 s s' -> rd_q f I Q x -> I s -> I s'.
Proof.
  intros Hb K0 K1 H.
  assert (Ka : forall a h, HasArr a h s -> HasArr a h s') by (intros a h (H1 & E); split; [auto|]; apply K1; [reflexivity|exact E]).
  assert (Kf : forall a h b u, HasBuf a h b u s -> HasBuf a h b u s') by (intros a h b u (H1 & E); split; [auto|]; apply K1; [reflexivity|exact E]).
  destruct H; auto. intros (_ & E). split; [exact Hb|]. apply K0; [reflexivity|exact E].
Qed.
Lemma io_rkeep adr rch s s' cl cl' f m o v : Base s' -> keep 0 s s' -> keep_calls s s' -> (cl = true -> cl' = true) -> io_r adr rch s cl f m o v -> io_r adr rch s' cl' f m o v.
Proof.
  intros Hb K0 K2 Hc (I & Q & H & H1 & H2). exists I, Q. split; [destruct H; econstructor; auto|]. split; [eapply io_I; eassumption|exact H2].
Qed.
Lemma snds_rkeep adr rch s s' f ms o x : Base s' -> keep 0 s s' -> keep 2 s s' -> snds_r adr rch s f ms o x -> snds_r adr rch s' f ms o x.
Proof. intros Hb K0 K2. destruct o; cbn; [|auto]. intros (m & E & I & Q & H & H1 & H2). exists m. split; [exact E|]. exists I, Q. split; [exact H|]. split; [eapply snd_I; eassumption|exact H2]. Qed.
Lemma rd_rkeep s s' f m x : Base s' -> keep 0 s s' -> keep 1 s s' -> rd_r s f m x -> rd_r s' f m x.
Proof. intros Hb K0 K1 (I & Q & H & H1 & H2). exists I, Q. split; [exact H|]. split; [eapply rd_I; eassumption|exact H2]. Qed.

(** * Steps *)
(** The client has not given up: Dead is false, readNetPackets is in its loop, and the sending goroutine has not failed to write. *)
Definition undead (s : M) : Prop := exists f L, cells s C = Some (v_cl tg fc fs wn rn tn msz tr hn f L false).
Definition calm (s : M) (f2 f3 : nat) : Prop := undead s /\ (18 <= f2)%nat /\ f3 <> 10%nat /\ f3 <> 11%nat.
Lemma undead_keep s s' : keep 3 s s' -> undead s -> undead s'.
Proof. intros K (f & L & H). exists f, L. apply K; [reflexivity|exact H]. Qed.
Definition good_q (f : nat) (s : M) (us : nat -> user) (ths : list machine) (k : cst) : Prop :=
  exists adr rch mi mn ms o f1 f2 f3, memory_as adr rch s us k /\ ths = mi :: mn :: ms /\ io_r adr rch s (closed k) f1 mi o (rcv k) /\ rd_r s f2 mn (rdr k) /\
    snds_r adr rch s f3 ms o (snd_ k) /\ f = (f1 + f2 + f3)%nat /\ (cc -> calm s f2 f3).
(** Something has gone down. *)
Definition after_q (L : list nat) (k : cst) (s : M) (f : nat) (s' : M) (us : nat -> user) (ths : list machine) : Prop :=
  exists ls k' f' L', csteps tr k ls k' /\ crashed k' = false /\ good_q f' s' us ths k' /\ covers L' k' /\ lt3 (cost L' k') (pend s') f' (cost L k) (pend s) f.
Lemma did L k s f s' us mi mn ms ls k' L' adr rch o f1 f2 f3 : csteps tr k ls k' -> crashed k' = false -> covers L' k' -> memory_as adr rch s' us k' ->
  io_r adr rch s' (closed k') f1 mi o (rcv k') -> rd_r s' f2 mn (rdr k') -> snds_r adr rch s' f3 ms o (snd_ k') ->
  lt3 (cost L' k') (pend s') (f1 + f2 + f3) (cost L k) (pend s) f -> (cc -> calm s' f2 f3) -> after_q L k s f s' us (mi :: mn :: ms).
Proof. intros H1 H2 H3 H4 H5 H6 H7 H8 H9. exists ls, k', (f1 + f2 + f3)%nat, L'. repeat (split; [first [assumption|exists adr, rch, mi, mn, ms, o, f1, f2, f3; auto 12]|]). exact H8. Qed.
End Rank.
