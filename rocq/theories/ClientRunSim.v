(** The goroutines of client.go do what Client.v says: every execution of the text is one of the model. *)
From Verif Require Import Base GoBuf CodecPrim Types Codec Rpc GoSyntax Ufs GoRun GoFmt GoProg GoWp Server ServerRun ServerRunLemmas ServerLemmas
  Client ClientLemmas ClientLemmas2 ClientLemmas6 ClientRun ClientRunLemmas ClientRunText.
From Coq Require String Ascii.
Local Opaque NumTags all_tags.

Lemma beq_eq a b : beq a b = true -> a = b.
Proof.
  revert b. induction a as [|x a IH]; intros [|y b]; cbn [beq]; intros H; try discriminate; [reflexivity|].
  destruct (Byte.eqb x y) eqn:H1; [|discriminate]. f_equal; [|apply IH, H]. apply Byte.byte_dec_bl, H1.
Qed.

(** * From what leads somewhere to what happens *)
Section Inv.
Context (RN : N) (opt : oserr + (value * value * value * N)).
Notation M := (memory nworld).
Notation P := protocol_program.
Notation leads := (leads RN opt).
Lemma hidden_event r vs s : hidden r = true -> event r vs s = LTau.
Proof.
  destruct r; try discriminate; try reflexivity. unfold hidden, event. intros H.
  destruct (beq f (str "io.Copy")) eqn:E1; [exfalso; apply beq_eq in E1; subst f; discriminate|].
  destruct (beq f (str "close")) eqn:E2; [exfalso; apply beq_eq in E2; subst f; discriminate|]. reflexivity.
Qed.
Lemma lstep_leads (I : M -> Prop) m Q s l m' s' : I s -> leads I m Q -> lstep RN opt m s l m' s' -> Q (step P m) \/ (l = LTau /\ s' = s /\ leads I m' Q).
Proof.
  intros Hs H St. destruct H as [H|m1 E H|r m1 f E Hh Ha H]; [left; exact H| |]; right.
  - destruct St; try (rewrite H0 in E; discriminate E). rewrite E in H0. inversion H0; subst. auto.
  - destruct St; rewrite E in H0; try (inversion H0; subst; discriminate).
    inversion H0; subst. rewrite (Ha s Hs) in H1. inversion H1; subst. rewrite hidden_event by assumption. auto.
Qed.
Lemma ldie_leads (I : M -> Prop) m Q s l : I s -> leads I m Q -> ldie RN opt m s l -> Q (step P m).
Proof.
  intros Hs H St. destruct H as [H|m1 E H|r m1 f E Hh Ha H]; [exact H| |]; exfalso.
  - destruct St; rewrite H0 in E; discriminate E.
  - destruct St; rewrite E in H0; try (inversion H0; subst; discriminate). inversion H0; subst. rewrite (Ha s Hs) in H1. discriminate.
Qed.
Lemma ask_leads (I : M -> Prop) m Q r m' : leads I m Q -> step P m = Ask r m' -> hidden r = false -> Q (step P m).
Proof.
  intros H E Hh. destruct H as [H|m1 E' H|r1 m1 f E' Hh' Ha H]; [exact H| |]; exfalso.
  - rewrite E in E'. discriminate.
  - rewrite E in E'. inversion E'; subst. congruence.
Qed.
Lemma lost_leads (I : M -> Prop) m Q s : I s -> leads I m Q -> lost RN opt m s -> Q (step P m).
Proof.
  intros Hs H St. destruct H as [H|m1 E H|r m1 f E Hh Ha H]; [exact H| |]; exfalso.
  - destruct St as [(w & E')|(r & m' & E' & _)]; rewrite E' in E; discriminate.
  - destruct St as [(w & E')|(r' & m' & E' & En & _)]; rewrite E' in E; [discriminate|]. inversion E; subst. rewrite (Ha s Hs) in En. discriminate.
Qed.
End Inv.

(** * Packets *)
Lemma packet_pending evs b r : packet evs = Some (b, r) -> (pending r < pending evs)%nat.
Proof.
  unfold packet. destruct (net_read 7 evs) as [| |l e] eqn:E; try discriminate.
  do 7 (destruct l as [|? l]; [discriminate|]). destruct l; [|discriminate].
  destruct (copy_limit _ e) as [[body e']|] eqn:Ec; [|discriminate]. intros X. inversion X; subst.
  apply net_read_pending in E. apply copy_limit_stream in Ec. cbn [List.length] in E. lia.
Qed.
Lemma packets_fuel n : forall k evs, (pending evs < n)%nat -> (pending evs < k)%nat -> packets_n n evs = packets_n k evs.
Proof.
  induction n as [|n IH]; intros k evs Hn Hk; [lia|]. destruct k as [|k]; [lia|]. cbn [packets_n].
  destruct (packet evs) as [[b r]|] eqn:E; [|reflexivity]. apply packet_pending in E. f_equal. apply IH; lia.
Qed.
Lemma packets_cons evs b r : packet evs = Some (b, r) -> packets evs = b :: packets r.
Proof.
  intros E. unfold packets at 1. cbn [packets_n]. rewrite E. f_equal. apply packet_pending in E. apply packets_fuel; lia.
Qed.
Lemma packet_of evs h r n c r' : net_read 7 evs = RdData h r -> List.length h = 7%nat -> n = N.to_nat (size_of h - 7) -> copy_limit n r = Some (c, r') ->
  packet evs = Some (h ++ c, r').
Proof.
  intros E Hl -> Ec. unfold packet. rewrite E. do 7 (destruct h as [|? h]; [discriminate|]). destruct h; [|discriminate].
  unfold size_of in Ec. cbn [nth] in Ec. rewrite Ec. reflexivity.
Qed.

(** What is seen of an execution: no silent steps; a write shows what was written, not for which call. *)
Definition seen1 (l : lbl) : list lbl := match l with LTau => [] | LWrite _ q => [LWrite 0 q] | l => [l] end.
Definition seen (ls : list lbl) : list lbl := flat_map seen1 ls.
Definition reads (ls : list lbl) : list bytes := flat_map (fun l => match l with LRead b => [b] | _ => [] end) ls.
Lemma seen_app a b : seen (a ++ b) = seen a ++ seen b. Proof. apply flat_map_app. Qed.
Lemma reads_app a b : reads (a ++ b) = reads a ++ reads b. Proof. apply flat_map_app. Qed.
Lemma reads_seen ls : reads (seen ls) = reads ls.
Proof. induction ls as [|l ls IH]; [reflexivity|]. change (l :: ls) with ([l] ++ ls). rewrite seen_app, !reads_app, IH. f_equal. destruct l; reflexivity. Qed.

(** * The relation *)
Section Rel.
Context (RN : N) (opt : oserr + (value * value * value * N)) (C tg fc fs wn rn tn msz : N) (tr hn : bool).
Notation M := (memory nworld).
Notation P := protocol_program.
Notation leads := (leads RN opt).
Notation v_cl := (v_cl tg fc fs wn rn tn msz tr hn).
Notation Base := (base RN C tg fc fs wn rn tn msz tr hn).
Notation Boxed := (boxed RN C tg fc fs wn rn tn msz tr hn).
Notation HasReply := (has_reply RN C tg fc fs wn rn tn msz tr hn).
Notation HasBoth := (has_both RN C tg fc fs wn rn tn msz tr hn).
Notation HasCall := (has_call RN C tg fc fs wn rn tn msz tr hn).
Notation HasArr := (has_arr RN C tg fc fs wn rn tn msz tr hn).
Notation HasBuf := (has_buf RN C tg fc fs wn rn tn msz tr hn).
Notation "'AT' f" := (f RN opt C tg fc fs wn rn tn msz tr hn) (at level 9, f at level 0).

(** m is in a place from which it can only get to Q, and memory is as that needs it. *)
Definition on (I : M -> Prop) (m : machine) (Q : res -> Prop) (s : M) : Prop := I s /\ leads I m Q.
(** The cell of the RPCCall and the number of the Reply channel of every call. *)
Context (adr rch : nat -> N).
Definition p_call (c : nat) : value := VPtr (str "RPCCall") (adr c) [].
Definition slot (o : option nat) : value := match o with Some c => p_call c | None => VNil end.

(** IO; the cell of its variable c is known once it is there. *)
Inductive io_ph (s : M) (closed : bool) (m : machine) : option N -> recv -> Prop :=
| io_0 : on Base m (AT at_box) s -> io_ph s closed m None VWait
| io_1 B : on (Boxed B) m (AT at_go B) s -> io_ph s closed m None VWait
| io_wait B : on (Boxed B) m (AT at_vrecv B) s -> io_ph s closed m (Some B) VWait
| io_nil B : closed = true -> on (Boxed B) m at_panic s -> io_ph s closed m (Some B) VWait
| io_have B a b : on (HasReply B a b) m (AT at_have B a b) s -> io_ph s closed m (Some B) (VHave b)
| io_doom B a b : on (HasReply B a b) m at_panic s -> io_ph s closed m (Some B) VDoomed
| io_del B a b t c : on (HasBoth B a b (adr c) (rch c)) m (AT at_deliver B b t (rch c)) s -> io_ph s closed m (Some B) (VDeliver b t c)
| io_ret B t : on (Boxed B) m (AT at_vreturn B t) s -> io_ph s closed m (Some B) (VReturn t).
Inductive snd_ph (s : M) (m : machine) (B : N) : sender -> Prop :=
| sp_idle : on (Boxed B) m (AT at_srecv B) s -> snd_ph s m B SIdle
| sp_call c q : (7 <= List.length q)%nat -> on (HasCall B (adr c) q (rch c)) m (AT at_stag B (adr c)) s -> snd_ph s m B (SCall c q)
| sp_5 c t q : (7 <= List.length q)%nat -> on (HasCall B (adr c) q (rch c)) m (AT at_s5 B (adr c) t q (rch c)) s -> snd_ph s m B (STagged c t (set_tag t q))
| sp_6 c t q : (7 <= List.length q)%nat -> on (HasCall B (adr c) (set5 t q) (rch c)) m (AT at_s6 B (adr c) t q (rch c)) s -> snd_ph s m B (STagged c t (set_tag t q))
| sp_slot c t q : on (HasCall B (adr c) q (rch c)) m (AT at_sslot B (adr c) t q (rch c)) s -> snd_ph s m B (STagged c t q)
| sp_write c t q : on (HasCall B (adr c) q (rch c)) m (AT at_swrite B q) s -> snd_ph s m B (SSlotted c t q)
| sp_dead c t q : on (Boxed B) m (AT at_sdead B) s -> snd_ph s m B (SSlotted c t q)
| sp_fatal c t q : on (Boxed B) m at_sfatal s -> snd_ph s m B (SSlotted c t q).
(** [up]: the packets still to come. *)
Inductive rd_ph (s : M) (m : machine) (up : list bytes) : reader -> Prop :=
| rp_gone : on Base m (AT at_gone) s -> rd_ph s m up RGone
| rp_gone2 : on Base m at_end s -> rd_ph s m up RGone
| rp_load : hn = true -> up = packets (w_net (rest s)) -> on Base m (AT at_nload) s -> rd_ph s m up RRead
| rp_make : hn = true -> up = packets (w_net (rest s)) -> on Base m (AT at_nmake) s -> rd_ph s m up RRead
| rp_read a : hn = true -> up = packets (w_net (rest s)) -> on (HasArr a (repeat x00 7)) m (AT at_nread a) s -> rd_ph s m up RRead
| rp_buf a h e : hn = true -> up = packets e -> net_read 7 e = RdData h (w_net (rest s)) -> List.length h = 7%nat -> on (HasArr a h) m (AT at_nbuf a h) s -> rd_ph s m up RRead
| rp_copy a h b e : hn = true -> up = packets e -> net_read 7 e = RdData h (w_net (rest s)) -> List.length h = 7%nat -> on (HasBuf a h b (Buf h [])) m (AT at_ncopy a h b) s -> rd_ph s m up RRead
| rp_reply a h b p : hn = true -> up = packets (w_net (rest s)) -> (7 <= List.length p)%nat -> on (HasBuf a h b (Buf p [])) m (AT at_nreply p) s -> rd_ph s m up (RHave p)
| rp_send a p : hn = true -> up = packets (w_net (rest s)) -> (7 <= List.length p)%nat -> cells s a = Some (v_reply p) -> on Base m (AT at_nsend a) s -> rd_ph s m up (RHave p)
| rp_dead : on Base m (AT at_ndead) s -> rd_ph s m up RRead
| rp_close : on Base m (AT at_close) s -> rd_ph s m up RRead
| rp_end : on Base m at_end s -> rd_ph s m up RClosed.

Definition closed (k : cst) : bool := match rdr k with RClosed => true | _ => false end.
Definition user_as (x : caller) (u : user) (a n : N) : Prop :=
  match x with CIdle => u = UIdle | CSend q => u = USend q a n | CWait q => u = UWait q n | CDone q r => u = UDone q r end.
Record memory_as (s : M) (us : nat -> user) (k : cst) : Prop := {
  m_names : cells s RN = Some v_names;
  m_client : exists L dd, cells s C = Some (v_cl (fid k) L dd) /\ List.length L = NumTags /\
    forall t, 1 <= t -> t <= N.of_nat NumTags -> nth_error L (N.to_nat t - 1) = Some (slot (rpc k t));
  m_tags : w_chans (rest s) tg = Some (mkCh (N.of_nat NumTags) (map (VU 16) (tags k)) false);
  m_fc : w_chans (rest s) fc = Some (mkCh (N.of_nat NumTags) (map (fun x => p_call (fst x)) (queue k)) false);
  m_fs : w_chans (rest s) fs = Some (mkCh 0 [] (closed k));
  m_distinct : tg <> fc;
  m_user : forall c, user_as (callers k c) (us c) (adr c) (rch c);
  m_call : forall c, callers k c <> CIdle -> exists q, cells s (adr c) = Some (v_call q (rch c)) /\ (7 <= List.length q)%nat /\
    w_chans (rest s) (rch c) = Some (mkCh 0 [] false) /\ rch c <> fs;
  m_send : forall c q, callers k c = CSend q \/ In (c, q) (queue k) -> cells s (adr c) = Some (v_call q (rch c));
  m_inj : forall c c', callers k c <> CIdle -> callers k c' <> CIdle -> adr c = adr c' \/ rch c = rch c' -> c = c';
  m_free : forall a, free s <= a -> cells s a = None;
  m_next : forall n, w_next (rest s) <= n -> w_chans (rest s) n = None
}.
(** The sender is there once IO has started it. *)
Definition snds (s : M) (ms : list machine) (o : option N) (x : sender) : Prop :=
  match o with None => ms = [] /\ x = SIdle | Some B => exists m, ms = [m] /\ snd_ph s m B x end.
Record threads_as (s : M) (ths : list machine) (k : cst) (up : list bytes) (mi mn : machine) (ms : list machine) (o : option N) : Prop := {
  th_all : ths = mi :: mn :: ms;
  th_io : io_ph s (closed k) mi o (rcv k);
  th_rd : rd_ph s mn up (rdr k);
  th_snd : snds s ms o (snd_ k)
}.
End Rel.
Section Related.
Context (RN : N) (opt : oserr + (value * value * value * N)) (C tg fc fs wn rn tn msz : N) (tr hn : bool).
Record related (evs : list rev) (g : gstate) (k : cst) (ls : list lbl) : Prop := {
  r_model : csteps tr (init hn) ls k;
  r_dead : g_dead g = crashed k;
  r_reads : exists up, packets evs = reads ls ++ up /\ (crashed k = false -> exists adr rch mi mn ms o,
    memory_as RN C tg fc fs wn rn tn msz tr hn adr rch (g_mem g) (g_users g) k /\
    threads_as RN opt C tg fc fs wn rn tn msz tr hn adr rch (g_mem g) (g_threads g) k up mi mn ms o)
}.
End Related.
