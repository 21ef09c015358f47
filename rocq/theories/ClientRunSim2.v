(** How the relation of ClientRunSim.v survives changes of memory. *)
From Verif Require Import Base GoBuf CodecPrim Types Codec Rpc GoSyntax Ufs GoRun GoFmt GoProg GoWp Server ServerRun ServerRunLemmas
  Client ClientLemmas ClientLemmas2 ClientLemmas6 ClientRun ClientRunLemmas ClientRunText ClientRunSim.
From Coq Require String Ascii.
Local Opaque NumTags all_tags.

(** Cells of different kinds are different cells: 0: pointers and replies, written once; 1: the reader's buffers; 2: calls; 3: the rest. *)
Definition kind (v : value) : nat :=
  match v with
  | VPtr _ _ _ => 0
  | VArr _ | VBuf _ => 1
  | VStruct t _ => if beq t (str "RPCReply") then 0 else if beq t (str "RPCCall") then 2 else 3
  | _ => 3
  end%nat.
Definition keep (k : nat) (s s' : memory nworld) : Prop := forall a v, kind v = k -> cells s a = Some v -> cells s' a = Some v.
(** A call may get other bytes, but keeps its channel. *)
Definition keep_calls (s s' : memory nworld) : Prop := forall a q ch, cells s a = Some (v_call q ch) -> exists q', cells s' a = Some (v_call q' ch).
Lemma kind_call q ch : kind (v_call q ch) = 2%nat. Proof. reflexivity. Qed.
Lemma kind_reply b : kind (v_reply b) = 0%nat. Proof. reflexivity. Qed.
Lemma keep_keep_calls s s' : keep 2 s s' -> keep_calls s s'.
Proof. intros H a q ch E. exists q. apply H; [reflexivity|exact E]. Qed.
Lemma keep_cell k s a v w : cells s a = Some w -> kind w <> k -> keep k s (with_cell s a v).
Proof. intros E Hk b x Hx Eb. cbn. unfold put_cell. destruct (N.eqb_spec b a); [|exact Eb]. subst b. congruence. Qed.
Lemma keep_new k s v : cells s (free s) = None -> keep k s (with_new s v).
Proof. intros E b x Hx Eb. cbn. unfold put_cell. destruct (N.eqb_spec b (free s)); [|exact Eb]. subst b. congruence. Qed.
Lemma keep_same k s s' : cells s' = cells s -> keep k s s'.
Proof. intros E a v _ H. rewrite E. exact H. Qed.
Lemma put_cell_same h a v : put_cell h a v a = Some v. Proof. unfold put_cell. rewrite N.eqb_refl. reflexivity. Qed.
Lemma put_cell_other h a v b : b <> a -> put_cell h a v b = h b. Proof. intros H. unfold put_cell. destruct (N.eqb_spec b a); [contradiction|reflexivity]. Qed.
Lemma put_chan_same h a v : put_chan h a v a = Some v. Proof. unfold put_chan. rewrite N.eqb_refl. reflexivity. Qed.
Lemma put_chan_other h a v b : b <> a -> put_chan h a v b = h b. Proof. intros H. unfold put_chan. destruct (N.eqb_spec b a); [contradiction|reflexivity]. Qed.
Lemma v_call_inj q ch q' ch' : v_call q ch = v_call q' ch' -> q = q' /\ ch = ch'.
Proof. intros H. inversion H. auto. Qed.
Lemma set_nth_length i x l : List.length (set_nth i x l) = List.length l.
Proof. revert i. induction l as [|y l IH]; intros [|i]; cbn; auto. Qed.
Lemma nth_set_nth i j x l : (forall w, In w l -> like w x = x) -> (i < List.length l)%nat -> nth_error (set_nth i x l) j = if Nat.eqb j i then Some x else nth_error l j.
Proof.
  revert i j. induction l as [|y l IH]; intros [|i] [|j] Hw H; cbn in *; try lia; try reflexivity.
  - rewrite Hw by auto. reflexivity.
  - apply IH; [auto|lia].
Qed.

Section Keep.
Context (RN : N) (opt : oserr + (value * value * value * N)) (C tg fc fs wn rn tn msz : N) (tr hn : bool).
Notation M := (memory nworld).
Notation P := protocol_program.
Notation v_cl := (v_cl tg fc fs wn rn tn msz tr hn).
Notation Base := (base RN C tg fc fs wn rn tn msz tr hn).
Notation io_ph := (io_ph RN opt C tg fc fs wn rn tn msz tr hn).
Notation snd_ph := (snd_ph RN opt C tg fc fs wn rn tn msz tr hn).
Notation rd_ph := (rd_ph RN opt C tg fc fs wn rn tn msz tr hn).
Notation memory_as := (memory_as RN C tg fc fs wn rn tn msz tr hn).
Lemma io_keep adr rch s s' cl cl' m o v : Base s' -> keep 0 s s' -> keep_calls s s' -> (cl = true -> cl' = true) ->
  io_ph adr rch s cl m o v -> io_ph adr rch s' cl' m o v.
Proof.
  intros Hb K0 K2 Hc H. assert (Kb : forall B, boxed RN C tg fc fs wn rn tn msz tr hn B s -> boxed RN C tg fc fs wn rn tn msz tr hn B s').
  { intros B (_ & E). split; [exact Hb|]. apply K0; [reflexivity|exact E]. }
  assert (Kr : forall B a b, has_reply RN C tg fc fs wn rn tn msz tr hn B a b s -> has_reply RN C tg fc fs wn rn tn msz tr hn B a b s').
  { intros B a b (H1 & E). split; [auto|]. apply K0; [reflexivity|exact E]. }
  destruct H as [[H L]|B [H L]|B [H L]|B Hc' [H L]|B a b [H L]|B a b [H L]|B a b t c [H L]|B t [H L]].
  - apply io_0. split; auto.
  - apply io_1 with B. split; auto.
  - apply io_wait. split; auto.
  - apply io_nil; [auto|]. split; auto.
  - apply io_have with a. split; auto.
  - apply io_doom with a b. split; auto.
  - apply io_del with a. split; auto. destruct H as (H & q & E). split; [auto|]. eapply K2. exact E.
  - apply io_ret. split; auto.
Qed.
Lemma snd_keep adr rch s s' m B x : Base s' -> keep 0 s s' -> keep 2 s s' -> snd_ph adr rch s m B x -> snd_ph adr rch s' m B x.
Proof.
  intros Hb K0 K2 H. assert (Kb : boxed RN C tg fc fs wn rn tn msz tr hn B s -> boxed RN C tg fc fs wn rn tn msz tr hn B s').
  { intros (_ & E). split; [exact Hb|]. apply K0; [reflexivity|exact E]. }
  assert (Kr : forall a q ch, has_call RN C tg fc fs wn rn tn msz tr hn B a q ch s -> has_call RN C tg fc fs wn rn tn msz tr hn B a q ch s').
  { intros a q ch (H1 & E). split; [auto|]. apply K2; [reflexivity|exact E]. }
  destruct H as [[H L]|c q Hq [H L]|c t q Hq [H L]|c t q Hq [H L]|c t q [H L]|c t q [H L]|c t q [H L]|c t q [H L]].
  - apply sp_idle. split; auto.
  - apply sp_call; [exact Hq|]. split; auto.
  - apply sp_5; [exact Hq|]. split; auto.
  - apply sp_6; [exact Hq|]. split; auto.
  - apply sp_slot. split; auto.
  - apply sp_write. split; auto.
  - apply sp_dead. split; auto.
  - apply sp_fatal. split; auto.
Qed.
Lemma rd_keep s s' m up x : Base s' -> keep 0 s s' -> keep 1 s s' -> w_net (rest s') = w_net (rest s) -> rd_ph s m up x -> rd_ph s' m up x.
Proof.
  intros Hb K0 K1 En H.
  assert (Ka : forall a h, has_arr RN C tg fc fs wn rn tn msz tr hn a h s -> has_arr RN C tg fc fs wn rn tn msz tr hn a h s').
  { intros a h (H1 & E). split; [auto|]. apply K1; [reflexivity|exact E]. }
  assert (Kf : forall a h b u, has_buf RN C tg fc fs wn rn tn msz tr hn a h b u s -> has_buf RN C tg fc fs wn rn tn msz tr hn a h b u s').
  { intros a h b u (H1 & E). split; [auto|]. apply K1; [reflexivity|exact E]. }
  destruct H as [[H L]|[H L]|Hn Hu [H L]|Hn Hu [H L]|a Hn Hu [H L]|a h e Hn Hu Hr Hl [H L]|a h b e Hn Hu Hr Hl [H L]|a h b p Hn Hu Hl [H L]|a p Hn Hu Hl Ea [H L]|[H L]|[H L]|[H L]].
  - apply rp_gone. split; auto.
  - apply rp_gone2. split; auto.
  - apply rp_load; [exact Hn|congruence|]. split; auto.
  - apply rp_make; [exact Hn|congruence|]. split; auto.
  - apply rp_read with a; [exact Hn|congruence|]. split; auto.
  - apply rp_buf with a h e; [exact Hn|congruence|congruence|exact Hl|]. split; auto.
  - apply rp_copy with a h b e; [exact Hn|congruence|congruence|exact Hl|]. split; auto.
  - apply rp_reply with a h b; [exact Hn|congruence|exact Hl|]. split; auto.
  - apply rp_send with a; [exact Hn|congruence|exact Hl|apply K0; [reflexivity|exact Ea]|]. split; auto.
  - apply rp_dead. split; auto.
  - apply rp_close. split; auto.
  - apply rp_end. split; auto.
Qed.
Lemma ma_base adr rch s us k : memory_as adr rch s us k -> Base s.
Proof. intros H. split; [|apply (m_names _ _ _ _ _ _ _ _ _ _ _ _ _ _ _ _ H)]. destruct (m_client _ _ _ _ _ _ _ _ _ _ _ _ _ _ _ _ H) as (L & dd & E & El & _). eauto. Qed.
(** Memory as before, and the model where memory_as looks at it too. *)
Lemma ma_ext adr rch s us k k' : memory_as adr rch s us k -> tags k' = tags k -> fid k' = fid k -> rpc k' = rpc k -> queue k' = queue k -> callers k' = callers k -> closed k' = closed k ->
  memory_as adr rch s us k'.
Proof. intros [] E1 E2 E3 E4 E5 E6. constructor; rewrite ?E1, ?E2, ?E3, ?E4, ?E5, ?E6; assumption. Qed.
(** Pointers, replies and buffers do not matter to it. *)
Lemma ma_frame adr rch s s' us k : memory_as adr rch s us k -> keep 2 s s' -> keep 3 s s' -> (forall a, free s' <= a -> cells s' a = None) ->
  w_chans (rest s') = w_chans (rest s) -> w_next (rest s') = w_next (rest s) -> memory_as adr rch s' us k.
Proof.
  intros [] K2 K3 Hf Ew Ex. constructor; rewrite ?Ew, ?Ex; try assumption.
  - apply K3; [reflexivity|assumption].
  - destruct m_client as (L & dd & E & H). exists L, dd. split; [|exact H]. apply K3; [reflexivity|exact E].
  - intros c Hc. destruct (m_call c Hc) as (q & E & H). exists q. split; [|exact H]. apply K2; [reflexivity|exact E].
  - intros c q Hc. apply K2; [reflexivity|]. apply m_send, Hc.
Qed.
Lemma ma_new adr rch s us k v : memory_as adr rch s us k -> memory_as adr rch (with_new s v) us k.
Proof.
  intros H. pose proof (m_free _ _ _ _ _ _ _ _ _ _ _ _ _ _ _ _ H) as Hf. apply ma_frame with s; try exact H; try reflexivity.
  - apply keep_new, Hf. lia.
  - apply keep_new, Hf. lia.
  - cbn. intros a Ha. rewrite put_cell_other by lia. apply Hf. lia.
Qed.
(** The client's cell. *)
Lemma ma_client adr rch s us k k' L dd : memory_as adr rch s us k -> List.length L = NumTags ->
  (forall t, 1 <= t -> t <= N.of_nat NumTags -> nth_error L (N.to_nat t - 1) = Some (slot adr (rpc k' t))) ->
  tags k' = tags k -> queue k' = queue k -> callers k' = callers k -> closed k' = closed k ->
  memory_as adr rch (with_cell s C (v_cl (fid k') L dd)) us k'.
Proof.
  intros [] El Hl E1 E2 E3 E4. destruct m_client as (L0 & dd0 & E0 & _).
  constructor; cbn [cells rest free with_cell]; rewrite ?E1, ?E2, ?E3, ?E4; try assumption.
  - rewrite put_cell_other; [assumption|]. intros ->. rewrite m_names in E0. discriminate.
  - exists L, dd. rewrite put_cell_same. auto.
  - intros c Hc. destruct (m_call c Hc) as (q & E & H). exists q. split; [|exact H]. rewrite put_cell_other; [exact E|]. intros X. rewrite X, E0 in E. discriminate.
  - intros c q Hc. specialize (m_send c q Hc). rewrite put_cell_other; [exact m_send|]. intros X. rewrite X, E0 in m_send. discriminate.
  - intros a Ha. rewrite put_cell_other; [auto|]. intros ->. rewrite m_free in E0 by exact Ha. discriminate.
Qed.
(** The bytes of a call that has left the queue. *)
Lemma ma_call adr rch s us k k' c q : memory_as adr rch s us k -> callers k c <> CIdle -> (forall q, callers k c <> CSend q) -> (forall q, ~ In (c, q) (queue k)) ->
  (forall x, In x (queue k) -> callers k (fst x) <> CIdle) ->
  (7 <= List.length q)%nat -> tags k' = tags k -> fid k' = fid k -> rpc k' = rpc k -> queue k' = queue k -> callers k' = callers k -> closed k' = closed k ->
  memory_as adr rch (with_cell s (adr c) (v_call q (rch c))) us k'.
Proof.
  intros [] Hi Hs Hq Hx Hl E1 E2 E3 E4 E5 E6. destruct (m_call c Hi) as (q0 & E0 & Hl0 & Hc0 & Hf0).
  constructor; cbn [cells rest free with_cell]; rewrite ?E1, ?E2, ?E3, ?E4, ?E5, ?E6; try assumption.
  - rewrite put_cell_other; [assumption|]. intros X. rewrite <- X, m_names in E0. discriminate.
  - destruct m_client as (L & dd & E & H). exists L, dd. split; [|exact H]. rewrite put_cell_other; [exact E|]. intros X. rewrite <- X, E in E0. discriminate.
  - intros c' Hc'. destruct (m_call c' Hc') as (q' & E' & H'). destruct (N.eq_dec (adr c') (adr c)) as [e|ne].
    + apply (or_introl (B := rch c' = rch c)) in e. apply m_inj in e; try assumption. subst c'. exists q. rewrite put_cell_same. auto.
    + exists q'. rewrite put_cell_other by exact ne. auto.
  - intros c' q' H'. assert (Hn : callers k c' <> CIdle). { destruct H' as [H'|H']; [congruence|]. apply (Hx _ H'). }
    rewrite put_cell_other; [auto|]. intros e. apply (or_introl (B := rch c' = rch c)) in e. apply m_inj in e; try assumption. subst c'.
    destruct H' as [H'|H']; [exact (Hs _ H')|exact (Hq _ H')].
  - intros a Ha. rewrite put_cell_other; [auto|]. intros ->. rewrite m_free in E0 by exact Ha. discriminate.
Qed.
(** One of the client's channels. *)
Lemma ma_chan adr rch s us k k' n c0 c : memory_as adr rch s us k -> w_chans (rest s) n = Some c0 ->
  (n = tg \/ n = fc \/ n = fs) ->
  put_chan (w_chans (rest s)) n c tg = Some (mkCh (N.of_nat NumTags) (map (VU 16) (tags k')) false) ->
  put_chan (w_chans (rest s)) n c fc = Some (mkCh (N.of_nat NumTags) (map (fun x => p_call adr (fst x)) (queue k')) false) ->
  put_chan (w_chans (rest s)) n c fs = Some (mkCh 0 [] (closed k')) ->
  fid k' = fid k -> rpc k' = rpc k -> callers k' = callers k -> (forall x, In x (queue k') -> In x (queue k)) ->
  memory_as adr rch (set_chan s n c) us k'.
Proof.
  intros [] E0 Hn H1 H2 H3 E1 E2 E3 Hq.
  constructor; cbn [cells rest free set_chan with_rest w_chans w_next]; rewrite ?E1, ?E2, ?E3; try assumption.
  - intros c' Hc'. destruct (m_call c' Hc') as (q' & E' & Hl & Ec & Hf). exists q'. split; [exact E'|]. split; [exact Hl|]. split; [|exact Hf].
    rewrite put_chan_other; [exact Ec|]. intros X. rewrite X in *. destruct Hn as [X1|[X1|X1]]; rewrite X1 in *.
    + rewrite m_tags in Ec. discriminate.
    + rewrite m_fc in Ec. discriminate.
    + contradiction.
  - intros c' q' H'. apply m_send. destruct H'; auto.
  - intros x Hx. rewrite put_chan_other; [auto|]. intros ->. rewrite m_next in E0 by exact Hx. discriminate.
Qed.
End Keep.
