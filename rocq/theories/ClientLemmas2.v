(** Client and honest server. *)
From Verif Require Import Base GoBuf CodecPrim Types Codec Server Rpc Client ClientSpec ClientLemmas.

Lemma valid_good t : valid t = 1%nat <-> good_tag t.
Proof.
  unfold valid, good_tag. assert (H : N.of_nat NumTags = 65534) by (unfold NumTags; apply N2Nat.id). rewrite H.
  destruct (N.leb_spec 1 t), (N.leb_spec t 65534); cbn; split; intros; try lia; discriminate.
Qed.
Local Opaque NumTags.
Lemma holds_good s c t : Inv s -> holds s c t -> good_tag t /\ ~ In t (tags s) /\ ~ In t (user s).
Proof.
  intros I ([q Hq] & H). pose proof (i_tags s I t) as A.
  assert (X : (1 <= sheld t (snd_ s) + outst s t)%nat).
  { destruct H as [[q' H]|H]; [rewrite H; cbn; rewrite N.eqb_refl; lia|].
    unfold outst. rewrite H, Hq. cbn. lia. }
  pose proof (valid_le t). split; [apply valid_good; lia|]. rewrite !cnt_in. lia.
Qed.
Lemma holds_unique s c c' t : Inv s -> holds s c t -> holds s c' t -> c = c'.
Proof.
  intros I ([q Hq] & H) ([q' Hq'] & H'). pose proof (i_tags s I t) as A. pose proof (valid_le t) as V.
  destruct H as [[x H]|H], H' as [[x' H']|H'].
  - congruence.
  - exfalso. rewrite H in A. cbn in A. rewrite N.eqb_refl in A. unfold outst in A. rewrite H', Hq' in A. cbn in A. lia.
  - exfalso. rewrite H' in A. cbn in A. rewrite N.eqb_refl in A. unfold outst in A. rewrite H, Hq in A. cbn in A. lia.
  - congruence.
Qed.
Lemma holds_one s c t t' : Inv s -> holds s c t -> holds s c t' -> t = t'.
Proof.
  intros I ([q Hq] & H) ([q' Hq'] & H').
  destruct H as [[x H]|H], H' as [[x' H']|H'].
  - congruence.
  - exfalso. pose proof (i_noslot s I c t' H') as X. rewrite H in X. cbn in X. rewrite Nat.eqb_refl in X. lia.
  - exfalso. pose proof (i_noslot s I c t H) as X. rewrite H' in X. cbn in X. rewrite Nat.eqb_refl in X. lia.
  - eapply (i_inj s I); eassumption.
Qed.

(** * The invariant of the composition *)
Definition rtags (x : reader) : list N := match x with RHave b => [tag_of b] | _ => [] end.
Definition vtags (x : recv) : list N := match x with VDeliver _ t _ => [t] | VHave b => [tag_of b] | _ => [] end.
Definition flight (h : hst) : list N :=
  map (fun x => tag_of (snd x)) (unans h) ++ map tag_of (infl h) ++ rtags (rdr (cl h)) ++ vtags (rcv (cl h)).
Definition sslot (t : N) (x : sender) : nat := match x with SSlotted _ t' _ => if N.eqb t' t then 1 else 0 | _ => 0 end.
Definition sslotc (c : nat) (x : sender) : nat := match x with SSlotted c' _ _ => if Nat.eqb c' c then 1 else 0 | _ => 0 end.
Definition started (x : caller) : nat := match x with CWait _ | CDone _ _ => 1 | _ => 0 end.
Definition back (h : hst) : list bytes :=
  infl h ++ match rdr (cl h) with RHave b => [b] | _ => [] end ++ match rcv (cl h) with VDeliver b _ _ | VHave b => [b] | _ => [] end.
(** The request of call c as the sender or the server has it. *)
Definition req_ok (s : cst) (c : nat) (q : bytes) : Prop :=
  exists q0, q = set_tag (tag_of q) q0 /\ callers s c = CWait q0.

Record J (srv : bytes -> bytes -> Prop) (h : hst) : Prop := {
  j_inv : Inv (cl h);
  j_live : crashed (cl h) = false;
  j_rdr : rdr (cl h) <> RClosed /\ rdr (cl h) <> RGone;
  j_flight : forall t, (cnt t (flight h) + sslot t (snd_ (cl h)) = outst (cl h) t)%nat;
  j_unans : forall c q, In (c, q) (unans h) -> rpc (cl h) (tag_of q) = Some c /\ req_ok (cl h) c q;
  j_back : forall a, In a (back h) -> exists c q, rpc (cl h) (tag_of a) = Some c /\ In (c, (q, a)) (answered h);
  j_log : forall c q a, In (c, (q, a)) (answered h) -> srv q a /\ (7 <= List.length a)%nat /\ tag_of a = tag_of q /\ good_tag (tag_of q) /\
            exists q0, q = set_tag (tag_of q) q0 /\ (callers (cl h) c = CWait q0 \/ callers (cl h) c = CDone q0 a);
  j_cnt : forall c, (cntc c (map fst (queue (cl h))) + scall c (snd_ (cl h)) + sslotc c (snd_ (cl h))
            + cntc c (map fst (unans h)) + cntc c (map fst (answered h)) <= started (callers (cl h) c))%nat;
  j_queue : forall c q, In (c, q) (queue (cl h)) -> callers (cl h) c = CWait q /\ (7 <= List.length q)%nat;
  j_snd : match snd_ (cl h) with
          | SIdle => True
          | SCall c q => callers (cl h) c = CWait q /\ (7 <= List.length q)%nat
          | STagged c t q => tag_of q = t /\ req_ok (cl h) c q
          | SSlotted c t q => tag_of q = t /\ req_ok (cl h) c q /\ rpc (cl h) t = Some c
          end;
  j_send : forall c q, callers (cl h) c = CSend q -> (7 <= List.length q)%nat;
  j_len : forall c q, callers (cl h) c = CWait q -> (7 <= List.length q)%nat;
  j_deliver : forall b t c, rcv (cl h) = VDeliver b t c -> rpc (cl h) t = Some c;
  j_done : forall c q r, callers (cl h) c = CDone q r -> exists t, In (c, (set_tag t q, r)) (answered h);
  j_doom : rcv (cl h) <> VDoomed
}.

Lemma tag_set t q : t < 65536 -> (7 <= List.length q)%nat -> tag_of (set_tag t q) = t.
Proof.
  intros Ht Hl. unfold tag_of, set_tag.
  do 7 (destruct q as [|? q]; [cbn in Hl; lia|]). cbn [firstn app nth].
  rewrite N.shiftr_div_pow2. change (2 ^ 8) with 256.
  rewrite !b2n_u8. rewrite (N.mod_small (t / 256)) by (apply N.div_lt_upper_bound; lia).
  rewrite N.shiftl_mul_pow2. change (2 ^ 8) with 256.
  rewrite (N.mod_small (t / 256 * 256)).
  2:{ pose proof (N.div_mod t 256 ltac:(lia)). lia. }
  change 256 with (2 ^ 8) at 2. rewrite N.mul_comm. rewrite (N.mul_comm (2^8)). 
  change (2 ^ 8) with 256. rewrite <- (N.shiftl_mul_pow2 (t / 256) 8) || idtac.
  replace (t / 256 * 256) with (t / 256 * 2 ^ 8) by reflexivity.
  rewrite lor_low_add by (apply N.mod_lt; discriminate).
  change (2 ^ 8) with 256. pose proof (N.div_mod t 256 ltac:(lia)). lia.
Qed.
Lemma set_tag_length t q : (7 <= List.length q)%nat -> List.length (set_tag t q) = List.length q.
Proof. intros Hl. unfold set_tag. do 7 (destruct q as [|? q]; [cbn in Hl; lia|]). reflexivity. Qed.
Lemma set_tag_set t t' q : (7 <= List.length q)%nat -> set_tag t (set_tag t' q) = set_tag t q.
Proof. intros Hl. unfold set_tag. do 7 (destruct q as [|? q]; [cbn in Hl; lia|]). reflexivity. Qed.
