(** Frames on the network; the client model at a server that answers one request after the other. *)
From Verif Require Import Base GoBuf CodecPrim CodecLemmas CodecLemmas2 Types Codec Msgs CodecSpec StubPrim Stubs Server ServerSpec ServerLemmas ServerLemmas2 ServerLemmas3 ServerLemmas4 Rpc
  Client ClientSpec ClientLemmas ClientLemmas2 ClientLemmas3 ClientLemmas4 ClientLemmas7 ClientRunSim ClientHist NetRun.
Local Opaque NumTags all_tags.

(** * Frames *)
Definition framed (o : bytes) : Prop := exists ty tag body, o = raw ty tag body /\ ty < 256 /\ tag < 65536 /\ 7 + blen body < 4294967296.
Fixpoint intact (evs : list rev) : bool := match evs with [] => true | Chunk _ :: r => intact r | RdErr :: _ => false end.
Lemma intact_app a b : intact (a ++ b) = intact a && intact b.
Proof. induction a as [|[c|] a IH]; cbn; auto. Qed.
Lemma received_app a b : received (a ++ b) = received a ++ (if intact a then received b else []).
Proof. induction a as [|[c|] a IH]; cbn; [reflexivity| |reflexivity]. rewrite IH, app_assoc. reflexivity. Qed.
Lemma net_read_intact n evs bs r : net_read n evs = RdData bs r -> intact r = intact evs.
Proof. unfold net_read. destruct evs as [|[c|] e]; intros H; try discriminate. injection H as <- <-. destruct (skipn n c); reflexivity. Qed.
Lemma copy_limit_intact evs : forall n bs r, copy_limit n evs = Some (bs, r) -> intact r = intact evs /\ (List.length bs = n \/ intact evs = true /\ r = []).
Proof.
  induction evs as [|[c|] e IH]; intros [|n] bs r H; cbn [copy_limit] in H.
  - injection H as <- <-. auto.
  - injection H as <- <-. auto.
  - injection H as <- <-. auto.
  - destruct (skipn (S n) c) eqn:E.
    + destruct (copy_limit (S n - List.length c) e) as [[bs' r']|] eqn:F; [|discriminate]. injection H as <- <-.
      destruct (IH _ _ _ F) as [A B]. split; [exact A|]. apply skipn_nil_le in E. destruct B as [B|B]; [left|right; exact B]. rewrite app_length. lia.
    + assert (L : (S n < List.length c)%nat).
      { apply (f_equal (@List.length byte)) in E. rewrite skipn_length in E. cbn [List.length] in E. lia. }
      assert (K : Some (firstn (S n) c, Chunk (b :: l) :: e) = Some (bs, r)) by exact H. injection K as <- <-. split; [reflexivity|left]. change (List.length (firstn (S n) c) = S n). rewrite firstn_length. lia.
  - injection H as <- <-. auto.
  - discriminate.
Qed.
(** One packet off the front: it is the first frame. *)
Lemma packet_frame evs b evs' o os tail : packet evs = Some (b, evs') -> framed o -> received evs ++ tail = concat (o :: os) -> (intact evs = true -> tail = []) ->
  b = o /\ received evs' ++ tail = concat os /\ intact evs' = intact evs.
Proof.
  unfold packet. intros H (ty & tag & body & -> & Hty & Htag & Hl) E1 E2.
  destruct (net_read 7 evs) as [| |l evs1] eqn:R; try discriminate.
  destruct l as [|l0 [|l1 [|l2 [|l3 [|l4 [|l5 [|l6 [|]]]]]]]]; try discriminate.
  destruct (copy_limit _ evs1) as [[bd evs2]|] eqn:Cl; [|discriminate]. injection H as <- <-.
  pose proof (net_read_intact _ _ _ _ R) as I1. apply net_read_stream in R. destruct R as [R _].
  destruct (header_bytes l0 l1 l2 l3 l4 l5 l6) as (size & ty' & tag' & A & B & D & Hh & Hsz & _ & _). rewrite Hsz in Cl.
  destruct (copy_limit_intact _ _ _ _ Cl) as [I2 Hlen]. apply copy_limit_stream in Cl. destruct Cl as (Hb & Hr & _).
  rewrite R, Hh in E1. cbn [concat] in E1. unfold raw in E1. rewrite <- !app_assoc in E1.
  apply header_inj in E1; try assumption. destruct E1 as (-> & -> & -> & E1).
  replace (N.to_nat (7 + blen body - 7)) with (List.length body) in * by (unfold blen; lia).
  assert (Hbd : bd = body /\ received evs2 ++ tail = concat os).
  { destruct Hlen as [Hlen|[Hi ->]].
    - rewrite <- (firstn_skipn (List.length body) (received evs1)) in E1. rewrite <- Hb, <- Hr, <- app_assoc in E1.
      apply app_inj_len in E1; [|exact Hlen]. exact E1.
    - rewrite I1 in Hi. specialize (E2 Hi). subst tail. rewrite app_nil_r in *. rewrite E1 in *. cbn [received] in Hr.
      rewrite firstn_app, firstn_all, Nat.sub_diag in Hb. cbn [firstn] in Hb. rewrite app_nil_r in Hb. split; [exact Hb|]. rewrite skipn_app, skipn_all, Nat.sub_diag in Hr. cbn [app skipn received] in *. exact Hr. }
  destruct Hbd as [-> Ht]. split; [|split; [exact Ht|congruence]].
  change (l0 :: l1 :: l2 :: l3 :: l4 :: l5 :: l6 :: body) with ([l0; l1; l2; l3; l4; l5; l6] ++ body). rewrite Hh. unfold raw. rewrite <- !app_assoc. reflexivity.
Qed.
Lemma packet_pending evs b evs' : packet evs = Some (b, evs') -> (pending evs' + 7 <= pending evs)%nat /\ (7 <= List.length (received evs))%nat.
Proof.
  unfold packet. intros H. destruct (net_read 7 evs) as [| |l evs1] eqn:R; try discriminate.
  destruct l as [|l0 [|l1 [|l2 [|l3 [|l4 [|l5 [|l6 [|]]]]]]]]; try discriminate.
  destruct (copy_limit _ evs1) as [[bd evs2]|] eqn:Cl; [|discriminate]. injection H as <- <-.
  pose proof (net_read_pending _ _ _ _ R) as X. apply net_read_stream in R. destruct R as [R _]. apply copy_limit_stream in Cl. cbn [List.length] in X. rewrite R.
  split; [lia|cbn; lia].
Qed.
(** The packets a client reads are the frames sent, from the first on. *)
Lemma packets_prefix os : forall evs tail, Forall framed os -> received evs ++ tail = concat os -> (intact evs = true -> tail = []) -> exists more, os = packets evs ++ more.
Proof.
  intros evs. unfold packets. assert (Hn : (pending evs < S (pending evs))%nat) by lia. revert Hn. generalize (S (pending evs)) as n. intros n. revert evs os.
  induction n as [|n IH]; intros evs os Hn tail Hf E1 E2; [lia|]. cbn [packets_n].
  destruct (packet evs) as [[b evs']|] eqn:Ep; [|exists os; reflexivity].
  destruct (packet_pending _ _ _ Ep) as [L1 L2]. destruct os as [|o os].
  { cbn in E1. apply app_eq_nil in E1. destruct E1 as [E1 _]. rewrite E1 in L2. cbn in L2. lia. }
  inversion Hf as [|? ? Ho Hos]; subst. destruct (packet_frame _ _ _ _ _ _ Ep Ho E1 E2) as (-> & E3 & E4).
  destruct (IH evs' os ltac:(lia) tail Hos E3 ltac:(rewrite E4; exact E2)) as (more & ->). exists more. reflexivity.
Qed.

(** * The server *)
Lemma iter_packet {St} (ns : NineServer St) e i st evs : serve_iter ns e i st evs =
  match packet evs with
  | None => IDead st None
  | Some (b, evs) => match Dispatch ns st (Buf (skipn 5 b) (e_spare e i)) (b2n (nth 4 b x00)) with
                     | SrvPanic => ICrash
                     | SrvReply st out => match e_write e i with Some k => IDead st (Some (firstn k out)) | None => INext st out evs end
                     end
  end.
Proof.
  unfold serve_iter, packet. destruct (net_read 7 evs) as [| |l evs1]; try reflexivity.
  destruct l as [|l0 [|l1 [|l2 [|l3 [|l4 [|l5 [|l6 [|]]]]]]]]; try reflexivity.
  destruct (copy_limit _ evs1) as [[bd evs2]|]; reflexivity.
Qed.
Lemma enc_framed x : ok_req x -> framed (enc_req x).
Proof.
  destruct x as [t m]. intros (Ht & Hf & Hl). unfold enc_req in *. cbn [fst snd] in *. rewrite (enc_req_header t m).
  pose proof (marshalM_blen t (MT m)) as Lm. cbn [marshalM wireM] in Lm.
  exists (ttype m), t, (concat (snd (wireT m))). unfold raw. rewrite Lm in Hl.
  split; [rewrite Lm; reflexivity|]. split; [pose proof (wire_lt (MT m)) as Hty; cbn [wireM] in Hty; rewrite ttype_wire in Hty; exact Hty|]. split; [exact Ht|lia].
Qed.
(** On a beginning of the stream of requests, the server gives the first of the answers. *)
Lemma serve_beginning {St} (ns : NineServer St) e : (forall j, e_write e j = None) -> forall reqs evs tail i v s, Forall ok_req reqs ->
  received evs ++ tail = concat (map enc_req reqs) -> intact evs = false ->
  exists n reps st, (n <= List.length reqs)%nat /\ answers ns v s (firstn n reqs) = Some (reps, st) /\ r_out (serve_from ns e i (mkSrv v s) evs) = map enc_rep reps /\ List.length reps = n.
Proof.
  intros Hw. induction reqs as [|[t m] reqs IH]; intros evs tail i v s Hok E1 E2; rewrite serve_unfold, iter_packet.
  - destruct (packet evs) as [[b evs']|] eqn:Ep.
    { destruct (packet_pending _ _ _ Ep) as [_ L]. cbn in E1. apply app_eq_nil in E1. destruct E1 as [E1 _]. rewrite E1 in L. cbn in L. lia. }
    exists 0%nat, [], (v, s). repeat split. cbn. lia.
  - destruct (packet evs) as [[b evs']|] eqn:Ep; [|exists 0%nat, [], (v, s); repeat split; cbn; lia].
    inversion Hok as [|? ? Ho Hok']; subst. cbn [map] in E1.
    destruct (packet_frame _ _ _ _ _ _ Ep (enc_framed _ Ho) E1 ltac:(congruence)) as (-> & E3 & E4). destruct Ho as (Ht & Hf & Hl). unfold enc_req. cbn [fst snd] in *.
    assert (Hb : b2n (nth 4 (marshalT t m) x00) = ttype m).
    { rewrite (enc_req_header t m). cbn [le app nth]. pose proof (wire_lt (MT m)) as Hty. cbn [wireM] in Hty. rewrite ttype_wire in Hty. rewrite b2n_u8. apply N.mod_small, Hty. }
    rewrite Hb, Dispatch_request by assumption. destruct (answer ns v s m) as [[[v1 s1] r]|] eqn:Ea; [|exists 0%nat, [], (v, s); repeat split; cbn; lia].
    rewrite Hw. cbv zeta. destruct (IH evs' tail (S i) v1 s1 Hok' E3 ltac:(congruence)) as (n & reps & st & L & A & B & D).
    exists (S n), ((t, r) :: reps), st. cbn [List.length firstn answers r_out map]. rewrite Ea, A, B. repeat split; lia.
Qed.
Lemma answers_app {St} (ns : NineServer St) l1 : forall l2 v s r, answers ns v s (l1 ++ l2) = Some r ->
  exists reps1 v1 s1 reps2, answers ns v s l1 = Some (reps1, (v1, s1)) /\ answers ns v1 s1 l2 = Some (reps2, snd r) /\ fst r = reps1 ++ reps2.
Proof.
  induction l1 as [|[t m] l1 IH]; intros l2 v s r H; cbn [app answers] in *.
  - exists [], v, s, (fst r). destruct r. auto.
  - destruct (answer ns v s m) as [[[v1 s1] a]|]; [|discriminate]. destruct (answers ns v1 s1 (l1 ++ l2)) as [[rs st]|] eqn:E; [|discriminate]. injection H as <-.
    destruct (IH _ _ _ _ E) as (reps1 & v2 & s2 & reps2 & A & B & D). exists ((t, a) :: reps1), v2, s2, reps2. rewrite A. cbn [fst snd] in *. rewrite D. auto.
Qed.
Lemma answers_length {St} (ns : NineServer St) l : forall v s reps st, answers ns v s l = Some (reps, st) -> map fst reps = map fst l.
Proof.
  induction l as [|[t m] l IH]; intros v s reps st H; cbn [answers] in H.
  - injection H as <- <-. reflexivity.
  - destruct (answer ns v s m) as [[[v1 s1] a]|]; [|discriminate]. destruct (answers ns v1 s1 l) as [[rs st']|] eqn:E; [|discriminate]. injection H as <- <-.
    cbn [map fst]. f_equal. eapply IH, E.
Qed.
Lemma names_short ty : blen (RPCNames ty) < 100.
Proof. unfold RPCNames. repeat match goal with |- context [if ?b then _ else _] => destruct b end; vm_compute; reflexivity. Qed.
Lemma rep_framed t a : t < 65536 -> blen (marshalR 0 a) < 4294967296 -> framed (marshalR t a).
Proof.
  intros Ht Hl. pose proof (marshalM_blen t (MR a)) as L1. pose proof (marshalM_blen 0 (MR a)) as L0. cbn [marshalM wireM] in *. rewrite L0 in Hl.
  exists (rtype a), t, (concat (snd (wireR a))). split; [|split; [|split; [exact Ht|lia]]].
  - rewrite layoutR. unfold frame, raw. rewrite rtype_wire. reflexivity.
  - pose proof (wire_lt (MR a)) as W. cbn [wireM] in W. rewrite rtype_wire in W. exact W.
Qed.
(** All answers fit. *)
Lemma error_fits e : short e -> fitsR (MRerror (mkRerrorPkt e)) /\ blen (marshalR 0 (MRerror (mkRerrorPkt e))) < 4294967296.
Proof.
  intros H. split; [exact H|]. pose proof (marshalM_blen 0 (MR (MRerror (mkRerrorPkt e)))) as L0. cbn [marshalM wireM] in L0. rewrite L0. unfold short in H.
  cbn [wireR snd concat]. rewrite app_nil_r, blen_text. lia.
Qed.
Lemma answer_fits {St} (ns : NineServer St) v s m v' s' a : fitting ns -> fitsT m -> answer ns v s m = Some (v', s', a) -> fitsR a /\ blen (marshalR 0 a) < 4294967296.
Proof.
  intros F Hm. unfold answer. destruct (v || is_version m).
  - specialize (F s m Hm). destruct (invoke ns s m) as [s1 r|s1 e|]; intros H; try discriminate; injection H as <- <- <-; [exact F|apply error_fits, F].
  - intros H. injection H as <- <- <-. apply error_fits. pose proof (names_short (fst (wireT m))) as L.
    change (short (str "Dispatch: " ++ RPCNames (fst (wireT m)) ++ str " not allowed before Tversion")). unfold short. rewrite !blen_app.
    change (blen (str "Dispatch: ")) with 10. change (blen (str " not allowed before Tversion")) with 28. lia.
Qed.
Lemma answers_fit {St} (ns : NineServer St) : fitting ns -> forall reqs v s reps st, Forall ok_req reqs -> answers ns v s reqs = Some (reps, st) -> Forall fits_rep reps.
Proof.
  intros F. induction reqs as [|[t m] reqs IH]; intros v s reps st Hok H; cbn [answers] in H.
  - injection H as <- <-. constructor.
  - inversion Hok as [|? ? (Ht & Hf & Hl) Hok']; subst. destruct (answer ns v s m) as [[[v1 s1] a]|] eqn:Ea; [|discriminate].
    destruct (answers ns v1 s1 reqs) as [[rs st']|] eqn:E; [|discriminate]. injection H as <- <-. constructor; [|eapply IH; eassumption].
    split; [exact Ht|]. exact (answer_fits ns v s m v1 s1 a F Hf Ea).
Qed.
Lemma fitting_fits K {St} (ns : NineServer St) x : fitting ns -> fitting_from K ns x.
Proof. intros F reqs reps st H. apply (answers_fit _ F). revert H. apply Forall_impl. intros y [H _]. exact H. Qed.
(** What the call makes of the answer. *)
Lemma returned {St} (ns : NineServer St) v s m v' s' a t sp : fitsR a -> t < 65536 -> answer ns v s m = Some (v', s', a) -> call_result m (marshalR t a) sp = returns m a.
Proof.
  intros Hf Ht Ha. unfold answer in Ha. destruct (v || is_version m).
  - destruct (invoke ns s m) as [s1 r|s1 e|] eqn:I; try discriminate; injection Ha as <- <- <-.
    + pose proof (invoke_type _ _ _ _ _ I) as Ty. rewrite call_of_reply; try assumption; [|rewrite Ty; destruct m; vm_compute; discriminate].
      destruct r; try reflexivity. exfalso. destruct m; vm_compute in Ty; discriminate Ty.
    + apply call_of_error; assumption.
  - injection Ha as <- <- <-. apply call_of_error; assumption.
Qed.
