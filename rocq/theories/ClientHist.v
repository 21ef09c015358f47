(** What the labels of an execution say, in the model of the client. *)
From Verif Require Import Base GoBuf CodecPrim Types Codec Msgs CodecSpec StubPrim Server ServerSpec Rpc Client ClientSpec
  ClientLemmas ClientLemmas2 ClientLemmas3 ClientLemmas4 ClientLemmas5 ClientLemmas6 ClientLemmas7 ClientRunSim.
Local Opaque NumTags all_tags.

Definition q_of (x : caller) : option bytes := match x with CIdle => None | CSend q | CWait q | CDone q _ => Some q end.
Definition starts (c : nat) (ls : list lbl) : list bytes := flat_map (fun l => match l with LStart c' q => if Nat.eqb c' c then [q] else [] | _ => [] end) ls.
Definition dones (c : nat) (ls : list lbl) : list bytes := flat_map (fun l => match l with LDone c' r => if Nat.eqb c' c then [r] else [] | _ => [] end) ls.
Definition got_tags (ls : list lbl) : list N := flat_map (fun l => match l with LTag t => [t] | _ => [] end) ls.
Definition got_fids (ls : list lbl) : list N := flat_map (fun l => match l with LFid f => [f] | _ => [] end) ls.

Lemma hist tr hn ls s : csteps tr (init hn) ls s ->
  (forall c, starts c ls = match q_of (callers s c) with Some q => [q] | None => [] end) /\
  (forall c, dones c ls = match callers s c with CDone _ r => [r] | _ => [] end) /\
  got_tags ls = List.rev (user s) /\ got_fids ls = fids s.
Proof.
  induction 1 as [|ls s1 l s2 _ (A & B & D & F) S]; [repeat split|].
  assert (Hn : forall c, starts c (ls ++ [l]) = starts c ls ++ starts c [l]) by (intros; apply flat_map_app).
  assert (Hd : forall c, dones c (ls ++ [l]) = dones c ls ++ dones c [l]) by (intros; apply flat_map_app).
  assert (Ht : got_tags (ls ++ [l]) = got_tags ls ++ got_tags [l]) by apply flat_map_app.
  assert (Hf : got_fids (ls ++ [l]) = got_fids ls ++ got_fids [l]) by apply flat_map_app.
  rewrite Ht, Hf, D, F. clear Ht Hf D F.
  destruct S; unfold crash; cbn [callers user fids got_tags got_fids flat_map app List.rev]; rewrite ?app_nil_r;
    (split; [intros c'; rewrite Hn, A; clear Hn A|split; [intros c'; rewrite Hd, B; clear Hd B|split; reflexivity]]);
    cbn [starts dones flat_map app]; rewrite ?app_nil_r; try reflexivity;
    match goal with H : callers s1 ?c = _ |- _ =>
      unfold upd; rewrite ?(Nat.eqb_sym c' c); destruct (Nat.eqb_spec c c') as [<-|]; rewrite ?app_nil_r; try reflexivity; rewrite H; reflexivity end.
Qed.
Lemma user_nodup tr hn ls s : csteps tr (init hn) ls s -> NoDup (user s) /\ forall t, In t (user s) -> good_tag t.
Proof.
  intros H. pose proof (i_tags _ (inv_steps _ _ _ _ H)) as A. split.
  - apply (NoDup_count_occ N.eq_dec). intros t. specialize (A t). pose proof (valid_le t). unfold cnt in *. lia.
  - intros t Ht. apply valid_good. apply cnt_in in Ht. specialize (A t). pose proof (valid_le t). lia.
Qed.

(** * Splitting what is seen *)
Lemma seen_last ls a x : seen ls = a ++ [x] -> exists la l lb, ls = la ++ l :: lb /\ seen la = a /\ seen1 l = [x] /\ seen lb = [].
Proof.
  revert a. induction ls as [|l ls IH] using List.rev_ind; intros a E.
  - destruct a; discriminate E.
  - rewrite seen_app in E. cbn [seen flat_map] in E. rewrite app_nil_r in E. destruct (seen1 l) as [|y [|z w]] eqn:El.
    + rewrite app_nil_r in E. destruct (IH _ E) as (la & l0 & lb & -> & E1 & E2 & E3). exists la, l0, (lb ++ [l]). rewrite <- app_assoc.
      split; [reflexivity|]. split; [exact E1|]. split; [exact E2|]. rewrite seen_app, E3. cbn [seen flat_map]. rewrite El. reflexivity.
    + apply app_inj_tail in E. destruct E as [E ->]. exists ls, l, []. auto.
    + destruct l; discriminate El.
Qed.
Lemma seen_none ls : seen ls = [] -> forall l, In l ls -> l = LTau.
Proof.
  intros E l Hl. apply in_split in Hl. destruct Hl as (a & b & ->). change (l :: b) with ([l] ++ b) in E. rewrite !seen_app in E.
  apply app_eq_nil in E. destruct E as [_ E]. apply app_eq_nil in E. destruct E as [E _]. destruct l; try discriminate E. reflexivity.
Qed.
Lemma starts_seen c ls : starts c (seen ls) = starts c ls.
Proof. unfold starts, seen. rewrite flat_map_concat_map. induction ls as [|l ls IH]; [reflexivity|]. cbn [flat_map]. rewrite map_app, concat_app, IH. destruct l; cbn; rewrite ?app_nil_r; reflexivity. Qed.
Lemma dones_seen c ls : dones c (seen ls) = dones c ls.
Proof. unfold dones, seen. rewrite flat_map_concat_map. induction ls as [|l ls IH]; [reflexivity|]. cbn [flat_map]. rewrite map_app, concat_app, IH. destruct l; cbn; rewrite ?app_nil_r; reflexivity. Qed.
Lemma tags_seen ls : got_tags (seen ls) = got_tags ls.
Proof. unfold got_tags, seen. rewrite flat_map_concat_map. induction ls as [|l ls IH]; [reflexivity|]. cbn [flat_map]. rewrite map_app, concat_app, IH. destruct l; reflexivity. Qed.
Lemma fids_seen ls : got_fids (seen ls) = got_fids ls.
Proof. unfold got_fids, seen. rewrite flat_map_concat_map. induction ls as [|l ls IH]; [reflexivity|]. cbn [flat_map]. rewrite map_app, concat_app, IH. destruct l; reflexivity. Qed.
Lemma in_seen l ls : l <> LTau -> (forall c q, l <> LWrite c q) -> In l ls <-> In l (seen ls).
Proof.
  intros H1 H2. unfold seen. rewrite in_flat_map. split.
  - intros H. exists l. split; [exact H|]. destruct l; try (left; reflexivity); [destruct H1; reflexivity|destruct (H2 c q); reflexivity].
  - intros (x & Hx & H). destruct x; cbn in H; try contradiction; destruct H as [H|[]]; subst; try exact Hx. destruct (H2 0%nat q). reflexivity.
Qed.

(** * A server that answers every request at most once, with its tag, in any order *)
(** [honest srv ls u f]: the reads and writes in ls can be those of a client at such a server; u: requests it has not answered yet,
    f: answers that are not read yet. *)
Inductive honest (srv : bytes -> bytes -> Prop) : list lbl -> list bytes -> list bytes -> Prop :=
| ho_nil : honest srv [] [] []
| ho_write ls c q u f : honest srv ls u f -> honest srv (ls ++ [LWrite c q]) (u ++ [q]) f
| ho_answer ls u1 q u2 f a : honest srv ls (u1 ++ q :: u2) f -> srv q a -> honest srv ls (u1 ++ u2) (f ++ [a])
| ho_read ls b u f : honest srv ls u (b :: f) -> honest srv (ls ++ [LRead b]) u f
| ho_other ls l u f : honest srv ls u f -> (forall c q, l <> LWrite c q) -> (forall b, l <> LRead b) -> l <> LEof -> l <> LFatal -> honest srv (ls ++ [l]) u f.
Lemma honest_taus srv ls lb u f : honest srv ls u f -> seen lb = [] -> honest srv (ls ++ lb) u f.
Proof.
  intros H. induction lb as [|l lb IH] using List.rev_ind; intros E; [rewrite app_nil_r; exact H|].
  rewrite seen_app in E. apply app_eq_nil in E. destruct E as [E1 E2]. rewrite app_assoc.
  assert (l = LTau) as -> by (destruct l; try discriminate E2; reflexivity). apply ho_other; try discriminate. apply IH, E1.
Qed.
Lemma honest_same srv l u f : honest srv l u f -> forall ls, seen ls = seen l -> honest srv ls u f.
Proof.
  induction 1 as [|l c q u f H IH|l u1 q u2 f a H IH Ha|l b u f H IH|l x u f H IH N1 N2 N3 N4]; intros ls E.
  - apply (honest_taus srv [] ls); [constructor|exact E].
  - rewrite seen_app in E. destruct (seen_last ls (seen l) (LWrite 0 q) E) as (la & l0 & lb & -> & E1 & E2 & E3).
    destruct l0; try discriminate E2. injection E2 as ->. change (LWrite c0 q :: lb) with ([LWrite c0 q] ++ lb). rewrite app_assoc.
    apply honest_taus; [|exact E3]. apply ho_write, IH, E1.
  - eapply ho_answer; [apply IH, E|exact Ha].
  - rewrite seen_app in E. destruct (seen_last ls (seen l) (LRead b) E) as (la & l0 & lb & -> & E1 & E2 & E3).
    destruct l0; try discriminate E2. injection E2 as ->. change (LRead b :: lb) with ([LRead b] ++ lb). rewrite app_assoc.
    apply honest_taus; [|exact E3]. apply ho_read, IH, E1.
  - rewrite seen_app in E. cbn [seen flat_map] in E. rewrite app_nil_r in E. destruct (seen1 x) as [|y [|z w]] eqn:Ex.
    + rewrite app_nil_r in E. apply IH, E.
    + destruct (seen_last ls (seen l) y E) as (la & l0 & lb & -> & E1 & E2 & E3).
      assert (Hx : l0 = x). { rewrite <- Ex in E2. destruct x; try discriminate Ex; try (destruct l0; try discriminate E2; injection E2; intros; subst; reflexivity); [destruct (N1 c q); reflexivity|..]; destruct l0; try discriminate E2; reflexivity. }
      subst l0. change (x :: lb) with ([x] ++ lb). rewrite app_assoc. apply honest_taus; [|exact E3]. apply ho_other; try assumption. apply IH, E1.
    + destruct x; discriminate Ex.
Qed.
Lemma snoc_inv tr s ls l s2 : csteps tr s (ls ++ [l]) s2 -> exists s1, csteps tr s ls s1 /\ cstep tr s1 l s2.
Proof.
  intros H. remember (ls ++ [l]) as x eqn:E. destruct H as [|ls' s1 l' s2 H S]; [destruct ls; discriminate E|].
  apply app_inj_tail in E. destruct E as [-> ->]. exists s1. auto.
Qed.
Lemma honest_reach tr srv ls u f : honest srv ls u f -> forall s, csteps tr (init true) ls s -> exists h, hreach tr srv h /\ cl h = s /\ map snd (unans h) = u /\ infl h = f.
Proof.
  induction 1 as [|ls c q u f H IH|ls u1 q u2 f a H IH Ha|ls b u f H IH|ls x u f H IH N1 N2 N3 N4]; intros s E.
  - exists hinit. split; [constructor|]. inversion E as [E1|ls s1 l s2 _ _ E1]; [auto|]. destruct ls; discriminate E1.
  - apply snoc_inv in E. destruct E as (s1 & E & S). destruct (IH s1 E) as (h & R & <- & <- & <-).
    eexists. split; [eapply hr_step; [exact R|apply h_write, S]|]. cbn [cl unans infl]. rewrite map_app. auto.
  - destruct (IH s E) as (h & R & <- & Eu & <-). symmetry in Eu. 
    assert (X : exists v1 c v2, unans h = v1 ++ (c, q) :: v2 /\ map snd v1 = u1 /\ map snd v2 = u2).
    { clear - Eu. revert u1 Eu. induction (unans h) as [|[c x] l IH]; intros u1 E; [destruct u1; discriminate E|]. destruct u1 as [|y u1]; cbn in E; injection E as E1 E2.
      - subst. exists [], c, l. auto.
      - subst. destruct (IH _ E2) as (v1 & c' & v2 & -> & <- & <-). exists ((c, x) :: v1), c', v2. auto. }
    destruct X as (v1 & c & v2 & E1 & <- & <-). eexists. split; [eapply hr_step; [exact R|eapply h_answer; [exact E1|exact Ha]]|]. cbn [cl unans infl]. rewrite map_app. auto.
  - apply snoc_inv in E. destruct E as (s1 & E & S). destruct (IH s1 E) as (h & R & <- & <- & Ef).
    eexists. split; [eapply hr_step; [exact R|eapply h_read; [exact Ef|exact S]]|]. cbn [cl unans infl]. auto.
  - apply snoc_inv in E. destruct E as (s1 & E & S). destruct (IH s1 E) as (h & R & <- & <- & <-).
    eexists. split; [eapply hr_step; [exact R|apply h_client; eassumption]|]. cbn [cl unans infl]. auto.
Qed.
