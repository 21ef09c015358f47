(** The text of package ufs does what Ufs.v says, method by method. *)
From Verif Require Import Base GoBuf CodecPrim Types Codec Msgs StubPrim GoPath GoSyntax GoRun GoProg Ufs GoFmt UfsRun UfsRunLemmas.

Section Sim.
Context {W : Type} (h : os W).
(** Running a program of Ufs.v. *)
Fixpoint sim {A} (p : prog A) (u : table) (w : W) (ev : list event) (K : option A -> table -> W -> list event -> Prop) : Prop :=
  match p with
  | Ret a => K (Some a) u w ev
  | Panic => K None u w ev
  | Call o k => let (x, w) := answer_op h u o w in sim (k x) (effect o u) w (if external (Ev o x) then ev ++ [Ev o x] else ev) K
  end.
Lemma sim_run A (p : prog A) : forall u w ev K r u' w' tr, run_prog h p u w = (r, u', w', tr) -> sim p u w ev K -> K r u' w' (ev ++ filter external tr).
Proof.
  induction p as [a|o k IH|]; intros u w ev K r u' w' tr E H; cbn [sim run_prog] in *.
  - inversion E; subst. cbn. rewrite app_nil_r. exact H.
  - destruct (answer_op h u o w) as [x w1]. destruct (run_prog h (k x) (effect o u) w1) as [[[r1 u1] w2] tr1] eqn:E1.
    inversion E; subst. specialize (IH x _ _ _ _ _ _ _ _ E1 H). cbn [filter].
    destruct (external {| ev_op := o; ev_ret := x |}); [rewrite <- app_assoc in IH|]; exact IH.
  - inversion E; subst. cbn. rewrite app_nil_r. exact H.
Qed.
Lemma sim_bind A B (p : prog A) (q : A -> prog B) : forall u w ev K,
  sim (bind p q) u w ev K <-> sim p u w ev (fun r u w ev => match r with Some a => sim (q a) u w ev K | None => K None u w ev end).
Proof.
  induction p as [a|o k IH|]; intros; cbn [sim bind]; [tauto| |tauto].
  destruct (answer_op h u o w). apply IH.
Qed.
End Sim.

Ltac clash := repeat match goal with H : ?x = Some _, H' : ?x = Some _ |- _ => rewrite H in H'; clear H; try discriminate H' end.
Lemma poke_at u fid f f' : u fid = Some f -> poke u fid f' fid = Some f'.
Proof. intros E. unfold poke. rewrite E. unfold set_fid. rewrite N.eqb_refl. reflexivity. Qed.
Lemma poke_other u fid f' x : x <> fid -> poke u fid f' x = u x.
Proof. intros Nx. unfold poke. destruct (u fid); [|reflexivity]. unfold set_fid. destruct (N.eqb_spec x fid); congruence. Qed.
Section Reps.
Context {W : Type} (c : config) (A M U RT DB : N).
Notation L := (mkLayout A M U RT DB).
Notation HOLDS := (@holds W c L).
Notation st := (@mkStore W).
(** The pieces of [holds]. *)
Lemma holds_intro hp nx w ev u root ver t :
  hp A = Some (v_fs root ver c L) -> hp U = Some (VStr (user c)) -> hp M = Some (VMap VNil t) ->
  (forall fid, match t fid, u fid with
       | None, None => True
       | Some v, Some f => exists a o, v = VPtr (str "file") a [] /\ hp a = Some (v_file f o) /\ bytes_v o = Some (f_oflow f)
       | _, _ => False
       end) ->
  (forall fid fid' a, t fid = Some (VPtr (str "file") a []) -> t fid' = Some (VPtr (str "file") a []) -> fid = fid') ->
  (forall a, nx <= a -> hp a = None) ->
  HOLDS (st hp nx false w ev) u.
Proof. intros. constructor; cbn; eauto. Qed.

Variables (hp : N -> option value) (nx : N) (u : table) (root ver : value) (t : N -> option value).
Hypothesis HA : hp A = Some (v_fs root ver c L).
Hypothesis HU : hp U = Some (VStr (user c)).
Hypothesis HM : hp M = Some (VMap VNil t).
Hypothesis HT : forall fid, match t fid, u fid with
       | None, None => True
       | Some v, Some f => exists a o, v = VPtr (str "file") a [] /\ hp a = Some (v_file f o) /\ bytes_v o = Some (f_oflow f)
       | _, _ => False
       end.
Hypothesis HI : forall fid fid' a, t fid = Some (VPtr (str "file") a []) -> t fid' = Some (VPtr (str "file") a []) -> fid = fid'.
Hypothesis HN : forall a, nx <= a -> hp a = None.
Lemma below a v : hp a = Some v -> a < nx.
Proof. intros H. destruct (N.lt_ge_cases a nx) as [?|G]; [assumption|]. rewrite HN in H by assumption. discriminate. Qed.

Lemma holds_same hp' nx' w ev root' ver' : nx <= nx' -> hp' A = Some (v_fs root' ver' c L) -> (forall a, a < nx -> a <> A -> hp' a = hp a) ->
  (forall a, nx' <= a -> hp' a = None) -> HOLDS (st hp' nx' false w ev) u.
Proof.
  intros Hn HA' Hs Hf. eapply holds_intro; eauto.
  - rewrite Hs; [exact HU|eapply below; eauto|]. intros ->. clash.
  - rewrite Hs; [exact HM|eapply below; eauto|]. intros ->. clash.
  - intros fid. specialize (HT fid). destruct (t fid), (u fid); try assumption. destruct HT as (a & o & -> & Ha & Ho).
    exists a, o. split; [reflexivity|]. split; [|exact Ho]. rewrite Hs; [exact Ha|eapply below; eauto|]. intros ->. rewrite HA in Ha. discriminate.
Qed.
Lemma holds_poke hp' nx' w ev fid a f' o' root' ver' u' : t fid = Some (VPtr (str "file") a []) -> nx <= nx' -> hp' A = Some (v_fs root' ver' c L) ->
  hp' a = Some (v_file f' o') -> bytes_v o' = Some (f_oflow f') -> (forall b, b < nx -> b <> a -> b <> A -> hp' b = hp b) ->
  (forall a, nx' <= a -> hp' a = None) -> u' fid = Some f' -> (forall x, x <> fid -> u' x = u x) -> HOLDS (st hp' nx' false w ev) u'.
Proof.
  intros Ht Hn HA' Ha Ho Hs Hf Hu' Hx'.
  assert (E := HT fid). rewrite Ht in E. destruct (u fid) as [f0|] eqn:Eu; [|contradiction]. destruct E as (a0 & o0 & E & Ha0 & _). inversion E; subst a0. clear E.
  assert (a <> M) by (intros ->; clash). assert (a <> U) by (intros ->; clash).
  eapply holds_intro with (t := t); eauto.
  - rewrite Hs; [exact HU|eapply below; eauto|congruence|]. intros ->. clash.
  - rewrite Hs; [exact HM|eapply below; eauto|congruence|]. intros ->. clash.
  - intros x. destruct (N.eqb_spec x fid) as [->|Nx].
    + rewrite Ht, Hu'. eauto.
    + rewrite Hx' by assumption. specialize (HT x). destruct (t x) eqn:Etx, (u x); try assumption. destruct HT as (b & o & -> & Hb & Hbo).
      exists b, o. split; [reflexivity|]. split; [|exact Hbo]. rewrite Hs; [exact Hb|eapply below; eauto| |].
      * intros ->. apply Nx. eapply HI; eauto.
      * intros ->. rewrite HA in Hb. discriminate.
Qed.
Lemma holds_put hp' nx' w ev fid a f' o' root' ver' : nx <= a -> a < nx' -> hp' A = Some (v_fs root' ver' c L) ->
  hp' a = Some (v_file f' o') -> bytes_v o' = Some (f_oflow f') -> hp' M = Some (VMap VNil (kset t fid (Some (VPtr (str "file") a [])))) ->
  (forall b, b < nx -> b <> M -> b <> A -> hp' b = hp b) ->
  (forall a, nx' <= a -> hp' a = None) -> HOLDS (st hp' nx' false w ev) (set_fid u fid (Some f')).
Proof.
  intros Hn Hn' HA' Ha Ho HM' Hs Hf.
  eapply holds_intro; eauto.
  - rewrite Hs; [exact HU|eapply below; eauto| |]; intros ->; clash.
  - intros x. unfold kset, set_fid. destruct (N.eqb_spec x fid) as [->|Nx]; [eauto|].
    specialize (HT x). destruct (t x) eqn:Etx, (u x); try assumption. destruct HT as (b & o & -> & Hb & Hbo).
    exists b, o. split; [reflexivity|]. split; [|exact Hbo]. rewrite Hs; [exact Hb|eapply below; eauto| |].
    * intros ->. rewrite HM in Hb. discriminate.
    * intros ->. rewrite HA in Hb. discriminate.
  - assert (Old : forall x, t x = Some (VPtr (str "file") a []) -> False).
    { intros x E. specialize (HT x). rewrite E in HT. destruct (u x); [|contradiction]. destruct HT as (b & o & Eb & Hb & _). inversion Eb; subst b.
      apply below in Hb. lia. }
    intros x y b. unfold kset. destruct (N.eqb_spec x fid) as [->|Nx], (N.eqb_spec y fid) as [->|Ny]; intros E1 E2.
    + reflexivity.
    + inversion E1; subst b. destruct (Old _ E2).
    + inversion E2; subst b. destruct (Old _ E1).
    + eapply HI; eauto.
Qed.
Lemma holds_del hp' nx' w ev fid root' ver' : nx <= nx' -> hp' A = Some (v_fs root' ver' c L) -> hp' M = Some (VMap VNil (kset t fid None)) ->
  (forall b, b < nx -> b <> M -> b <> A -> hp' b = hp b) ->
  (forall a, nx' <= a -> hp' a = None) -> HOLDS (st hp' nx' false w ev) (set_fid u fid None).
Proof.
  intros Hn HA' HM' Hs Hf.
  eapply holds_intro; eauto.
  - rewrite Hs; [exact HU|eapply below; eauto| |]; intros ->; clash.
  - intros x. unfold kset, set_fid. destruct (N.eqb_spec x fid) as [->|Nx]; [exact I|].
    specialize (HT x). destruct (t x) eqn:Etx, (u x); try assumption. destruct HT as (b & o & -> & Hb & Hbo).
    exists b, o. split; [reflexivity|]. split; [|exact Hbo]. rewrite Hs; [exact Hb|eapply below; eauto| |].
    * intros ->. rewrite HM in Hb. discriminate.
    * intros ->. rewrite HA in Hb. discriminate.
  - intros x y b. unfold kset. destruct (N.eqb_spec x fid) as [->|Nx], (N.eqb_spec y fid) as [->|Ny]; intros E1 E2; try congruence.
    eapply HI; eauto.
Qed.
End Reps.
