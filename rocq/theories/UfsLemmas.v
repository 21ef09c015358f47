(** Runs of the file server's methods: symbolic execution, running on a functional operating system, fid validity. *)
From Verif Require Import Base GoBuf CodecPrim Types Codec Msgs StubPrim GoPath PathSpec Ufs UfsSpec.

(** * Programs *)
Lemma exec_bind {A B} (p : prog A) (k : A -> prog B) : forall u tr r u',
  exec (bind p k) u tr r u' <->
  (exists tr1 tr2 a u1, tr = tr1 ++ tr2 /\ exec p u tr1 (Some a) u1 /\ exec (k a) u1 tr2 r u')
  \/ (exec p u tr None u' /\ r = None).
Proof.
  induction p as [a|o c IH|]; intros u tr r u'; cbn [bind exec].
  - split.
    + intros H. left. exists [], tr, a, u. repeat split; trivial.
    + intros [(tr1 & tr2 & b & u1 & -> & (-> & E & ->) & H)|((-> & E & _) & _)]; [injection E as ->; exact H|discriminate].
  - split.
    + intros (x & tr' & -> & Ha & H). apply IH in H as [(tr1 & tr2 & a & u1 & -> & H1 & H2)|(H1 & ->)].
      * left. exists (Ev o x :: tr1), tr2, a, u1. repeat split; [|exact H2]. exists x, tr1. repeat split; assumption.
      * right. split; [|reflexivity]. exists x, tr'. repeat split; assumption.
    + intros [(tr1 & tr2 & a & u1 & -> & (x & tr' & -> & Ha & H1) & H2)|((x & tr' & -> & Ha & H1) & ->)].
      * exists x, (tr' ++ tr2). repeat split; [assumption|]. apply IH. left. exists tr', tr2, a, u1. auto.
      * exists x, tr'. repeat split; [assumption|]. apply IH. right. auto.
  - split.
    + intros (-> & -> & ->). right. auto.
    + intros [(tr1 & tr2 & a & u1 & _ & (_ & E & _) & _)|((-> & _ & ->) & ->)]; [discriminate|auto].
Qed.

Lemma exec_bind_assoc {A B C} (p : prog A) (k : A -> prog B) (k2 : B -> prog C) u tr r u' :
  exec (bind (bind p k) k2) u tr r u' -> exec (bind p (fun a => bind (k a) k2)) u tr r u'.
Proof.
  intros H. apply exec_bind in H as [(tr1 & tr2 & a & u1 & -> & H1 & H2)|(H1 & ->)].
  - apply exec_bind in H1 as [(tr3 & tr4 & a' & u2 & -> & H3 & H4)|(H1 & X)]; [|discriminate].
    rewrite <- app_assoc. apply exec_bind. left. exists tr3, (tr4 ++ tr2), a', u2. split; [reflexivity|]. split; [exact H3|].
    apply exec_bind. left. exists tr4, tr2, a, u1. auto.
  - apply exec_bind in H1 as [(tr3 & tr4 & a' & u2 & -> & H3 & H4)|(H1 & _)].
    + apply exec_bind. left. exists tr3, tr4, a', u2. split; [reflexivity|]. split; [exact H3|]. apply exec_bind. right. auto.
    + apply exec_bind. right. auto.
Qed.

(** A functional operating system yields a run. *)
Lemma answer_allowed {W} (h : os W) u o w : allowed u o (fst (answer_op h u o w)).
Proof. destruct o; cbn; trivial. Qed.
Lemma run_exec {A W} (h : os W) (p : prog A) : forall u w r u' w' tr,
  run_prog h p u w = (r, u', w', tr) -> exec p u tr r u'.
Proof.
  induction p as [a|o c IH|]; intros u w r u' w' tr; cbn [run_prog exec].
  - intros E. injection E as <- <- <- <-. auto.
  - pose proof (answer_allowed h u o w) as Ha. destruct (answer_op h u o w) as [x w1]. cbn [fst] in Ha.
    destruct (run_prog h (c x) (effect o u) w1) as [[[r1 u1] w2] tr1] eqn:E. intros X. injection X as <- <- <- <-.
    exists x, tr1. split; [reflexivity|]. split; [exact Ha|]. eapply IH. exact E.
  - intros E. injection E as <- <- <- <-. auto.
Qed.

(** * Symbolic execution *)
Ltac sxu H := unfold method, wrapR, Rversion_, Rattach_, Rflush_, Rwalk_, Ropen_, Rcreate_, Rclunk_, Rremove_,
  Rstat_, Rwstat_, Rread_, Rwrite_, wstat_rename, wstat_times, clunk, getFile, stat_, when, try_, fail, ok in H; cbn [exec bind allowed effect] in H.
Ltac sx1 H :=
  lazymatch type of H with
  | ex _ => let x := fresh "x" in destruct H as [x H]
  | _ = _ /\ _ => let A := fresh "A" in destruct H as [A H]; subst
  | True /\ _ => destruct H as [_ H]
  | exec (match ?x with _ => _ end) _ _ _ _ => let E := fresh "E" in destruct x eqn:E; try discriminate E
  | exec (bind (match ?x with _ => _ end) _) _ _ _ _ => let E := fresh "E" in destruct x eqn:E; try discriminate E
  | exec (bind (bind (match ?x with _ => _ end) _) _) _ _ _ _ => let E := fresh "E" in destruct x eqn:E; try discriminate E
  | exec (bind (bind (bind (match ?x with _ => _ end) _) _) _) _ _ _ _ => let E := fresh "E" in destruct x eqn:E; try discriminate E
  end.
(** Follows every path through the program of H. *)
Ltac sx H := sxu H; repeat (sx1 H; cbn [exec bind allowed effect] in H); subst.

(** * The walk loop *)
Lemma walk_loop_exec : forall els p q u tr r u',
  exec (walk_loop p els q) u tr r u' ->
  u' = u /\ exists infos,
    (List.length infos = List.length els /\ tr = lookups p els infos /\
       r = Some (WAll (path_to p els) (q ++ map fileInfoToQID infos)))
    \/ ((List.length infos < List.length els)%nat /\ r = Some (WFail (q ++ map fileInfoToQID infos)) /\
       exists e, tr = lookups p els infos ++ [Ev (OLstat (path_to p (firstn (S (List.length infos)) els))) (inl e)]).
Proof.
  induction els as [|e els IH]; intros p q u tr r u' H; cbn [walk_loop exec] in H.
  - destruct H as (-> & -> & ->). split; [reflexivity|]. exists []. left. repeat split. cbn. rewrite app_nil_r. reflexivity.
  - destruct H as (x & tr' & -> & _ & H). cbn [effect] in H. destruct x as [e'|fi].
    + destruct H as (-> & -> & ->). split; [reflexivity|]. exists []. right. split; [cbn; lia|]. split; [cbn; rewrite app_nil_r; reflexivity|].
      exists e'. reflexivity.
    + apply IH in H as (-> & infos & [(L & -> & ->)|(L & -> & e' & ->)]); (split; [reflexivity|]); exists (fi :: infos).
      * left. cbn [List.length]. repeat split; [lia|]. cbn [map]. rewrite <- app_assoc. reflexivity.
      * right. cbn [List.length]. split; [lia|]. cbn [map]. rewrite <- app_assoc. split; [reflexivity|]. exists e'. reflexivity.
Qed.

(** The operations of a lookup in the table. *)
Definition find_ (u : table) (fid : N) : list event := [Ev OLock tt; Ev (OGet fid) (u fid); Ev OUnlock tt].

(** All runs of a walk. *)
Lemma walk_exec c fid newfid els u tr r u' :
  exec (method c (MTwalk (mkTwalkPkt fid newfid els))) u tr r u' ->
  (u fid = None /\ tr = find_ u fid /\ r = Some (inl (str "does not exist")) /\ u' = u) \/
  exists f, u fid = Some f /\
  ((els = [] /\ u newfid <> None /\ u' = u /\ tr = find_ u fid ++ find_ u newfid /\ exists e, r = Some (inl e)) \/
   (els = [] /\ u newfid = None /\ u' = set_fid u newfid (Some f) /\ r = Some (inr (MRwalk (mkRwalkPkt []))) /\
      tr = find_ u fid ++ [Ev OLock tt; Ev (OGet newfid) None; Ev (OPut newfid f) tt; Ev OUnlock tt]) \/
   (els <> [] /\ exists infos,
     ((List.length infos < List.length els)%nat /\ u' = u /\
        r = Some (match infos with [] => inl (str "file does not exist") | _ => inr (MRwalk (mkRwalkPkt (map fileInfoToQID infos))) end) /\
        exists e, tr = find_ u fid ++ lookups (f_fullName f) els infos ++ [Ev (OLstat (path_to (f_fullName f) (firstn (S (List.length infos)) els))) (inl e)]) \/
     (List.length infos = List.length els /\
       ((fid <> newfid /\ u newfid <> None /\ u' = u /\ tr = find_ u fid ++ lookups (f_fullName f) els infos ++ find_ u newfid /\
           exists e, r = Some (inl e)) \/
        ((fid = newfid \/ u newfid = None) /\
           let nf := mkFile (last (map fileInfoToQID infos) zeroQID) (path_to (f_fullName f) els) None [] in
           u' = set_fid u newfid (Some nf) /\ r = Some (inr (MRwalk (mkRwalkPkt (map fileInfoToQID infos)))) /\
           tr = find_ u fid ++ lookups (f_fullName f) els infos ++ [Ev OLock tt] ++ (if fid =? newfid then [] else [Ev (OGet newfid) None])
                ++ [Ev (OPut newfid nf) tt; Ev OUnlock tt]))))).
Proof.
  intros H. sx H; repeat match goal with x : ret_of _ |- _ => destruct x end.
  { (* clone, in use *)
    right. exists f. split; [reflexivity|]. left. unfold find_. rewrite E, E0. repeat split; [discriminate|eexists; reflexivity]. }
  { right. exists f. split; [reflexivity|]. right; left. unfold find_. rewrite E. repeat split. }
  2:{ left. unfold find_. rewrite E. repeat split. }
  right. exists f. split; [reflexivity|]. right; right. split; [discriminate|].
  set (els := b :: l) in *. unfold find_. rewrite E.
  apply exec_bind_assoc in H.
  apply exec_bind in H as [(tr1 & tr2 & w & u1 & -> & H1 & H2)|(H1 & ->)].
  2:{ apply walk_loop_exec in H1 as (_ & infos & [(_ & _ & X)|(_ & X & _)]); discriminate. }
  apply walk_loop_exec in H1 as (-> & infos & [(L & -> & Ew)|(L & Ew & e & ->)]); injection Ew as ->; exists infos; cbn [app] in *.
  - right. split; [exact L|]. sx H2; repeat match goal with x : ret_of _ |- _ => destruct x end.
    + destruct (N.eqb_spec fid newfid) as [|Hn]; [discriminate|]. left. split; [exact Hn|]. split; [discriminate|]. split; [reflexivity|]. split; [reflexivity|eexists; reflexivity].
    + destruct (N.eqb_spec fid newfid) as [|Hn]; [discriminate|]. right. split; [right; reflexivity|]. repeat split. 
    + destruct (N.eqb_spec fid newfid) as [->|Hn]; [|discriminate]. right. split; [left; reflexivity|]. repeat split.
  - left. split; [exact L|]. destruct infos; cbn [map] in H2; sx H2; repeat split; exists e; cbn [app]; rewrite ?app_nil_r; reflexivity.
Qed.

(** All requests; the walk goes through [walk_exec]. *)
Ltac known := repeat match goal with E : ?u ?a = _ |- context [?u ?a] => rewrite E end.
Ltac methods m H :=
  destruct m as [[?a ?b]|[?a ?b ?d ?g]|[?a]|[?a ?b ?d]|[?a ?b]|[?a ?b ?d ?g]|[?a ?b ?d]|[?a ?b ?d]|[?a]|[?a]|[?a]|[?a ?b]];
  [sx H|sx H|sx H|apply walk_exec in H|sx H ..];
  repeat match goal with x : ret_of OLock |- _ => destruct x | x : ret_of OUnlock |- _ => destruct x
    | x : ret_of (OPut _ _) |- _ => destruct x | x : ret_of (ODel _) |- _ => destruct x | x : ret_of (OSet _ _) |- _ => destruct x end.
(** The cases of [walk_exec]. *)
Ltac wcases H :=
  destruct H as [(?Hu & -> & -> & ->)|(?f & ?Hf & [(-> & ?Hn & -> & -> & ?e & ->)|[(-> & ?Hn & -> & -> & ->)|
    (?Hels & ?infos & [(?L & -> & -> & ?e & ->)|(?L & [(?Hne & ?Hn & -> & -> & ?e & ->)|(?Hor & -> & -> & ->)])])]])].

(** * Fid validity *)
Definition is_some {A} (o : option A) : bool := match o with Some _ => true | None => false end.
Lemma set_fid_same u a f : set_fid u a f a = f.
Proof. unfold set_fid. rewrite N.eqb_refl. reflexivity. Qed.
Lemma set_fid_other u a f x : x <> a -> set_fid u a f x = u x.
Proof. unfold set_fid. intros H. destruct (N.eqb_spec x a); [congruence|reflexivity]. Qed.

Lemma poke_some u a f g : u a = Some g -> poke u a f = set_fid u a (Some f).
Proof. unfold poke. intros ->. reflexivity. Qed.
Lemma poke_set u a f g : poke (set_fid u a (Some f)) a g = set_fid (set_fid u a (Some f)) a (Some g).
Proof. apply poke_some with f. apply set_fid_same. Qed.
Ltac pokes := repeat (rewrite poke_set || match goal with E : ?u ?a = Some ?g |- context [poke ?u ?a ?f] => rewrite (poke_some u a f g E) end).

Lemma valid_exec c m u tr r u' : exec (method c m) u tr r u' ->
  forall x, is_some (u' x) = valid_step x (is_some (u x)) (mkStep u m tr r u').
Proof.
  intros H x. methods m H; pokes; unfold valid_step; cbn [s_req s_res introduces forgets names_fid
    Tattach_SFID Twalk_Paths Twalk_NewFID Rwalk_QIDs Tclunk_OFID Tremove_OFID].
  all: try (match goal with |- context [MTwalk] => idtac | _ => unfold set_fid; known end;
    repeat match goal with |- context [?a =? ?b] => destruct (N.eqb_spec a b) as [X|]; [try subst b|] end; known; reflexivity).
  { wcases H; cbn [Rwalk_QIDs List.length Nat.eqb names_fid]; unfold set_fid; try reflexivity.
    - rewrite (N.eqb_sym x b). destruct (N.eqb_spec b x) as [X|]; [subst b|]; known; reflexivity.
    - destruct infos; [reflexivity|]. cbn [Rwalk_QIDs]. rewrite map_length.
      destruct (Nat.eqb_spec (List.length (f0 :: infos)) (List.length d)); [lia|reflexivity].
    - rewrite map_length, L, Nat.eqb_refl. cbn [names_fid]. destruct (N.eqb_spec x b); reflexivity. }
Qed.

Lemma hist_valid c h u : hist c h u -> forall x, is_some (u x) = valid h x.
Proof.
  induction 1 as [|h u m tr r u' Hh IH He]; intros x; [reflexivity|].
  unfold valid. rewrite fold_left_app. cbn [fold_left]. fold (valid h x). rewrite <- IH.
  exact (valid_exec _ _ _ _ _ _ He x).
Qed.
Lemma invalid_refused c m fid u tr r u' : subject m = Some fid -> u fid = None -> exec (method c m) u tr r u' ->
  (exists e, r = Some (inl e)) /\ u' = u /\ calls tr = [].
Proof.
  intros Hs Hu H. methods m H; cbn [subject Twalk_SFID Topen_OFID Tcreate_OFID Tread_OFID Twrite_OFID Tclunk_OFID Tremove_OFID Tstat_OFID Twstat_OFID] in Hs;
    try discriminate; injection Hs as ->; try congruence.
  all: try (split; [eexists; reflexivity|split; reflexivity]).
  wcases H; try congruence. split; [eexists; reflexivity|split; reflexivity].
Qed.
Theorem fid_validity c h u : hist c h u ->
  (forall fid, u fid <> None <-> valid h fid = true) /\
  (forall m fid tr r u', subject m = Some fid -> valid h fid = false -> exec (method c m) u tr r u' ->
     (exists e, r = Some (inl e)) /\ u' = u /\ calls tr = []).
Proof.
  intros H. pose proof (hist_valid c h u H) as V. split.
  - intros fid. rewrite <- V. destruct (u fid); cbn; split; congruence.
  - intros m fid tr r u' Hs Hv He. apply (invalid_refused c m fid u tr r u' Hs); [|exact He].
    rewrite <- V in Hv. destruct (u fid); [discriminate|reflexivity].
Qed.

(** * Walks *)
Lemma calls_app a b : calls (a ++ b) = calls a ++ calls b.
Proof. unfold calls. apply filter_app. Qed.
Lemma calls_lookups p els infos : calls (lookups p els infos) = lookups p els infos.
Proof. revert p infos; induction els as [|e els IH]; intros p infos; [reflexivity|]. destruct infos; [reflexivity|]. cbn. f_equal. apply IH. Qed.
Theorem walk_semantics c fid newfid els u f tr r u' : u fid = Some f ->
  exec (method c (MTwalk (mkTwalkPkt fid newfid els))) u tr r u' -> els <> [] ->
  exists infos,
    ((List.length infos < List.length els)%nat /\
       (exists e, calls tr = lookups (f_fullName f) els infos ++ [Ev (OLstat (path_to (f_fullName f) (firstn (S (List.length infos)) els))) (inl e)]) /\
       r = Some (match infos with [] => inl (str "file does not exist") | _ => inr (MRwalk (mkRwalkPkt (map fileInfoToQID infos))) end) /\
       u' = u)
    \/ (List.length infos = List.length els /\ calls tr = lookups (f_fullName f) els infos /\
       (if (negb (fid =? newfid) && is_some (u newfid))%bool
        then (exists e, r = Some (inl e)) /\ u' = u
        else r = Some (inr (MRwalk (mkRwalkPkt (map fileInfoToQID infos)))) /\
             u' newfid = Some (mkFile (last (map fileInfoToQID infos) zeroQID) (path_to (f_fullName f) els) None []) /\
             forall x, x <> newfid -> u' x = u x)).
Proof.
  intros Hf0 H Hels0. apply walk_exec in H. wcases H; try congruence; rewrite Hf in Hf0; injection Hf0 as ->; exists infos.
  - left. split; [exact L|]. rewrite !calls_app, calls_lookups. split; [exists e; reflexivity|]. split; reflexivity.
  - right. split; [exact L|]. rewrite !calls_app, calls_lookups. split; [cbn [calls find_ filter]; apply app_nil_r|].
    destruct (N.eqb_spec fid newfid); [congruence|]. destruct (u newfid); [|congruence]. cbn. split; [exists e; reflexivity|reflexivity].
  - right. split; [exact L|]. rewrite !calls_app, calls_lookups. split.
    { destruct (fid =? newfid); cbn; apply app_nil_r. }
    replace (negb (fid =? newfid) && is_some (u newfid))%bool with false.
    + split; [reflexivity|]. split; [apply set_fid_same|]. intros x Hx. apply set_fid_other. exact Hx.
    + destruct Hor as [->|X]; [rewrite N.eqb_refl; reflexivity|]. rewrite X. cbn. rewrite andb_false_r. reflexivity.
Qed.
Theorem clone_semantics c fid newfid u f tr r u' : u fid = Some f ->
  exec (method c (MTwalk (mkTwalkPkt fid newfid []))) u tr r u' ->
  calls tr = [] /\
  (if is_some (u newfid) then (exists e, r = Some (inl e)) /\ u' = u
   else r = Some (inr (MRwalk (mkRwalkPkt []))) /\ u' newfid = Some f /\ forall x, x <> newfid -> u' x = u x).
Proof.
  intros Hf0 H. remember (@nil bytes) as els eqn:Ee in H. apply walk_exec in H. wcases H; try congruence; rewrite Hf in Hf0; injection Hf0 as ->.
  - split; [reflexivity|]. destruct (u newfid); [|congruence]. split; [exists e; reflexivity|reflexivity].
  - split; [reflexivity|]. rewrite Hn. split; [reflexivity|]. split; [apply set_fid_same|]. intros x Hx. apply set_fid_other. exact Hx.
Qed.
