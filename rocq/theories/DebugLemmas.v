(** Servers that behave alike give the same replies on the wire; the debug wrapper behaves like what it wraps. *)
From Verif Require Import Base GoBuf CodecPrim Types Codec Msgs StubPrim Stubs CodecLemmas Server ServerSpec Ufs Debugfs.

(** * Servers that behave alike *)
Definition res_rel {A B X} (R : A -> B -> Prop) (a : nsres A X) (b : nsres B X) : Prop :=
  match a, b with
  | NSOk s r, NSOk s' r' => R s s' /\ r = r'
  | NSErr s e, NSErr s' e' => R s s' /\ e = e'
  | NSPanic, NSPanic => True
  | _, _ => False
  end.
(** Related states give the same answer to every request, and related states. *)
Definition alike {A B} (R : A -> B -> Prop) (n1 : NineServer A) (n2 : NineServer B) : Prop :=
  forall s1 s2 m, R s1 s2 -> res_rel R (invoke n1 s1 m) (invoke n2 s2 m).
Definition srv_rel {A B} (R : A -> B -> Prop) (a : srv A) (b : srv B) : Prop := Versioned a = Versioned b /\ R (NS a) (NS b).
Definition out_rel {A B} (R : A -> B -> Prop) (a : srvres A) (b : srvres B) : Prop :=
  match a, b with
  | SrvReply s o, SrvReply s' o' => R s s' /\ o = o'
  | SrvPanic, SrvPanic => True
  | _, _ => False
  end.
Lemma nsmap_rel {A B X Y} (R : A -> B -> Prop) (f : X -> Y) a b : (forall x y, f x = f y -> x = y) ->
  res_rel R (nsmap f a) (nsmap f b) -> res_rel R a b.
Proof. intros Hf. destruct a, b; cbn; trivial. intros [H E]. split; [exact H|]. apply Hf, E. Qed.
(** One stub: decode, call the method, encode. *)
Ltac stub H HR u mk :=
  unfold on_ns; destruct (u) as [f t0 rest err|]; [|exact I]; cbv zeta;
  let X := fresh "X" in pose proof (H _ _ (mk f) HR) as X; destruct f; cbn [invoke] in X;
  apply nsmap_rel in X; [|first [intros [] []; reflexivity|intros ? ? Einj; injection Einj; trivial]]; cbn beta iota;
  cbn [Tversion_TMsize Tversion_TVersion Tattach_SFID Tattach_AFID Tattach_Uname Tattach_Aname Tflush_OTag Twalk_SFID Twalk_NewFID Twalk_Paths
       Topen_OFID Topen_Omode Tcreate_OFID Tcreate_Name Tcreate_CreatePerm Tcreate_Omode Tclunk_OFID Tstat_OFID Twstat_OFID Twstat_B Tremove_OFID
       Tread_OFID Tread_Off Tread_Len Twrite_OFID Twrite_Off Twrite_Data];
  match type of X with res_rel _ ?a ?b => destruct a, b end; cbn [res_rel] in X; try contradiction; try exact I;
  destruct X as [X E0]; subst; cbn [out_rel]; unfold srv_rel; cbn [Versioned NS]; auto.

Section Alike.
Variables (A B : Type) (R : A -> B -> Prop) (n1 : NineServer A) (n2 : NineServer B).
Hypothesis H : alike R n1 n2.
Lemma switch_alike v s1 s2 b t : R s1 s2 ->
  out_rel (srv_rel R) (dispatch_switch n1 v s1 b t) (dispatch_switch n2 v s2 b t).
Proof.
  intros HR. unfold dispatch_switch.
  destruct (t =? Tversion_t); [unfold SrvRversion; stub H HR (UnmarshalTversionPkt b) MTversion|].
  destruct (t =? Tattach_t); [unfold SrvRattach; stub H HR (UnmarshalTattachPkt b) MTattach|].
  destruct (t =? Tflush_t); [unfold SrvRflush; stub H HR (UnmarshalTflushPkt b) MTflush|].
  destruct (t =? Twalk_t); [unfold SrvRwalk; stub H HR (UnmarshalTwalkPkt b) MTwalk|].
  destruct (t =? Topen_t); [unfold SrvRopen; stub H HR (UnmarshalTopenPkt b) MTopen|].
  destruct (t =? Tcreate_t); [unfold SrvRcreate; stub H HR (UnmarshalTcreatePkt b) MTcreate|].
  destruct (t =? Tclunk_t); [unfold SrvRclunk; stub H HR (UnmarshalTclunkPkt b) MTclunk|].
  destruct (t =? Tstat_t); [unfold SrvRstat; stub H HR (UnmarshalTstatPkt b) MTstat|].
  destruct (t =? Twstat_t); [unfold SrvRwstat; stub H HR (UnmarshalTwstatPkt b) MTwstat|].
  destruct (t =? Tremove_t); [unfold SrvRremove; stub H HR (UnmarshalTremovePkt b) MTremove|].
  destruct (t =? Tread_t); [unfold SrvRread; stub H HR (UnmarshalTreadPkt b) MTread|].
  destruct (t =? Twrite_t); [unfold SrvRwrite; stub H HR (UnmarshalTwritePkt b) MTwrite|].
  split; [split; [reflexivity|exact HR]|reflexivity].
Qed.
Lemma Dispatch_alike st1 st2 b t : srv_rel R st1 st2 -> out_rel (srv_rel R) (Dispatch n1 st1 b t) (Dispatch n2 st2 b t).
Proof.
  intros [HV HR]. unfold Dispatch. destruct (t =? Tversion_t); [apply switch_alike, HR|]. rewrite HV.
  destruct (Versioned st2) eqn:E; [apply switch_alike, HR|]. destruct (unread b) as [|d0 [|d1 l]]; try exact I. split; [split; [congruence|exact HR]|reflexivity].
Qed.
(** The same blocks are written, both end in the same way, in related states. *)
Lemma serve_n_alike e : forall fuel i st1 st2 evs, srv_rel R st1 st2 ->
  let r1 := serve_n n1 e fuel i st1 evs in let r2 := serve_n n2 e fuel i st2 evs in
  r_out r1 = r_out r2 /\ r_crashed r1 = r_crashed r2 /\ srv_rel R (r_st r1) (r_st r2).
Proof.
  induction fuel as [|fuel IH]; intros i st1 st2 evs HR; cbn [serve_n]; [repeat split; apply HR|].
  unfold serve_iter. destruct (net_read 7 evs) as [| |l rest]; [repeat split; apply HR|repeat split; apply HR|].
  destruct l as [|l0 [|l1 [|l2 [|l3 [|l4 [|l5 [|l6 [|l7 l]]]]]]]]; try (repeat split; apply HR).
  cbv zeta. destruct (copy_limit _ rest) as [[body evs']|]; [|repeat split; apply HR].
  match goal with |- context [Dispatch n1 st1 ?b ?t] => pose proof (Dispatch_alike st1 st2 b t HR) as X; destruct (Dispatch n1 st1 b t), (Dispatch n2 st2 b t) end;
    cbn [out_rel] in X; try contradiction; [|repeat split; apply HR].
  destruct X as [X ->]. destruct (e_write e i); [repeat split; apply X|]. destruct (IH (S i) s s0 evs' X) as (P & Q & T).
  cbn [r_out r_crashed r_st]. rewrite P, Q. repeat split; apply T.
Qed.
Theorem serve_alike e s1 s2 evs : R s1 s2 ->
  let r1 := serve n1 e s1 evs in let r2 := serve n2 e s2 evs in
  r_out r1 = r_out r2 /\ r_crashed r1 = r_crashed r2 /\ Versioned (r_st r1) = Versioned (r_st r2) /\ R (NS (r_st r1)) (NS (r_st r2)).
Proof.
  intros HR. destruct (serve_n_alike e (S (pending evs)) 0 (mkSrv false s1) (mkSrv false s2) evs) as (P & Q & T); [split; [reflexivity|exact HR]|].
  split; [exact P|]. split; [exact Q|]. exact T.
Qed.
End Alike.

(** * The wrapper *)
(** What is logged for a request (see Debugfs.v), whatever it is: one line before the call and one after it. *)
Lemma wrap_spec {St A} (q : bytes) (call : St -> nsres St A) reply s log :
  match call s, wrap St q call reply (s, log) with
  | NSOk s' r, NSOk (s2, log2) r2 => s2 = s' /\ r2 = r /\ log2 = log ++ [q; reply r]
  | NSErr s' e, NSErr (s2, log2) e2 => s2 = s' /\ e2 = e /\ log2 = log ++ [q; str "<<< Error " ++ e]
  | NSPanic, NSPanic => True
  | _, _ => False
  end.
Proof. unfold wrap. destruct (call s); trivial; rewrite <- app_assoc; auto. Qed.
Theorem debug_step {St} (ns : NineServer St) s log m :
  match invoke ns s m, invoke (debugfs St ns) (s, log) m with
  | NSOk s' r, NSOk (s2, log2) r2 => s2 = s' /\ r2 = r /\ exists q a, log2 = log ++ [q; a]
  | NSErr s' e, NSErr (s2, log2) e2 => s2 = s' /\ e2 = e /\ exists q, log2 = log ++ [q; str "<<< Error " ++ e]
  | NSPanic, NSPanic => True
  | _, _ => False
  end.
Proof.
  assert (W : forall A (f : A -> rmsg) q (call : St -> nsres St A) reply, 
    match nsmap f (call s), nsmap f (wrap St q call reply (s, log)) with
    | NSOk s' r, NSOk (s2, log2) r2 => s2 = s' /\ r2 = r /\ exists q a, log2 = log ++ [q; a]
    | NSErr s' e, NSErr (s2, log2) e2 => s2 = s' /\ e2 = e /\ exists q, log2 = log ++ [q; str "<<< Error " ++ e]
    | NSPanic, NSPanic => True
    | _, _ => False
    end).
  { intros A f q call reply. pose proof (wrap_spec q call reply s log) as X. destruct (call s), (wrap St q call reply (s, log)) as [[? ?] ?|[? ?] ?|]; cbn; try contradiction; trivial.
    - destruct X as (-> & -> & ->). repeat split. eauto.
    - destruct X as (-> & -> & ->). repeat split. eauto. }
  destruct m as [[]|[]|[]|[]|[]|[]|[]|[]|[]|[]|[]|[]]; cbn [invoke debugfs ns_Rversion ns_Rattach ns_Rflush ns_Rwalk ns_Ropen ns_Rcreate ns_Rread ns_Rwrite ns_Rclunk ns_Rremove ns_Rstat ns_Rwstat].
  1-10: unfold d_Rversion, d_Rattach, d_Rflush, d_Rwalk, d_Ropen, d_Rcreate, d_Rclunk, d_Rremove, d_Rread, d_Rwrite;
    match goal with |- context [nsmap ?f (wrap _ ?q ?call ?reply _)] => exact (W _ f q call reply) end.
  - unfold d_Rstat. destruct (ns_Rstat ns s Tstat_OFID) as [s' r|s' e|]; cbn [nsmap]; trivial.
    + destruct (Unmarshaldir (Buf (Rstat_B r) [])) as [dir t rest err|] eqn:E; [|apply nopanicDir in E; contradiction]. cbn [nsmap]. rewrite <- app_assoc. repeat split. eexists _, _. reflexivity.
    + rewrite <- app_assoc. repeat split. eexists. reflexivity.
  - unfold d_Rwstat. destruct (Unmarshaldir (Buf Twstat_B [])) as [dir t rest err|] eqn:E; [|apply nopanicDir in E; contradiction].
    match goal with |- context [nsmap ?f (wrap _ ?q ?call ?reply _)] => exact (W _ f q call reply) end.
Qed.
Definition forget_log {St} (d : dstate St) (s : St) : Prop := fst d = s.
Lemma debug_alike {St} (ns : NineServer St) : alike forget_log (debugfs St ns) ns.
Proof.
  intros [s log] s2 m Hs. unfold forget_log in Hs. cbn in Hs. subst s2. pose proof (debug_step ns s log m) as X.
  destruct (invoke ns s m) as [s' r|s' e|], (invoke (debugfs St ns) (s, log) m) as [[s2 log2] r2|[s2 log2] e2|]; cbn; try contradiction; trivial;
    destruct X as (-> & -> & _); split; reflexivity.
Qed.
(** On every connection, with whatever comes in and whatever fails. *)
Theorem debug_transparent {St} (ns : NineServer St) e s log evs :
  let r1 := serve (debugfs St ns) e (s, log) evs in let r2 := serve ns e s evs in
  r_out r1 = r_out r2 /\ r_crashed r1 = r_crashed r2 /\ Versioned (r_st r1) = Versioned (r_st r2) /\ fst (NS (r_st r1)) = NS (r_st r2).
Proof. apply (serve_alike _ _ forget_log _ _ (debug_alike ns) e (s, log) s evs eq_refl). Qed.
