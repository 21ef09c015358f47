(** One connection: the text and the model make the same calls, whatever they are answered. *)
From Verif Require Import Base GoBuf CodecPrim Types Codec Msgs StubPrim GoPath GoSyntax GoRun GoProg Ufs UfsSpec GoFmt UfsRun UfsRunThm3 Conns ConnsRun.

(** * An operating system that reads its answers from a list *)
Record canned := mkCanned { an_info : oserr + FileInfo; an_file : oserr + handle; an_read : bytes * option oserr; an_write : Z * option oserr; an_err : option oserr }.
Definition can0 : canned := mkCanned (inl EOF) (inl EOF) ([], None) (0%Z, None) None.
Definition pick (o : op) (u : canned) : ret_of o :=
  match o return ret_of o with
  | OLock | OUnlock | OPut _ _ | ODel _ | OSet _ _ => tt
  | OGet _ => None
  | OLstat _ | OStat _ | OReaddir _ => an_info u
  | OOpen _ _ _ => an_file u
  | OReadAt _ _ _ => an_read u
  | OWriteAt _ _ _ => an_write u
  | OMkdir _ _ | OChmod _ _ | ORename _ _ | OTruncate _ _ | OChtimes _ _ _ | ORemove _ | OSeek _ | OSync _ | OClose _ => an_err u
  end.
Definition can (o : op) : ret_of o -> canned :=
  match o return ret_of o -> canned with
  | OLock | OUnlock | OPut _ _ | ODel _ | OSet _ _ | OGet _ => fun _ => can0
  | OLstat _ | OStat _ | OReaddir _ => fun x => mkCanned x (inl EOF) ([], None) (0%Z, None) None
  | OOpen _ _ _ => fun x => mkCanned (inl EOF) x ([], None) (0%Z, None) None
  | OReadAt _ _ _ => fun x => mkCanned (inl EOF) (inl EOF) x (0%Z, None) None
  | OWriteAt _ _ _ => fun x => mkCanned (inl EOF) (inl EOF) ([], None) x None
  | OMkdir _ _ | OChmod _ _ | ORename _ _ | OTruncate _ _ | OChtimes _ _ _ | ORemove _ | OSeek _ | OSync _ | OClose _ => fun x => mkCanned (inl EOF) (inl EOF) ([], None) (0%Z, None) x
  end.
Definition script : os (list canned) := fun o us => match us with [] => (pick o can0, []) | u :: us => (pick o u, us) end.
Definition is_call (o : op) : bool := match o with OLock | OUnlock | OGet _ | OPut _ _ | ODel _ | OSet _ _ => false | _ => true end.
Definition lift (s : store unit) (us : list canned) : store (list canned) := mkStore (heap s) (next s) (locked s) us (calls_made s).
(** The operation, as the text sees it. *)
Definition consume (o : op) (us : list canned) : ret_of o * list canned := answer_op script no_fids o us.
Definition prepare (o : op) (x : ret_of o) (us : list canned) : list canned := if is_call o then can o x :: us else us.
Lemma consume_prepare o x us : external (Ev o x) = true -> consume o (prepare o x us) = (x, us).
Proof. destruct o; cbn; intros E; try discriminate E; try destruct x; reflexivity. Qed.
Lemma consume_any u o us : (exists x, external (Ev o x) = true) -> answer_op script u o us = consume o us.
Proof. intros (x & E). destruct o; try discriminate E; reflexivity. Qed.
Lemma consume_call o us : is_call o = true -> consume o us = script o us.
Proof. destruct o; intros E; try discriminate E; reflexivity. Qed.

(** * Steps and runs *)
Ltac scrut x := match x with
  | match ?y with _ => _ end => scrut y
  | _ => destruct x
  end.
Ltac dif := repeat (match goal with |- match ?x with _ => _ end => scrut x end; try exact I; try reflexivity).
Lemma lib_lift f args s us : library f args (lift s us) = library f args s.
Proof. reflexivity. Qed.
Lemma lib_os {W} f args (s : store W) : match library f args s with LOs o _ | LRead _ o _ => is_call o = true | _ => True end.
Proof. unfold library. cbv zeta. dif. Qed.
Definition inside_req (r : req) (s : store unit) : bool :=
  match r with RExt f args => match library f args s with LOs _ _ | LRead _ _ _ | LLock _ => false | _ => true end | _ => true end.
Lemma inside_same fs M r s us : inside_req r s = true ->
  serve_req script (mkLayout fs M 0 1 2) r (lift s us) =
    match serve_req no_os G r s with Answer vs s' => Answer vs (lift s' us) | Crash => Crash | NoAnswer => NoAnswer end /\
  match serve_req no_os G r s with Answer vs s' => calls_made s' = calls_made s | _ => True end.
Proof.
  destruct s as [hp nx lk w ev]. destruct r; cbn [serve_req inside_req]; intros E; unfold with_heap, new_cell, lift; cbn [heap next locked osw calls_made].
  all: try (split; [reflexivity|exact I]); try (split; reflexivity).
  - destruct (hp a) as [v|]; [destruct (get_path p v)|]; split; try exact I; reflexivity.
  - destruct (hp a) as [v'|]; [destruct (set_path p v v')|]; split; try exact I; reflexivity.
  - destruct (hp a) as [[]|]; split; try exact I; reflexivity.
  - destruct (hp a) as [[]|]; split; try exact I; reflexivity.
  - destruct (hp a) as [[]|]; split; try exact I; reflexivity.
  - cbn [G flags_at a_user a_root a_debug]. destruct (beq x (str "user")), (beq x (str "root")), (beq x (str "debug")); split; try exact I; reflexivity.
  - change (library f args (mkStore hp nx lk us ev)) with (library f args (mkStore hp nx lk w ev)).
    destruct (library f args (mkStore hp nx lk w ev)); try discriminate E; split; try exact I; reflexivity.
Qed.
Lemma look_run fs M n m s us : run script (mkLayout fs M 0 1 2) (S n) m (lift s us) =
  match look m s with
  | Tau m' s' => run script (mkLayout fs M 0 1 2) n m' (lift s' us)
  | Do o k => let (x, us') := consume o us in run script (mkLayout fs M 0 1 2) n (fst (k x)) (lift (snd (k x)) us')
  | Finish vs => Some (Returned vs, lift s us)
  | Die => Some (Panicked, lift s us)
  | Off => None
  end.
Proof.
  cbn [run]. unfold look. destruct (GoRun.step ufs_program m) as [m1|b m1 m2|l m1 f|v f|r m1|vs| |x]; try reflexivity.
  - destruct l; reflexivity.
  - destruct v; reflexivity.
  - destruct (inside_req r s) eqn:Ei.
    + assert (H : match r with
                  | RExt f args => match library f args s with
                    | LOs o enc => Do o (fun x => (resume m1 (enc x), noted s (Ev o x)))
                    | LRead a o enc => match heap s a with
                      | Some (VArr z) => Do o (fun x => let (vs, b) := enc x in (resume m1 vs, with_heap (noted s (Ev o x)) (hset (heap s) a (VArr (overlay z b)))))
                      | _ => Off end
                    | LLock b => if Bool.eqb b (locked s) then Off
                        else if b then Do OLock (fun x => (resume m1 [], mkStore (heap s) (next s) true tt (calls_made s ++ [Ev OLock x])))
                        else Do OUnlock (fun x => (resume m1 [], mkStore (heap s) (next s) false tt (calls_made s ++ [Ev OUnlock x])))
                    | _ => inside_ask (RExt f args) m1 s end
                  | r => inside_ask r m1 s end = inside_ask r m1 s).
      { destruct r; try reflexivity. cbn [inside_req] in Ei. destruct (library f args s); try discriminate Ei; reflexivity. }
      rewrite H. unfold inside_ask. destruct (inside_same fs M r s us Ei) as [-> _]. destruct (serve_req no_os G r s); reflexivity.
    + destruct r; try discriminate Ei. cbn [inside_req] in Ei. cbn [serve_req]. rewrite lib_lift. pose proof (lib_os f args s) as Hc.
      destruct (library f args s); try discriminate Ei.
      * unfold os_call. rewrite <- (consume_call o us Hc : _ = script o (osw (lift s us))). destruct (consume o us) as [x us']. reflexivity.
      * unfold os_call. rewrite <- (consume_call o us Hc : _ = script o (osw (lift s us))). destruct (consume o us) as [x us2] eqn:Ex.
        destruct (enc x) as [vs b] eqn:Ee. cbn [lift heap]. destruct (heap s a) as [[]|]; try reflexivity. cbv beta iota. rewrite Ex. cbv beta iota. rewrite Ee. reflexivity.
      * cbn [lift locked]. destruct (Bool.eqb b (locked s)); [reflexivity|]. destruct b; reflexivity.
Qed.
(** Steps inside the process leave no trace; calls leave one event. *)
Lemma look_calls m s : match look m s with
  | Tau _ s' => calls_made s' = calls_made s
  | Do o k => (forall x, external (Ev o x) = true) /\ (forall x, calls_made (snd (k x)) = calls_made s ++ [Ev o x])
  | _ => True
  end.
Proof.
  unfold look. destruct (GoRun.step ufs_program m) as [m1|b m1 m2|l m1 f|v f|r m1|vs| |x]; try reflexivity; try exact I.
  - destruct l; reflexivity.
  - destruct v; try reflexivity; exact I.
  - assert (Hi : inside_req r s = true -> match inside_ask r m1 s with
      | Tau _ s' => calls_made s' = calls_made s
      | Do o k => (forall x, external (Ev o x) = true) /\ (forall x, calls_made (snd (k x)) = calls_made s ++ [Ev o x])
      | _ => True end).
    { intros Ei. unfold inside_ask. destruct (inside_same 0 0 r s [] Ei) as [_ H]. destruct (serve_req no_os G r s); auto. }
    destruct r; try (apply Hi; reflexivity). pose proof (lib_os f args s) as Hc. cbn [inside_req] in Hi.
    destruct (library f args s); try (apply Hi; reflexivity).
    + split; [|reflexivity]. intros x. destruct o; try discriminate Hc; reflexivity.
    + destruct (heap s a) as [[]|]; try exact I. split; [intros x; destruct o; try discriminate Hc; reflexivity|]. intros x. destruct (enc x). reflexivity.
    + destruct (Bool.eqb b (locked s)); [exact I|]. destruct b; split; reflexivity.
Qed.
Lemma run_calls fs M n : forall m s us out s', run script (mkLayout fs M 0 1 2) n m (lift s us) = Some (out, s') -> exists ev, calls_made s' = calls_made s ++ ev.
Proof.
  induction n as [|n IH]; intros m s us out s' E; [discriminate E|]. rewrite look_run in E. pose proof (look_calls m s) as Hl.
  destruct (look m s) as [m1 s1|o k|vs| |].
  - destruct (IH _ _ _ _ _ E) as (ev & ->). rewrite Hl. eauto.
  - destruct (consume o us) as [x us']. destruct (IH _ _ _ _ _ E) as (ev & ->). destruct Hl as [_ ->]. rewrite <- app_assoc. eauto.
  - inversion E; subst. exists []. cbn. rewrite app_nil_r. reflexivity.
  - inversion E; subst. exists []. cbn. rewrite app_nil_r. reflexivity.
  - discriminate E.
Qed.

(** * Operations on the table *)
Definition local (u : table) (o : op) : option (ret_of o) :=
  match o return option (ret_of o) with OGet fid => Some (u fid) | OPut _ _ | ODel _ | OSet _ _ => Some tt | _ => None end.
Fixpoint settle {A} (p : prog A) (u : table) : prog A * table * list event :=
  match p with
  | Call o k =>
      match local u o with
      | Some x => let '(p, u', tr) := settle (k x) (effect o u) in (p, u', Ev o x :: tr)
      | None => (p, u, [])
      end
  | p => (p, u, [])
  end.
Lemma local_some u o x : local u o = Some x -> allowed u o x /\ external (Ev o x) = false /\ forall us, answer_op script u o us = (x, us).
Proof. destruct o; cbn; intros E; try discriminate E; inversion E; subst; repeat split; reflexivity. Qed.
Lemma local_none u o : local u o = None -> forall x, external (Ev o x) = true /\ effect o u = u /\ allowed u o x.
Proof. destruct o; cbn; intros E x; try discriminate E; repeat split; reflexivity. Qed.
Definition settled {A} (p : prog A) (u : table) : Prop := match p with Call o k => local u o = None | _ => True end.
Lemma settle_settled A (p : prog A) : forall u, let '(p', u', _) := settle p u in settled p' u'.
Proof.
  induction p as [a|o k IH|]; intros u; cbn [settle]; try exact I.
  destruct (local u o) as [x|] eqn:E; [|exact E]. specialize (IH x (effect o u)). destruct (settle (k x) (effect o u)) as [[p' u'] tr]. exact IH.
Qed.

(** * The text agrees with the model *)
Definition agree (c : config) (q : tmsg) (fs M : N) (m : machine) (s : store unit) (p : prog (answerOf rmsg)) (u : table) : Prop :=
  forall us, let '(r, u', us', tr) := run_prog script p u us in
    exists n out s', run script (mkLayout fs M 0 1 2) n m (lift s us) = Some (out, s') /\ same_result q r out s' /\
      (r <> None -> holds c (mkLayout fs M 0 1 2) s' u') /\ osw s' = us' /\ calls_made s' = calls_made s ++ filter external tr.

Lemma agree_local c q fs M m s o k u x : local u o = Some x -> agree c q fs M m s (Call o k) u -> agree c q fs M m s (k x) (effect o u).
Proof.
  intros E H us. specialize (H us). cbn [run_prog] in H. destruct (local_some _ _ _ E) as (_ & Hx & Ha). rewrite Ha in H.
  destruct (run_prog script (k x) (effect o u) us) as [[[r u'] us'] tr]. cbn [filter] in H. rewrite Hx in H. exact H.
Qed.
Lemma agree_settle c q fs M m s p : forall u, agree c q fs M m s p u -> let '(p', u', tr) := settle p u in agree c q fs M m s p' u' /\ filter external tr = [].
Proof.
  induction p as [a|o k IH|]; intros u H; cbn [settle]; try (split; [exact H|reflexivity]).
  destruct (local u o) as [x|] eqn:E; [|split; [exact H|reflexivity]].
  apply (agree_local _ _ _ _ _ _ _ _ _ _ E) in H. specialize (IH x _ H). destruct (settle (k x) (effect o u)) as [[p' u'] tr].
  destruct IH as [H1 H2]. split; [exact H1|]. cbn [filter]. destruct (local_some _ _ _ E) as (_ & -> & _). exact H2.
Qed.
Lemma holds_lower c L s us u : holds c L (lift s us) u -> holds c L s u.
Proof. intros [A B C D E]. split; assumption. Qed.
Lemma holds_lift c L s us u : holds c L s u -> holds c L (lift s us) u.
Proof. intros [A B C D E]. split; assumption. Qed.
Lemma reply_lift s us q vs : reply_of (lift s us) q vs = reply_of s q vs.
Proof. reflexivity. Qed.

(** What the text does next is what the model does next. *)
Lemma agree_look c q fs M m s p u : agree c q fs M m s p u -> settled p u ->
  match look m s with
  | Tau m' s' => agree c q fs M m' s' p u
  | Do o k => exists k', p = Call o k' /\ forall x, agree c q fs M (fst (k x)) (snd (k x)) (k' x) u
  | Finish vs => exists r, p = Ret r /\ reply_of s q vs = Some r /\ holds c (mkLayout fs M 0 1 2) s u
  | Die => p = Panic
  | Off => False
  end.
Proof.
  intros H Hs. pose proof (look_calls m s) as Hc. destruct (look m s) as [m1 s1|o k|vs| |] eqn:El.
  - intros us. specialize (H us). destruct (run_prog script p u us) as [[[r u'] us'] tr].
    destruct H as ([|n] & out & s' & E & H); [discriminate E|]. rewrite look_run, El in E. exists n, out, s'. rewrite Hc. auto.
  - destruct Hc as [He Hc].
    assert (Hp : forall (x : ret_of o) (us : list canned), exists k', p = Call o k').
    { intros x us. specialize (H (prepare o x us)). destruct (run_prog script p u (prepare o x us)) as [[[r u'] us'] tr] eqn:Er.
      destruct H as ([|n] & out & s' & E & _ & _ & _ & H); [discriminate E|]. rewrite look_run, El, consume_prepare in E by auto.
      destruct (run_calls _ _ _ _ _ _ _ _ E) as (ev & Hev). rewrite Hc, <- app_assoc in Hev. rewrite Hev in H. apply app_inv_head in H.
      destruct p as [a|o' k'|]; cbn [run_prog] in Er.
      - inversion Er; subst. discriminate H.
      - destruct (answer_op script u o' (prepare o x us)) as [x' w'] eqn:Ea. destruct (run_prog script (k' x') (effect o' u) w') as [[[r1 u1] w1] tr1].
        inversion Er; subst. cbn [filter] in H. destruct (local_none _ _ Hs x') as (Hx & _). rewrite Hx in H.
        apply (f_equal (fun l => match l with e :: _ => Some (ev_op e) | [] => None end)) in H. cbn in H. inversion H; subst. eauto.
      - inversion Er; subst. discriminate H. }
    destruct (Hp (pick o can0) []) as (k' & ->). exists k'. split; [reflexivity|]. intros x us.
    cbn [settled] in Hs. destruct (local_none _ _ Hs x) as (Hx & Hf & _).
    specialize (H (prepare o x us)). cbn [run_prog] in H. rewrite consume_any, consume_prepare in H by eauto. rewrite Hf in H.
    destruct (run_prog script (k' x) u us) as [[[r u'] us'] tr].
    destruct H as ([|n] & out & s' & E & H1 & H2 & H3 & H4); [discriminate E|]. rewrite look_run, El, consume_prepare in E by auto.
    exists n, out, s'. split; [exact E|]. split; [exact H1|]. split; [exact H2|]. split; [exact H3|].
    cbn [filter] in H4. rewrite Hx in H4. rewrite Hc, <- app_assoc. exact H4.
  - specialize (H []). destruct (run_prog script p u []) as [[[r u'] us'] tr] eqn:Er.
    destruct H as ([|n] & out & s' & E & H1 & H2 & _ & H4); [discriminate E|]. rewrite look_run, El in E. inversion E; subst out s'. clear E.
    destruct r as [r|]; [|contradiction]. cbn [same_result] in H1. rewrite reply_lift in H1.
    assert (Ht : filter external tr = []). { cbn [lift calls_made] in H4. rewrite <- (app_nil_r (calls_made s)) in H4 at 1. apply app_inv_head in H4. congruence. }
    destruct p as [a|o k|]; cbn [run_prog] in Er.
    + inversion Er; subst. exists r. split; [reflexivity|]. split; [exact H1|]. apply (holds_lower _ _ _ []). apply H2. discriminate.
    + exfalso. destruct (answer_op script u o []) as [x w]. destruct (run_prog script (k x) (effect o u) w) as [[[r1 u1] w1] tr1]. inversion Er; subst.
      cbn [filter] in Ht. destruct (local_none _ _ Hs x) as (Hx & _). rewrite Hx in Ht. discriminate Ht.
    + inversion Er.
  - specialize (H []). destruct (run_prog script p u []) as [[[r u'] us'] tr] eqn:Er.
    destruct H as ([|n] & out & s' & E & H1 & _ & _ & H4); [discriminate E|]. rewrite look_run, El in E. inversion E; subst out s'. clear E.
    destruct r as [r|]; [contradiction|].
    assert (Ht : filter external tr = []). { cbn [lift calls_made] in H4. rewrite <- (app_nil_r (calls_made s)) in H4 at 1. apply app_inv_head in H4. congruence. }
    destruct p as [a|o k|]; cbn [run_prog] in Er.
    + inversion Er.
    + exfalso. destruct (answer_op script u o []) as [x w]. destruct (run_prog script (k x) (effect o u) w) as [[[r1 u1] w1] tr1]. inversion Er; subst.
      cbn [filter] in Ht. destruct (local_none _ _ Hs x) as (Hx & _). rewrite Hx in Ht. discriminate Ht.
    + reflexivity.
  - specialize (H []). destruct (run_prog script p u []) as [[[r u'] us'] tr].
    destruct H as ([|n] & out & s' & E & _); [discriminate E|]. rewrite look_run, El in E. discriminate E.
Qed.

(** A new request, and a new file server. *)
Lemma agree_request c q fs M s u : holds c (mkLayout fs M 0 1 2) s u -> agree c q fs M (request (flags_at fs) q) s (method c q) u.
Proof.
  intros H us. destruct (run_prog script (method c q) u us) as [[[r u'] us'] tr] eqn:Er.
  apply (text_request script c (mkLayout fs M 0 1 2) (lift s us) u q r u' us' tr); [apply holds_lift; exact H|exact Er].
Qed.
