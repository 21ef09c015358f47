(** The text of package ufs does what Ufs.v says: every request, every sequence of requests, and the making of a file server. *)
From Verif Require Import Base GoBuf CodecPrim Types Codec Msgs StubPrim GoPath GoSyntax GoRun GoProg Ufs GoFmt UfsRun UfsRunLemmas UfsRunThm UfsRunThm2.

(** * What the text is run on, and when it counts as having answered *)
(** The requests of a connection, one after the other, until a method panics (None). *)
Inductive text_serves {W} (h : os W) (L : layout) : store W -> list tmsg -> list (option (answerOf rmsg)) -> store W -> Prop :=
| TS_end s : text_serves h L s [] [] s
| TS_reply s m n vs s1 a ms rs s2 : run h L n (request L m) s = Some (Returned vs, s1) -> reply_of s1 m vs = Some a ->
    text_serves h L s1 ms rs s2 -> text_serves h L s (m :: ms) (Some a :: rs) s2
| TS_panic s m n s1 ms : run h L n (request L m) s = Some (Panicked, s1) -> text_serves h L s (m :: ms) [None] s1.
(** The same for the model. *)
Fixpoint answers {W} (h : os W) (c : config) (ms : list tmsg) (u : table) (w : W) : list (option (answerOf rmsg)) * table * W * list event :=
  match ms with
  | [] => ([], u, w, [])
  | m :: ms =>
      let '(r, u, w, tr) := run_prog h (method c m) u w in
      match r with
      | None => ([None], u, w, tr)
      | Some a => let '(rs, u, w, tr') := answers h c ms u w in (Some a :: rs, u, w, tr ++ tr')
      end
  end.
(** The function literal of NewUFS, filesystem.go:450-461. *)
Definition creator : list stmt := Eval vm_compute in
  match body_of (str "NewUFS") with SAssign _ _ [EFunc _ _ b] :: _ => b | _ => [] end.
Definition create_server : machine := mkM (CSeq creator) [KFun [] []] [[]] [].

Section All.
Context {W : Type} (h : os W).

Lemma run_more L n : forall k m s r, run h L n m s = Some r -> run h L (n + k) m s = Some r.
Proof.
  induction n as [|n IH]; intros k m s r E; cbn [run Nat.add] in *; [discriminate|].
  destruct (step ufs_program m); auto.
  - destruct l; auto.
  - destruct o; auto.
  - destruct (serve_req h L r0 s); auto.
Qed.
(** The text does one thing only. *)
Lemma run_one L n n' m s r r' : run h L n m s = Some r -> run h L n' m s = Some r' -> r = r'.
Proof.
  intros E E'. apply (run_more _ _ n') in E. apply (run_more _ _ n) in E'. rewrite Nat.add_comm in E'. congruence.
Qed.

Lemma request_runs c L s u m : holds c L s u ->
  wp h L (request L m) s (fun out s' => sim h (method c m) u (osw s) (calls_made s) (fun r u' w' ev' =>
    same_result m r out s' /\ (r <> None -> holds c L s' u') /\ osw s' = w' /\ calls_made s' = ev')).
Proof.
  destruct L as [A M U RT DB], s as [hp nx lk w ev].
  intros [(root & ver & HA) HU (t & HM & HT & HI) HN HF]. cbn [heap next locked osw calls_made a_fs a_files a_user] in *. subst lk.
  destruct m as [[]|[]|[]|[]|[]|[]|[]|[]|[]|[]|[]|[]].
  all: first
    [ eapply version_runs; eassumption | eapply attach_runs; eassumption | eapply flush_runs; eassumption | eapply walk_runs; eassumption
    | eapply open_runs; eassumption | eapply create_runs; eassumption | eapply read_runs; eassumption | eapply write_runs; eassumption
    | eapply clunk_req_runs; eassumption | eapply remove_runs; eassumption | eapply stat_req_runs; eassumption | eapply wstat_runs; eassumption ].
Qed.

Theorem text_request c L s u m r u' w' tr : holds c L s u -> run_prog h (method c m) u (osw s) = (r, u', w', tr) ->
  exists n out s', run h L n (request L m) s = Some (out, s') /\ same_result m r out s' /\ (r <> None -> holds c L s' u') /\
    osw s' = w' /\ calls_made s' = calls_made s ++ filter external tr.
Proof.
  intros H E. destruct (request_runs c L s u m H) as (n & out & s' & Er & Hs). exists n, out, s'. split; [exact Er|].
  apply (sim_run h _ _ _ _ _ _ _ _ _ _ E) in Hs. exact Hs.
Qed.

Theorem text_session c L ms : forall s u rs u' w' tr, holds c L s u -> answers h c ms u (osw s) = (rs, u', w', tr) ->
  (exists s', text_serves h L s ms rs s') /\
  (forall rs' s', text_serves h L s ms rs' s' -> rs' = rs /\ osw s' = w' /\ calls_made s' = calls_made s ++ filter external tr).
Proof.
  induction ms as [|m ms IH]; intros s u rs u' w' tr H E; cbn [answers] in E.
  - inversion E; subst. split; [eexists; constructor|]. intros rs' s' T. inversion T; subst. cbn. rewrite app_nil_r. auto.
  - destruct (run_prog h (method c m) u (osw s)) as [[[r u1] w1] tr1] eqn:E1.
    destruct (text_request c L s u m r u1 w1 tr1 H E1) as (n & out & s1 & Er & Hr & Hh & Hw & Hc).
    destruct r as [a|].
    + destruct (answers h c ms u1 w1) as [[[rs1 u2] w2] tr2] eqn:E2. inversion E; subst rs u2 w2 tr. clear E.
      destruct out as [vs|]; [|contradiction]. cbn [same_result] in Hr. subst w1.
      destruct (IH s1 u1 rs1 u' w' tr2 (Hh ltac:(discriminate)) E2) as [(s2 & T2) U2].
      split; [exists s2; econstructor; eassumption|].
      intros rs' s' T. inversion T; subst.
      * match goal with X : run h L ?k _ s = Some (Returned ?v, ?y) |- _ => pose proof (run_one _ _ _ _ _ _ _ Er X) as Q end. inversion Q; subst.
        match goal with X : reply_of _ _ _ = Some ?b |- _ => rewrite Hr in X; inversion X; subst end.
        match goal with X : text_serves _ _ _ ms _ _ |- _ => destruct (U2 _ _ X) as (-> & Q1 & Q2) end.
        split; [reflexivity|]. split; [exact Q1|]. rewrite Q2, Hc, filter_app, app_assoc. reflexivity.
      * match goal with X : run h L ?k _ s = Some (Panicked, ?y) |- _ => pose proof (run_one _ _ _ _ _ _ _ Er X) as Q end. discriminate Q.
    + inversion E; subst rs u1 w1 tr. clear E. destruct out as [vs|]; [contradiction|].
      split; [exists s1; econstructor; eassumption|].
      intros rs' s' T. inversion T; subst.
      * match goal with X : run h L ?k _ s = Some (Returned ?v, ?y) |- _ => pose proof (run_one _ _ _ _ _ _ _ Er X) as Q end. discriminate Q.
      * match goal with X : run h L ?k _ s = Some (Panicked, ?y) |- _ => pose proof (run_one _ _ _ _ _ _ _ Er X) as Q end. inversion Q; subst. auto.
Qed.

Lemma creator_runs c A M U RT DB hp nx w ev :
  hp U = Some (VStr (user c)) -> hp RT = Some (VStr (rootPath c)) -> hp DB = Some (VI 64 0) -> IOunit c = 8192 -> (forall a, nx <= a -> hp a = None) ->
  wp h (mkLayout A M U RT DB) create_server (mkStore hp nx false w ev) (fun out s' =>
    exists A' M', out = Returned [VPtr (str "FileServer") A' []] /\ holds c (mkLayout A' M' U RT DB) s' no_fids /\ osw s' = w /\ calls_made s' = ev).
Proof.
  intros HU HR HD Hio HN.
  assert (U < nx) by (eapply below; eauto). assert (RT < nx) by (eapply below; eauto). assert (DB < nx) by (eapply below; eauto).
  unfold create_server, creator. go. cbv beta iota delta [Z.eqb negb]. go.
  exists nx, (nx + 1). split; [reflexivity|]. split; [|split; reflexivity]. split; cbn [heap next locked a_fs a_files a_user a_root a_debug].
  - exists VNil, (VBool false). unfold v_fs. rewrite Hio. cell.
  - cell.
  - exists (fun _ => None). split; [cell|]. split; [intros fid; exact I|]. intros fid fid' a E. discriminate E.
  - intros a Ha. cell. apply HN. lia.
  - reflexivity.
Qed.
(** A new file server, and the requests it gets. *)
Theorem text_from_start c L s ms rs u' w' tr : locked s = false -> (forall a, next s <= a -> heap s a = None) ->
  heap s (a_user L) = Some (VStr (user c)) -> heap s (a_root L) = Some (VStr (rootPath c)) -> heap s (a_debug L) = Some (VI 64 0) -> IOunit c = 8192 ->
  answers h c ms no_fids (osw s) = (rs, u', w', tr) ->
  exists n A M s0, run h L n create_server s = Some (Returned [VPtr (str "FileServer") A []], s0) /\
    let L' := mkLayout A M (a_user L) (a_root L) (a_debug L) in
    (exists s', text_serves h L' s0 ms rs s') /\
    (forall rs' s', text_serves h L' s0 ms rs' s' -> rs' = rs /\ osw s' = w' /\ calls_made s' = calls_made s ++ filter external tr).
Proof.
  destruct L as [A0 M0 U RT DB], s as [hp nx lk w ev]. cbn [heap next locked osw calls_made a_fs a_files a_user a_root a_debug].
  intros -> HN HU HR HD Hio E.
  destruct (creator_runs c A0 M0 U RT DB hp nx w ev HU HR HD Hio HN) as (n & out & s0 & Er & A & M & -> & HH & Hw & Hc).
  exists n, A, M, s0. split; [exact Er|]. cbv zeta. rewrite <- Hw in E. rewrite <- Hc. exact (text_session c _ ms s0 no_fids rs u' w' tr HH E).
Qed.
End All.
