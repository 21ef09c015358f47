(** A client and the file server together: five calls over the network to the file server on the small operating system of MemOS.v. *)
From Verif Require Import Base GoBuf CodecPrim CodecLemmas Types Codec Msgs CodecSpec StubPrim Stubs GoPath Server ServerSpec ServerWitness Rpc GoSyntax Ufs UfsSpec MemOS GoRun GoFmt GoProg GoWp
  ServerRun ServerRunLemmas Client ClientSpec ClientRun ClientRunLemmas ClientRunSim ClientRunNew ClientHist ClientRunThm ClientRunExec ClientWell
  NetRun NetLemmas NetCase NetStore NetClient NetLive NetLiveCase NetEnds NetEnds2 NetEndsCase NetTidy NetStays NetWell NetWellCase UfsFits.
Local Opaque NumTags all_tags.

(** An operating system that answers EOVERFLOW where the answer does not fit. *)
Definition too_large : oserr := OSErr (str "value too large for defined data type").
Definition mend_err (e : oserr) : oserr := if blen (err_text e) <? 65536 then e else too_large.
Definition fine_infob (c : config) (fi : FileInfo) : bool :=
  (blen (fi_Name fi) + 2 * blen (Ufs.user c) <? 65000) && match fi_Sys fi with Some i => i <? 18446744073709551616 | None => true end.
Definition mend (c : config) (o : op) : ret_of o -> ret_of o :=
  match o return ret_of o -> ret_of o with
  | OLstat _ | OStat _ | OReaddir _ => fun x => match x with inl e => inl (mend_err e) | inr fi => if fine_infob c fi then inr fi else inl too_large end
  | OOpen _ _ _ => fun x => match x with inl e => inl (mend_err e) | inr h => inr h end
  | OReadAt _ n _ => fun x => if blen (fst x) <=? n then (fst x, option_map mend_err (snd x)) else ([], Some too_large)
  | OWriteAt _ _ _ => fun x => (fst x, option_map mend_err (snd x))
  | OMkdir _ _ | OChmod _ _ | ORename _ _ | OTruncate _ _ | OChtimes _ _ _ | ORemove _ | OSeek _ | OSync _ | OClose _ => option_map mend_err
  | _ => fun x => x
  end.
Definition mended {W} (c : config) (h : os W) : os W := fun o w => (mend c o (fst (h o w)), snd (h o w)).
Lemma mend_err_fine e : fine_err (mend_err e).
Proof. unfold mend_err, fine_err, short. destruct (N.ltb_spec (blen (err_text e)) 65536); [assumption|reflexivity]. Qed.
Lemma mended_decent {W} c (h : os W) : IOunit c < 4294967296 -> decent c (mended c h).
Proof.
  intros Hc. split; [exact Hc|]. intros o w. unfold mended. cbn [fst]. generalize (fst (h o w)). intros x.
  assert (I : forall y : oserr + FileInfo, match (match y with inl e => inl (mend_err e) | inr fi => if fine_infob c fi then inr fi else inl too_large end) with inl e => fine_err e | inr fi => fine_info c fi end).
  { intros [e|fi]; [apply mend_err_fine|]. destruct (fine_infob c fi) eqn:E; [|reflexivity]. apply andb_prop in E. destruct E as [E1 E2]. apply N.ltb_lt in E1. split; [exact E1|]. destruct (fi_Sys fi); [apply N.ltb_lt, E2|exact Logic.I]. }
  assert (O : forall y : option oserr, match option_map mend_err y with Some e => fine_err e | None => True end) by (intros [e|]; [apply mend_err_fine|exact Logic.I]).
  destruct o; cbn [fine mend] in *; try exact Logic.I; try apply I; try apply O.
  - destruct x as [e|hh]; [apply mend_err_fine|exact Logic.I].
  - destruct (N.leb_spec (blen (fst x)) n); cbn [fst snd]; [split; [assumption|apply O]|split; [cbn; lia|reflexivity]].
Qed.
Definition srv_cfg : config := mkConfig (str "/srv") (str "sys") 8192.
Definition srv : NineServer (table * world) := ufs srv_cfg (mended srv_cfg mem_os).
Definition srv0 : table * world := (no_fids, empty_world).
Lemma srv_decent : decent srv_cfg (mended srv_cfg mem_os).
Proof. apply mended_decent. reflexivity. Qed.

(** The listener accepts the connection. *)
Definition u_before : memory (cworld (table * world)) := mkMem (first_cells new_listener) 2 (mkCW [] [] true srv0 0 [] []).
Definition u_accept : option (ending * memory (cworld (table * world))) :=
  run protocol_program (ServerRun.outside srv ServerWitness.quiet net_addr 0) 3000 (start (str "Listener.Accept") [VPtr (str "Listener") 1 []] [VObj (str "net.Conn") 0]) u_before.
Definition u_net_of (r : option (ending * memory (cworld (table * world)))) : option (@net (table * world)) :=
  match r with
  | Some (Returned [VNil], s) => match w_started (GoWp.rest s) with [(f, vs)] => Some (mkNet (first_state true true []) [] (Some (goroutine (f, vs))) s [] false) | _ => None end
  | _ => None
  end.
Definition u_first : option (@net (table * world)) := u_net_of u_accept.
Lemma u_net_of_some r n : u_net_of r = Some n -> exists s f vs, r = Some (Returned [VNil], s) /\ w_started (GoWp.rest s) = [(f, vs)] /\ n = mkNet (first_state true true []) [] (Some (goroutine (f, vs))) s [] false.
Proof.
  unfold u_net_of. generalize (first_state true true []). intros g.
  destruct r as [[[[|[] [|]]| |] s]|]; intros H; try discriminate H. destruct (w_started (GoWp.rest s)) as [|[f vs] [|]] eqn:Es; try discriminate H.
  injection H as <-. exists s, f, vs. auto.
Qed.
Lemma u_accept_ends out s : u_accept = Some (out, s) ->
  ends protocol_program (ServerRun.outside srv ServerWitness.quiet net_addr 0) (start (str "Listener.Accept") [VPtr (str "Listener") 1 []] [VObj (str "net.Conn") 0]) u_before out s.
Proof. intros E. exists 3000%nat. exact E. Qed.
Lemma u_connected n : u_first = Some n -> connected srv ServerWitness.quiet net_addr 0 0 (first_opt true true) 1 true true srv0 n.
Proof.
  intros H. apply u_net_of_some in H. destruct H as (s & f & vs & E & Es & ->). apply u_accept_ends in E.
  split; [apply first_opened|]. split; [|split; [reflexivity|split; reflexivity]]. cbn [n_server n_mem]. exists (goroutine (f, vs)). split; [reflexivity|].
  exists 0, [], (VObj (str "Tracer") 0), VNil, 1, 0, u_before, f, vs.
  split; [right; exists 0; reflexivity|]. split; [reflexivity|]. split; [reflexivity|]. split; [discriminate|]. split; [reflexivity|]. split; [reflexivity|].
  do 6 (split; [reflexivity|]). split; [exact E|]. split; [exact Es|reflexivity].
Qed.

(** The calls, one after another, except that the write and the read are made at the same time. *)
Notation m_version := NetStore.m_version.
Notation m_read := NetStore.m_read.
Notation m_write := NetStore.m_write.
Definition m_attach : tmsg := MTattach (mkTattachPkt 5 4294967295 (str "glenda") (str "/")).
Definition m_create : tmsg := MTcreate (mkTcreatePkt 5 (str "f") 420 2).
Definition one_call (c : nat) (m : tmsg) : list jact :=
  [JCall (AStart c (call_request m)); JCall (AEnqueue c); JClient 2 2000; JUp 12; JUp 100; JServer 9000; JDown 12; JDown 100;
   JClient 1 2000; JCall (AMeet 1 0); JClient 0 600; JCall (ADeliver 0 c); JClient 0 600; JClient 1 600].
Definition u_half : list jact :=
  [JClient 0 300; JClient 1 300; JServer 400] ++ one_call 0 m_version ++ one_call 1 m_attach ++ one_call 2 m_create ++
  [JCall (AStart 4 (call_request m_read)); JCall (AStart 3 (call_request m_write)); JCall (AEnqueue 3); JCall (AEnqueue 4); JClient 2 3000; JUp 12].
Definition u_rest : list jact :=
  [JServer 4000; JUp 100; JServer 9000; JDown 9; JDown 100;
   JClient 1 2000; JCall (AMeet 1 0); JClient 0 600; JCall (ADeliver 0 3); JClient 0 600; JClient 1 2000; JCall (AMeet 1 0); JClient 0 600; JCall (ADeliver 0 4)].
Notation UEXEC := (wexec srv ServerWitness.quiet net_addr 0 0 (first_opt true true) 1 (cutb 9)).
Notation UWSTEPS := (wsteps srv ServerWitness.quiet net_addr 0 0 (first_opt true true) 1 cut).
Notation UWMOVES := (wmoves srv ServerWitness.quiet net_addr 0 0 (first_opt true true) 1 cut).
Definition r_version : rmsg := MRversion (mkRversionPkt 8192 (str "9P2000")).
Definition r_attach : rmsg := MRattach (mkRattachPkt (mkQID 128 1000000 2)).
Definition r_create : rmsg := MRcreate (mkRcreatePkt (mkQID 0 2000000 3) 8000).
Definition r_write : rmsg := MRwrite (mkRwritePkt 5).
Definition r_read : rmsg := MRread (mkRreadPkt (str "hello")).
Definition u_call (c : nat) (t : N) (m : tmsg) (r : rmsg) : list lbl := [LStart c (call_request m); LWrite 0 (marshalT t m); LRead (marshalR t r); LDone c (marshalR t r)].
Definition u_half_seen : list lbl := u_call 0 1 m_version r_version ++ u_call 1 2 m_attach r_attach ++ u_call 2 3 m_create r_create ++
  [LStart 4 (call_request m_read); LStart 3 (call_request m_write); LWrite 0 (marshalT 4 m_write); LWrite 0 (marshalT 5 m_read)].
Definition u_rest_seen : list lbl := [LRead (marshalR 4 r_write); LDone 3 (marshalR 4 r_write); LRead (marshalR 5 r_read); LDone 4 (marshalR 5 r_read)].
Lemma u_computed : match u_first with
  | Some n0 => match UEXEC u_half n0 [] [] with
               | Some (ls, (n, u, d)) => match UEXEC u_rest n u d with
                                 | Some (ls', (n', u', d')) => seen ls = u_half_seen /\ seen ls' = u_rest_seen /\ forallb ownb ls' = true | None => False end
               | None => False end
  | None => False
  end.
Proof. vm_compute. repeat split; reflexivity. Qed.
Lemma u_proper l : seen l = u_half_seen -> proper_calls modest l /\ forall t, ~ In (LTag t) l.
Proof.
  intros S1. assert (Hin : forall y, In y l -> y <> LTau -> (forall c q, y <> LWrite c q) -> In y u_half_seen).
  { intros y Hy N1 N2. rewrite <- S1. unfold seen. apply in_flat_map. exists y. split; [exact Hy|]. destruct y; try (left; reflexivity); [destruct N1; reflexivity|destruct (N2 c q); reflexivity]. }
  split.
  - intros c q Hy. apply Hin in Hy; [|discriminate|discriminate].
    assert (X : exists m, In m [m_version; m_attach; m_create; m_read; m_write] /\ q = call_request m).
    { unfold u_half_seen, u_call in Hy. cbn [app In] in Hy.
      repeat match goal with H : _ \/ _ |- _ => destruct H as [H|H] | H : False |- _ => destruct H | H : _ = LStart _ _ |- _ => discriminate H end.
      all: apply (f_equal (fun y => match y with LStart _ z => z | _ => q end)) in Hy; cbv beta iota in Hy; rewrite <- Hy; eexists; (split; [|reflexivity]); cbn [In]; auto 10. }
    destruct X as (m & Hm & ->). exists m. split; [reflexivity|].
    repeat (destruct Hm as [<-|Hm]; [split; [vm_compute; repeat split; first [reflexivity | discriminate]|split; [vm_compute; reflexivity|vm_compute; first [exact Logic.I | reflexivity | discriminate]]]|]). destruct Hm.
  - intros t Hy. apply Hin in Hy; [|discriminate|discriminate]. unfold u_half_seen, u_call in Hy. cbn [app In] in Hy.
    repeat match goal with H : _ \/ _ |- _ => destruct H as [H|H] | H : False |- _ => destruct H | H : _ = LTag _ |- _ => discriminate H end.
Qed.
Lemma u_goes_on : exists n0 l n u d l' n' u' d', connected srv ServerWitness.quiet net_addr 0 0 (first_opt true true) 1 true true srv0 n0 /\
  UWSTEPS n0 l n u d /\ proper_calls modest l /\ (forall t, ~ In (LTag t) l) /\ seen l = u_half_seen /\ UWMOVES n u d l' n' u' d' /\ seen l' = u_rest_seen.
Proof.
  pose proof u_computed as H. destruct u_first as [n0|] eqn:E; [|contradiction]. apply u_connected in E.
  destruct (UEXEC u_half n0 [] []) as [[l [[n u] d]]|] eqn:Ej; [|contradiction]. destruct (UEXEC u_rest n u d) as [[l' [[n' u'] d']]|] eqn:Em; [|contradiction].
  destruct H as (S1 & S2 & S3). apply (wexec_chain _ _ _ _ _ _ _ cut _ (cutb_cut 9)) in Ej. apply (wexec_chain _ _ _ _ _ _ _ cut _ (cutb_cut 9)) in Em.
  destruct (u_proper _ S1) as [P1 P2]. exists n0, l, n, u, d, l', n', u', d'. split; [exact E|]. split; [exact (chain_wsteps _ _ _ _ _ _ _ _ n0 [] _ _ _ _ _ _ _ (ws_nil _ _ _ _ _ _ _ _ _) Ej)|]. split; [exact P1|]. split; [exact P2|]. split; [exact S1|].
  split; [|exact S2]. exact (chain_wmoves _ _ _ _ _ _ _ _ n _ _ [] _ _ _ _ _ _ _ (wm_nil _ _ _ _ _ _ _ _ _ _ _) Em S3).
Qed.
(** Requests that fit into messages and are not [modest]. *)
Definition minus_reqs : list (N * tmsg) := [(1, m_version); (2, m_attach); (3, m_create); (4, MTread (mkTreadPkt 5 0 (-1)))].
Lemma minus_ok : Forall ok_req minus_reqs.
Proof. unfold minus_reqs. repeat constructor; vm_compute; first [reflexivity | discriminate]. Qed.
Lemma minus_panics : answers srv false srv0 minus_reqs = None.
Proof. vm_compute. reflexivity. Qed.
Definition long_version : tmsg := MTversion (mkTversionPkt 8192 (repeat "x"%byte (N.to_nat 65530))).
Lemma long_ok : Forall ok_req [(1, long_version)].
Proof. repeat constructor; vm_compute; first [reflexivity | discriminate]. Qed.
Definition first_error (x : option (list (N * rmsg) * (bool * (table * world)))) : option N :=
  match x with Some ([(_, MRerror (mkRerrorPkt e))], _) => Some (blen e) | _ => None end.
Lemma long_computed : first_error (answers srv false srv0 [(1, long_version)]) = Some 65557.
Proof. vm_compute. reflexivity. Qed.
Lemma long_answer : exists reps st, answers srv false srv0 [(1, long_version)] = Some (reps, st) /\ ~ Forall fits_rep reps.
Proof.
  pose proof long_computed as H. destruct (answers srv false srv0 [(1, long_version)]) as [[reps st]|]; [|discriminate H]. exists reps, st. split; [reflexivity|].
  cbn [first_error] in H. destruct reps as [|[t a] reps]; [discriminate H|]. destruct a; try discriminate H. match goal with q : RerrorPkt |- _ => destruct q as [e] end.
  destruct reps; [|discriminate H]. injection H as H.
  intros F. apply Forall_inv in F. destruct F as (_ & F & _). cbn [snd fitsR] in F. unfold short in F. cbn in F. lia.
Qed.
