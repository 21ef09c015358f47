(** The operating system of MemOS.v keeps the contents of its files; a write and a read of it over the network. *)
From Verif Require Import Base GoBuf CodecPrim CodecLemmas Types Codec Msgs CodecSpec StubPrim Stubs GoPath Server ServerSpec ServerWitness Rpc GoSyntax Ufs UfsSpec MemOS GoRun GoFmt GoProg GoWp
  ServerRun ServerRunLemmas Client ClientSpec ClientRun ClientRunLemmas ClientRunSim ClientRunNew ClientHist ClientRunThm ClientRunExec ClientWell
  NetRun NetLemmas NetCase NetStore NetClient NetLive NetLiveCase NetEnds NetEnds2 NetEndsCase NetTidy NetStays NetWell NetWellCase UfsFits UfsStored NetUfsCase NetStored.
Local Opaque NumTags all_tags.

Definition mem_content (w : world) (hd : handle) : option bytes := option_map (fun f => n_data (w_nodes w (o_ino f))) (w_files w hd).
Lemma mem_keeps c : keeps (mended c mem_os) mem_content.
Proof.
  constructor.
  - intros hd b off w k w' H. unfold mended in H. cbn [mem_os mend] in H. unfold os_writeat in H. unfold mem_content. destruct (w_files w hd) as [f|] eqn:Ef; cbn [fst snd option_map] in H; [|discriminate H].
    destruct (negb (o_write f)); cbn [fst snd option_map] in H; [discriminate H|]. destruct (off <? 0)%Z; cbn [fst snd option_map] in H; [discriminate H|]. injection H as _ <-.
    eexists. split; [reflexivity|]. unfold set_data, set_node. cbn [w_files w_nodes]. rewrite Ef. cbn [option_map]. unfold MemOS.upd. rewrite N.eqb_refl. reflexivity.
  - intros hd n off w b e w' H He. unfold mended in H. cbn [mem_os mend] in H. unfold os_readat in H. unfold mem_content. destruct (w_files w hd) as [f|] eqn:Ef; cbn [option_map].
    2: { cbn [fst snd] in H. match type of H with context [if ?x then _ else _] => destruct x end; cbn in H; injection H as <- <- _; destruct He as [He|He]; discriminate He. }
    destruct (negb (o_read f)). { cbn [fst snd] in H. match type of H with context [if ?x then _ else _] => destruct x end; cbn in H; injection H as <- <- _; destruct He as [He|He]; discriminate He. }
    destruct (n_dir (w_nodes w (o_ino f))). { cbn [fst snd] in H. match type of H with context [if ?x then _ else _] => destruct x end; cbn in H; injection H as <- <- _; destruct He as [He|He]; discriminate He. }
    destruct (off <? 0)%Z. { cbn [fst snd] in H. match type of H with context [if ?x then _ else _] => destruct x end; cbn in H; injection H as <- <- _; destruct He as [He|He]; discriminate He. }
    cbv zeta in H. cbn [fst snd] in H.
    destruct (blen (MemOS.slice (n_data (w_nodes w (o_ino f))) (Z.to_nat off) (N.to_nat n)) <=? n); cbn [fst snd] in H; injection H as <- <- _; [eexists; split; reflexivity|]. destruct He as [He|He]; discriminate He.
  - intros o w hd H. unfold mended. cbn [snd]. unfold mem_content. destruct o; try discriminate H; cbn [mem_os snd]; try reflexivity.
    + unfold os_readdir. destruct (w_files w h) as [f|] eqn:Ef; [|reflexivity]. destruct (negb (n_dir (w_nodes w (o_ino f)))); [reflexivity|].
      assert (X : forall l, option_map (fun f0 => n_data (w_nodes (set_file w h (Some (mkOfile (o_ino f) (o_read f) (o_write f) l))) (o_ino f0))) (w_files (set_file w h (Some (mkOfile (o_ino f) (o_read f) (o_write f) l))) hd) = option_map (fun f0 => n_data (w_nodes w (o_ino f0))) (w_files w hd)).
      { intros l. unfold set_file. cbn [w_files w_nodes]. unfold MemOS.upd. destruct (N.eqb_spec hd h) as [->|]; [rewrite Ef|]; reflexivity. }
      destruct (match o_left f with Some l => l | None => children w (o_ino f) end) as [|p l]; cbn [snd]; [apply X|]. destruct (MemOS.lookup w p); cbn [snd]; apply X.
    + unfold os_readat. destruct (w_files w h) as [f|]; [|reflexivity]. destruct (negb (o_read f)); [reflexivity|]. destruct (n_dir _); [reflexivity|]. destruct (off <? 0)%Z; reflexivity.
    + destruct (w_files w h) as [f|] eqn:Ef; [|reflexivity]. unfold set_file. cbn [snd w_files w_nodes]. unfold MemOS.upd. destruct (N.eqb_spec hd h) as [->|]; [rewrite Ef|]; reflexivity.
    + unfold with_file. destruct (w_files w h); reflexivity.
Qed.

(** While the write is under way a stat is called, and it returns while the read is under way. *)
Definition m_stat : tmsg := MTstat (mkTstatPkt 5).
Definition m_read3 : tmsg := MTread (mkTreadPkt 5 0 3).
Definition s_acts : list jact :=
  [JClient 0 300; JClient 1 300; JServer 400] ++ one_call 0 NetStore.m_version ++ one_call 1 m_attach ++ one_call 2 m_create ++
  [JCall (AStart 3 (call_request NetStore.m_write)); JCall (AStart 5 (call_request m_stat)); JCall (AEnqueue 3); JCall (AEnqueue 5); JClient 2 3000; JUp 9; JUp 1000; JServer 9000; JDown 9; JDown 1000;
   JClient 1 2000; JCall (AMeet 1 0); JClient 0 600; JCall (ADeliver 0 3); JCall (AStart 4 (call_request m_read3)); JCall (AEnqueue 4); JClient 2 3000; JUp 1000; JServer 9000; JDown 1000;
   JClient 0 600; JClient 1 2000; JCall (AMeet 1 0); JClient 0 600; JCall (ADeliver 0 5); JClient 0 600; JClient 1 2000; JCall (AMeet 1 0); JClient 0 600; JCall (ADeliver 0 4)].
Definition r_stat : rmsg := MRstat (mkRstatPkt (Marshaldir (mkDir 0 0 (mkQID 0 2000000 3) 420 2000 2000 5 (str "f") (str "sys") (str "sys") []))).
Definition r_read3 : rmsg := MRread (mkRreadPkt (str "hel")).
Definition s_before : list lbl := u_call 0 1 NetStore.m_version r_version ++ u_call 1 2 m_attach r_attach ++ u_call 2 3 m_create r_create.
Definition s_write : list lbl := [LStart 3 (call_request NetStore.m_write); LStart 5 (call_request m_stat); LWrite 0 (marshalT 4 NetStore.m_write); LWrite 0 (marshalT 5 m_stat); LRead (marshalR 4 r_write)].
Definition s_read : list lbl := [LStart 4 (call_request m_read3); LWrite 0 (marshalT 6 m_read3); LRead (marshalR 5 r_stat); LDone 5 (marshalR 5 r_stat); LRead (marshalR 6 r_read3)].
Definition s_seen : list lbl := s_before ++ s_write ++ [LDone 3 (marshalR 4 r_write)] ++ s_read ++ [LDone 4 (marshalR 6 r_read3)].
Lemma s_computed : match u_first with
  | Some n0 => match wexec srv ServerWitness.quiet net_addr 0 0 (first_opt true true) 1 (cutb 9) s_acts n0 [] [] with Some (ls, _) => seen ls = s_seen | None => False end
  | None => False
  end.
Proof. vm_compute. reflexivity. Qed.
Lemma s_run : exists n0 l n, connected srv ServerWitness.quiet net_addr 0 0 (first_opt true true) 1 true true srv0 n0 /\
  jsteps srv ServerWitness.quiet net_addr 0 0 (first_opt true true) 1 n0 l n /\ seen l = s_seen.
Proof.
  pose proof s_computed as H. destruct u_first as [n0|] eqn:E; [|contradiction]. apply u_connected in E.
  match type of H with match ?x with _ => _ end => destruct x as [[l [[n u] d]]|] eqn:Ej end; [|contradiction]. apply (wexec_chain _ _ _ _ _ _ _ cut _ (cutb_cut 9)) in Ej.
  exists n0, l, n. split; [exact E|]. split; [|exact H]. eapply wsteps_jsteps. exact (chain_wsteps _ _ _ _ _ _ _ _ n0 [] _ _ _ _ _ _ _ (ws_nil _ _ _ _ _ _ _ _ _) Ej).
Qed.
Lemma done_split l c r a b : seen l = a ++ LDone c r :: b -> exists la lb, l = la ++ LDone c r :: lb /\ seen la = a.
Proof. intros H. destruct (NetModel.seen_split _ _ _ _ H) as (la & y & lb & -> & H1 & H2 & _). exists la, lb. destruct y; try discriminate H2. injection H2 as -> ->. auto. Qed.
Lemma start_seen l c q : In (LStart c q) l -> In (LStart c q) (seen l).
Proof. intros H. unfold seen. apply in_flat_map. exists (LStart c q). split; [exact H|left; reflexivity]. Qed.
Lemma seen_start l c q : In (LStart c q) (seen l) -> In (LStart c q) l.
Proof. intros H. unfold seen in H. apply in_flat_map in H. destruct H as (y & Hy & H). destruct y; try contradiction H; destruct H as [H|[]]; try discriminate H. rewrite <- H. exact Hy. Qed.
Lemma s_starts c q : In (LStart c q) s_seen -> In (c, q) [(0%nat, call_request NetStore.m_version); (1%nat, call_request m_attach); (2%nat, call_request m_create); (3%nat, call_request NetStore.m_write);
  (5%nat, call_request m_stat); (4%nat, call_request m_read3)].
Proof.
  unfold s_seen, s_before, s_write, s_read, u_call. cbn [app In]. intros Hy.
  repeat match goal with H : _ \/ _ |- _ => destruct H as [H|H] | H : False |- _ => destruct H | H : _ = LStart _ _ |- _ => discriminate H end.
  all: pose proof (f_equal (fun y => match y with LStart _ z => z | _ => q end) Hy) as Hq; pose proof (f_equal (fun y => match y with LStart z _ => z | _ => c end) Hy) as Hc; cbv beta iota in Hq, Hc; rewrite <- Hq, <- Hc; auto 10.
Qed.
Lemma stored_case_of {St} (NS : NineServer St) (x0 : St) : (exists n0 l n, connected NS ServerWitness.quiet net_addr 0 0 (first_opt true true) 1 true true x0 n0 /\
    jsteps NS ServerWitness.quiet net_addr 0 0 (first_opt true true) 1 n0 l n /\ seen l = s_seen) ->
  exists n0 l n l1 l2 l3 l4, connected NS ServerWitness.quiet net_addr 0 0 (first_opt true true) 1 true true x0 n0 /\
  jsteps NS ServerWitness.quiet net_addr 0 0 (first_opt true true) 1 n0 l n /\ proper_calls modest l /\
  l = l1 ++ LDone 3 (marshalR 4 r_write) :: l2 /\ In (LStart 3 (call_request NetStore.m_write)) l /\
  l = l3 ++ LDone 4 (marshalR 6 r_read3) :: l4 /\ In (LStart 4 (call_request m_read3)) l /\ starts 4 l1 = [] /\
  (forall c' q, In (LStart c' q) l3 -> c' <> 3%nat -> c' <> 4%nat -> (exists m, q = call_request m /\ fitsT m /\ looks 5 m) \/ exists lx r ly, l = lx ++ LDone c' r :: ly /\ starts 3 lx = []).
Proof.
  intros (n0 & l & n & H1 & H2 & H3).
  destruct (done_split l 3 (marshalR 4 r_write) (s_before ++ s_write) (s_read ++ [LDone 4 (marshalR 6 r_read3)])) as (l1 & l2 & E1 & S1). { rewrite H3. unfold s_seen. rewrite !app_assoc. rewrite <- !app_assoc. reflexivity. }
  destruct (done_split l 4 (marshalR 6 r_read3) (s_before ++ s_write ++ [LDone 3 (marshalR 4 r_write)] ++ s_read) []) as (l3 & l4 & E3 & S3). { rewrite H3. unfold s_seen. rewrite <- !app_assoc. reflexivity. }
  exists n0, l, n, l1, l2, l3, l4. split; [exact H1|]. split; [exact H2|]. split; [|split; [exact E1|split; [|split; [exact E3|split; [|split]]]]].
  - intros c q Hi. apply start_seen in Hi. rewrite H3 in Hi. apply s_starts in Hi.
    assert (X : exists m, In m [NetStore.m_version; m_attach; m_create; NetStore.m_write; m_stat; m_read3] /\ q = call_request m).
    { cbn [In] in Hi. repeat (destruct Hi as [Hi|Hi]; [pose proof (f_equal snd Hi) as Hq; cbn [snd] in Hq; rewrite <- Hq; eexists; split; [|reflexivity]; cbn [In]; auto 10|]). destruct Hi. }
    destruct X as (m & Hm & ->). exists m. split; [reflexivity|].
    repeat (destruct Hm as [<-|Hm]; [split; [vm_compute; repeat split; first [reflexivity | discriminate]|split; [vm_compute; reflexivity|vm_compute; first [exact Logic.I | reflexivity | discriminate]]]|]). destruct Hm.
  - apply seen_start. rewrite H3. unfold s_seen, s_before, s_write, u_call. cbn [app In]. auto 20.
  - apply seen_start. rewrite H3. unfold s_seen, s_before, s_write, s_read, u_call. cbn [app In]. auto 30.
  - rewrite <- starts_seen, S1. reflexivity.
  - intros c' q Hi N3 N4. apply start_seen in Hi. assert (Hj : In (LStart c' q) s_seen).
    { rewrite S3 in Hi. unfold s_seen. rewrite !app_assoc. apply in_app_iff. left. rewrite <- !app_assoc. exact Hi. }
    apply s_starts in Hj. cbn [In] in Hj. destruct Hj as [Hj|[Hj|[Hj|[Hj|[Hj|[Hj|[]]]]]]]; pose proof (f_equal snd Hj) as Hq; pose proof (f_equal fst Hj) as Hc; cbn [fst snd] in Hq, Hc.
    + right. destruct (done_split l 0 (marshalR 1 r_version) (firstn 3 s_seen) (skipn 4 s_seen)) as (lx & ly & E0 & S0); [rewrite H3; reflexivity|]. subst c'. exists lx, (marshalR 1 r_version), ly. split; [exact E0|]. rewrite <- starts_seen, S0. reflexivity.
    + right. destruct (done_split l 1 (marshalR 2 r_attach) (firstn 7 s_seen) (skipn 8 s_seen)) as (lx & ly & E0 & S0); [rewrite H3; reflexivity|]. subst c'. exists lx, (marshalR 2 r_attach), ly. split; [exact E0|]. rewrite <- starts_seen, S0. reflexivity.
    + right. destruct (done_split l 2 (marshalR 3 r_create) (firstn 11 s_seen) (skipn 12 s_seen)) as (lx & ly & E0 & S0); [rewrite H3; reflexivity|]. subst c'. exists lx, (marshalR 3 r_create), ly. split; [exact E0|]. rewrite <- starts_seen, S0. reflexivity.
    + destruct N3. auto.
    + left. exists m_stat. split; [auto|]. split; [vm_compute; repeat split; first [reflexivity | discriminate]|exact Logic.I].
    + destruct N4. auto.
Qed.
Definition stored_case := stored_case_of srv srv0 s_run.
Lemma s_fits : fitsT NetStore.m_write /\ fitsT m_read3 /\ call_result NetStore.m_write (marshalR 4 r_write) [] = CallRet r_write None /\ call_result m_read3 (marshalR 6 r_read3) [] = CallRet r_read3 None.
Proof. split; [|split]; [vm_compute; repeat split; first [reflexivity | discriminate] ..|]. split; vm_compute; reflexivity. Qed.
