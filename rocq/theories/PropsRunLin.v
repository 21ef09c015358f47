(** Property C71: reads and writes of one file through several connections, from the text of the file server. *)
From Verif Require Import Base GoBuf CodecPrim Types Codec Msgs StubPrim GoPath GoSyntax GoRun GoProg Ufs UfsSpec GoFmt UfsRun UfsRunThm3 MemOS MemSpec MemLemmas Conns ConnsRun ConnsRunExec LinSpec LinThm.

(** * C71 *)
(** A Twrite that is answered without an error has written all of its bytes by one call of the operating system, made between the request
    and the reply, and has made no other call. *)
Theorem C71_write : forall c, IOunit c = 8192 -> forall ls x j fid o b a l1 l2 l3, t_runs c ls x -> answered ls j (MTwrite (mkTwritePkt fid o b)) (inr a) l1 l2 l3 ->
  exists h k la lb, l2 = la ++ (j, DCall (Ev (OWriteAt h b (i64 o)) (k, None))) :: lb /\ calls (events (mine j l2)) = [Ev (OWriteAt h b (i64 o)) (k, None)] /\
    a = MRwrite (mkRwritePkt (i32 (u32_of_z k))).
Proof. exact write_atomic. Qed.
Print Assumptions C71_write.
(** A Tread that is answered without an error has got its bytes by one call between the request and the reply, or has read a directory. *)
Theorem C71_read : forall c, IOunit c = 8192 -> forall ls x j fid o n a l1 l2 l3, t_runs c ls x -> answered ls j (MTread (mkTreadPkt fid o n)) (inr a) l1 l2 l3 ->
  exists b, a = MRread (mkRreadPkt b) /\
    ((exists h e la lb, (0 <= n)%Z /\ (e = None \/ e = Some EOF) /\ l2 = la ++ (j, DCall (Ev (OReadAt h (Z.to_N n) (i64 o)) (b, e))) :: lb /\
        calls (events (mine j l2)) = [Ev (OReadAt h (Z.to_N n) (i64 o)) (b, e)]) \/
     forallb (fun e => dir_call (ev_op e)) (calls (events (mine j l2))) = true).
Proof. exact read_atomic. Qed.
Print Assumptions C71_read.
(** So the reads and writes of all connections are linearizable.  The connections are served by the text in any interleaving, on one file
    system; a read of a file returns, for its file and from any moment pa on at which the file existed and since which it was not
    truncated, each byte as the last write that covers it left it, of the writes on all connections in the order of their calls, and the
    old byte where there is none; and as many bytes as these writes let there be. *)
Theorem C71_linearizable : forall c, IOunit c = 8192 -> forall ls x w0 w' j fid o n b l1 l2 l3, t_runs c ls x -> wf w0 -> on_files w0 ls w' -> o < 18446744073709551616 ->
  answered ls j (MTread (mkTreadPkt fid o n)) (inr (MRread (mkRreadPkt b))) l1 l2 l3 -> forallb (fun e => dir_call (ev_op e)) (calls (events (mine j l2))) = false ->
  exists la lb h e f w1, l2 = la ++ (j, DCall (Ev (OReadAt h (Z.to_N n) (i64 o)) (b, e))) :: lb /\
    let before := l1 ++ (j, DRequest (MTread (mkTreadPkt fid o n))) :: la in
    on_files w0 before w1 /\ w_files w1 h = Some f /\
    forall pa pb wa, before = pa ++ pb -> on_files w0 pa wa -> o_ino f < w_next wa -> uncut wa pb (o_ino f) ->
      let ws := writes_to wa pb (o_ino f) in let old := data wa (o_ino f) in
      List.length b = Nat.min (Z.to_nat n) (size_after ws (List.length old) - N.to_nat o) /\
      (forall k, (k < List.length b)%nat -> nth k b x00 = byte_after ws (N.to_nat o + k) (nth (N.to_nat o + k) old x00)).
Proof. exact read_sees. Qed.
Print Assumptions C71_linearizable.
(** In particular a read that is asked for after a write was answered, on any connection, returns what was written, if the file was
    neither written nor truncated between the two calls. *)
Theorem C71_after : forall c, IOunit c = 8192 -> forall ls x w0 w' k j fid1 fid2 o n d a b l1 l2 m1 m2 m3, t_runs c ls x -> wf w0 -> on_files w0 ls w' -> o < 18446744073709551616 ->
  answered ls k (MTwrite (mkTwritePkt fid1 o d)) (inr a) l1 l2 (m1 ++ (j, DRequest (MTread (mkTreadPkt fid2 o n))) :: m2 ++ (j, DReply (inr (MRread (mkRreadPkt b)))) :: m3) ->
  (exists es, mine j m2 = map DCall es) -> forallb (fun e => dir_call (ev_op e)) (calls (events (mine j m2))) = false -> d <> [] -> (Z.to_nat n <= List.length d)%nat ->
  exists la lb h1 z ma mb h2 e wa wb f1 f2,
    l2 = la ++ (k, DCall (Ev (OWriteAt h1 d (i64 o)) (z, None))) :: lb /\ m2 = ma ++ (j, DCall (Ev (OReadAt h2 (Z.to_N n) (i64 o)) (b, e))) :: mb /\
    let between := lb ++ (k, DReply (inr a)) :: m1 ++ (j, DRequest (MTread (mkTreadPkt fid2 o n))) :: ma in
    on_files w0 (l1 ++ (k, DRequest (MTwrite (mkTwritePkt fid1 o d))) :: la ++ [(k, DCall (Ev (OWriteAt h1 d (i64 o)) (z, None)))]) wa /\ on_files wa between wb /\
    w_files wa h1 = Some f1 /\ w_files wb h2 = Some f2 /\
    (o_ino f1 = o_ino f2 -> writes_to wa between (o_ino f1) = [] -> uncut wa between (o_ino f1) -> b = firstn (Z.to_nat n) d).
Proof. exact read_after_write_elsewhere. Qed.
Print Assumptions C71_after.
(** Two connections, step by step in turn: one writes while the other asks twice for the same bytes. *)
Definition ask_2 : list tmsg := [MTattach (mkTattachPkt 7 NOFID (str "me") (str "/")); MTwalk (mkTwalkPkt 7 2 [str "a"]); MTopen (mkTopenPkt 2 0); MTflush (mkTflushPkt 1);
  MTread (mkTreadPkt 2 1 3); MTread (mkTreadPkt 2 1 3)].
Example C71_case : exists ls x w' l1 l2 m1 m2, t_runs c_x ls (Some x) /\ wf files_x /\ on_files files_x ls w' /\
  answered ls 0 (MTwrite (mkTwritePkt 2 1 (str "ALL"))) (inr (MRwrite (mkRwritePkt 3))) l1 l2
    (m1 ++ (1%nat, DRequest (MTread (mkTreadPkt 2 1 3))) :: m2 ++ [(1%nat, DReply (inr (MRread (mkRreadPkt (str "ALL")))))]) /\
  (exists es, mine 1 m2 = map DCall es) /\ forallb (fun e => dir_call (ev_op e)) (calls (events (mine 1 m2))) = false.
Proof.
  destruct (both_open_runs c_x ask_0 ask_2 files_x) as (x & H & Hs).
  pose proof (play_sound c_x (by_turns 1500) _ x H Hs) as P. pose proof (play_files files_x (by_turns 1500) (both_open c_x ask_0 ask_2 files_x) eq_refl) as F.
  destruct (play (by_turns 1500) (both_open c_x ask_0 ask_2 files_x)) as [z b] eqn:E. cbn [fst] in F. destruct P as (x' & P1 & _).
  remember (out (fst (play (by_turns 1500) (both_open c_x ask_0 ask_2 files_x)))) as ls eqn:Els.
  assert (Ez : out z = ls) by (rewrite Els, E; reflexivity). rewrite Ez in *. clear E Ez.
  exists ls, x', (files_now z), (firstn 33 ls), (firstn 7 (skipn 34 ls)), (firstn 2 (skipn 42 ls)), (firstn 3 (skipn 45 ls)).
  split; [exact P1|]. split; [|split; [exact F|]].
  - split; [|intros h f K; discriminate K]. intros q K. cbn [files_x w_names In] in K. destruct K as [<-|[<-|[<-|[]]]]; reflexivity.
  - vm_compute in Els. subst ls. split; [split; [reflexivity|]|split; [|reflexivity]].
    + exists [Ev OLock tt; Ev OUnlock tt; Ev (OWriteAt 101 (str "ALL") 1) (3%Z, None)]. reflexivity.
    + exists [Ev OLock tt; Ev OUnlock tt; Ev (OReadAt 100 3 1) (str "ALL", None)]. reflexivity.
Qed.
