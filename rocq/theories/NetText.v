(** What one call has written, a later call reads: with the file server from its text. *)
From Verif Require Import Base GoBuf CodecPrim CodecLemmas Types Codec Msgs CodecSpec StubPrim Server ServerSpec Rpc GoSyntax Ufs UfsSpec MemOS UfsRun UfsRunThm3 UfsText GoRun GoFmt GoProg GoWp
  ServerRun Client ClientSpec ClientRun ClientRunSim ClientHist ClientRunThm NetRun NetLemmas NetThm2 UfsFits UfsStored NetStored.

Theorem text_stored W St c (h : os W) content w L view (ns : NineServer St) x E remote srn crn opt C n0 l n cw cr fid o d k rw rr a b l1 l2 l3 l4 sp sp' :
  IOunit c = 8192 -> decent c h -> keeps h content -> runs_text h L view ns -> fresh_server h c w L (view x) ->
  (forall j, e_write E j = None) -> connected ns E remote srn crn opt C true true x n0 -> jsteps ns E remote srn crn opt C n0 l n -> proper_calls modest l ->
  let mw := MTwrite (mkTwritePkt fid o d) in let mr := MTread (mkTreadPkt fid o k) in
  fitsT mw -> fitsT mr -> (Z.to_nat k <= List.length d)%nat ->
  l = l1 ++ LDone cw rw :: l2 -> In (LStart cw (call_request mw)) l -> call_result mw rw sp = CallRet (MRwrite a) None ->
  l = l3 ++ LDone cr rr :: l4 -> In (LStart cr (call_request mr)) l -> call_result mr rr sp' = CallRet (MRread (mkRreadPkt b)) None ->
  starts cr l1 = [] ->
  (forall c' q, In (LStart c' q) l3 -> c' <> cw -> c' <> cr -> (exists m, q = call_request m /\ fitsT m /\ looks fid m) \/ exists lx r ly, l = lx ++ LDone c' r :: ly /\ starts cw lx = []) ->
  b = firstn (Z.to_nat k) d \/
  exists reqs more reps x' u f, writes l = map enc_req (reqs ++ more) /\ Forall ok_req (reqs ++ more) /\ ServerSpec.answers ns false x reqs = Some (reps, (true, x')) /\
    UfsRun.holds c L (view x') u /\ u fid = Some f /\ N.land (QID_Type (f_QID f)) QTDIR <> 0.
Proof.
  intros HI HD HK HT HM HE HC R Hp mw mr F1 F2 Hk E1 S1 R1 E2 S2 R2 Hs Ho.
  destruct (stored_by c h content HK w ns x (text_fitting h c L view ns x w HT HM HI HD)
    (fun reqs reps st H => match text_answers_as h c L view ns x w HT HM HI reqs reps st H with ex_intro _ u (ex_intro _ w' (conj A _)) => ex_intro _ _ A end)
    E remote srn crn opt C HE n0 HC l n cw cr fid o d k rw rr a b l1 l2 l3 l4 sp sp' R Hp F1 F2 Hk E1 S1 R1 E2 S2 R2 Hs Ho) as [X|(reqs & more & reps & u & w' & f & X1 & X2 & X3 & X4 & X5)]; [left; exact X|right].
  destruct (made_holds h c L w _ HI HM) as [Hh Hw]. pose proof (same_answers h c L view ns HT reqs false x no_fids Hh) as Y. rewrite Hw, X3 in Y.
  destruct Y as (x' & Y1 & Y2 & _). exists reqs, more, reps, x', u, f. auto 10.
Qed.
Theorem text_exists W c (h : os W) w : IOunit c = 8192 -> exists L St view (ns : NineServer St) x, runs_text h L view ns /\ fresh_server h c w L (view x).
Proof.
  intros HI. set (hp := fun a : N => if a =? 0 then Some (VStr (Ufs.user c)) else if a =? 1 then Some (VStr (rootPath c)) else if a =? 2 then Some (VI 64 0) else None).
  assert (HN : forall a, 3 <= a -> hp a = None). { intros a Ha. unfold hp. destruct (N.eqb_spec a 0); [lia|]. destruct (N.eqb_spec a 1); [lia|]. destruct (N.eqb_spec a 2); [lia|reflexivity]. }
  destruct (creator_runs h c 0 0 0 1 2 hp 3 w [] eq_refl eq_refl eq_refl HI HN) as (n & out & s0 & Er & A & M & -> & HH & Hw & _).
  exists (mkLayout A M 0 1 2), (tstate c (mkLayout A M 0 1 2)), (fun y => proj1_sig y), (text_server h c (mkLayout A M 0 1 2)), (Specif.exist _ s0 (ex_intro _ no_fids HH)).
  split; [exact (text_server_runs h c _)|]. exists (mkLayout 0 0 0 1 2), (mkStore hp 3 false w []), n. do 5 (split; [reflexivity|]). split; [exact HN|]. do 3 (split; [reflexivity|]). split; [exact Er|].
  destruct (h_fs _ _ _ _ HH) as (ro & ve & Hx). do 2 eexists. split; [exact Hx|reflexivity].
Qed.
