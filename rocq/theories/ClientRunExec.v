(** Executions of the text of client.go by computation: what is done next is given in a list. *)
From Verif Require Import Base GoBuf CodecPrim Types Codec GoSyntax Ufs GoRun GoFmt GoProg GoWp Server ServerRun Client ClientRun ClientRunLemmas ClientRunSim ClientRunNew.
Local Opaque NumTags all_tags.

Inductive act :=
| ARun (i n : nat)             (* goroutine i goes on, for n steps or until it cannot alone *)
| AMeet (i j : nat)            (* i sends, j receives *)
| ADie (i : nat)
| AFail (i : nat) (z : Z) (e : oserr)
| AStart (c : nat) (q : bytes)
| AEnqueue (c : nat)
| ADeliver (i c : nat)
| ATag
| AFid.

Section Exec.
Context (names : N) (opt : oserr + (value * value * value * N)) (C : N).
Notation P := protocol_program.
Notation LIB := (lib names opt).
Notation tstep := (tstep names opt C).
Notation tsteps := (tsteps names opt C).

Definition one (i : nat) (g : gstate) : option (lbl * gstate) :=
  let s := g_mem g in let w := rest s in
  let go l m s := Some (l, mkG (put_nth i m (g_threads g)) s (g_users g) false) in
  if g_dead g then None else
  match nth_error (g_threads g) i with
  | None => None
  | Some m =>
      match step P m with
      | Ask (RGo f vs) m' => Some (LTau, mkG (put_nth i (resume m' []) (g_threads g) ++ [mkM (CApply f false Now vs) [] [] []]) s (g_users g) false)
      | Ask (RRecv (VObj k n)) m' =>
          match w_chans w n with
          | Some c => match ch_buf c with
                      | v :: b => go LTau (resume m' [v]) (set_chan s n (mkCh (ch_cap c) b (ch_closed c)))
                      | [] => if ch_closed c then go LTau (resume m' [VNil]) s else None
                      end
          | None => None
          end
      | Ask (RSend (VObj k n) v) m' =>
          match w_chans w n with
          | Some c => if ch_closed c then None else if blen (ch_buf c) <? ch_cap c then go LTau (resume m' []) (set_chan s n (mkCh (ch_cap c) (ch_buf c ++ [v]) false)) else None
          | None => None
          end
      | Ask r m' =>
          match r with
          | RExt f [o; VBytes b] =>
              if beq f (str "io.WriteCloser.Write") then go (LWrite 0 b) (resume m' [VI 64 (Z.of_N (blen b)); VNil]) s
              else match answer LIB r s with Answer vs s' => go (event r vs s') (resume m' vs) s' | _ => None end
          | _ => match answer LIB r s with Answer vs s' => go (event r vs s') (resume m' vs) s' | _ => None end
          end
      | r => match quiet r with Some m' => go LTau m' s | None => None end
      end
  end.
Fixpoint several (i n : nat) (g : gstate) : list lbl * gstate :=
  match n with
  | O => ([], g)
  | S n => match one i g with Some (l, g') => let '(ls, g2) := several i n g' in (l :: ls, g2) | None => ([], g) end
  end.
Definition do_act (a : act) (g : gstate) : option (list lbl * gstate) :=
  let s := g_mem g in let w := rest s in
  if g_dead g then None else
  match a with
  | ARun i n => Some (several i n g)
  | AMeet i j =>
      if Nat.eqb i j then None else
      match nth_error (g_threads g) i, nth_error (g_threads g) j with
      | Some m1, Some m2 =>
          match step P m1, step P m2 with
          | Ask (RSend (VObj k n) v) m1', Ask (RRecv (VObj k' n')) m2' =>
              match w_chans w n with
              | Some c => if (n =? n') && (ch_cap c =? 0) && negb (ch_closed c) then Some ([LTau], mkG (put_nth i (resume m1' []) (put_nth j (resume m2' [v]) (g_threads g))) s (g_users g) false) else None
              | None => None
              end
          | _, _ => None
          end
      | _, _ => None
      end
  | ADie i =>
      match nth_error (g_threads g) i with
      | Some m =>
          let dead l := Some ([l], mkG (g_threads g) s (g_users g) true) in
          match step P m with
          | Panic => dead LCrash
          | Maybe None _ => dead LCrash
          | Ask (RExt f vs) m' => if beq f (str "log.Fatalf") then dead LFatal else match answer LIB (RExt f vs) s with Crash => dead LCrash | _ => None end
          | Ask r m' => match answer LIB r s with Crash => dead LCrash | _ => None end
          | _ => None
          end
      | None => None
      end
  | AFail i z e =>
      match nth_error (g_threads g) i with
      | Some m => match step P m with
                  | Ask (RExt f [o; VBytes b]) m' => if beq f (str "io.WriteCloser.Write") then Some ([LTau], mkG (put_nth i (resume m' [VI 64 z; VErr e]) (g_threads g)) s (g_users g) false) else None
                  | _ => None
                  end
      | None => None
      end
  | AStart c q =>
      match g_users g c with
      | UIdle => if (7 <=? List.length q)%nat then
                   Some ([LStart c q], mkG (g_threads g)
                     (mkMem (put_cell (cells s) (free s) (v_call q (w_next w))) (free s + 1) (mkNW (put_chan (w_chans w) (w_next w) (mkCh 0 [] false)) (w_next w + 1) (w_net w) (w_gos w)))
                     (upd (g_users g) c (USend q (free s) (w_next w))) false)
                 else None
      | _ => None
      end
  | AEnqueue c =>
      match g_users g c, field C s (str "FromClient") with
      | USend q a n, Some (VObj k f) =>
          match w_chans w f with
          | Some b => if (blen (ch_buf b) <? ch_cap b) && negb (ch_closed b) then
                        Some ([LTau], mkG (g_threads g) (set_chan s f (mkCh (ch_cap b) (ch_buf b ++ [VPtr (str "RPCCall") a []]) false)) (upd (g_users g) c (UWait q n)) false)
                      else None
          | None => None
          end
      | _, _ => None
      end
  | ADeliver i c =>
      match nth_error (g_threads g) i, g_users g c with
      | Some m, UWait q n' =>
          match step P m with
          | Ask (RSend (VObj k n) (VBytes r)) m' =>
              match w_chans w n with
              | Some b => if (n =? n') && (ch_cap b =? 0) && negb (ch_closed b) then Some ([LDone c r], mkG (put_nth i (resume m' []) (g_threads g)) s (upd (g_users g) c (UDone q r)) false) else None
              | None => None
              end
          | _ => None
          end
      | _, _ => None
      end
  | ATag =>
      match field C s (str "Tags") with
      | Some (VObj k n) =>
          match w_chans w n with
          | Some b => match ch_buf b with VU 16 t :: l => Some ([LTag t], mkG (g_threads g) (set_chan s n (mkCh (ch_cap b) l (ch_closed b))) (g_users g) false) | _ => None end
          | None => None
          end
      | _ => None
      end
  | AFid => match answer LIB (RExt (str "atomic.AddUint64") [VPtr [] C [SF (str "FID")]; VC 1]) s with
            | Answer [VU 64 n] s' => Some ([LFid (n mod 4294967296)], mkG (g_threads g) s' (g_users g) false)
            | _ => None
            end
  end.
Fixpoint exec (l : list act) (g : gstate) : option (list lbl * gstate) :=
  match l with
  | [] => Some ([], g)
  | a :: l => match do_act a g with
              | Some (ls, g') => match exec l g' with Some (ls', g2) => Some (ls ++ ls', g2) | None => None end
              | None => None
              end
  end.

Lemma tsteps_one g l g' : tstep g l g' -> tsteps g [l] g'.
Proof. intros H. apply (ts_snoc _ _ _ g [] g l g'); [apply ts_nil|exact H]. Qed.
Lemma tsteps_app g l1 g1 l2 g2 : tsteps g l1 g1 -> tsteps g1 l2 g2 -> tsteps g (l1 ++ l2) g2.
Proof. intros H1 H2. induction H2; [rewrite app_nil_r; exact H1|]. rewrite app_assoc. eapply ts_snoc; eassumption. Qed.
Ltac dd H := repeat match type of H with
  | (if ?b then _ else _) = Some _ => let E := fresh "E" in destruct b eqn:E; try discriminate H
  | match ?x with _ => _ end = Some _ => let E := fresh "E" in destruct x eqn:E; try discriminate H
  end.
Ltac bools := repeat match goal with
  | E : _ && _ = true |- _ => apply Bool.andb_true_iff in E; destruct E
  | E : negb _ = true |- _ => apply Bool.negb_true_iff in E
  | E : (_ =? _) = true |- _ => apply N.eqb_eq in E
  | E : (_ <? _) = true |- _ => apply N.ltb_lt in E
  | E : beq _ _ = true |- _ => apply beq_eq in E
  | E : Nat.eqb _ _ = false |- _ => apply Nat.eqb_neq in E
  | E : Nat.leb _ _ = true |- _ => apply Nat.leb_le in E
  end; subst.
Lemma one_sound i g l g' : one i g = Some (l, g') -> tstep g l g'.
Proof.
  unfold one. intros H. destruct (g_dead g) eqn:Ed; [discriminate H|]. destruct (nth_error (g_threads g) i) as [m|] eqn:En; [|discriminate H].
  assert (Qt : (match quiet (step P m) with Some m' => Some (LTau, mkG (put_nth i m' (g_threads g)) (g_mem g) (g_users g) false) | None => None end) = Some (l, g') -> tstep g l g').
  { intros K. destruct (quiet (step P m)) as [m'|] eqn:E; [|discriminate K]. injection K as <- <-. eapply t_one; [exact Ed|exact En|]. apply l_quiet, E. }
  destruct (step P m) as [m'|b m1 m2|vs m1 f|o f|r m'| | |] eqn:Es; try exact (Qt H). clear Qt.
  assert (K : (match answer LIB r (g_mem g) with Answer vs s' => Some (event r vs s', mkG (put_nth i (resume m' vs) (g_threads g)) s' (g_users g) false) | _ => None end) = Some (l, g') -> tstep g l g').
  { intros K. destruct (answer LIB r (g_mem g)) as [vs s'| |s'|] eqn:Ea; try discriminate K. injection K as <- <-. eapply t_one; [exact Ed|exact En|]. eapply l_ask; eassumption. }
  destruct r as [v|a p|a p v|d|a x|a x v|a x|a|x|x v|f args|f args|ch v|ch|n]; try exact (K H).
  - dd H; try exact (K H). subst. apply beq_eq in E3. subst f. injection H as <- <-. eapply t_one; [exact Ed|exact En|]. eapply l_write, Es.
  - injection H as <- <-. eapply t_go; eassumption.
  - dd H; try exact (K H). subst. injection H as <- <-. eapply t_one; [exact Ed|exact En|]. eapply l_send; [exact Es|exact E0|exact E1|]. apply N.ltb_lt, E2.
  - dd H; try exact (K H); subst; injection H as <- <-; (eapply t_one; [exact Ed|exact En|]).
    + eapply l_closed; eassumption.
    + eapply l_recv; eassumption.
Qed.
Lemma several_sound i n : forall g ls g', several i n g = (ls, g') -> tsteps g ls g'.
Proof.
  induction n as [|n IH]; cbn [several]; intros g ls g' H.
  - injection H as <- <-. apply ts_nil.
  - destruct (one i g) as [[l g1]|] eqn:E; [|injection H as <- <-; apply ts_nil]. destruct (several i n g1) as [ls2 g2] eqn:E2. injection H as <- <-.
    apply (tsteps_app _ [l] g1); [apply tsteps_one, one_sound with (i := i), E|apply IH, E2].
Qed.
Lemma do_sound a g ls g' : do_act a g = Some (ls, g') -> tsteps g ls g'.
Proof.
  unfold do_act. intros H. destruct (g_dead g) eqn:Ed; [discriminate H|]. destruct a as [i n|i j|i|i z e|c q|c|i c| |].
  - injection H as H. apply several_sound with (i := i) (n := n), H.
  - dd H. injection H as <- <-. bools. apply tsteps_one. eapply t_meet; eassumption.
  - dd H; injection H as <- <-; bools; apply tsteps_one; (eapply t_die; [exact Ed|eassumption|]);
      first [apply d_panic; assumption|eapply d_index; eassumption|eapply d_fatal; eassumption|eapply d_crash; eassumption].
  - dd H. injection H as <- <-. bools. apply tsteps_one. eapply t_one; [exact Ed|eassumption|]. eapply l_fail; eassumption.
  - dd H. injection H as <- <-. bools. apply tsteps_one. apply t_start; assumption.
  - dd H. injection H as <- <-. bools. apply tsteps_one. eapply t_enqueue; eassumption.
  - dd H. injection H as <- <-. bools. apply tsteps_one. eapply t_deliver; eassumption.
  - dd H. injection H as <- <-. bools. apply tsteps_one. eapply t_gettag; eassumption.
  - dd H. injection H as <- <-. bools. apply tsteps_one. eapply t_getfid; eassumption.
Qed.
Lemma exec_sound l : forall g ls g', exec l g = Some (ls, g') -> tsteps g ls g'.
Proof.
  induction l as [|a l IH]; cbn [exec]; intros g ls g' H.
  - injection H as <- <-. apply ts_nil.
  - destruct (do_act a g) as [[l1 g1]|] eqn:E; [|discriminate H]. destruct (exec l g1) as [[l2 g2]|] eqn:E2; [|discriminate H]. injection H as <- <-.
    eapply tsteps_app; [apply do_sound with (a := a), E|apply IH, E2].
Qed.
(** An execution whose last state is as it should be. *)
Lemma exec_reaches l g (Q : list lbl -> gstate -> Prop) : match exec l g with Some (ls, g') => Q ls g' | None => False end -> exists ls g', tsteps g ls g' /\ Q ls g'.
Proof. destruct (exec l g) as [[ls g']|] eqn:E; [|contradiction]. intros H. exists ls, g'. split; [apply exec_sound with (l := l), E|exact H]. Qed.
End Exec.
