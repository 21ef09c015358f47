(** Following the text of debug.go through the machine. *)
From Verif Require Import Base GoBuf CodecPrim Types Codec Msgs StubPrim GoSyntax Ufs GoRun GoFmt GoProg GoWp ServerSpec Debugfs ServerRunLemmas DebugRun.
From Verif Require UfsRun.
From Coq Require String Ascii.

Ltac machine_delta ::=
  lazy beta iota zeta delta [adv step stops known start fst snd
    resume stuck mapkey as_nat as_z bound foreign qualified is_path builtins named method_of has_field GoRun.bind pairs keys_of
    unboxed1 unboxed default_case zip defines lookup assign declare part
    basic_ints type_name int_of int_type zero_of zero type_of const_n literal pow2 wle wlt convert unify GoRun.is_nil eqv arith unary
    get_path like set_field set_path assoc also mem beq Byte.eqb Byte.to_bits Bool.eqb andb orb
    p_funcs p_types p_consts p_vars debug_program ctl stk GoRun.env dfr f_name f_recv f_params GoSyntax.f_body
    str String.list_byte_of_string String.list_ascii_of_string Ascii.byte_of_ascii Byte.of_bits map hd tl values_of first1
    UfsRun.v_qid UfsRun.v_dir zeroQ v_reply v_zero as_message method arguments UfsRun.method_call v_debug debug_call outside line_format newline skipn method_name debug_method
    format show show_basic show_elem bracket join2 all_of GoWp.answer with_rest with_cell with_new cells free rest].

Ltac outcall ::=
  machine_delta;
  repeat (lazymatch goal with
          | |- (match ?x with _ => _ end) = _ =>
              first [ (lazymatch x with
                       | context [put_cell ?h ?b ?w ?a] => let H := fresh in let v := open_constr:(_ : value) in assert (H : put_cell h b w a = Some v) by cell; rewrite H; clear H
                       end)
                    | match goal with H : x = _ |- _ => rewrite H end
                    | match goal with H : elements ?l = _ |- _ => lazymatch x with context [elements l] => rewrite H end end
                    | match goal with H : strings_of ?l = _ |- _ => lazymatch x with context [strings_of l] => rewrite H end end ]; machine_delta
          end);
  constructed.

Section Debug.
Context {St : Type} (ns : NineServer St).
Notation WP := (wp debug_program (outside ns)).
Notation store hp nx x log := (mkMem hp nx (x, log)).
Lemma paths_of l : strings_of (UfsRun.v_strings l) = Some l.
Proof. induction l as [|a l IH]; [reflexivity|]. cbn [UfsRun.v_strings map strings_of]. unfold UfsRun.v_strings in IH. rewrite IH. reflexivity. Qed.
Lemma shown_paths l : elements (UfsRun.v_strings l) = Some l.
Proof. unfold elements; induction l as [|a l IH]; [reflexivity|]. cbn [UfsRun.v_strings map all_of]. unfold UfsRun.v_strings in IH. rewrite IH. reflexivity. Qed.
Lemma shown_qids l : elements (v_qids l) = Some (map v_QID l).
Proof. unfold elements; induction l as [|a l IH]; [reflexivity|]. cbn [v_qids map all_of]. unfold v_qids in IH. rewrite IH. reflexivity. Qed.
(** How a method of DebugFileServer ends. *)
Definition debug_ends (A : N) (Q : ending -> memory (St * list bytes) -> Prop) (m : tmsg) (r : nsres (St * list bytes) rmsg) : Prop :=
  match r with
  | NSOk (x, log) r => forall hp nx, hp A = Some v_debug -> A < nx -> Q (Returned (also (v_reply r) [VNil])) (store hp nx x log)
  | NSErr (x, log) e => forall hp nx, hp A = Some v_debug -> A < nx -> Q (Returned (also (v_zero m) [VErr (OSErr e)])) (store hp nx x log)
  | NSPanic => forall s, Q Panicked s
  end.
Ltac lines := lazy beta iota zeta delta [str String.list_byte_of_string String.list_ascii_of_string Ascii.byte_of_ascii Byte.of_bits Byte.to_bits show_z decz v_QID v_Dir v_list also v_reply v_zero zeroQ UfsRun.v_qid err_text fst snd];
  rewrite ?app_nil_r, <- ?app_assoc; cbn [app]; rewrite ?app_nil_r, <- ?app_assoc; cbn [app].
Lemma shown_len n : show_z (Z.of_N n) = dec n.
Proof. unfold show_z. destruct (Z.ltb_spec (Z.of_N n) 0); [lia|]. rewrite N2Z.id. reflexivity. Qed.
Ltac finish A H := rewrite ?shown_len; match goal with |- _ _ (mkMem ?hp ?nx _) => specialize (H hp nx); let H1 := fresh in let H2 := fresh in assert (H1 : hp A = Some v_debug) by cell; assert (H2 : A < nx) by lia; specialize (H H1 H2); clear H1 H2 end; revert H; lines; intros H; exact H.
Ltac known_answer En := lazymatch goal with |- wp _ _ (debug_method _ ?m) (mkMem _ _ (?x, _)) _ =>
  let Ei := fresh in eassert (Ei : invoke ns x m = _) by (cbn [invoke]; rewrite En; cbn [nsmap]; reflexivity); cbn beta in Ei end.
Ltac outcomes A H D := let En := fresh in destruct D as [x' p|x' e|] eqn:En; cbn [nsmap debug_ends] in H; known_answer En; go1; go; [finish A H|finish A H|apply H].
Lemma debug_runs A m hp nx x log Q : hp A = Some v_debug -> A < nx -> debug_ends A Q m (invoke (debugfs St ns) (x, log) m) ->
  WP (debug_method A m) (store hp nx x log) Q.
Proof.
  intros HA L H. destruct m as [[a b]|[a b c d]|[a]|[a b c]|[a b]|[a b c d]|[a b c]|[a b c]|[a]|[a]|[a]|[a b]]; cbn [invoke debugfs ns_Rversion ns_Rattach ns_Rflush ns_Rwalk ns_Ropen ns_Rcreate ns_Rread ns_Rwrite ns_Rclunk ns_Rremove ns_Rstat ns_Rwstat] in H;
  unfold d_Rversion, d_Rattach, d_Rflush, d_Rwalk, d_Ropen, d_Rcreate, d_Rread, d_Rwrite, d_Rclunk, d_Rremove, d_Rstat, d_Rwstat, wrap in H.
  - outcomes A H (ns_Rversion ns x a b).
  - outcomes A H (ns_Rattach ns x a b c d).
  - outcomes A H (ns_Rflush ns x a).
  - pose proof (paths_of c). pose proof (shown_paths c). destruct (ns_Rwalk ns x a b c) as [x' p|x' e|] eqn:En; cbn [nsmap debug_ends] in H; known_answer En.
    + pose proof (shown_qids (Rwalk_QIDs p)). go1; go. finish A H.
    + go1; go. finish A H.
    + go1; go. apply H.
  - outcomes A H (ns_Ropen ns x a b).
  - outcomes A H (ns_Rcreate ns x a b c d).
  - outcomes A H (ns_Rread ns x a b c).
  - outcomes A H (ns_Rwrite ns x a b c).
  - outcomes A H (ns_Rclunk ns x a).
  - outcomes A H (ns_Rremove ns x a).
  - destruct (ns_Rstat ns x a) as [x' p|x' e|] eqn:En; [destruct (Unmarshaldir (Buf (Rstat_B p) [])) as [dir ? b' e'|] eqn:Eu|..]; cbn [nsmap debug_ends] in H; known_answer En; go1; go.
    + destruct e'; go; finish A H.
    + apply H.
    + finish A H.
    + apply H.
  - destruct (Unmarshaldir (Buf b [])) as [dir ? b' e'|] eqn:Eu.
    + destruct (ns_Rwstat ns x a b) as [x' p|x' e|] eqn:En; cbn [nsmap debug_ends] in H; known_answer En; go1; go; destruct e'; go; first [finish A H|apply H].
    + go1; go. apply H.
Qed.
End Debug.
