(** Reading, writing attributes, opening, creating, removing. *)
From Verif Require Import Base GoBuf CodecPrim Types Codec Msgs StubPrim CodecLemmas GoPath PathSpec Ufs UfsSpec UfsLemmas.

(** * Unmarshaldir does not look behind its buffer *)
Definition usim {F} (a b : ures F) : Prop :=
  match a, b with
  | URet f t r e, URet f' t' r' e' => f = f' /\ t = t' /\ unread r = unread r' /\ e = e'
  | UPanic, UPanic => True
  | _, _ => False
  end.
Lemma rd_sim {F} n u b b' (fl fl' : buf -> ures F) k k' : unread b = unread b' ->
  (forall x y, unread x = unread y -> usim (fl x) (fl' y)) -> (forall v x y, unread x = unread y -> usim (k v x) (k' v y)) ->
  usim (rd n u b fl k) (rd n u b' fl' k').
Proof.
  intros E Hf Hk. unfold rd, buf_read. rewrite <- E. destruct (unread b) eqn:Eb; [apply Hf; congruence|]. apply Hk. reflexivity.
Qed.
Lemma next_sim l b b' : unread b = unread b' -> unread (buf_next l b) = unread (buf_next l b').
Proof. intros E. unfold buf_next, buf_len. rewrite <- E. destruct (_ <=? _); reflexivity. Qed.
Lemma reslice_sim {F} l b b' (k k' : bytes -> ures F) : unread b = unread b' -> (buf_len b <? l) = false ->
  (forall x, usim (k x) (k' x)) -> usim (reslice l b UPanic k) (reslice l b' UPanic k').
Proof.
  intros E L Hk. unfold reslice, buf_reslice. rewrite <- E. apply N.ltb_ge in L. unfold buf_len, blen in *.
  assert (H1 : forall sp, firstn (N.to_nat l) (unread b ++ sp) = firstn (N.to_nat l) (unread b)).
  { intros sp. rewrite firstn_app. replace (N.to_nat l - List.length (unread b))%nat with 0%nat by lia. apply app_nil_r. }
  rewrite !H1.
  replace (l <=? _) with true by (symmetry; apply N.leb_le; lia). replace (l <=? _) with true by (symmetry; apply N.leb_le; lia). apply Hk.
Qed.
Lemma Unmarshaldir_sim b b' : unread b = unread b' -> usim (Unmarshaldir b) (Unmarshaldir b').
Proof.
  intros E0. unfold Unmarshaldir. cbv zeta.
  assert (Hl : forall x y, unread x = unread y -> buf_len x = buf_len y) by (intros x y E; unfold buf_len; rewrite E; reflexivity).
  repeat match goal with
  | |- usim (rd _ _ _ _ _) (rd _ _ _ _ _) =>
      apply rd_sim; [first [assumption|repeat (apply next_sim; try assumption)]
                    |let x := fresh "b" in let y := fresh "b" in let E := fresh "E" in intros x y E; rewrite (Hl x y E); repeat split; exact E
                    |let v := fresh "u" in let x := fresh "b" in let y := fresh "b" in let E := fresh "E" in intros v x y E]
  | E : unread ?x = unread ?y |- usim (if buf_len ?x <? _ then _ else _) (if buf_len ?y <? _ then _ else _) =>
      rewrite <- (Hl x y E); match goal with |- context [buf_len x <? ?l] => destruct (buf_len x <? l) eqn:? end; [repeat split; exact E|]
  | |- usim (reslice _ _ _ _) (reslice _ _ _ _) => apply reslice_sim; [assumption|assumption|let x := fresh "s" in intros x]
  | |- usim (URet _ _ _ _) (URet _ _ _ _) => repeat split; apply next_sim; assumption
  end.
Qed.
Lemma Unmarshaldir_spare x sp sp' : usim (Unmarshaldir (Buf x sp)) (Unmarshaldir (Buf x sp')).
Proof. apply Unmarshaldir_sim. reflexivity. Qed.
