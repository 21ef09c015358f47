(** protocol/genout.go as a program: its text, parsed. *)
From Verif Require Import Base GoSyntax GenoutText.

Definition genout_opt : option (list func) := Eval vm_compute in parse (concat genout_text).
Definition genout : list func := Eval vm_compute in match genout_opt with Some p => p | None => [] end.
Lemma genout_parsed : parse (concat genout_text) = Some genout.
Proof. vm_compute. reflexivity. Qed.
