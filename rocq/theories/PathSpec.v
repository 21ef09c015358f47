(** What a file name means, independently of the byte loops in GoPath.v: the list of names from the starting directory
    after the elements "", "." and ".." have been resolved lexically. *)
From Verif Require Import Base GoPath.

Definition bytes_eqb (a b : bytes) : bool := if list_eq_dec Byte.byte_eq_dec a b then true else false.
Definition dotdot : bytes := str "..".

(** The pieces between slashes. *)
Fixpoint elems (p : bytes) : list bytes :=
  match p with
  | [] => [[]]
  | b :: r => if is_slash b then [] :: elems r
              else match elems r with e :: es => (b :: e) :: es | [] => [[b]] end
  end.

(** One element, applied to the directory reached so far (nearest name first).  At the root ".." does nothing; above a
    relative starting point it accumulates. *)
Definition enter (rooted : bool) (at_ : list bytes) (e : bytes) : list bytes :=
  if bytes_eqb e [] || bytes_eqb e (str ".") then at_
  else if bytes_eqb e dotdot then
    match at_ with
    | top :: up => if bytes_eqb top dotdot then dotdot :: at_ else up
    | [] => if rooted then [] else [dotdot]
    end
  else e :: at_.
Definition resolve (rooted : bool) (at_ : list bytes) (es : list bytes) : list bytes := fold_left (enter rooted) es at_.
(** The names of path p, outermost first. *)
Definition names (p : bytes) : list bytes := rev (resolve (IsAbs p) [] (elems p)).

(** A name that denotes a file in its directory. *)
Definition plain (e : bytes) : Prop := e <> [] /\ e <> str "." /\ e <> dotdot /\ ~ In slash e.

(** p is root or lies below it. *)
Definition inside (root p : bytes) : Prop :=
  IsAbs p = IsAbs root /\ exists ns, Forall plain ns /\ names p = names root ++ ns.
Definition strictly_inside (root p : bytes) : Prop :=
  IsAbs p = IsAbs root /\ exists ns, ns <> [] /\ Forall plain ns /\ names p = names root ++ ns.

(** The name, as given by a client, has no ".." element. *)
Definition no_dotdot (s : bytes) : Prop := ~ In dotdot (elems s).

(** The text of a path with the given names. *)
Fixpoint joined (ns : list bytes) : bytes :=
  match ns with [] => [] | [e] => e | e :: ns => e ++ slash :: joined ns end.
Definition text (rooted : bool) (ns : list bytes) : bytes :=
  if rooted then slash :: joined ns else match ns with [] => [dot] | _ => joined ns end.
