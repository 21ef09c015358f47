(** Package fmt on the values of GoRun.v. *)
From Verif Require Import Base StubPrim GoRun Ufs.

(** * fmt: the verbs %d and %v *)
Definition join2 (a b : option bytes) : option bytes := match a, b with Some a, Some b => Some (a ++ b) | _, _ => None end.
Fixpoint all_of {A B} (f : A -> option B) (l : list A) : option (list B) :=
  match l with [] => Some [] | a :: l => match f a, all_of f l with Some b, Some r => Some (b :: r) | _, _ => None end end.
Definition bracket (o c : bytes) (l : option (list bytes)) : option bytes := match l with Some l => Some (o ++ spaced l ++ c) | None => None end.
Definition show_z (z : Z) : bytes := if (z <? 0)%Z then str "-" ++ dec (Z.to_N (- z)) else dec (Z.to_N z).
Definition show_basic (v : value) : option bytes := match v with VU _ n => Some (dec n) | VI _ z => Some (show_z z) | VStr s => Some s | _ => None end.
(** A struct or slice of such, in a struct or slice. *)
Definition show_elem (v : value) : option bytes :=
  match v with VStruct _ fs => bracket (str "{") (str "}") (all_of (fun f => show_basic (snd f)) fs) | _ => show_basic v end.
Definition elements (l : list value) : option (list bytes) := all_of show_elem l.
Definition show (v : value) : option bytes :=
  match v with
  | VErr e => Some (err_text e)
  | VList l => bracket (str "[") (str "]") (elements l)
  | VStruct _ fs => bracket (str "{") (str "}") (all_of (fun f => show_elem (snd f)) fs)
  | _ => show_basic v
  end.
Fixpoint format (f : bytes) (args : list value) : option bytes :=
  match f with
  | [] => match args with [] => Some [] | _ => None end
  | c :: f' =>
      if Byte.eqb c "%" then
        match f', args with
        | d :: f'', v :: args => if Byte.eqb d "d" || Byte.eqb d "v" then
              join2 (show v) (format f'' args) else None
        | _, _ => None
        end
      else match format f' args with Some b => Some (c :: b) | None => None end
  end.
