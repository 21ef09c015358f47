(** The hand-written files of /repo as programs: their texts, parsed. *)
From Verif Require Import Base GoSyntax GoRun GoText.

(** * Constants *)
Definition find_const (x : bytes) (ds : list decl) : option (N * option gtype * expr) :=
  (fix go (ds : list decl) := match ds with
   | [] => None
   | DConst y i t e :: ds => if beq x y then Some (i, t, e) else go ds
   | _ :: ds => go ds
   end) ds.
(** The value of a constant expression: numbers, iota, other constants of the file, + - * and <<; n: fuel. *)
Fixpoint const_z (ds : list decl) (n : nat) (iota : N) (e : expr) : option Z :=
  match n with
  | O => None
  | S n =>
    match e with
    | ENum k => Some (Z.of_N k)
    | EId x => if beq x (str "iota") then Some (Z.of_N iota) else match find_const x ds with Some (i, _, e) => const_z ds n i e | None => None end
    | EBin o a b =>
        match const_z ds n iota a, const_z ds n iota b with
        | Some x, Some y => if beq o (str "+") then Some (x + y)%Z else if beq o (str "-") then Some (x - y)%Z else if beq o (str "*") then Some (x * y)%Z
                            else if beq o (str "<<") then Some (Z.shiftl x y) else None
        | _, _ => None
        end
    | _ => None
    end
  end.
Definition types_of (ds : list decl) : list (bytes * gtype) := flat_map (fun d => match d with DType x t => [(x, t)] | _ => [] end) ds.
Definition const_of_decl (all ds : list decl) (d : decl) : list (bytes * value) :=
  match d with
  | DConst x i t e =>
      match e with
      | EStr s => [(x, VStr s)]
      | _ =>
          match const_z ds 10 i e with
          | Some z => match t with
                      | None => [(x, VC z)]
                      | Some t => match int_type (mkProgram [] (types_of all) [] []) (type_name t) with
                                  | Some (w, false) => [(x, VU w (Z.to_N z))]
                                  | Some (w, true) => [(x, VI w z)]
                                  | None => []
                                  end
                      end
          | None => []
          end
      end
  | _ => []
  end.
Definition func_name (f : func) : bytes :=
  match f_recv f with Some (_, GPtr (GName t)) => t ++ str "." ++ f_name f | Some (_, t) => type_name t ++ str "." ++ f_name f | None => f_name f end.
Definition program_of (ds : list decl) : program :=
  mkProgram (flat_map (fun d => match d with DFunc f => [(func_name f, f)] | _ => [] end) ds) (types_of ds)
            (flat_map (const_of_decl ds ds) ds) (flat_map (fun d => match d with DVar x _ _ => [x] | _ => [] end) ds).
Definition file (t : list bytes) : list decl := match parse_file (concat t) with Some ds => ds | None => [] end.

(** * The programs *)
(** The file server: package ufs on Unix, with the types and constants of package protocol. *)
Definition ufs_decls : list decl := file protocol_text ++ file filesystem_text ++ file filesystem_unix_text ++ file ninep_text ++ file ninep_unix_text.
Definition ufs_program : program := Eval vm_compute in program_of ufs_decls.
(** Server and client: the hand-written files of package protocol. *)
Definition protocol_decls : list decl := file protocol_text ++ file server_text ++ file client_text.
Definition protocol_program : program := Eval vm_compute in program_of protocol_decls.
(** The contents of a package-level variable that is a map from constants to strings. *)
Definition find_var (x : bytes) (ds : list decl) : option expr :=
  (fix go (ds : list decl) := match ds with
   | [] => None
   | DVar y _ e :: ds => if beq x y then e else go ds
   | _ :: ds => go ds
   end) ds.
Definition map_literal (P : program) (x : bytes) (ds : list decl) : option (list (N * value)) :=
  match find_var x ds with
  | Some (EComp (GMap _ (GName t)) els) =>
      if beq t (str "string") then
        (fix go (els : list (option bytes * expr)) := match els with
         | [] => Some []
         | (Some k, EStr s) :: els => match assoc k (p_consts P), go els with Some (VU _ n), Some l => Some ((n, VStr s) :: l) | _, _ => None end
         | _ => None
         end) els
      else None
  | _ => None
  end.
(** protocol.go:313-342 *)
Definition RPCNames_literal : option (list (N * value)) := Eval vm_compute in map_literal protocol_program (str "RPCNames") protocol_decls.
