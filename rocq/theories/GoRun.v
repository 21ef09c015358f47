(** The meaning of the hand-written Go files of /repo: a machine that runs their syntax trees (GoSyntax.v) step by step.

    The machine does by itself what concerns control flow, local variables and arithmetic.  Everything else it asks for: memory
    shared through pointers, package variables, maps, channels, goroutines, and the functions of other packages.  What is answered is fixed
    where the machine is used (UfsRun.v).  A program that does anything the machine does not cover ends in
    [Stuck], so a theorem saying that a function returns also says that all of it was understood.
    Simplifications, all of which a compiled program cannot notice or which do not occur in the files:
    - the program has passed the Go compiler: types are not checked; package names are dropped from the names of types and
      functions of /repo, of which no two used here are the same;
    - slices other than those made by make([]byte, n) are values, not shared;
    - named results, labels, goto, fallthrough, select do not occur. *)
From Verif Require Import Base GoBuf GoSyntax Ufs.

Fixpoint assoc {A} (x : bytes) (l : list (bytes * A)) : option A :=
  match l with [] => None | (y, a) :: l => if beq x y then Some a else assoc x l end.
Fixpoint also {A} (l m : list A) : list A := match l with [] => m | a :: l => a :: also l m end.

(** * Values *)
(** Part of a struct or slice. *)
Inductive sel := SF (f : bytes) | SI (i : nat).
(** [VU w n], [VI w z]: unsigned and signed integers of w bits; [VC z]: an untyped constant; [VSl a o n]: the n bytes from o on of the
    array in cell a; [VPtr t a p]: a pointer to part p of cell a, of type t; [VMap d m]: a map, d being the zero value of its
    elements (only in cells; the map itself is a pointer to one); [VArr]: an array (only in cells);
    [VFun f]: a function or method of the program; [VClos]: a function literal with the variables it sees; [VBox t a]: a
    variable kept in cell a; [VObj k n]: something outside, of kind k, with number n. *)
Inductive value :=
| VU (w n : N) | VI (w : N) (z : Z) | VC (z : Z) | VBool (b : bool)
| VStr (s : bytes) | VBytes (b : bytes) | VSl (a o n : N) | VArr (b : bytes) | VBuf (b : buf)
| VList (vs : list value) | VStruct (t : bytes) (fs : list (bytes * value))
| VPtr (t : bytes) (a : N) (p : list sel) | VMap (d : value) (m : N -> option value)
| VErr (e : oserr) | VNil
| VFun (f : bytes) | VClos (ps : list (bytes * gtype)) (body : list stmt) (env : list (list (bytes * value)))
| VBox (t : bytes) (a : N)
| VFI (fi : FileInfo) | VTime (t : time) | VFile (h : handle) | VObj (k : bytes) (n : N).
Definition frame := list (bytes * value).

(** * The program *)
Record program := mkProgram {
  p_funcs : list (bytes * func);          (* by name, methods as type.name *)
  p_types : list (bytes * gtype);
  p_consts : list (bytes * value);
  p_vars : list bytes }.

Section Machine.
Variable P : program.

(** * Types *)
Definition basic_ints : list (bytes * (N * bool)) :=
  [(str "uint8", (8, false)); (str "byte", (8, false)); (str "uint16", (16, false)); (str "uint32", (32, false)); (str "uint64", (64, false));
   (str "int", (64, true)); (str "int32", (32, true)); (str "int64", (64, true)); (str "os.FileMode", (32, false)); (str "time.Duration", (64, true))].
(** The name under which a type is known. *)
Definition type_name (t : gtype) : bytes :=
  match t with
  | GName s => s
  | GQual p s => if beq p (str "protocol") then s else if beq p (str "ufs") then s else if beq p (str "debugfs") then s else also p (also (str ".") s)
  | _ => []
  end.
(** The width and signedness of an integer type. *)
Fixpoint int_of (n : nat) (s : bytes) : option (N * bool) :=
  match n with
  | O => None
  | S n =>
    match assoc s basic_ints with
    | Some r => Some r
    | None => match assoc s (p_types P) with Some t => match t with GName s => int_of n s | GQual p s => int_of n (type_name t) | _ => None end | None => None end
    end
  end.
Definition int_type (s : bytes) : option (N * bool) := int_of 3 s.
Fixpoint zero_of (n : nat) (t : gtype) : option value :=
  let fields n := fix go (fs : list (bytes * gtype)) : option (list (bytes * value)) :=
    match fs with
    | [] => Some []
    | (f, t) :: fs => match zero_of n t, go fs with Some v, Some l => Some ((f, v) :: l) | _, _ => None end
    end in
  match n with
  | O => None
  | S n =>
    match t with
    | GPtr _ | GSlice _ | GChan _ | GMap _ _ | GFunc | GIface => Some VNil
    | GStruct fs => match fields n fs with Some l => Some (VStruct [] l) | None => None end
    | GName _ | GQual _ _ =>
        let s := type_name t in
        match int_type s with
        | Some (w, false) => Some (VU w 0)
        | Some (w, true) => Some (VI w 0)
        | None =>
            if beq s (str "string") then Some (VStr [])
            else if beq s (str "bool") then Some (VBool false)
            else if beq s (str "error") then Some VNil
            else if mem s ([str "net.Conn"; str "io.WriteCloser"; str "io.ReadCloser"; str "net.Listener"; str "os.FileInfo"]) then Some VNil
            else if beq s (str "bytes.Buffer") then Some (VBuf (Buf [] []))
            else if beq s (str "sync.Mutex") then Some (VStruct s [])
            else match assoc s (p_types P) with
                 | Some (GStruct fs) => match fields n fs with Some l => Some (VStruct s l) | None => None end
                 | Some t => zero_of n t
                 | None => None
                 end
        end
    | _ => None
    end
  end.
Definition zero (t : gtype) : option value := zero_of 6 t.
(** The type a pointer to this value points to. *)
Definition type_of (v : value) : bytes :=
  match v with VStruct t _ => t | VBuf _ => str "bytes.Buffer" | VPtr t _ _ => t | VObj k _ => k | VErr _ => str "error" | VFI _ => str "os.FileInfo"
  | VTime _ => str "time.Time" | VFile _ => str "os.File" | _ => [] end.

(** * Arithmetic *)
Definition const_n (z : Z) : N := match z with Zpos p => Npos p | _ => 0 end.
Definition literal (n : N) : Z := match n with N0 => Z0 | Npos p => Zpos p end.
(** 2^w, for the widths there are. *)
Definition pow2 (w : N) : N := match w with 8 => 256 | 16 => 65536 | 32 => 4294967296 | _ => 18446744073709551616 end.
(** The w-bit number, without and with sign, congruent to z. *)
Definition uwrap (w : N) (z : Z) : N := Z.to_N (z mod Z.of_N (pow2 w)).
Definition swrap (w : N) (z : Z) : Z :=
  let m := Z.of_N (pow2 w) in let r := (z mod m)%Z in if (r <? m / 2)%Z then r else (r - m)%Z.
(** Comparison of widths. *)
Definition wle (v w : N) : bool := match v, w with 8, _ | _, 64 | 16, 16 | 16, 32 | 32, 32 => true | _, _ => false end.
Definition wlt (v w : N) : bool := match v, w with 8, 8 | 64, _ => false | 8, _ | _, 64 | 16, 32 => true | _, _ => false end.
(** Conversion to an integer type: what fits stays as it is, anything else keeps the low bits. *)
Definition convert (w : N) (signed : bool) (v : value) : option value :=
  match v, signed with
  | VU v n, false => Some (VU w (if wle v w then n else n mod pow2 w))
  | VI _ z, false => Some (VU w (uwrap w z))
  | VC z, false => Some (VU w (const_n z))
  | VU v n, true => Some (VI w (if wlt v w then Z.of_N n else swrap w (Z.of_N n)))
  | VI v z, true => Some (VI w (if wle v w then z else swrap w z))
  | VC z, true => Some (VI w z)
  | _, _ => None
  end.
(** An untyped constant takes the type of the other operand. *)
Definition unify (a b : value) : value * value :=
  match a, b with
  | VC z, VU w _ => (VU w (const_n z), b)
  | VC z, VI w _ => (VI w z, b)
  | VU w _, VC z => (a, VU w (const_n z))
  | VI w _, VC z => (a, VI w z)
  | _, _ => (a, b)
  end.
Definition is_nil (v : value) : option bool :=
  match v with
  | VNil => Some true
  | VPtr _ _ _ | VErr _ | VFile _ | VObj _ _ | VFI _ | VFun _ | VClos _ _ _ | VBytes _ | VSl _ _ _ | VList _ => Some false
  | _ => None
  end.
Definition eqv (a b : value) : option bool :=
  match unify a b with
  | (VU _ n, VU _ m) => Some (n =? m)
  | (VI _ z, VI _ y) => Some (z =? y)%Z
  | (VC z, VC y) => Some (z =? y)%Z
  | (VStr s, VStr t) => Some (if list_eq_dec Byte.byte_eq_dec s t then true else false)
  | (VBool a, VBool b) => Some (Bool.eqb a b)
  | (VErr e, VErr EOF) => Some (match e with EOF => true | _ => false end)
  | (v, VNil) => is_nil v
  | (VNil, v) => is_nil v
  | _ => None
  end.
Definition arith (o : bytes) (a b : value) : option value :=
  if beq o (str "<<") then
    match a, b with VU w n, VC z => Some (VU w (N.shiftl n (const_n z) mod pow2 w)) | VI w x, VC z => Some (VI w (swrap w (Z.shiftl x z))) | VC x, VC z => Some (VC (Z.shiftl x z)) | _, _ => None end
  else if beq o (str ">>") then
    match a, b with VU w n, VC z => Some (VU w (N.shiftr n (const_n z))) | VI w x, VC z => Some (VI w (Z.shiftr x z)) | _, _ => None end
  else if beq o (str "==") then match eqv a b with Some x => Some (VBool x) | None => None end
  else if beq o (str "!=") then match eqv a b with Some x => Some (VBool (negb x)) | None => None end
  else
    match unify a b with
    | (VU w n, VU _ m) =>
        if beq o (str "&") then Some (VU w (N.land n m)) else if beq o (str "|") then Some (VU w (N.lor n m))
        else if beq o (str "+") then Some (VU w ((n + m) mod pow2 w)) else if beq o (str "-") then Some (VU w ((n + (pow2 w - m)) mod pow2 w))
        else if beq o (str "<") then Some (VBool (n <? m)) else if beq o (str ">") then Some (VBool (m <? n))
        else if beq o (str ">=") then Some (VBool (m <=? n)) else None
    | (VI w x, VI _ y) =>
        if beq o (str "&") then Some (VI w (Z.land x y)) else if beq o (str "|") then Some (VI w (Z.lor x y))
        else if beq o (str "+") then Some (VI w (swrap w (x + y))) else if beq o (str "-") then Some (VI w (swrap w (x - y)))
        else if beq o (str "*") then Some (VI w (swrap w (x * y)))
        else if beq o (str "/") then match b with VC (Zpos _) => Some (VI w (Z.quot x y)) | _ => None end
        else if beq o (str "<") then Some (VBool (x <? y)%Z) else if beq o (str ">") then Some (VBool (y <? x)%Z)
        else if beq o (str ">=") then Some (VBool (y <=? x)%Z) else None
    | (VC x, VC y) =>
        if beq o (str "+") then Some (VC (x + y)) else if beq o (str "-") then Some (VC (x - y)) else if beq o (str "*") then Some (VC (x * y)) else None
    | (VStr s, VStr t) => if beq o (str "+") then Some (VStr (s ++ t)) else None
    | _ => None
    end.
Definition unary (o : bytes) (a : value) : option value :=
  if beq o (str "!") then match a with VBool b => Some (VBool (negb b)) | _ => None end
  else if beq o (str "^") then match a with VU w n => Some (VU w (pow2 w - 1 - n)) | _ => None end
  else if beq o (str "-") then match a with VC z => Some (VC (- z)) | _ => None end
  else None.

(** * Parts of values *)
Fixpoint get_path (p : list sel) (v : value) : option value :=
  match p with
  | [] => Some v
  | SF f :: p => match v with VStruct _ fs => match assoc f fs with Some x => get_path p x | None => None end | _ => None end
  | SI i :: p => match v with VList vs => match nth_error vs i with Some x => get_path p x | None => None end | _ => None end
  end.
(** An untyped constant takes the type of what it replaces. *)
Definition like (w v : value) : value :=
  match v with VC z => match w with VU n _ => VU n (const_n z) | VI n _ => VI n z | _ => v end | _ => v end.
Fixpoint set_field (f : bytes) (v : value) (fs : list (bytes * value)) : list (bytes * value) :=
  match fs with [] => [] | (g, w) :: fs => if beq f g then (g, like w v) :: fs else (g, w) :: set_field f v fs end.
Fixpoint set_nth (i : nat) (v : value) (vs : list value) : list value :=
  match vs, i with [], _ => [] | w :: vs, O => like w v :: vs | w :: vs, S i => w :: set_nth i v vs end.
(** Element i of a slice is replaced as a whole. *)
Fixpoint set_path (p : list sel) (v w : value) : option value :=
  match p with
  | [] => Some (like w v)
  | SF f :: p =>
      match w with
      | VStruct t fs => match assoc f fs with Some x => match set_path p v x with Some y => Some (VStruct t (set_field f y fs)) | None => None end | None => None end
      | _ => None
      end
  | [SI i] =>
      match w, v with
      | VList vs, _ => Some (VList (set_nth i v vs))
      | VBytes b, VU _ n => Some (VBytes (firstn i b ++ u8 n :: skipn (S i) b))
      | _, _ => None
      end
  | SI _ :: _ => None
  end.

(** * Local variables, one frame per open block, innermost first *)
Fixpoint lookup (x : bytes) (e : list frame) : option value :=
  match e with [] => None | f :: e => match assoc x f with Some v => Some v | None => lookup x e end end.
Fixpoint assign (x : bytes) (v : value) (e : list frame) : list frame :=
  match e with [] => [] | f :: e => match assoc x f with Some _ => set_field x v f :: e | None => f :: assign x v e end end.
(** A variable declared with an untyped constant is an int. *)
Definition declare (x : bytes) (v : value) (e : list frame) : list frame :=
  let v := match v with VC z => VI 64 z | _ => v end in
  if beq x (str "_") then e else match e with [] => [] | f :: e => ((x, v) :: f) :: e end.
(** Where a value can be stored. *)
Inductive loc := LBlank | LLocal (x : bytes) (p : list sel) | LHeap (a : N) (p : list sel) | LMap (a : N) (k : N) | LVar (x : bytes).
Definition part (l : loc) (s : sel) : option loc :=
  match l with LLocal x p => Some (LLocal x (also p [s])) | LHeap a p => Some (LHeap a (also p [s])) | _ => None end.

(** * The machine *)
(** What is called: a function or method of the program, something outside, a conversion, a builtin, a value; with the receiver. *)
Inductive callee := FUser (f : bytes) (r : list value) | FExt (f : bytes) (r : list value) | FConv (t : gtype) | FBuiltin (f : bytes) (t : list gtype) | FVal (v : value).
Inductive mode := Now | Later | Async.
(** What the machine does next.  [CE two e]: evaluate e (two: for "v, ok ="); [CL e]: find the place e denotes. *)
Inductive control :=
| CE (two : bool) (e : expr) | CV (vs : list value)
| CL (e : expr) | CLoc (l : loc)
| CS (s : stmt) | CSeq (l : list stmt) | CEnd | CRet (vs : list value) | CBrk | CCnt
| CStore (l : list (loc * value))
| CRead (l : loc)
| CLoop (c : option expr) (post : option stmt) (body : list stmt)
| CRange (def : bool) (lhs : list expr) (i : N) (rest : list value) (body : list stmt)
| CKeys (lhs : list expr) (rest : list value) (body : list stmt)
| CCase (v : value) (es : list expr) (b : list stmt) (more : list (option (list expr) * list stmt)) (all : list (option (list expr) * list stmt))
| CClos (ps : list (bytes * gtype)) (body : list stmt)
| CApply (f : callee) (spread : bool) (md : mode) (vs : list value).
(** What is to be done with the outcome. *)
Inductive kont :=
| KVals (done : list value) (todo : list expr)
| KDot (f : bytes) | KIdx (two : bool) (i : expr) | KIdx2 (two : bool) (v : value) | KIdx3 (i : value) | KMapped (two : bool)
| KSlice (lo hi : option expr) | KLo (v : value) | KHi (v : value)
| KBin (o : bytes) (b : expr) | KBin2 (o : bytes) (a : value) | KAnd (b : expr) | KOr (b : expr) | KBool
| KUn (o : bytes) | KStar | KRecv | KNew (t : bytes)
| KAddr | KAddr2 (x : bytes) (p : list sel) | KAddr3 (t : bytes) (a : N) (p : list sel)
| KLit (t : bytes) (z : list (bytes * value)) (ks : list bytes) | KList (b : bool)
| KCall (m : bytes) (args : list expr) (spread : bool) (md : mode) | KCallL (m : bytes) (args : list expr) (spread : bool) (md : mode)
| KCallL2 (l : loc) (m : bytes) (args : list expr) (spread : bool) (md : mode) | KCallee (args : list expr) (spread : bool) (md : mode)
| KApply (f : callee) (spread : bool) (md : mode)
| KAssert (two : bool) (t : gtype)
| KLDot (f : bytes) | KLDot2 (f : bytes) (l : loc) | KLIdx (i : expr) | KLIdx2 (l : loc) (i : expr) | KLIdx3 (l : loc) (v : value) | KLStar
| KLhs (done : list loc) (todo : list expr) (rhs : list expr) | KStore (ls : list loc) | KStored (l : list (loc * value))
| KDef (xs : list expr) | KVar (x : bytes) | KExpr | KRet
| KSend (e : expr) | KSent (ch : value)
| KIf (th el : list stmt) | KIfInit (c : expr) (th el : list stmt)
| KSeq (l : list stmt) | KPop
| KLoopStart (c : option expr) (post : option stmt) (body : list stmt) | KCond (c : option expr) (post : option stmt) (body : list stmt)
| KBody (c : option expr) (post : option stmt) (body : list stmt) | KPost (c : option expr) (post : option stmt) (body : list stmt)
| KRange (def : bool) (lhs : list expr) (body : list stmt) | KRanged (def : bool) (lhs : list expr) (i : N) (rest : list value) (body : list stmt)
| KKeys (lhs : list expr) (body : list stmt) | KKeyed (lhs : list expr) (rest : list value) (body : list stmt)
| KSwitch (cs : list (option (list expr) * list stmt)) | KCase (v : value) (es : list expr) (b : list stmt) (more all : list (option (list expr) * list stmt)) | KSwitched
| KBoxed (x : bytes) (t : bytes) (ps : list (bytes * gtype)) (body : list stmt)
| KFun (e : list frame) (d : list (callee * list value)) | KDeferred (vs : list value).
Record machine := mkM { ctl : control; stk : list kont; env : list frame; dfr : list (callee * list value) }.

(** What the machine asks for: a new cell, reading and writing part of a cell, access to maps, a global variable, a call outside,
    a goroutine, channels.  The answer is a list of values.  [RMapKeys]: the keys of a map, in the order in which "range" is to
    visit them (one variable, and nothing removes a key that is still to come). *)
Inductive req :=
| RNew (v : value) | RLoad (a : N) (p : list sel) | RStore (a : N) (p : list sel) (v : value)
| RMapNew (d : value) | RMapGet (a k : N) | RMapSet (a k : N) (v : value) | RMapDel (a k : N) | RMapKeys (a : N)
| RVar (x : bytes) | RSetVar (x : bytes) (v : value) | RExt (f : bytes) (args : list value)
| RGo (f : callee) (args : list value) | RSend (ch v : value) | RRecv (ch : value) | RChan (n : value).
(** The outcome of a step.  [Branch], [Split], [Maybe]: go on depending on a boolean, on a list, on an option (None: run-time panic). *)
Inductive res :=
| Next (m : machine) | Branch (b : bool) (m m' : machine) | Split (l : list value) (m : machine) (m' : value -> list value -> machine)
| Maybe (o : option value) (m : value -> machine)
| Ask (r : req) (m : machine) | Ret (vs : list value) | Panic | Stuck (why : bytes).
Definition resume (m : machine) (vs : list value) : machine := mkM (CV vs) (stk m) (env m) (dfr m).
Definition stuck (s : bytes) : res := Stuck s.

Definition mapkey (v : value) : option N := match v with VU _ n => Some n | VI _ z => Some (Z.to_N z) | VObj _ n => Some n | VC z => Some (const_n z) | _ => None end.
Definition as_nat (v : value) : option nat := match v with VU _ n => Some (N.to_nat n) | VI _ z => Some (Z.to_nat z) | VC z => Some (Z.to_nat z) | _ => None end.
Definition as_z (v : value) : option Z := match v with VU _ n => Some (Z.of_N n) | VI _ z => Some z | VC z => Some z | _ => None end.
Definition bound (x : bytes) (m : machine) : bool := match lookup x (env m) with Some _ => true | None => mem x (p_vars P) end.
(** Package-level names of other packages. *)
Definition foreign : list (bytes * value) :=
  [(str "os.O_RDONLY", VI 64 0); (str "os.O_WRONLY", VI 64 1); (str "os.O_RDWR", VI 64 2); (str "os.O_CREATE", VI 64 64); (str "os.O_TRUNC", VI 64 512);
   (str "os.ModeSymlink", VU 32 134217728); (str "io.EOF", VErr EOF); (str "io.SeekStart", VC 0);
   (str "time.Millisecond", VI 64 1000000); (str "time.Second", VI 64 1000000000)].
Definition qualified (p x : bytes) : bytes := if beq p (str "protocol") then x else if beq p (str "ufs") then x else if beq p (str "debugfs") then x else also p (also (str ".") x).
Definition is_path (e : expr) : bool := match e with EId _ | EDot _ _ | EIdx _ _ => true | EUn o _ => beq o (str "*") | _ => false end.
Definition builtins : list bytes := [str "len"; str "append"; str "delete"; str "close"; str "panic"; str "new"].
(** The function a name denotes in a call. *)
Definition named (s : bytes) : callee :=
  match int_type s with
  | Some _ => FConv (GName s)
  | None => if beq s (str "string") then FConv (GName s) else if mem s builtins then FBuiltin s []
            else match assoc s (p_funcs P) with Some _ => FUser s [] | None => FExt s [] end
  end.
(** A method or function-valued field of a receiver. *)
Definition method_of (v : value) (m : bytes) : callee :=
  let t := type_of v in
  let f := also t (also (str ".") m) in
  match assoc f (p_funcs P) with Some _ => FUser f [v] | None => FExt f [v] end.
Definition has_field (t f : bytes) : bool := match assoc t (p_types P) with Some (GStruct fs) => match assoc f fs with Some _ => true | None => false end | _ => false end.

(** Parameters and arguments; a last parameter "...T" takes the rest as a slice. *)
Fixpoint bind (ps : list (bytes * gtype)) (spread : bool) (vs : list value) : option frame :=
  match ps, vs with
  | [], [] => Some []
  | [(x, GDots _)], vs => if spread then match vs with [v] => Some [(x, v)] | _ => None end else Some [(x, VList vs)]
  | (x, _) :: ps, v :: vs => match bind ps spread vs with Some f => Some ((x, v) :: f) | None => None end
  | _, _ => None
  end.
(** f, append([]interface{}{a}, rest...)...: the arguments end in a slice. *)
Definition bounds_ok (lo hi len : Z) : bool := ((0 <=? lo) && (lo <=? hi) && (hi <=? len))%Z%bool.
Fixpoint pairs (ks : list bytes) (vs : list value) (z : list (bytes * value)) : list (bytes * value) :=
  match ks, vs with k :: ks, v :: vs => pairs ks vs (set_field k v z) | _, _ => z end.
Fixpoint keys_of (els : list (option bytes * expr)) : option (list bytes) :=
  match els with [] => Some [] | (Some k, _) :: els => match keys_of els with Some l => Some (k :: l) | None => None end | _ => None end.
Fixpoint values_of (els : list (option bytes * expr)) : list expr := match els with [] => [] | (_, x) :: els => x :: values_of els end.
Definition first1 (o : bytes) : bytes := match o with c :: _ => [c] | [] => [] end.
(** The first variable still outside memory. *)
Fixpoint unboxed1 (f : frame) : option (bytes * value) :=
  match f with [] => None | (x, VBox _ _) :: f => unboxed1 f | (x, v) :: f => Some (x, v) end.
Fixpoint unboxed (e : list frame) : option (bytes * value) :=
  match e with [] => None | f :: e => match unboxed1 f with Some r => Some r | None => unboxed e end end.
Fixpoint default_case (cs : list (option (list expr) * list stmt)) : list stmt :=
  match cs with [] => [] | (None, b) :: _ => b | _ :: cs => default_case cs end.
Fixpoint zip {A B} (l : list A) (m : list B) : option (list (A * B)) :=
  match l, m with [], [] => Some [] | a :: l, b :: m => match zip l m with Some r => Some ((a, b) :: r) | None => None end | _, _ => None end.
(** x, y := ...: a variable of the innermost block is assigned, any other is new. *)
Fixpoint defines (es : list expr) (vs : list value) (e : list frame) (st : list (loc * value)) : option (list frame * list (loc * value)) :=
  match es, vs with
  | [], [] => Some (e, st)
  | EId x :: es, v :: vs =>
      match assoc x (hd [] e) with
      | Some (VBox _ a) => defines es vs e (also st [(LHeap a [], v)])
      | Some _ => defines es vs (assign x v e) st
      | None => defines es vs (declare x v e) st
      end
  | _, _ => None
  end.

Definition step (m : machine) : res :=
  let k := stk m in let e := env m in let d := dfr m in
  let go c k := Next (mkM c k e d) in
  let opt (o : option value) k := match o with Some v => go (CV [v]) k | None => stuck (str "value") end in
  (* the values of a list of expressions *)
  let exprs es k := match es with [] => go (CV []) k | [x] => go (CE false x) k | x :: es => go (CE false x) (KVals [] es :: k) end in
  let call f args sp md k := exprs args (KApply f sp md :: k) in
  let block l k := mkM (CSeq l) (KPop :: k) ([] :: e) d in
  let enter (ps : list (bytes * gtype)) (sp : bool) (args : list value) (body : list stmt) (base : list frame) (r : list (bytes * value)) k :=
    match bind ps sp args with Some f => Next (mkM (CSeq body) (KFun e d :: k) ((also r f) :: base) []) | None => stuck (str "arguments") end in
  match ctl m with
  | CE two x =>
      match x with
      | EId x =>
          match lookup x e with
          | Some (VBox _ a) => Ask (RLoad a []) m
          | Some v => go (CV [v]) k
          | None =>
              if beq x (str "nil") then go (CV [VNil]) k else if beq x (str "true") then go (CV [VBool true]) k else if beq x (str "false") then go (CV [VBool false]) k
              else match assoc x (p_consts P) with
                   | Some v => go (CV [v]) k
                   | None => match assoc x (p_funcs P) with
                             | Some _ => go (CV [VFun x]) k
                             | None => if mem x (p_vars P) then Ask (RVar x) m else stuck x
                             end
                   end
          end
      | ENum n => go (CV [VC (literal n)]) k
      | EStr s => go (CV [VStr s]) k
      | EDot (EId p) f =>
          if bound p m then go (CE false (EId p)) (KDot f :: k)
          else let s := qualified p f in
               match assoc s (p_consts P) with
               | Some v => go (CV [v]) k
               | None => match assoc s foreign with Some v => go (CV [v]) k | None => if mem s (p_vars P) then Ask (RVar s) m else stuck s end
               end
      | EDot x f => go (CE false x) (KDot f :: k)
      | EIdx x i => go (CE false x) (KIdx two i :: k)
      | ESlice x lo hi => go (CE false x) (KSlice lo hi :: k)
      | EBin o a b =>
          if beq o (str "&&") then go (CE false a) (KAnd b :: k) else if beq o (str "||") then go (CE false a) (KOr b :: k)
          else go (CE false a) (KBin o b :: k)
      | EUn o a =>
          if beq o (str "&") then
            match a with
            | EComp (GName _ as t) _ | EComp (GQual _ _ as t) _ => go (CE false a) (KNew (type_name t) :: k)
            | _ => go (CL a) (KAddr :: k)
            end
          else if beq o (str "*") then go (CE false a) (KStar :: k)
          else if beq o (str "<-") then go (CE false a) (KRecv :: k)
          else go (CE false a) (KUn o :: k)
      | EComp t els =>
          match t with
          | GName _ | GQual _ _ | GStruct _ =>
              match zero t, keys_of els with
              | Some (VStruct s z), Some ks => exprs (values_of els) (KLit s z ks :: k)
              | Some (VStruct s z), None => if Nat.eqb (List.length els) (List.length z) then exprs (values_of els) (KLit s z (map fst z) :: k) else stuck (str "literal")
              | Some (VBuf b), Some [] => go (CV [VBuf b]) k
              | _, _ => stuck (str "literal")
              end
          | GSlice t => exprs (values_of els) (KList (beq (type_name t) (str "byte")) :: k)
          | _ => stuck (str "literal")
          end
      | ECall f args =>
          match f with
          | EId g =>
              if bound g m then go (CE false f) (KCallee args false Now :: k)
              else if beq g (str "make") then
                match args with
                | [EType t] => go (CApply (FBuiltin g [t]) false Now []) k
                | [EType t; n] => exprs [n] (KApply (FBuiltin g [t]) false Now :: k)
                | _ => stuck g
                end
              else call (named g) args false Now k
          | EDot (EId p) g =>
              if bound p m then go (CL (EId p)) (KCallL g args false Now :: k) else call (named (qualified p g)) args false Now k
          | EDot r g => if is_path r then go (CL r) (KCallL g args false Now :: k) else go (CE false r) (KCall g args false Now :: k)
          | EType t => call (FConv t) args false Now k
          | EFunc ps _ b => go (CE false f) (KCallee args false Now :: k)
          | _ => stuck (str "call")
          end
      | ESpread f args =>
          match f with
          | EId g => if bound g m then go (CE false f) (KCallee args true Now :: k) else call (named g) args true Now k
          | EDot (EId p) g =>
              if bound p m then go (CL (EId p)) (KCallL g args true Now :: k) else call (named (qualified p g)) args true Now k
          | EDot r g => if is_path r then go (CL r) (KCallL g args true Now :: k) else stuck (str "call")
          | _ => stuck (str "call")
          end
      | EAssert x t => go (CE false x) (KAssert two t :: k)
      | EFunc ps _ b => go (CClos ps b) k
      | EType _ => stuck (str "type")
      end
  | CClos ps b =>
      match unboxed e with
      | None => go (CV [VClos ps b e]) k
      | Some (x, v) => Ask (RNew v) (mkM CEnd (KBoxed x (type_of v) ps b :: k) e d)
      end
  | CL x =>
      match x with
      | EId x =>
          if beq x (str "_") then go (CLoc LBlank) k
          else match lookup x e with
               | Some (VBox _ a) => go (CLoc (LHeap a [])) k
               | Some _ => go (CLoc (LLocal x [])) k
               | None => if mem x (p_vars P) then go (CLoc (LVar x)) k else stuck x
               end
      | EDot x f => go (CL x) (KLDot f :: k)
      | EIdx x i => go (CL x) (KLIdx i :: k)
      | EUn o x => if beq o (str "*") then go (CE false x) (KLStar :: k) else stuck o
      | _ => stuck (str "place")
      end
  | CRead l =>
      match l with
      | LLocal x p => match lookup x e with Some v => opt (get_path p v) k | None => stuck x end
      | LHeap a p => Ask (RLoad a p) m
      | LMap a n => Ask (RMapGet a n) (mkM CEnd (KMapped false :: k) e d)
      | LVar x => Ask (RVar x) m
      | LBlank => stuck (str "_")
      end
  | CStore [] => go CEnd k
  | CStore ((l, v) :: rest) =>
      match l with
      | LBlank => go (CStore rest) k
      | LLocal x p =>
          match lookup x e with
          | Some w => match set_path p v w with Some w => Next (mkM (CStore rest) k (assign x w e) d) | None => stuck x end
          | None => stuck x
          end
      | LHeap a p => Ask (RStore a p v) (mkM CEnd (KStored rest :: k) e d)
      | LMap a n => Ask (RMapSet a n v) (mkM CEnd (KStored rest :: k) e d)
      | LVar x => Ask (RSetVar x v) (mkM CEnd (KStored rest :: k) e d)
      end
  | CLoc l =>
      match k with
      | KLDot f :: k => go (CRead l) (KLDot2 f l :: k)
      | KLIdx i :: k => go (CRead l) (KLIdx2 l i :: k)
      | KAddr :: k =>
          match l with
          | LLocal x [] => match lookup x e with Some v => Ask (RNew v) (mkM CEnd (KAddr2 x [] :: k) e d) | None => stuck x end
          | LHeap a p => go (CRead l) (KAddr3 [] a p :: k)
          | _ => stuck (str "address")
          end
      | KCallL g args sp md :: k => go (CRead l) (KCallL2 l g args sp md :: k)
      | KLhs done todo rhs :: k =>
          let done := also done [l] in
          match todo with
          | x :: todo => go (CL x) (KLhs done todo rhs :: k)
          | [] => match done, rhs with
                  | [_; _], [x] => go (CE true x) (KStore done :: k)
                  | _, _ => exprs rhs (KStore done :: k)
                  end
          end
      | _ => stuck (str "place")
      end
  | CV vs =>
      match k with
      | KVals done todo :: k =>
          match vs with
          | [v] => match todo with
                   | [] => go (CV (also done [v])) k
                   | x :: todo => go (CE false x) (KVals (also done [v]) todo :: k)
                   end
          | _ => stuck (str "values")
          end
      | KExpr :: k => go CEnd k
      | KRet :: k => go (CRet vs) k
      | KStore ls :: k => match zip ls vs with Some l => go (CStore l) k | None => stuck (str "assignment") end
      | KStored l :: k => go (CStore l) k
      | KDef xs :: k => match defines xs vs e [] with Some (e, st) => Next (mkM (CStore st) k e d) | None => stuck (str "definition") end
      | KLit t z ks :: k => go (CV [VStruct t (pairs ks vs z)]) k
      | KList b :: k => if b then match vs with [] => go (CV [VBytes []]) k | _ => stuck (str "literal") end else go (CV [VList vs]) k
      | KApply f sp md :: k => go (CApply f sp md vs) k
      | KDeferred vs :: k => go (CRet vs) k
      | KMapped two :: k => match vs with [v; o] => go (CV (if two then [v; o] else [v])) k | _ => stuck (str "map") end
      | KSent ch :: k => match vs with [v] => Ask (RSend ch v) (mkM CEnd (KExpr :: k) e d) | _ => stuck (str "send") end
      | c :: k =>
        match vs with
        | [v] =>
          match c with
          | KDot f =>
              match v with
              | VPtr _ a p => Ask (RLoad a (also p [SF f])) (mkM CEnd k e d)
              | VStruct _ fs => opt (assoc f fs) k
              | VNil => Panic
              | _ => stuck f
              end
          | KIdx two i => go (CE false i) (KIdx2 two v :: k)
          | KIdx2 two w =>
              match w with
              | VPtr _ a [] => match mapkey v with Some n => Ask (RMapGet a n) (mkM CEnd (KMapped two :: k) e d) | None => stuck (str "key") end
              | VList vs => match as_nat v with Some i => Maybe (nth_error vs i) (fun v => mkM (CV [v]) k e d) | None => stuck (str "index") end
              | VBytes b => match as_nat v with
                            | Some i => Maybe (match nth_error b i with Some c => Some (VU 8 (b2n c)) | None => None end) (fun v => mkM (CV [v]) k e d)
                            | None => stuck (str "index") end
              | VSl a o n => Ask (RLoad a []) (mkM CEnd (KIdx3 w :: KIdx2 two v :: k) e d)
              | _ => stuck (str "index")
              end
          | KIdx3 w =>
              (* the array behind a slice; below is the index *)
              match v, w, k with
              | VArr b, VSl a o n, KIdx2 two i :: k => Next (mkM (CV [i]) (KIdx2 two (VBytes (firstn (N.to_nat n) (skipn (N.to_nat o) b))) :: k) e d)
              | _, _, _ => stuck (str "index")
              end
          | KSlice lo hi =>
              match lo, hi with
              | Some lo, None => go (CE false lo) (KLo v :: k)
              | None, Some hi => go (CE false hi) (KHi v :: k)
              | _, _ => stuck (str "slice")
              end
          | KLo w =>
              match w, as_z v with
              | VBytes b, Some z => Branch (bounds_ok z (Z.of_N (blen b)) (Z.of_N (blen b))) (mkM (CV [VBytes (skipn (Z.to_nat z) b)]) k e d) (mkM (CApply (FBuiltin (str "panic") []) false Now []) k e d)
              | VSl a o n, Some z => Branch (bounds_ok z (Z.of_N n) (Z.of_N n)) (mkM (CV [VSl a (o + Z.to_N z) (n - Z.to_N z)]) k e d) (mkM (CApply (FBuiltin (str "panic") []) false Now []) k e d)
              | _, _ => stuck (str "slice")
              end
          | KHi w =>
              match w, as_z v with
              | VBytes b, Some z => Branch (bounds_ok 0 z (Z.of_N (blen b))) (mkM (CV [VBytes (firstn (Z.to_nat z) b)]) k e d) (mkM (CApply (FBuiltin (str "panic") []) false Now []) k e d)
              | VSl a o n, Some z => Branch (bounds_ok 0 z (Z.of_N n)) (mkM (CV [VSl a o (Z.to_N z)]) k e d) (mkM (CApply (FBuiltin (str "panic") []) false Now []) k e d)
              | VList l, Some z => Branch (bounds_ok 0 z (Z.of_N (blen l))) (mkM (CV [VList (firstn (Z.to_nat z) l)]) k e d) (mkM (CApply (FBuiltin (str "panic") []) false Now []) k e d)
              | _, _ => stuck (str "slice")
              end
          | KBin o b => go (CE false b) (KBin2 o v :: k)
          | KBin2 o a => opt (arith o a v) k
          | KAnd b => match v with VBool x => Branch x (mkM (CE false b) k e d) (mkM (CV [VBool false]) k e d) | _ => stuck (str "&&") end
          | KOr b => match v with VBool x => Branch x (mkM (CV [VBool true]) k e d) (mkM (CE false b) k e d) | _ => stuck (str "||") end
          | KUn o => opt (unary o v) k
          | KStar => match v with VPtr _ a p => Ask (RLoad a p) (mkM CEnd k e d) | _ => stuck (str "*") end
          | KRecv => Ask (RRecv v) (mkM CEnd k e d)
          | KNew t => Ask (RNew v) (mkM CEnd k e d)
          | KAddr2 x p => match v with VPtr t a _ => Next (mkM (CV [v]) k (assign x (VBox t a) e) d) | _ => stuck x end
          | KAddr3 _ a p => go (CV [VPtr (type_of v) a p]) k
          | KBoxed x t ps b => match v with VPtr _ a _ => Next (mkM (CClos ps b) k (assign x (VBox t a) e) d) | _ => stuck x end
          | KCallee args sp md => call (FVal v) args sp md k
          | KCall g args sp md => call (method_of v g) args sp md k
          | KCallL2 l g args sp md =>
              match v with
              | VStruct t _ => match l with LHeap a p => call (method_of (VPtr t a p) g) args sp md k | _ => stuck g end
              | VBuf _ => match l with
                          | LHeap a p => call (method_of (VPtr (str "bytes.Buffer") a p) g) args sp md k
                          | _ => stuck g
                          end
              | VPtr t a p => if has_field t g then Ask (RLoad a (also p [SF g])) (mkM CEnd (KCallee args sp md :: k) e d) else call (method_of v g) args sp md k
              | VNil => stuck g
              | v => call (method_of v g) args sp md k
              end
          | KAssert two t =>
              Ask (RExt (if two then str "assert2" else str "assert") [VStr (match t with GPtr t => also (str "*") (type_name t) | t => type_name t end); v]) (mkM CEnd k e d)
          | KLDot2 f l =>
              match v with
              | VPtr _ a p => go (CLoc (LHeap a (also p [SF f]))) k
              | VStruct _ _ => match part l (SF f) with Some l => go (CLoc l) k | None => stuck f end
              | VNil => Panic
              | _ => stuck f
              end
          | KLIdx2 l i => go (CE false i) (KLIdx3 l v :: k)
          | KLIdx3 l w =>
              match w with
              | VPtr _ a [] => match mapkey v with Some n => go (CLoc (LMap a n)) k | None => stuck (str "key") end
              | VList l' => match as_nat v, as_z v with
                            | Some i, Some z => match part l (SI i) with
                                        | Some l => Branch (bounds_ok 0 (z + 1) (Z.of_N (blen l'))) (mkM (CLoc l) k e d) (mkM (CApply (FBuiltin (str "panic") []) false Now []) k e d)
                                        | None => stuck (str "index") end
                            | _, _ => stuck (str "index") end
              | VBytes b => match as_nat v, as_z v with
                            | Some i, Some z => match part l (SI i) with
                                        | Some l => Branch (bounds_ok 0 (z + 1) (Z.of_N (blen b))) (mkM (CLoc l) k e d) (mkM (CApply (FBuiltin (str "panic") []) false Now []) k e d)
                                        | None => stuck (str "index") end
                            | _, _ => stuck (str "index") end
              | _ => stuck (str "index")
              end
          | KLStar => match v with VPtr _ a p => go (CLoc (LHeap a p)) k | _ => stuck (str "*") end
          | KVar x => Next (mkM CEnd k (declare x v e) d)
          | KSend x => go (CE false x) (KSent v :: k)
          | KIf th el => match v with VBool b => Branch b (block th k) (block el k) | _ => stuck (str "if") end
          | KCond cnd post body =>
              match v with
              | VBool b => Branch b (block body (KBody cnd post body :: k)) (mkM CEnd k e d)
              | _ => stuck (str "for")
              end
          | KRange def lhs body =>
              match v with
              | VList l => go (CRange def lhs 0 l body) k
              | VPtr _ a [] => if def then Ask (RMapKeys a) (mkM CEnd (KKeys lhs body :: k) e d) else stuck (str "range")
              | VNil => go CEnd k
              | _ => stuck (str "range")
              end
          | KKeys lhs body => match v with VList l => go (CKeys lhs l body) k | _ => stuck (str "range") end
          | KSwitch cs => go (CCase v [] [] cs cs) k
          | KCase w es b more all =>
              match eqv w v with
              | Some x => Branch x (block b (KSwitched :: k)) (mkM (CCase w es b more all) k e d)
              | None => stuck (str "case")
              end
          | _ => stuck (str "value")
          end
        | _ => stuck (str "one value")
        end
      | [] => Ret vs
      end
  | CApply f sp md vs =>
      match md with
      | Later => Next (mkM CEnd k e ((f, vs) :: d))
      | Async => Ask (RGo f vs) (mkM CEnd (KExpr :: k) e d)
      | Now =>
        match f with
        | FUser g r =>
            match assoc g (p_funcs P) with
            | Some fn =>
                let self := match f_recv fn, r with Some (x, _), [v] => [(x, v)] | _, _ => [] end in
                enter (f_params fn) sp vs (f_body fn) [] self k
            | None => stuck g
            end
        | FExt g r => Ask (RExt g (also r vs)) (mkM CEnd k e d)
        | FVal v =>
            match v with
            | VFun g => match assoc g (p_funcs P) with Some fn => enter (f_params fn) sp vs (f_body fn) [] [] k | None => stuck g end
            | VClos ps b ce => enter ps sp vs b ce [] k
            | VObj kd n => Ask (RExt kd (VObj kd n :: vs)) (mkM CEnd k e d)
            | VNil => Panic
            | _ => stuck (str "call")
            end
        | FConv t =>
            match vs with
            | [v] =>
                match t with
                | GSlice _ => match v with VStr s => go (CV [VBytes s]) k | _ => stuck (str "conversion") end
                | _ => match int_type (type_name t) with
                       | Some (w, sg) => opt (convert w sg v) k
                       | None => match v with VBytes s => go (CV [VStr s]) k | _ => stuck (str "conversion") end
                       end
                end
            | _ => stuck (str "conversion")
            end
        | FBuiltin g ts =>
            if beq g (str "len") then
              match vs with
              | [VStr s] => go (CV [VI 64 (Z.of_N (blen s))]) k
              | [VBytes s] => go (CV [VI 64 (Z.of_N (blen s))]) k
              | [VSl _ _ n] => go (CV [VI 64 (Z.of_N n)]) k
              | [VList l] => go (CV [VI 64 (Z.of_N (blen l))]) k
              | [VNil] => go (CV [VI 64 0]) k
              | [VObj kd n] => Ask (RExt (str "len") vs) (mkM CEnd k e d)
              | _ => stuck g
              end
            else if beq g (str "delete") then
              match vs with
              | [VPtr _ a []; x] => match mapkey x with Some n => Ask (RMapDel a n) (mkM CEnd k e d) | None => stuck g end
              | _ => stuck g
              end
            else if beq g (str "make") then
              match ts, vs with
              | [GSlice t], [n] =>
                  match as_z n with
                  | Some z =>
                      if beq (type_name t) (str "byte") then
                        Branch (0 <=? z)%Z (mkM (CApply (FBuiltin (str "makebytes") []) false Now vs) k e d) (mkM (CApply (FBuiltin (str "panic") []) false Now []) k e d)
                      else match zero t with Some v => go (CV [VList (repeat v (Z.to_nat z))]) k | None => stuck g end
                  | None => stuck g
                  end
              | [GMap _ t], [] => match zero t with Some v => Ask (RMapNew v) (mkM CEnd k e d) | None => stuck g end
              | [GChan _], [] => Ask (RChan (VC 0)) (mkM CEnd k e d)
              | [GChan _], [n] => Ask (RChan n) (mkM CEnd k e d)
              | _, _ => stuck g
              end
            else if beq g (str "makebytes") then
              match vs with
              | [n] => match as_z n with Some z => Ask (RExt g [VI 64 z]) (mkM CEnd k e d) | None => stuck g end
              | _ => stuck g
              end
            else if beq g (str "append") then
              match vs with
              | [VList a; VList b] => if sp then go (CV [VList (a ++ b)]) k else stuck g
              | _ => stuck g
              end
            else if beq g (str "close") then Ask (RExt g vs) (mkM CEnd k e d)
            else if beq g (str "panic") then Panic
            else stuck g
        end
      end
  | CS s =>
      match s with
      | SVar x (Some t) None => match zero t with Some v => Next (mkM CEnd k (declare x v e) d) | None => stuck x end
      | SVar x _ (Some y) => go (CE false y) (KVar x :: k)
      | SAssign o l r =>
          if beq o (str "=") then match l with x :: l => go (CL x) (KLhs [] l r :: k) | [] => stuck o end
          else if beq o (str ":=") then
            match l, r with
            | [_; _], [y] => go (CE true y) (KDef l :: k)
            | _, _ => exprs r (KDef l :: k)
            end
          else match l, r with
               | [x], [y] => go (CL x) (KLhs [] [] [EBin (first1 o) x y] :: k)
               | _, _ => stuck o
               end
      | SExpr x => go (CE false x) (KExpr :: k)
      | SSend ch x => go (CE false ch) (KSend x :: k)
      | SReturn es => exprs es (KRet :: k)
      | SIf None c th el => go (CE false c) (KIf th el :: k)
      | SIf (Some i) c th el => Next (mkM (CS i) (KIfInit c th el :: KPop :: k) ([] :: e) d)
      | SRange x y b => go (CE false y) (KRange true [EId x] b :: k)
      | SForRange def lhs y b => go (CE false y) (KRange def lhs b :: k)
      | SBlock b => Next (block b k)
      | SFor i c post b =>
          match i with
          | Some i => Next (mkM (CS i) (KLoopStart c post b :: KPop :: k) ([] :: e) d)
          | None => go (CLoop c post b) k
          end
      | SSwitch (Some y) cs => go (CE false y) (KSwitch cs :: k)
      | SDefer (ECall f args) | SGo (ECall f args) =>
          let md := match s with SDefer _ => Later | _ => Async end in
          match f with
          | EId g => if bound g m then go (CE false f) (KCallee args false md :: k) else call (named g) args false md k
          | EDot (EId p) g => if bound p m then go (CL (EId p)) (KCallL g args false md :: k) else call (named (qualified p g)) args false md k
          | EDot r g => if is_path r then go (CL r) (KCallL g args false md :: k) else stuck g
          | EFunc _ _ _ => go (CE false f) (KCallee args false md :: k)
          | _ => stuck (str "call")
          end
      | SBreak => go CBrk k
      | SContinue => go CCnt k
      | _ => stuck (str "statement")
      end
  | CSeq [] => go CEnd k
  | CSeq (s :: l) => go (CS s) (KSeq l :: k)
  | CLoop c post b =>
      match c with
      | Some x => go (CE false x) (KCond c post b :: k)
      | None => Next (block b (KBody c post b :: k))
      end
  | CRange def lhs i rest b =>
      Split rest (mkM CEnd k e d) (fun v rest =>
        let vs := match lhs with [_] => [VI 64 (Z.of_N i)] | _ => [VI 64 (Z.of_N i); v] end in
        if def then mkM (CV vs) (KDef lhs :: KSeq b :: KPop :: KRanged def lhs (i + 1) rest b :: k) ([] :: e) d
        else match lhs with
             | [EId x] => mkM (CStore [(LLocal x [], VI 64 (Z.of_N i))]) (KSeq b :: KPop :: KRanged def lhs (i + 1) rest b :: k) ([] :: e) d
             | _ => mkM (CV []) [KBool] e d
             end)
  | CKeys lhs rest b =>
      Split rest (mkM CEnd k e d) (fun v rest => mkM (CV [v]) (KDef lhs :: KSeq b :: KPop :: KKeyed lhs rest b :: k) ([] :: e) d)
  | CCase v es b more all =>
      match es with
      | y :: es => go (CE false y) (KCase v es b more all :: k)
      | [] => match more with
              | (Some es, b) :: more => go (CCase v es b more all) k
              | (None, _) :: more => go (CCase v [] [] more all) k
              | [] => Next (block (default_case all) (KSwitched :: k))
              end
      end
  | CEnd =>
      match k with
      | KSeq l :: k => go (CSeq l) k
      | KPop :: k => Next (mkM CEnd k (tl e) d)
      | KIfInit c th el :: k => go (CE false c) (KIf th el :: k)
      | KLoopStart c post b :: k => go (CLoop c post b) k
      | KBody c post b :: k => match post with Some s => go (CS s) (KPost c post b :: k) | None => go (CLoop c post b) k end
      | KPost c post b :: k => go (CLoop c post b) k
      | KRanged def lhs i rest b :: k => go (CRange def lhs i rest b) k
      | KKeyed lhs rest b :: k => go (CKeys lhs rest b) k
      | KSwitched :: k => go CEnd k
      | KFun _ _ :: _ => go (CRet []) k
      | _ => stuck (str "end")
      end
  | CRet vs =>
      match k with
      | KFun e' d' :: k' =>
          match d with
          | [] => Next (mkM (CV vs) k' e' d')
          | (f, args) :: d => Next (mkM (CApply f false Now args) (KDeferred vs :: k) e d)
          end
      | _ :: k => go (CRet vs) k
      | [] => Ret vs
      end
  | CBrk =>
      match k with
      | KBody _ _ _ :: k | KRanged _ _ _ _ _ :: k | KKeyed _ _ _ :: k | KSwitched :: k => go CEnd k
      | KPop :: k => Next (mkM CBrk k (tl e) d)
      | KFun _ _ :: _ => stuck (str "break")
      | _ :: k => go CBrk k
      | [] => stuck (str "break")
      end
  | CCnt =>
      match k with
      | KBody _ _ _ :: _ | KRanged _ _ _ _ _ :: _ | KKeyed _ _ _ :: _ => go CEnd k
      | KPop :: k => Next (mkM CCnt k (tl e) d)
      | KFun _ _ :: _ => stuck (str "continue")
      | _ :: k => go CCnt k
      | [] => stuck (str "continue")
      end
  end.
End Machine.
