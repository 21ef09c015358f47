(** The meaning of the Go programs of GoSyntax.v: an interpreter.

    It covers what protocol/genout.go uses.  A program that does anything else ends in [Stuck], so a theorem saying that a
    function returns something also says that the interpreter understood all of it.
    Simplifications, all of which a compiled program cannot notice or which do not occur in genout.go:
    - the program has passed the Go compiler: named types are identified with their underlying types, operands of binary
      operators are not checked to have the same named type;
    - each function works on one bytes.Buffer (its own or the one it is passed), kept in the state; the library type is the
      one of GoBuf.v;
    - slices are values: only the spare capacity behind a []byte is kept (reslicing can reach it), and that only until it
      is handed to or returned from a function;
    - lengths are not bounded by 2^63. *)
From Verif Require Import Base GoBuf CodecPrim Types GoSyntax.

(** * Values.  [VU w n], [VI w z]: unsigned and signed integers of w bits; [VC n]: an untyped integer constant; [VArr k x]:
    a byte array of length k; [VBytes b]: a []byte with contents and spare capacity; [VBuf]: the buffer of the function;
    [VNew b]: another bytes.Buffer; [VObj s]: something of which only the name matters. *)
Inductive value :=
| VU (w : N) (n : N) | VI (w : N) (z : Z) | VC (n : N) | VBool (b : bool)
| VStr (s : bytes) | VBytes (b : buf) | VArr (k : N) (x : bytes)
| VList (vs : list value) | VStruct (fs : list (bytes * value))
| VErr (e : option bytes) | VNil | VBuf | VNew (b : buf) | VObj (s : bytes).

(** * Types *)
(** Integer types by name: width and signedness.  The last nine are those of protocol.go:110-126. *)
Definition int_types : list (bytes * (N * bool)) :=
  [(str "uint8", (8, false)); (str "byte", (8, false)); (str "uint16", (16, false)); (str "uint32", (32, false)); (str "uint64", (64, false));
   (str "int", (64, true)); (str "int32", (32, true));
   (str "MType", (8, false)); (str "Mode", (8, false)); (str "NumEntries", (16, false)); (str "Tag", (16, false)); (str "FID", (32, false));
   (str "MaxSize", (32, false)); (str "Count", (32, true)); (str "Perm", (32, false)); (str "Offset", (64, false))].
(** The struct types of protocol.go that genout.go uses: lines 134-138 and 141-153. *)
Definition tname (s : bytes) : gtype := GName s.
Definition struct_types : list (bytes * list (bytes * gtype)) :=
  [(str "QID", [(str "Type", tname (str "uint8")); (str "Version", tname (str "uint32")); (str "Path", tname (str "uint64"))]);
   (str "Dir", [(str "Type", tname (str "uint16")); (str "Dev", tname (str "uint32")); (str "QID", tname (str "QID")); (str "Mode", tname (str "uint32"));
                (str "Atime", tname (str "uint32")); (str "Mtime", tname (str "uint32")); (str "Length", tname (str "uint64"));
                (str "Name", tname (str "string")); (str "User", tname (str "string")); (str "Group", tname (str "string")); (str "ModUser", tname (str "string"))])].
(** The constants of protocol.go that genout.go uses, lines 11-39. *)
Definition constants : list (bytes * value) :=
  [(str "Tversion", VU 8 100); (str "Rversion", VU 8 101); (str "Tauth", VU 8 102); (str "Rauth", VU 8 103); (str "Tattach", VU 8 104);
   (str "Rattach", VU 8 105); (str "Terror", VU 8 106); (str "Rerror", VU 8 107); (str "Tflush", VU 8 108); (str "Rflush", VU 8 109);
   (str "Twalk", VU 8 110); (str "Rwalk", VU 8 111); (str "Topen", VU 8 112); (str "Ropen", VU 8 113); (str "Tcreate", VU 8 114);
   (str "Rcreate", VU 8 115); (str "Tread", VU 8 116); (str "Rread", VU 8 117); (str "Twrite", VU 8 118); (str "Rwrite", VU 8 119);
   (str "Tclunk", VU 8 120); (str "Rclunk", VU 8 121); (str "Tremove", VU 8 122); (str "Rremove", VU 8 123); (str "Tstat", VU 8 124);
   (str "Rstat", VU 8 125); (str "Twstat", VU 8 126); (str "Rwstat", VU 8 127); (str "nil", VNil)].

Fixpoint assoc {A} (x : bytes) (l : list (bytes * A)) : option A :=
  match l with [] => None | (y, a) :: l => if beq x y then Some a else assoc x l end.
(** Zero value of a type; n: fuel for nested structs. *)
Fixpoint zero_of (n : nat) (t : gtype) : option value :=
  match n with
  | O => None
  | S n =>
    match t with
    | GName s =>
        match assoc s int_types with
        | Some (w, false) => Some (VU w 0)
        | Some (w, true) => Some (VI w 0)
        | None =>
            if beq s (str "string") then Some (VStr [])
            else if beq s (str "error") then Some (VErr None)
            else match assoc s struct_types with
                 | Some fs =>
                     match (fix go (fs : list (bytes * gtype)) : option (list (bytes * value)) :=
                              match fs with
                              | [] => Some []
                              | (f, t) :: fs => match zero_of n t, go fs with Some v, Some l => Some ((f, v) :: l) | _, _ => None end
                              end) fs with Some l => Some (VStruct l) | None => None end
                 | None => None
                 end
        end
    | GSlice (GName s) => if beq s (str "byte") || beq s (str "uint8") then Some (VBytes (Buf [] [])) else Some (VList [])
    | GArr k (GName s) => if beq s (str "byte") || beq s (str "uint8") then Some (VArr k (repeat x00 (N.to_nat k))) else None
    | _ => None
    end
  end.
Definition zero (t : gtype) : option value := zero_of 3 t.

(** * Arithmetic *)
Definition const_z (n : N) : Z := match n with N0 => Z0 | Npos p => Zpos p end.
(** The w-bit two's complement number congruent to z. *)
Definition swrap (w : N) (z : Z) : Z :=
  let m := (2 ^ const_z w)%Z in let r := (z mod m)%Z in if (r <? m / 2)%Z then r else (r - m)%Z.
(** Conversion to an integer type of w bits: a wider unsigned type does not change the value, anything else keeps the low bits. *)
Definition convert (w : N) (signed : bool) (v : value) : option value :=
  match v, signed with
  | VU v n, false => Some (VU w (if v <=? w then n else n mod 2 ^ w))
  | VI _ z, false => Some (VU w (Z.to_N (z mod 2 ^ const_z w)))
  | VC n, false => Some (VU w n)
  | VU _ n, true => Some (VI w (swrap w (Z.of_N n)))
  | VI _ z, true => Some (VI w (swrap w z))
  | VC n, true => Some (VI w (const_z n))
  | _, _ => None
  end.
Definition binop (o : bytes) (a b : value) : option value :=
  if beq o (str ">>") then
    match a, b with VU w n, VC k => Some (VU w (N.shiftr n k)) | VI w z, VC k => Some (VI w (Z.shiftr z (const_z k))) | _, _ => None end
  else if beq o (str "<<") then
    match a, b with VU w n, VC k => Some (VU w (N.shiftl n k mod 2 ^ w)) | VI w z, VC k => Some (VI w (swrap w (Z.shiftl z (const_z k)))) | _, _ => None end
  else if beq o (str "|") then
    match a, b with VU w n, VU _ m => Some (VU w (N.lor n m)) | VI w z, VI _ y => Some (VI w (Z.lor z y)) | _, _ => None end
  else if beq o (str "-") then
    match a, b with VU w n, VC k => Some (VU w ((n + (2 ^ w - k)) mod 2 ^ w)) | _, _ => None end
  else if beq o (str "<") then match a, b with VI _ z, VI _ y => Some (VBool (z <? y)%Z) | _, _ => None end
  else if beq o (str ">") then match a, b with VI _ z, VC k => Some (VBool (const_z k <? z)%Z) | _, _ => None end
  else if beq o (str "==") then match a, b with VU _ n, VU _ m => Some (VBool (n =? m)) | _, _ => None end
  else if beq o (str "!=") then
    match a, b with
    | VErr e, VNil => Some (VBool (match e with Some _ => true | None => false end))
    | VObj _, VNil => Some (VBool true)
    | VNil, VNil => Some (VBool false)
    | _, _ => None
    end
  else None.

(** * Printing: fmt.Sprintf and fmt.Errorf with the verbs %d and %v *)
Definition dec_z (z : Z) : bytes := if (z <? 0)%Z then str "-" ++ dec (Z.to_N (- z)) else dec (Z.to_N z).
Definition show (v : value) : option bytes :=
  match v with VU _ n => Some (dec n) | VI _ z => Some (dec_z z) | VStr s => Some s | VErr (Some e) => Some e | _ => None end.
Definition joined (a b : bytes) : bytes := match b with [] => a | _ => a ++ b end.
Fixpoint format (f : bytes) (args : list value) : option bytes :=
  match f with
  | [] => match args with [] => Some [] | _ => None end
  | c :: f' =>
      if Byte.eqb c "%" then
        match f', args with
        | d :: f'', v :: args => if Byte.eqb d "d" || Byte.eqb d "v" then
              match show v, format f'' args with Some a, Some b => Some (joined a b) | _, _ => None end else None
        | _, _ => None
        end
      else match format f' args with Some b => Some (c :: b) | None => None end
  end.

Fixpoint also {A} (l m : list A) : list A := match l with [] => m | a :: l => a :: also l m end.
(** * Paths into structs and slices *)
Inductive sel := SF (f : bytes) | SI (i : nat).
Fixpoint set_field (f : bytes) (v : value) (fs : list (bytes * value)) : list (bytes * value) :=
  match fs with [] => [] | (g, w) :: fs => if beq f g then (g, v) :: fs else (g, w) :: set_field f v fs end.
Fixpoint set_nth (i : nat) (v : value) (vs : list value) : list value :=
  match vs, i with [], _ => [] | _ :: vs, O => v :: vs | w :: vs, S i => w :: set_nth i v vs end.
Fixpoint update (p : list sel) (v w : value) : option value :=
  match p with
  | [] => Some v
  | SF f :: p => match w with
                 | VStruct fs => match assoc f fs with Some x => match update p v x with Some y => Some (VStruct (set_field f y fs)) | None => None end | None => None end
                 | _ => None
                 end
  | SI i :: p => match w with
                 | VList vs => match nth_error vs i with Some x => match update p v x with Some y => Some (VList (set_nth i y vs)) | None => None end | None => None end
                 | _ => None
                 end
  end.
(** What is kept of a value handed to or returned from a function. *)
Definition strip (v : value) : value := match v with VBytes b => VBytes (Buf (unread b) []) | _ => v end.
(** The bytes of a []byte literal. *)
Fixpoint byte_list (vs : list value) : option bytes :=
  match vs with
  | [] => Some []
  | VU _ n :: vs => match byte_list vs with Some l => Some (u8 n :: l) | None => None end
  | VC n :: vs => match byte_list vs with Some l => Some (u8 n :: l) | None => None end
  | _ :: _ => None
  end.
(** [copy(dst, src)] *)
Definition copied (dst src : bytes) : bytes := overlay dst (firstn (List.length dst) src).

(** Outcomes of a function: it returns values, leaving the buffer and the outside world; or panics at run time. *)
Inductive out (X : Type) := Ret (vs : list value) (b : buf) (x : X) | Panic | Stuck.
Arguments Ret {X}. Arguments Panic {X}. Arguments Stuck {X}.
(** What the program gets from outside.  [reset_spare], [write_spare]: the spare capacity bytes.Buffer leaves after Reset and Write
    (whatever it likes); [method]: the methods of s.NS ([None]: panic); [send], [recv]: the channels of a Client; [traced]: is c.Trace set? *)
Record outside (X : Type) := mkOutside { reset_spare : buf -> bytes; write_spare : buf -> bytes -> bytes;
  method : bytes -> list value -> X -> option (list value * X); send : bytes -> X -> X; recv : X -> buf * X; traced : bool; client_fid : N }.
Arguments reset_spare {X}. Arguments write_spare {X}. Arguments method {X}. Arguments send {X}. Arguments recv {X}. Arguments traced {X}. Arguments client_fid {X}.

Section Sem.
Context {X : Type} (W : outside X).
(** Functions of the program, for calls. *)
Variable call : bytes -> list value -> buf -> X -> out X.

(** Variables, one frame per open block, innermost first. *)
Definition frame := list (bytes * value).
Record state := mkState { env : list frame; bf : buf; ex : X }.
Definition with_env (s : state) (e : list frame) : state := mkState e (bf s) (ex s).
Definition with_bf (s : state) (b : buf) : state := mkState (env s) b (ex s).
Definition with_ex (s : state) (x : X) : state := mkState (env s) (bf s) x.
Fixpoint lookup (x : bytes) (e : list frame) : option value :=
  match e with [] => None | f :: e => match assoc x f with Some v => Some v | None => lookup x e end end.
Fixpoint assign (x : bytes) (v : value) (e : list frame) : list frame :=
  match e with [] => [] | f :: e => match assoc x f with Some _ => set_field x v f :: e | None => f :: assign x v e end end.
Definition declare (x : bytes) (v : value) (e : list frame) : list frame := match e with [] => [] | f :: e => ((x, v) :: f) :: e end.
Definition push (s : state) : state := with_env s ([] :: env s).
Definition pop (s : state) : state := with_env s (tl (env s)).

Definition K := list value -> state -> out X.
Definition one (k : value -> state -> out X) : K := fun vs s => match vs with [v] => k v s | _ => Stuck end.
Definition opt (o : option value) (s : state) (k : K) : out X := match o with Some v => k [v] s | None => Stuck end.

(** Conversions, len, make, functions of packages fmt and bytes: on evaluated arguments. *)
Definition builtin (f : bytes) (vs : list value) (s : state) (k : K) : out X :=
  match assoc f int_types with
  | Some (w, sg) => match vs with [v] => opt (convert w sg v) s k | _ => Stuck end
  | None =>
      if beq f (str "len") then
        match vs with
        | [VStr x] => k [VI 64 (Z.of_N (blen x))] s
        | [VBytes b] => k [VI 64 (Z.of_N (blen (unread b)))] s
        | [VList l] => k [VI 64 (Z.of_N (blen l))] s
        | _ => Stuck
        end
      else if beq f (str "string") then match vs with [VBytes b] => k [VStr (unread b)] s | _ => Stuck end
      else
        (* a function of the program; it works on our buffer, unless it is given a new one *)
        match vs with
        | VNew b :: vs => match call f (VBuf :: map strip vs) b (ex s) with Ret rs _ x => k rs (with_ex s x) | o => o end
        | vs => match call f (map strip vs) (bf s) (ex s) with Ret rs b x => k rs (with_ex (with_bf s b) x) | o => o end
        end
  end.
Definition package_call (p f : bytes) (vs : list value) (s : state) (k : K) : out X :=
  if beq p (str "fmt") then
    match vs with
    | VStr fm :: args =>
        match format fm args with
        | Some t => if beq f (str "Errorf") then k [VErr (Some t)] s else if beq f (str "Sprintf") then k [VStr t] s else Stuck
        | None => Stuck
        end
    | _ => Stuck
    end
  else if beq p (str "bytes") && beq f (str "NewBuffer") then match vs with [VBytes b] => k [VNew b] s | _ => Stuck end
  else Stuck.
(** Methods on the buffer and on objects. *)
Definition method_call (r : value) (f : bytes) (vs : list value) (s : state) (k : K) : out X :=
  match r with
  | VBuf =>
      if beq f (str "Len") then k [VI 64 (Z.of_N (buf_len (bf s)))] s
      else if beq f (str "Bytes") then k [VBytes (bf s)] s
      else if beq f (str "Reset") then k [] (with_bf s (Buf [] (reset_spare W (bf s))))
      else if beq f (str "Write") then
        match vs with [VBytes x] => k [] (with_bf s (Buf (unread (bf s) ++ unread x) (write_spare W (bf s) (unread x)))) | _ => Stuck end
      else if beq f (str "Next") then
        match vs with
        | [VI _ z] => if (z <? 0)%Z then Panic else k [VNil] (with_bf s (buf_next (Z.to_N z) (bf s)))
        | [VC n] => k [VNil] (with_bf s (buf_next n (bf s)))
        | _ => Stuck
        end
      else Stuck
  | VObj o =>
      if beq o (str "NS") then match method W f (map strip vs) (ex s) with Some (rs, x) => k rs (with_ex s x) | None => Panic end
      else if beq o (str "Client") && beq f (str "Trace") then k [] s
      else Stuck
  | _ => Stuck
  end.
Definition field (v : value) (f : bytes) : option value :=
  match v with
  | VStruct fs => assoc f fs
  | VObj o =>
      if beq o (str "Server") then if beq f (str "NS") then Some (VObj (str "NS")) else None
      else if beq o (str "Client") then
        if beq f (str "Trace") then Some (if traced W then VObj (str "Trace") else VNil)
        else if beq f (str "FID") then Some (VU 32 (client_fid W))
        else if beq f (str "FromClient") then Some (VObj (str "FromClient")) else None
      else None
  | _ => None
  end.
Definition index (v i : value) (s : state) (k : K) : out X :=
  match v, i with
  | VArr n x, VC i => if match i ?= n with Lt => true | _ => false end then k [VU 8 (ub x (N.to_nat i))] s else Stuck
  | VBytes b, VC i => match nth_error (unread b) (N.to_nat i) with Some c => k [VU 8 (b2n c)] s | None => Panic end
  | VList vs, VI _ z => match nth_error vs (Z.to_nat z) with Some v => k [v] s | None => Panic end
  | _, _ => Stuck
  end.
Definition slice_to (v hi : value) (s : state) (k : K) : out X :=
  match v, hi with
  | VBytes b, VU _ n => match buf_reslice n b with Some x => k [VBytes (Buf x (skipn (N.to_nat n) (unread b ++ spare b)))] s | None => Panic end
  | _, _ => Stuck
  end.
Definition slice_from (v lo : value) (s : state) (k : K) : out X :=
  match v, lo with
  | VBytes b, VC n => if blen (unread b) <? n then Panic else k [VBytes (Buf (skipn (N.to_nat n) (unread b)) (spare b))] s
  | _, _ => Stuck
  end.
(** [b.Read(u[:n])]: the number of bytes read is nowhere used. *)
Definition read (u : bytes) (n : N) (s : state) (k : K) : out X :=
  match lookup u (env s) with
  | Some (VArr sz x) =>
      if (1 <=? n) && (n <=? sz) then
        match buf_read (N.to_nat n) (bf s) with
        | None => k [VNil; VErr (Some (str "EOF"))] s
        | Some (y, b) => k [VNil; VErr None] (with_bf (with_env s (assign u (VArr sz (overlay x y)) (env s))) b)
        end
      else Stuck
  | _ => Stuck
  end.

(** Expressions; the results go to k. *)
Fixpoint eval (e : expr) (s : state) (k : K) {struct e} : out X :=
  let evals := fix evals (es : list expr) (s : state) (k : K) {struct es} : out X :=
    match es with
    | [] => k [] s
    | e :: es => eval e s (one (fun v s => evals es s (fun vs s => k (v :: vs) s)))
    end in
  match e with
  | EId x => match lookup x (env s) with Some v => k [v] s | None => opt (assoc x constants) s k end
  | ENum n => k [VC n] s
  | EStr t => k [VStr t] s
  | EDot e f => eval e s (one (fun v s => opt (field v f) s k))
  | EIdx e i => eval e s (one (fun v s => eval i s (one (fun i s => index v i s k))))
  | ESlice e None (Some hi) => eval e s (one (fun v s => eval hi s (one (fun h s => slice_to v h s k))))
  | ESlice e (Some lo) None => eval e s (one (fun v s => eval lo s (one (fun l s => slice_from v l s k))))
  | EBin o a b => eval a s (one (fun x s => eval b s (one (fun y s => opt (binop o x y) s k))))
  | EUn o a =>
      if beq o (str "&") then eval a s k
      else if beq o (str "<-") then eval a s (one (fun _ s => let '(b, x) := recv W (ex s) in k [VBytes b] (with_ex s x)))
      else Stuck
  | EComp (GSlice (GName t)) els =>
      if beq t (str "byte") then
        (fix evals (es : list (option bytes * expr)) (s : state) (k : K) {struct es} : out X :=
           match es with
           | [] => k [] s
           | (_, e) :: es => eval e s (one (fun v s => evals es s (fun vs s => k (v :: vs) s)))
           end) els s (fun vs s => match byte_list vs with Some x => k [VBytes (Buf x [])] s | None => Stuck end)
      else Stuck
  | EComp (GQual p t) [] => if beq p (str "bytes") && beq t (str "Buffer") then k [VNew (Buf [] [])] s else Stuck
  | EComp (GName t) els =>
      if beq t (str "RPCCall") then
        (fix evals (es : list (option bytes * expr)) (s : state) (k : list (bytes * value) -> state -> out X) {struct es} : out X :=
           match es with
           | [] => k [] s
           | (Some f, e) :: es => eval e s (one (fun v s => evals es s (fun vs s => k ((f, v) :: vs) s)))
           | (None, _) :: _ => Stuck
           end) els s (fun vs s => k [VStruct vs] s)
      else Stuck
  | ECall (EId f) args =>
      if beq f (str "make") then
        match args with
        | [EType (GSlice t); n] =>
            eval n s (one (fun v s => match v, zero t with VU _ n, Some z => k [VList (repeat z (N.to_nat n))] s | _, _ => Stuck end))
        | [EType (GChan _)] => k [VObj (str "chan")] s
        | _ => Stuck
        end
      else if beq f (str "copy") then
        match args with
        | [ECall (EDot r m) []; e] =>
            if beq m (str "Bytes") then
              eval r s (one (fun r s => match r with
                | VBuf => eval e s (one (fun v s => match v with
                            | VBytes x => k [] (with_bf s (Buf (copied (unread (bf s)) (unread x)) (spare (bf s))))
                            | _ => Stuck end))
                | _ => Stuck end))
            else Stuck
        | _ => Stuck
        end
      else match lookup f (env s) with Some _ => Stuck | None => evals args s (fun vs s => builtin f vs s k) end
  | ECall (EType (GSlice (GName t))) [a] =>
      if beq t (str "byte") then eval a s (one (fun v s => match v with VStr x => k [VBytes (Buf x [])] s | _ => Stuck end)) else Stuck
  | ECall (EDot r m) args =>
      if beq m (str "Read") then
        match r, args with
        | EId b, [ESlice (EId u) None (Some (ENum n))] => match lookup b (env s) with Some VBuf => read u n s k | _ => Stuck end
        | _, _ => Stuck
        end
      else match r with
           | EId p =>
               match lookup p (env s) with
               | Some r => evals args s (fun vs s => method_call r m vs s k)
               | None => evals args s (fun vs s => package_call p m vs s k)
               end
           | _ => eval r s (one (fun r s => evals args s (fun vs s => method_call r m vs s k)))
           end
  | _ => Stuck
  end.
Definition evals : list expr -> state -> K -> out X :=
  fix evals (es : list expr) (s : state) (k : K) {struct es} : out X :=
    match es with
    | [] => k [] s
    | e :: es => eval e s (one (fun v s => evals es s (fun vs s => k (v :: vs) s)))
    end.
(** The right-hand side of an assignment or return: one call with several results, or one expression per value. *)
Definition rhs (es : list expr) (s : state) (k : K) : out X := match es with [e] => eval e s k | _ => evals es s k end.

(** Left-hand sides: variable and path.  Indices are variables. *)
Fixpoint lval (e : expr) (s : state) : option (bytes * list sel) :=
  match e with
  | EId x => Some (x, [])
  | EDot e f => match lval e s with Some (x, p) => Some (x, also p [SF f]) | None => None end
  | EIdx e (EId i) => match lval e s, lookup i (env s) with Some (x, p), Some (VI _ z) => Some (x, also p [SI (Z.to_nat z)]) | _, _ => None end
  | _ => None
  end.
Definition store (e : expr) (v : value) (s : state) (k : state -> out X) : out X :=
  match lval e s with
  | Some (x, p) =>
      if beq x (str "_") then k s
      else match lookup x (env s) with
           | Some w => match update p v w with Some w => k (with_env s (assign x w (env s))) | None => Stuck end
           | None => Stuck
           end
  | None => Stuck
  end.
Fixpoint stores (es : list expr) (vs : list value) (s : state) (k : state -> out X) : out X :=
  match es, vs with
  | [], [] => k s
  | e :: es, v :: vs => store e v s (fun s => stores es vs s k)
  | _, _ => Stuck
  end.
(** [x, y := ...]: a variable of the innermost block is assigned, any other is new. *)
Fixpoint defines (es : list expr) (vs : list value) (s : state) (k : state -> out X) : out X :=
  match es, vs with
  | [], [] => k s
  | EId x :: es, v :: vs =>
      if beq x (str "_") then defines es vs s k
      else match assoc x (hd [] (env s)) with
           | Some _ => defines es vs (with_env s (assign x v (env s))) k
           | None => defines es vs (with_env s (declare x v (env s))) k
           end
  | _, _ => Stuck
  end.
(** A body run for i = j, j+1, ..., n times. *)
Fixpoint for_loop (n : nat) (j : nat) (body : nat -> state -> (state -> out X) -> out X) (s : state) (k : state -> out X) : out X :=
  match n with O => k s | S n => body j s (fun s => for_loop n (S j) body s k) end.

(** The named results, for a return without values. *)
Variable results : list bytes.
Definition return_vals (vs : list value) (s : state) : out X := Ret (map strip vs) (bf s) (ex s).
Fixpoint lookups (xs : list bytes) (f : frame) : option (list value) :=
  match xs with [] => Some [] | x :: xs => match assoc x f, lookups xs f with Some v, Some l => Some (v :: l) | _, _ => None end end.
Definition return_bare (s : state) : out X := match lookups results (last (env s) []) with Some vs => return_vals vs s | None => Stuck end.

Fixpoint exec (st : stmt) (s : state) (k : state -> out X) {struct st} : out X :=
  let execs := fix execs (l : list stmt) (s : state) (k : state -> out X) {struct l} : out X :=
    match l with [] => k s | st :: l => exec st s (fun s => execs l s k) end in
  match st with
  | SVar x (Some t) None => match zero t with Some v => k (with_env s (declare x v (env s))) | None => Stuck end
  | SVar x None (Some e) =>
      eval e s (one (fun v s => match v with
        | VNew b => k (with_bf (with_env s (declare x VBuf (env s))) b)
        | _ => k (with_env s (declare x v (env s)))
        end))
  | SAssign o l r =>
      if beq o (str "=") then rhs r s (fun vs s => stores l vs s k)
      else if beq o (str ":=") then rhs r s (fun vs s => defines l vs s k)
      else match l, r with
           | [a], [b] => eval (EBin (str "|") a b) s (one (fun v s => store a v s k))
           | _, _ => Stuck
           end
  | SExpr e => eval e s (fun _ s => k s)
  | SSend ch e =>
      eval ch s (one (fun c s => eval e s (one (fun v s =>
        match c, v with
        | VObj c, VStruct fs => match assoc (str "b") fs with Some (VBytes b) => k (with_ex s (send W (unread b) (ex s))) | _ => Stuck end
        | _, _ => Stuck
        end))))
  | SReturn [] => return_bare s
  | SReturn es => rhs es s (fun vs s => return_vals vs s)
  | SIf init c th el =>
      let k := fun s => k (pop s) in
      let go := fun s => eval c s (one (fun v s => match v with
        | VBool b => if b then execs th (push s) (fun s => k (pop s)) else execs el (push s) (fun s => k (pop s))
        | _ => Stuck
        end)) in
      match init with Some i => exec i (push s) go | None => go (push s) end
  | SRange i e body =>
      eval e s (one (fun v s => match v with
        | VList vs =>
            for_loop (List.length vs) 0
              (fun j s k => execs body (with_env s ([(i, VI 64 (Z.of_nat j))] :: env s)) (fun s => k (pop s))) s k
        | _ => Stuck
        end))
  | SBlock b => execs b (push s) (fun s => k (pop s))
  | _ => Stuck
  end.
Definition execs : list stmt -> state -> (state -> out X) -> out X :=
  fix execs (l : list stmt) (s : state) (k : state -> out X) {struct l} : out X :=
    match l with [] => k s | st :: l => exec st s (fun s => execs l s k) end.
End Sem.

Fixpoint bind (ps : list (bytes * gtype)) (vs : list value) : option frame :=
  match ps, vs with
  | [], [] => Some []
  | (x, _) :: ps, v :: vs => match bind ps vs with Some f => Some ((x, v) :: f) | None => None end
  | _, _ => None
  end.
Fixpoint zeros (rs : list (bytes * gtype)) : option frame :=
  match rs with
  | [] => Some []
  | (x, t) :: rs => match zero t, zeros rs with Some v, Some f => Some ((x, v) :: f) | _, _ => None end
  end.
(** The receiver of a method: only its type matters. *)
Definition receiver (r : option (bytes * gtype)) : frame := match r with Some (x, GPtr (GName t)) => [(x, VObj t)] | _ => [] end.
Definition call_func {X} (W : outside X) (call : bytes -> list value -> buf -> X -> out X) (f : func) (args : list value) (b : buf) (x : X) : out X :=
  match bind (f_params f) args, zeros (f_results f) with
  | Some ps, Some rs =>
      execs W call (map fst (f_results f)) (f_body f) (mkState [also (receiver (f_recv f)) (also ps rs)] b x) (return_bare (map fst (f_results f)))
  | _, _ => Stuck
  end.
Fixpoint find_func (name : bytes) (p : list func) : option func :=
  match p with [] => None | f :: p => if beq name (f_name f) then Some f else find_func name p end.
(** Running a function of a program; d: how deep calls may go. *)
Fixpoint run {X} (W : outside X) (p : list func) (d : nat) (name : bytes) (args : list value) (b : buf) (x : X) : out X :=
  match d with
  | O => Stuck
  | S d => match find_func name p with Some f => call_func W (run W p d) f args b x | None => Stuck end
  end.
