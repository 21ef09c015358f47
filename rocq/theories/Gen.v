(** The stub generator protocol/gen.go, seen through the meaning of the code it emits.

    gen.go walks over the fields of a struct and emits, per field, code for the marshaller and
    code for the unmarshaller.  Here a struct type is a list of [leaf]s (nested structs are
    flattened in declaration order, which is what genEncodeStruct/genDecodeStruct do,
    gen.go:247-269), and for each leaf we give the meaning of the emitted code: bytes appended
    to the output, respectively a step on the scratch array and the input buffer.
    Codec.v holds the emitted code itself; GenEq.v proves that for each of the 26 struct
    types the two agree. *)
From Verif Require Import Base GoBuf CodecPrim.

(** Field kinds that may occur at top level and inside slice elements. [LInt w] is an unsigned
    integer type of w bytes, [LCount] the int32 type Count, [LStr] a string. *)
Inductive leaf0 := LInt (w : nat) | LCount | LStr.
(** [LSlice es]: slice with 16-bit count whose elements have the fields es ([]string, []QID);
    [LData k]: byte slice with a k-byte count ([]byte: 4, []DataCnt16: 2). *)
Inductive leaf := L0 (l : leaf0) | LSlice (es : list leaf0) | LData (k : nat).

Inductive v0 := VI (n : N) | VC (z : Z) | VS (s : bytes).
Inductive val := V0 (v : v0) | VSl (vs : list (list v0)) | VD (d : bytes).

(** * Marshalling *)

(** gen.go:206-215 emitEncodeInt, gen.go:228-237 emitEncodeString *)
Definition enc0 (l : leaf0) (v : v0) : bytes :=
  match l, v with
  | LInt w, VI n => putint w n
  | LCount, VC z => putint_z 4 z
  | LStr, VS s => putint 2 (blen s) ++ s
  | _, _ => []
  end.
Fixpoint enc0s (ls : list leaf0) (vs : list v0) : bytes :=
  match ls, vs with
  | l :: ls, v :: vs => enc0 l v ++ enc0s ls vs
  | _, _ => []
  end.
(** gen.go:272-318 genEncodeSlice *)
Definition enc (l : leaf) (v : val) : bytes :=
  match l, v with
  | L0 l, V0 v => enc0 l v
  | LSlice es, VSl vs => putint 2 (glen vs) ++ flat_map (enc0s es) vs
  | LData k, VD d => putint k (blen d) ++ d
  | _, _ => []
  end.
Fixpoint encs (ls : list leaf) (vs : list val) : bytes :=
  match ls, vs with
  | l :: ls, v :: vs => enc l v ++ encs ls vs
  | _, _ => []
  end.
(** gen.go:129-142 template mfunc *)
Definition marshal_pkt (ls : list leaf) (ty t : N) (vs : list val) : bytes :=
  set_len4 ([x00; x00; x00; x00; u8 ty] ++ putint 2 t ++ encs ls vs).
(** gen.go:110-119 template msfunc *)
Definition marshal_stat (ls : list leaf) (vs : list val) : bytes :=
  set_len2 ([x00; x00] ++ encs ls vs).

(** * Unmarshalling *)

(** gen.go:217-225 emitDecodeInt: [n = T(u[0]); n |= T(u[1])<<8; ...] *)
Definition genint (w : nat) (u : bytes) : N :=
  fold_left (fun acc i => N.lor acc (N.shiftl (ub u i) (8 * N.of_nat i))) (seq 1 (w - 1)) (ub u 0).
Definition gencount (u : bytes) : Z :=
  fold_left (fun acc i => Z.lor acc (i32 (N.shiftl (ub u i) (8 * N.of_nat i)))) (seq 1 3) (i32 (ub u 0)).
Definition err_int (w : nat) (b : buf) : bytes :=
  (str "pkt too short for uint" ++ dec (8 * N.of_nat w) ++ str ": need " ++ dec (N.of_nat w)
   ++ str ", have ") ++ dec (buf_len b).
Definition err_str (l : N) (b : buf) : bytes :=
  str "pkt too short for string: need " ++ dec l ++ str ", have " ++ dec (buf_len b).
Definition err_tag (b : buf) : bytes := str "pkt too short for Tag; need 2, have " ++ dec (buf_len b).
Definition err_long (b : buf) : bytes :=
  str "Packet too long: " ++ dec (buf_len b) ++ str " bytes left over after decode".

Definition zero0 (l : leaf0) : v0 := match l with LInt _ => VI 0 | LCount => VC 0 | LStr => VS [] end.
Definition zero (l : leaf) : val :=
  match l with L0 l => V0 (zero0 l) | LSlice _ => VSl [] | LData _ => VD [] end.

(** gen.go:217-225 emitDecodeInt, gen.go:239-245 emitDecodeString *)
Definition dec0 (l : leaf0) (u : bytes) (b : buf) : lres v0 :=
  match l with
  | LInt w => rd w u b (fun b => LRet (VI 0) b (err_int w b)) (fun u b => LNext (VI (genint w u)) u b)
  | LCount => rd 4 u b (fun b => LRet (VC 0) b (err_int 4 b)) (fun u b => LNext (VC (gencount u)) u b)
  | LStr =>
      rd 2 u b (fun b => LRet (VS []) b (err_int 2 b)) (fun u b =>
      let l := genint 2 u in
      if buf_len b <? l then LRet (VS []) b (err_str l b) else
      reslice l b LPanic (fun x => LNext (VS x) u (buf_next l b)))
  end.

Definition lbind {A B} (r : lres A) (f : A -> bytes -> buf -> lres B) (g : A -> B) : lres B :=
  match r with
  | LNext a u b => f a u b
  | LRet a b e => LRet (g a) b e
  | LPanic => LPanic
  end.
Definition lmap {A B} (g : A -> B) (r : lres A) : lres B := lbind r (fun a u b => LNext (g a) u b) g.

(** gen.go:259-269 genDecodeStruct: fields in order; after an early return the later fields
    are still zero. *)
Fixpoint dec0s (ls : list leaf0) (u : bytes) (b : buf) : lres (list v0) :=
  match ls with
  | [] => LNext [] u b
  | l :: ls =>
      lbind (dec0 l u b) (fun v u b => lmap (cons v) (dec0s ls u b)) (fun v => v :: map zero0 ls)
  end.

(** gen.go:320-353 genDecodeSlice *)
Definition dec1 (l : leaf) (u : bytes) (b : buf) : lres val :=
  match l with
  | L0 l => lmap V0 (dec0 l u b)
  | LSlice es =>
      rd 2 u b (fun b => LRet (VSl []) b (err_int 2 b)) (fun u b =>
      let l := genint 2 u in
      for_range (map zero0 es) (N.to_nat l) u b (dec0s es) LPanic
        (fun vs b e => LRet (VSl vs) b e) (fun vs u b => LNext (VSl vs) u b))
  | LData k =>
      rd k u b (fun b => LRet (VD []) b (err_int k b)) (fun u b =>
      let l := genint k u in
      reslice l b LPanic (fun x => LNext (VD x) u (buf_next l b)))
  end.
Fixpoint decs (ls : list leaf) (u : bytes) (b : buf) : lres (list val) :=
  match ls with
  | [] => LNext [] u b
  | l :: ls =>
      lbind (dec1 l u b) (fun v u b => lmap (cons v) (decs ls u b)) (fun v => v :: map zero ls)
  end.

(** gen.go:143-158 template ufunc *)
Definition unmarshal_pkt (ls : list leaf) (b : buf) : ures (list val) :=
  rd 2 u_zero b (fun b => URet (map zero ls) 0 b (Some (err_tag b))) (fun u b =>
  let l := N.lor (ub u 0) (N.shiftl (ub u 1) 8) in
  let t := l mod 65536 in
  match decs ls u b with
  | LPanic => UPanic
  | LRet vs b e => URet vs t b (Some e)
  | LNext vs u b =>
      if 0 <? buf_len b then URet vs t b (Some (err_long b)) else URet vs t b None
  end).
(** gen.go:120-127 template usfunc *)
Definition unmarshal_stat (ls : list leaf) (b : buf) : ures (list val) :=
  let b := buf_next 2 b in
  match decs ls u_zero b with
  | LPanic => UPanic
  | LRet vs b e => URet vs 0 b (Some e)
  | LNext vs u b => URet vs 0 b None
  end.

(** Applying a function to the decoded fields. *)
Definition umap {A B} (g : A -> B) (r : ures A) : ures B :=
  match r with URet f t b e => URet (g f) t b e | UPanic => UPanic end.
