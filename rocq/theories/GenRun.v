(** Running the text of protocol/gen.go on the machine of GoRun.v, with the struct types in the text of protocol.go: memory, package
    variables, and the meaning of the library it uses (bytes.Buffer, fmt.Sprintf, reflect, text/template, ioutil, flag).

    gen.go looks at values only through reflect and %T, which give it types: a value of interface type that came out of reflect is
    its type, an object whose number is its place in [type_table].  The flag -d has its default. *)
From Verif Require Import Base GoBuf GoSyntax GoRun GoFmt GoText GoProg GoWp GenGoText.

(** * The program *)
(** The kinds of package reflect that gen.go names (reflect/type.go: type Kind uint, const Invalid = iota, ...). *)
Definition reflect_kinds : list (bytes * value) :=
  [(str "reflect.Int32", VU 64 5); (str "reflect.Uint8", VU 64 8); (str "reflect.Uint16", VU 64 9); (str "reflect.Uint32", VU 64 10); (str "reflect.Uint64", VU 64 11);
   (str "reflect.Slice", VU 64 23); (str "reflect.String", VU 64 24); (str "reflect.Struct", VU 64 25)].
Definition gen_decls : list decl := file protocol_text ++ file gen_text.
Definition gen_program : program := Eval vm_compute in
  let p := program_of gen_decls in mkProgram (p_funcs p) (p_types p) (p_consts p ++ reflect_kinds) (p_vars p).

(** * Types, as package reflect sees them *)
(** The types that package protocol declares. *)
Definition declared : list (bytes * gtype) := Eval vm_compute in types_of (file protocol_text).
(** Type.Name: empty for a type that is not named. *)
Definition name_of (t : gtype) : bytes := match t with GName x => if beq x (str "byte") then str "uint8" else x | _ => [] end.
(** Type.String, and what %T prints *)
Fixpoint string_of (t : gtype) : bytes :=
  match t with
  | GName x => match assoc x declared with Some _ => str "protocol." ++ x | None => name_of t end
  | GSlice t => str "[]" ++ string_of t
  | _ => []
  end.
(** The type behind a name. *)
Definition underlying (t : gtype) : gtype := match t with GName x => match assoc x declared with Some u => u | None => t end | _ => t end.
(** Value.Kind *)
Definition kind_of (t : gtype) : option N :=
  let k x := match assoc x reflect_kinds with Some (VU _ n) => Some n | _ => None end in
  match underlying t with
  | GStruct _ => k (str "reflect.Struct")
  | GSlice _ => k (str "reflect.Slice")
  | GName x =>
      if beq x (str "string") then k (str "reflect.String")
      else if beq x (str "uint8") || beq x (str "byte") then k (str "reflect.Uint8") else if beq x (str "uint16") then k (str "reflect.Uint16")
      else if beq x (str "uint32") then k (str "reflect.Uint32") else if beq x (str "int32") then k (str "reflect.Int32") else if beq x (str "uint64") then k (str "reflect.Uint64")
      else None
  | _ => None
  end.
Definition fields_of (t : gtype) : option (list (bytes * gtype)) := match underlying t with GStruct fs => Some fs | _ => None end.
(** Every type gen.go can meet: basic ones, declared ones, those of fields. *)
Definition type_table : list gtype := Eval vm_compute in
  map GName [str "uint8"; str "uint16"; str "uint32"; str "uint64"; str "int32"; str "string"] ++ map (fun d => GName (fst d)) declared ++
  flat_map (fun d => match snd d with GStruct fs => map snd fs | _ => [] end) declared.
Fixpoint place (s : bytes) (l : list gtype) (i : N) : option N :=
  match l with [] => None | t :: l => if beq s (string_of t) then Some i else place s l (i + 1) end.
(** The number of a type. *)
Definition number_of (t : gtype) : option N := place (string_of t) type_table 0.
Definition type_at (n : N) : option gtype := nth_error type_table (N.to_nat n).
(** The type of a value of the machine that is converted to interface{}. *)
Definition dynamic (v : value) : option gtype :=
  match v with
  | VU 8 _ => Some (GName (str "uint8")) | VU 16 _ => Some (GName (str "uint16")) | VU 32 _ => Some (GName (str "uint32")) | VU 64 _ => Some (GName (str "uint64"))
  | VI 32 _ => Some (GName (str "int32")) | VStr _ => Some (GName (str "string"))
  | VStruct t _ => match assoc t declared with Some _ => Some (GName t) | None => None end
  | VObj k n => if beq k (str "interface{}") then type_at n else None
  | _ => None
  end.

(** * fmt.Sprintf with %v, %d, %s, %T and %% *)
(** An untyped constant is an int. *)
Definition shown (v : value) : option bytes := match v with VC z => Some (show_z z) | _ => show_basic v end.
Fixpoint sprintf (f : bytes) (args : list value) : option bytes :=
  match f with
  | [] => match args with [] => Some [] | _ => None end
  | c :: f' =>
      if Byte.eqb c "%" then
        match f' with
        | d :: f'' =>
            if Byte.eqb d "%" then match sprintf f'' args with Some b => Some (d :: b) | None => None end
            else match args with
                 | v :: args =>
                     if Byte.eqb d "v" || Byte.eqb d "d" || Byte.eqb d "s" then join2 (shown v) (sprintf f'' args)
                     else if Byte.eqb d "T" then join2 (match dynamic v with Some t => Some (string_of t) | None => None end) (sprintf f'' args)
                     else None
                 | [] => None
                 end
        | [] => None
        end
      else match sprintf f' args with Some b => Some (c :: b) | None => None end
  end.

(** * text/template: text with actions {{.Field}} and {{.Field.Field}} *)
Inductive piece := Text (s : bytes) | Field (path : list bytes).
Fixpoint dots (s cur : bytes) : list bytes :=
  match s with [] => [cur] | c :: s => if Byte.eqb c "." then cur :: dots s [] else dots s (cur ++ [c]) end.
(** [act]: are we inside an action?  cur: what has been read of it, or of the text. *)
Fixpoint pieces (act : bool) (cur : bytes) (s : bytes) : option (list piece) :=
  let more p r := match r with Some l => Some (p :: l) | None => None end in
  match s with
  | [] => if act then None else Some [Text cur]
  | c :: s' =>
      match s' with
      | d :: s'' =>
          if act then
            if Byte.eqb c "}" && Byte.eqb d "}" then match dots cur [] with [] :: path => more (Field path) (pieces false [] s'') | _ => None end
            else if is_letter c || Byte.eqb c "." then pieces true (cur ++ [c]) s' else None
          else if Byte.eqb c "{" && Byte.eqb d "{" then more (Text cur) (pieces true [] s'')
          else pieces false (cur ++ [c]) s'
      | [] => if act then None else Some [Text (cur ++ [c])]
      end
  end.

(** * The world *)
(** Package variables, files written (name, contents, mode), lines logged. *)
Record world := mkWorld { vars : list (bytes * value); files : list (bytes * bytes * N); logged : list bytes }.
Definition mem := memory world.
Fixpoint set_var (x : bytes) (v : value) (l : list (bytes * value)) : list (bytes * value) :=
  match l with [] => [(x, v)] | (y, w) :: l => if beq x y then (x, v) :: l else (y, w) :: set_var x v l end.
(** What an action prints: the field, through pointers; a buffer by its method String. *)
Fixpoint lookup_path (s : mem) (v : value) (path : list bytes) : option bytes :=
  match path with
  | [] => match v with
          | VStr b => Some b
          | VPtr _ a [] => match cells s a with Some (VBuf b) => Some (unread b) | _ => None end
          | _ => None
          end
  | f :: path =>
      match v with
      | VPtr _ a [] => match cells s a with
                       | Some (VStruct _ fs) => match assoc f fs with Some x => lookup_path s x path | None => None end
                       | _ => None
                       end
      | _ => None
      end
  end.
Fixpoint execute (s : mem) (v : value) (l : list piece) : option bytes :=
  match l with
  | [] => Some []
  | Text b :: l => match execute s v l with Some r => Some (b ++ r) | None => None end
  | Field path :: l => match lookup_path s v path, execute s v l with Some b, Some r => Some (b ++ r) | _, _ => None end
  end.
Definition append_to (s : mem) (a : N) (b : bytes) : option mem :=
  match cells s a with Some (VBuf (Buf u sp)) => Some (with_cell s a (VBuf (Buf (u ++ b) sp))) | _ => None end.

(** * The library *)
Definition obj (k : bytes) (o : option N) (s : mem) : reply world := match o with Some n => Answer [VObj k n] s | None => NoAnswer end.
Definition ext (f : bytes) (args : list value) (s : mem) : reply world :=
  let is x := beq f x in
  match args with
  (* bytes.Buffer *)
  | [VPtr _ a []; VStr b] =>
      if is (str "bytes.Buffer.WriteString") then match append_to s a b with Some s => Answer [VI 64 (Z.of_N (blen b)); VNil] s | None => NoAnswer end
      (* template *)
      else if is (str "template.Template.Parse") then
        match pieces false [] b with Some _ => Answer [VPtr (str "template.Template") a []; VNil] (with_cell s a (VStr b)) | None => NoAnswer end
      else NoAnswer
  | [VPtr _ a []] =>
      if is (str "bytes.Buffer.Bytes") then match cells s a with Some (VBuf b) => Answer [VBytes (unread b)] s | _ => NoAnswer end
      else NoAnswer
  | [VPtr _ a []; VNil] => if is (str "template.Must") then Answer [VPtr (str "template.Template") a []] s else NoAnswer
  | [VPtr _ a []; VPtr _ b []; v] =>
      if is (str "template.Template.Execute") then
        match cells s a with
        | Some (VStr t) =>
            match pieces false [] t with
            | Some l => match execute s v l with
                        | Some r => match append_to s b r with Some s => Answer [VNil] s | None => NoAnswer end
                        | None => NoAnswer end
            | None => NoAnswer
            end
        | _ => NoAnswer
        end
      else NoAnswer
  | [VObj k n] =>
      if is (str "reflect.ValueOf") then obj (str "reflect.Value") (match dynamic (VObj k n) with Some t => number_of t | None => None end) s
      else match type_at n with
      | Some t =>
          if is (str "reflect.Value.Kind") then match kind_of t with Some k => Answer [VU 64 k] s | None => NoAnswer end
          else if is (str "reflect.Value.Type") then Answer [VObj (str "reflect.Type") n] s
          else if is (str "reflect.Value.Interface") then Answer [VObj (str "interface{}") n] s
          else if is (str "reflect.Value.NumField") then match fields_of t with Some fs => Answer [VI 64 (Z.of_N (blen fs))] s | None => Crash end
          else if is (str "reflect.Type.Name") then Answer [VStr (name_of t)] s
          else if is (str "reflect.Type.String") then Answer [VStr (string_of t)] s
          else NoAnswer
      | None => NoAnswer
      end
  | [VObj k n; VI _ i] =>
      match type_at n with
      | Some t =>
          match fields_of t with
          | Some fs =>
              match nth_error fs (Z.to_nat i) with
              | Some (x, u) =>
                  if is (str "reflect.Value.Field") then obj (str "reflect.Value") (number_of u) s
                  else if is (str "reflect.Type.Field") then Answer [VStruct (str "reflect.StructField") [(str "Name", VStr x)]] s
                  else NoAnswer
              | None => Crash
              end
          | None => Crash
          end
      | None => NoAnswer
      end
  | [] => if is (str "flag.Parse") then Answer [] s else NoAnswer
  | _ =>
      if is (str "reflect.ValueOf") then
        match args with [v] => obj (str "reflect.Value") (match dynamic v with Some t => number_of t | None => None end) s | _ => NoAnswer end
      else if is (str "template.New") then match args with [VStr _] => Answer [VPtr (str "template.Template") (free s) []] (with_new s (VStr [])) | _ => NoAnswer end
      else if is (str "bytes.NewBufferString") then match args with [VStr b] => Answer [VPtr (str "bytes.Buffer") (free s) []] (with_new s (VBuf (Buf b []))) | _ => NoAnswer end
      else if is (str "flag.Bool") then match args with [VStr _; v; VStr _] => Answer [VPtr [] (free s) []] (with_new s v) | _ => NoAnswer end
      else if is (str "fmt.Sprintf") then
        match args with VStr fm :: args => match sprintf fm args with Some b => Answer [VStr b] s | None => NoAnswer end | _ => NoAnswer end
      else if is (str "log.Printf") then
        match args with
        | VStr fm :: args => match sprintf fm args with Some b => Answer [] (with_rest s (mkWorld (vars (rest s)) (files (rest s)) (logged (rest s) ++ [b]))) | None => NoAnswer end
        | _ => NoAnswer
        end
      else if is (str "ioutil.WriteFile") then
        match args with
        | [VStr x; VBytes b; VC m] => Answer [VNil] (with_rest s (mkWorld (vars (rest s)) (files (rest s) ++ [(x, b, const_n m)]) (logged (rest s))))
        | _ => NoAnswer
        end
      else NoAnswer
  end.
Definition outside (r : req) (s : mem) : reply world :=
  match r with
  | RVar x => match assoc x (vars (rest s)) with Some v => Answer [v] s | None => NoAnswer end
  | RSetVar x v => Answer [] (with_rest s (mkWorld (set_var x v (vars (rest s))) (files (rest s)) (logged (rest s))))
  | RExt f args => ext f args s
  | _ => NoAnswer
  end.

(** * go run gen.go: package variables are initialised in the order of the text, then main runs; n: fuel *)
Fixpoint init (n : nat) (P : program) (ds : list decl) (s : mem) : option mem :=
  match ds with
  | [] => Some s
  | DVar x _ (Some e) :: ds =>
      match run P outside n (mkM (CE false e) [] [] []) s with
      | Some (Returned [v], s) => init n P ds (with_rest s (mkWorld (set_var x v (vars (rest s))) (files (rest s)) (logged (rest s))))
      | _ => None
      end
  | _ :: ds => init n P ds s
  end.
Definition go_run (n : nat) (P : program) (ds : list decl) : option (ending * mem) :=
  match init n P ds (mkMem (fun _ => None) 0 (mkWorld [] [] [])) with
  | Some s => run P outside n (mkM (CApply (FUser (str "main") []) false Now []) [] [] []) s
  | None => None
  end.
