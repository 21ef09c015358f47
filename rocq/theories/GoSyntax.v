(** Tokens, syntax trees and a parser for the part of the Go language that the files of /repo are written in.
    It follows the Go language specification (sections Tokens, Semicolons, Operator precedence, Composite literals);
    anything outside the part is refused ([None]), never guessed. *)
From Verif Require Import Base.

Fixpoint beq (a b : bytes) : bool :=
  match a, b with
  | [], [] => true
  | x :: a, y :: b => if Byte.eqb x y then beq a b else false
  | _, _ => false
  end.
Fixpoint mem (x : bytes) (l : list bytes) : bool := match l with [] => false | y :: l => if beq x y then true else mem x l end.

(** * Tokens *)
(** [TSemi]: a semicolon, written or inserted at the end of a line. *)
Inductive token := TId (s : bytes) | TNum (n : N) | TStr (s : bytes) | TOp (s : bytes) | TSemi.

Definition in_range (c : byte) (a b : byte) : bool := (b2n a <=? b2n c) && (b2n c <=? b2n b).
Definition is_digit (c : byte) : bool := in_range c "0" "9".
Definition is_letter (c : byte) : bool := in_range c "a" "z" || in_range c "A" "Z" || Byte.eqb c "_".
Fixpoint take_while (p : byte -> bool) (s : bytes) : bytes * bytes :=
  match s with
  | c :: s' => if p c then let '(a, r) := take_while p s' in (c :: a, r) else ([], s)
  | [] => ([], [])
  end.
Definition is_hex (c : byte) : bool := is_digit c || in_range c "a" "f" || in_range c "A" "F".
Definition digit (c : byte) : N := if is_digit c then b2n c - 48 else if in_range c "a" "f" then b2n c - 87 else b2n c - 55.
Definition in_base (base : N) (s : bytes) : N := fold_left (fun n c => base * n + digit c) s 0.
(** Decimal, octal (a leading 0) and hexadecimal literals; 8 and 9 are refused in an octal one. *)
Definition number (s : bytes) : option N :=
  match s with
  | c :: ((_ :: _) as r) => if Byte.eqb c "0" then (if forallb (fun c => in_range c "0" "7") r then Some (in_base 8 r) else None) else Some (in_base 10 s)
  | _ => Some (in_base 10 s)
  end.
(** The rest of a string literal and what follows it; the only escapes are those for newline, tab, quote and backslash. *)
Fixpoint string_lit (s : bytes) : option (bytes * bytes) :=
  let put c r := match r with Some (a, r) => Some (c :: a, r) | None => None end in
  match s with
  | [] => None
  | c :: s =>
      if Byte.eqb c x22 then Some ([], s)
      else if Byte.eqb c x0a then None
      else if Byte.eqb c "\" then
        match s with
        | d :: s => if Byte.eqb d "n" then put x0a (string_lit s) else if Byte.eqb d "t" then put x09 (string_lit s)
                    else if Byte.eqb d x22 || Byte.eqb d "\" then put d (string_lit s) else None
        | [] => None
        end
      else put c (string_lit s)
  end.
(** What follows a comment that started with slash and star; does it contain a newline? *)
Fixpoint block_comment (nl : bool) (s : bytes) : option (bool * bytes) :=
  match s with
  | c :: ((d :: s'') as s') => if Byte.eqb c "*" && Byte.eqb d "/" then Some (nl, s'') else block_comment (nl || Byte.eqb c x0a) s'
  | _ => None
  end.
(** The keywords that do not end a statement. *)
Definition keywords : list bytes := [str "case"; str "chan"; str "const"; str "default"; str "defer"; str "else"; str "for"; str "func"; str "go"; str "goto"; str "if";
  str "import"; str "interface"; str "map"; str "package"; str "range"; str "select"; str "struct"; str "switch"; str "type"; str "var"].
(** Is a semicolon inserted at a newline after this token? *)
Definition ends_stmt (t : token) : bool :=
  match t with
  | TId s => negb (mem s keywords)
  | TNum _ | TStr _ => true
  | TOp s => mem s ([str ")"; str "]"; str "}"; str "++"])
  | TSemi => false
  end.
Definition ops2 : list bytes := [str ":="; str "|="; str "!="; str "=="; str "<<"; str ">>"; str "<-"; str "||"; str "&&"; str "<="; str ">="; str "+="; str "*="; str "++"].
Definition ops1 : list bytes := [str "("; str ")"; str "["; str "]"; str "{"; str "}"; str ","; str "."; str ":"; str "="; str "|"; str "&"; str "!"; str "<"; str ">"; str "+"; str "-"; str "*"; str "/"; str "^"].
Definition tcons (t : token) (r : option (list token)) : option (list token) := match r with Some l => Some (t :: l) | None => None end.
(** [ends]: would a newline here insert a semicolon?  n: fuel, at least the length of s. *)
Fixpoint lex (n : nat) (ends : bool) (s : bytes) : option (list token) :=
  match n with
  | O => None
  | S n =>
    let tok t s := tcons t (lex n (ends_stmt t) s) in
    match s with
    | [] => Some []
    | c :: s' =>
        if Byte.eqb c x0a then (if ends then tcons TSemi (lex n false s') else lex n false s')
        else if Byte.eqb c " " || Byte.eqb c x09 then lex n ends s'
        else if is_letter c then let '(a, r) := take_while (fun c => is_letter c || is_digit c) s in tok (TId a) r
        else if is_digit c then
          if Byte.eqb c "0" && match s' with x :: _ => Byte.eqb x "x" | [] => false end
          then let '(a, r) := take_while is_hex (tl s') in tok (TNum (in_base 16 a)) r
          else let '(a, r) := take_while is_digit s in match number a with Some n => tok (TNum n) r | None => None end
        else if Byte.eqb c x22 then match string_lit s' with Some (a, r) => tok (TStr a) r | None => None end
        else if Byte.eqb c x60 then let '(a, r) := take_while (fun c => negb (Byte.eqb c x60)) s' in match r with _ :: r => tok (TStr a) r | [] => None end
        else if Byte.eqb c ";" then tok TSemi s'
        else match s' with
             | d :: s'' =>
                 if Byte.eqb c "/" && Byte.eqb d "/" then lex n ends (snd (take_while (fun c => negb (Byte.eqb c x0a)) s''))
                 else if Byte.eqb c "/" && Byte.eqb d "*" then
                   match block_comment false s'' with
                   | Some (nl, r) => if nl && ends then tcons TSemi (lex n false r) else lex n ends r
                   | None => None
                   end
                 else if Byte.eqb c "." && Byte.eqb d "." then match s'' with x :: r => if Byte.eqb x "." then tok (TOp (str "...")) r else None | [] => None end
                 else if mem [c; d] ops2 then tok (TOp [c; d]) s''
                 else if mem [c] ops1 then tok (TOp [c]) s' else None
             | [] => if mem [c] ops1 then tok (TOp [c]) s' else None
             end
    end
  end.

(** * Syntax trees *)
(** [GMap], [GFunc], [GIface]: maps, functions and interfaces; only where they occur matters, not the types inside functions and interfaces. *)
Inductive gtype := GName (s : bytes) | GQual (pkg s : bytes) | GPtr (t : gtype) | GSlice (t : gtype) | GArr (n : N) (t : gtype) | GChan (t : gtype)
| GMap (k v : gtype) | GFunc | GIface | GStruct (fs : list (bytes * gtype)) | GDots (t : gtype).
Inductive expr :=
| EId (x : bytes) | ENum (n : N) | EStr (s : bytes)
| EDot (e : expr) (f : bytes)
| EIdx (e i : expr)
| ESlice (e : expr) (lo hi : option expr)
| ECall (f : expr) (args : list expr)
| EBin (op : bytes) (a b : expr)
| EUn (op : bytes) (a : expr)
| EType (t : gtype)
| EComp (t : gtype) (els : list (option bytes * expr))
(* f(args...), e.(t), a function literal *)
| ESpread (f : expr) (args : list expr)
| EAssert (e : expr) (t : gtype)
| EFunc (ps rs : list (bytes * gtype)) (body : list stmt)
with stmt :=
| SVar (x : bytes) (t : option gtype) (e : option expr)
| SAssign (op : bytes) (lhs rhs : list expr)
| SExpr (e : expr)
| SSend (ch e : expr)
| SReturn (es : list expr)
| SIf (init : option stmt) (c : expr) (th el : list stmt)
| SRange (i : bytes) (e : expr) (body : list stmt)
| SBlock (b : list stmt)
(* for lhs = range e ([def]: with :=), any other for; switch: the cases with their values, none for default *)
| SForRange (def : bool) (lhs : list expr) (e : expr) (body : list stmt)
| SFor (init : option stmt) (c : option expr) (post : option stmt) (body : list stmt)
| SSwitch (tag : option expr) (cases : list (option (list expr) * list stmt))
| SDefer (e : expr) | SGo (e : expr) | SBreak | SContinue.
Record func := mkFunc { f_recv : option (bytes * gtype); f_name : bytes; f_params : list (bytes * gtype); f_results : list (bytes * gtype); f_body : list stmt }.

(** * The parser: recursive descent; the first argument of every function is fuel *)
Definition tokens := list token.
Definition is_op (s : bytes) (t : token) : bool := match t with TOp x => beq x s | _ => false end.
Definition is_id (s : bytes) (t : token) : bool := match t with TId x => beq x s | _ => false end.
Definition peek (p : token -> bool) (ts : tokens) : bool := match ts with t :: _ => p t | [] => false end.
Definition expect (p : token -> bool) (ts : tokens) : option tokens := match ts with t :: ts => if p t then Some ts else None | [] => None end.
Definition ident (ts : tokens) : option (bytes * tokens) :=
  match ts with TId s :: ts => if mem s (str "return" :: keywords) then None else Some (s, ts) | _ => None end.
Notation "'do' p <- r ; k" := (match r with Some p => k | None => None end) (at level 200, p pattern, r at level 100, k at level 200).
Local Notation op s := (is_op (str s)) (only parsing).
Notation id s := (is_id (str s)) (only parsing).

(** Skip a parenthesised or braced part, d brackets deep. *)
Fixpoint p_skip (d : nat) (ts : tokens) : option tokens :=
  match ts with
  | [] => None
  | t :: ts =>
      if op "(" t || op "{" t then p_skip (S d) ts
      else if op ")" t || op "}" t then match d with S (S d) => p_skip (S d) ts | _ => Some ts end
      else match d with O => None | _ => p_skip d ts end
  end.
Definition basic_start (ts : tokens) : bool :=
  peek (op "*") ts || peek (op "[") ts || peek (id "chan") ts || peek (id "map") ts || peek (id "func") ts || peek (id "interface") ts || peek (id "struct") ts ||
  match ident ts with Some _ => true | None => false end.
Fixpoint p_type (n : nat) (ts : tokens) : option (gtype * tokens) :=
  match n with
  | O => None
  | S n =>
    if peek (op "*") ts then do (t, ts) <- p_type n (tl ts); Some (GPtr t, ts)
    else if peek (op "[") ts then
      match tl ts with
      | TNum k :: ts => do ts <- expect (op "]") ts; do (t, ts) <- p_type n ts; Some (GArr k t, ts)
      | ts => do ts <- expect (op "]") ts; do (t, ts) <- p_type n ts; Some (GSlice t, ts)
      end
    else if peek (id "chan") ts then do (t, ts) <- p_type n (tl ts); Some (GChan t, ts)
    else if peek (op "...") ts then do (t, ts) <- p_type n (tl ts); Some (GDots t, ts)
    else if peek (id "map") ts then
      do ts <- expect (op "[") (tl ts); do (k, ts) <- p_type n ts; do ts <- expect (op "]") ts; do (v, ts) <- p_type n ts; Some (GMap k v, ts)
    else if peek (id "interface") ts then do ts <- (if peek (op "{") (tl ts) then p_skip 0 (tl ts) else None); Some (GIface, ts)
    else if peek (id "func") ts then
      do ts <- (if peek (op "(") (tl ts) then p_skip 0 (tl ts) else None);
      if peek (op "(") ts then do ts <- p_skip 0 ts; Some (GFunc, ts)
      else if basic_start ts then do (_, ts) <- p_type n ts; Some (GFunc, ts) else Some (GFunc, ts)
    else if peek (id "struct") ts then do ts <- expect (op "{") (tl ts); do (fs, ts) <- p_fields n ts; Some (GStruct fs, ts)
    else do (a, ts) <- ident ts;
      if peek (op ".") ts then do (b, ts) <- ident (tl ts); Some (GQual a b, ts) else Some (GName a, ts)
  end
(** Fields "name type" or an embedded "type" up to the closing brace. *)
with p_fields (n : nat) (ts : tokens) : option (list (bytes * gtype) * tokens) :=
  match n with
  | O => None
  | S n =>
    if peek (op "}") ts then Some ([], tl ts)
    else
      do (x, ts') <- ident ts;
      do (f, ts) <-
        (match ts' with
         | TSemi :: _ => Some ((x, GName x), ts')
         | _ => if peek (op ".") ts' then do (y, ts) <- ident (tl ts'); Some ((y, GQual x y), ts)
                else do (t, ts) <- p_type n ts'; Some ((x, t), ts)
         end);
      match ts with
      | TSemi :: ts => do (l, ts) <- p_fields n ts; Some (f :: l, ts)
      | _ => if peek (op "}") ts then Some ([f], tl ts) else None
      end
  end.

(** Precedence of a binary operator; 0: not one. *)
Definition prec (t : token) : nat :=
  match t with
  | TOp s =>
      if mem s ([str "||"]) then 1 else if mem s ([str "&&"]) then 2
      else if mem s ([str "=="; str "!="; str "<"; str "<="; str ">"; str ">="]) then 3
      else if mem s ([str "+"; str "-"; str "|"; str "^"]) then 4
      else if mem s ([str "*"; str "/"; str "<<"; str ">>"; str "&"]) then 5 else 0
  | _ => 0
  end.
(** An operand that can be the type of a composite literal. *)
Definition as_type (e : expr) : option gtype :=
  match e with EId x => Some (GName x) | EDot (EId p) x => Some (GQual p x) | EType t => Some t | _ => None end.
(** An element of a slice written without its type: T{...} or &T{...}.  The parser first gives it no name. *)
Definition elided (t : gtype) (e : expr) : expr :=
  match e with
  | EComp (GName []) els => match t with GPtr t => EUn (str "&") (EComp t els) | t => EComp t els end
  | e => e
  end.
Definition elements (t : gtype) (els : list (option bytes * expr)) : list (option bytes * expr) :=
  match t with GSlice t => map (fun x => (fst x, elided t (snd x))) els | _ => els end.
(** A list "name type, ..." up to and including the closing parenthesis. *)
Fixpoint p_params (n : nat) (ts : tokens) : option (list (bytes * gtype) * tokens) :=
  match n with
  | O => None
  | S n =>
    if peek (op ")") ts then Some ([], tl ts)
    else
      do (x, ts) <- ident ts; do (t, ts) <- p_type n ts;
      if peek (op ",") ts then do (l, ts) <- p_params n (tl ts); Some ((x, t) :: l, ts)
      else do ts <- expect (op ")") ts; Some ([(x, t)], ts)
  end.
(** A list "type, ..." up to and including the closing parenthesis: parameters or results without names. *)
Fixpoint p_types (n : nat) (ts : tokens) : option (list (bytes * gtype) * tokens) :=
  match n with
  | O => None
  | S n =>
    do (t, ts) <- p_type n ts;
    if peek (op ",") ts then do (l, ts) <- p_types n (tl ts); Some (([], t) :: l, ts)
    else do ts <- expect (op ")") ts; Some ([([], t)], ts)
  end.
Definition p_results (n : nat) (ts : tokens) : option (list (bytes * gtype) * tokens) :=
  if peek (op "(") ts then match p_params n (tl ts) with Some r => Some r | None => p_types n (tl ts) end
  else if basic_start ts then do (t, ts) <- p_type n ts; Some ([([], t)], ts) else Some ([], ts).
(** [lit]: may a composite literal follow a type name here?  (Not in the header of an if, for or switch, where the brace opens the body.) *)
Fixpoint p_expr (n : nat) (lit : bool) (p : nat) (ts : tokens) : option (expr * tokens) :=
  match n with O => None | S n => do (e, ts) <- p_unary n lit ts; p_rest n lit p e ts end
with p_rest (n : nat) (lit : bool) (p : nat) (l : expr) (ts : tokens) : option (expr * tokens) :=
  match n with
  | O => None
  | S n =>
    match ts with
    | TOp o :: ts' =>
        let q := prec (TOp o) in
        if Nat.ltb p q then do (r, ts) <- p_expr n lit q ts'; p_rest n lit p (EBin o l r) ts else Some (l, ts)
    | _ => Some (l, ts)
    end
  end
with p_unary (n : nat) (lit : bool) (ts : tokens) : option (expr * tokens) :=
  match n with
  | O => None
  | S n =>
    match ts with
    | TOp o :: ts' => if mem o ([str "&"; str "<-"; str "!"; str "*"; str "^"; str "-"]) then do (e, ts) <- p_unary n lit ts'; Some (EUn o e, ts) else p_operand n lit ts
    | _ => p_operand n lit ts
    end
  end
with p_operand (n : nat) (lit : bool) (ts : tokens) : option (expr * tokens) :=
  match n with
  | O => None
  | S n =>
    match ts with
    | TNum k :: ts => p_suffix n lit (ENum k) ts
    | TStr s :: ts => p_suffix n lit (EStr s) ts
    | _ =>
        if peek (op "(") ts then
          do (e, ts) <- p_expr n true 0 (tl ts); do ts <- expect (op ")") ts; p_suffix n lit e ts
        else if peek (id "func") ts then
          do ts <- expect (op "(") (tl ts); do (ps, ts) <- p_params n ts; do (rs, ts) <- p_results n ts;
          do ts <- expect (op "{") ts; do (b, ts) <- p_stmts n ts; p_suffix n lit (EFunc ps rs b) ts
        else if peek (op "[") ts || peek (id "chan") ts || peek (id "map") ts || peek (id "struct") ts then do (t, ts) <- p_type n ts; p_suffix n lit (EType t) ts
        else do (x, ts) <- ident ts; p_suffix n lit (EId x) ts
    end
  end
with p_suffix (n : nat) (lit : bool) (e : expr) (ts : tokens) : option (expr * tokens) :=
  match n with
  | O => None
  | S n =>
    if peek (op ".") ts then
      if peek (op "(") (tl ts) then do (t, ts) <- p_type n (tl (tl ts)); do ts <- expect (op ")") ts; p_suffix n lit (EAssert e t) ts
      else do (f, ts) <- ident (tl ts); p_suffix n lit (EDot e f) ts
    else if peek (op "(") ts then
      do (args, ts) <- p_args n (op ")") (tl ts);
      match args with
      | (sp, args) => p_suffix n lit (if sp : bool then ESpread e (map snd args) else ECall e (map snd args)) ts
      end
    else if peek (op "[") ts then
      if peek (op ":") (tl ts) then
        if peek (op "]") (tl (tl ts)) then p_suffix n lit (ESlice e None None) (tl (tl (tl ts)))
        else do (hi, ts) <- p_expr n true 0 (tl (tl ts)); do ts <- expect (op "]") ts; p_suffix n lit (ESlice e None (Some hi)) ts
      else
        do (i, ts) <- p_expr n true 0 (tl ts);
        if peek (op ":") ts then do ts <- expect (op "]") (tl ts); p_suffix n lit (ESlice e (Some i) None) ts
        else do ts <- expect (op "]") ts; p_suffix n lit (EIdx e i) ts
    else if peek (op "{") ts then
      match as_type e with
      | Some t =>
          if lit then do (els, ts) <- p_args n (op "}") (tl ts); match els with (false, els) => p_suffix n lit (EComp t (elements t els)) ts | _ => None end
          else Some (e, ts)
      | None => Some (e, ts)
      end
    else Some (e, ts)
  end
(** The rest of a list of arguments or of elements with optional keys, up to the closing token; a comma at the end is allowed.
    The boolean: three dots after the last argument. *)
with p_args (n : nat) (close : token -> bool) (ts : tokens) : option (bool * list (option bytes * expr) * tokens) :=
  match n with
  | O => None
  | S n =>
    if peek close ts then Some (false, [], tl ts)
    else
      do (e, ts) <- (if peek (op "{") ts then do (els, ts) <- p_args n (op "}") (tl ts); match els with (false, els) => Some (EComp (GName []) els, ts) | _ => None end
                     else p_expr n true 0 ts);
      let key := if peek (op ":") ts then match e with EId k => Some (Some k, tl ts) | _ => None end else Some (None, ts) in
      do (k, ts) <- key;
      do (e, ts) <- match k with Some _ => p_expr n true 0 ts | None => Some (e, ts) end;
      if peek (op ",") ts then do (l, ts) <- p_args n close (tl ts); match l with (sp, l) => Some (sp, (k, e) :: l, ts) end
      else if peek (op "...") ts then do ts <- expect close (tl ts); Some (true, [(k, e)], ts)
      else do ts <- expect close ts; Some (false, [(k, e)], ts)
  end
with p_exprs (n : nat) (lit : bool) (ts : tokens) : option (list expr * tokens) :=
  match n with
  | O => None
  | S n =>
    do (e, ts) <- p_expr n lit 0 ts;
    if peek (op ",") ts then do (l, ts) <- p_exprs n lit (tl ts); Some (e :: l, ts) else Some ([e], ts)
  end
with p_simple (n : nat) (lit : bool) (ts : tokens) : option (stmt * tokens) :=
  match n with
  | O => None
  | S n =>
    do (l, ts) <- p_exprs n lit ts;
    match ts with
    | TOp o :: ts' =>
        if mem o ([str "="; str ":="; str "|="; str "+="; str "*="]) then
          if peek (id "range") ts' then
            do (e, ts) <- p_expr n false 0 (tl ts');
            match o, l with
            | _, [EId i] => if beq o (str ":=") then Some (SRange i e [], ts) else Some (SForRange false l e [], ts)
            | _, _ => Some (SForRange (beq o (str ":=")) l e [], ts)
            end
          else do (r, ts) <- p_exprs n lit ts'; Some (SAssign o l r, ts)
        else match l with
             | [e] => if beq o (str "<-") then do (x, ts) <- p_expr n lit 0 ts'; Some (SSend e x, ts)
                      else if beq o (str "++") then Some (SAssign (str "+=") [e] [ENum 1], ts') else Some (SExpr e, ts)
             | _ => None
             end
    | _ => match l with [e] => Some (SExpr e, ts) | _ => None end
    end
  end
with p_stmt (n : nat) (ts : tokens) : option (stmt * tokens) :=
  match n with
  | O => None
  | S n =>
    if peek (id "var") ts then
      do (x, ts) <- ident (tl ts);
      if peek (op "=") ts then do (e, ts) <- p_expr n true 0 (tl ts); Some (SVar x None (Some e), ts)
      else
        do (t, ts) <- p_type n ts;
        if peek (op "=") ts then do (e, ts) <- p_expr n true 0 (tl ts); Some (SVar x (Some t) (Some e), ts) else Some (SVar x (Some t) None, ts)
    else if peek (id "return") ts then
      match tl ts with
      | TSemi :: _ => Some (SReturn [], tl ts)
      | ts => if peek (op "}") ts then Some (SReturn [], ts) else do (es, ts) <- p_exprs n true ts; Some (SReturn es, ts)
      end
    else if peek (id "break") ts then Some (SBreak, tl ts)
    else if peek (id "continue") ts then Some (SContinue, tl ts)
    else if peek (id "defer") ts then do (e, ts) <- p_expr n true 0 (tl ts); Some (SDefer e, ts)
    else if peek (id "go") ts then do (e, ts) <- p_expr n true 0 (tl ts); Some (SGo e, ts)
    else if peek (id "if") ts then
      do (i, ts) <- p_simple n false (tl ts);
      do (init, c, ts) <- match ts with
                          | TSemi :: ts => do (c, ts) <- p_expr n false 0 ts; Some (Some i, c, ts)
                          | _ => match i with SExpr c => Some (None, c, ts) | _ => None end
                          end;
      do ts <- expect (op "{") ts;
      do (th, ts) <- p_stmts n ts;
      if peek (id "else") ts then
        if peek (id "if") (tl ts) then do (s, ts) <- p_stmt n (tl ts); Some (SIf init c th [s], ts)
        else do ts <- expect (op "{") (tl ts); do (el, ts) <- p_stmts n ts; Some (SIf init c th el, ts)
      else Some (SIf init c th [], ts)
    else if peek (id "switch") ts then
      do (tag, ts) <- (if peek (op "{") (tl ts) then Some (None, tl ts) else do (e, ts) <- p_expr n false 0 (tl ts); Some (Some e, ts));
      do ts <- expect (op "{") ts;
      do (cs, ts) <- p_cases n ts; Some (SSwitch tag cs, ts)
    else if peek (id "for") ts then
      if peek (op "{") (tl ts) then do (b, ts) <- p_stmts n (tl (tl ts)); Some (SFor None None None b, ts)
      else
        do (i, ts) <- p_simple n false (tl ts);
        match i with
        | SRange x e [] => do ts <- expect (op "{") ts; do (b, ts) <- p_stmts n ts; Some (SRange x e b, ts)
        | SForRange d l e [] => do ts <- expect (op "{") ts; do (b, ts) <- p_stmts n ts; Some (SForRange d l e b, ts)
        | _ =>
            match ts with
            | TSemi :: ts =>
                do (c, ts) <- p_expr n false 0 ts;
                match ts with
                | TSemi :: ts =>
                    do (q, ts) <- p_simple n false ts;
                    do ts <- expect (op "{") ts; do (b, ts) <- p_stmts n ts; Some (SFor (Some i) (Some c) (Some q) b, ts)
                | _ => None
                end
            | _ => match i with
                   | SExpr c => do ts <- expect (op "{") ts; do (b, ts) <- p_stmts n ts; Some (SFor None (Some c) None b, ts)
                   | _ => None
                   end
            end
        end
    else if peek (op "{") ts then do (b, ts) <- p_stmts n (tl ts); Some (SBlock b, ts)
    else p_simple n true ts
  end
(** Statements up to and including the closing brace. *)
with p_stmts (n : nat) (ts : tokens) : option (list stmt * tokens) :=
  match n with
  | O => None
  | S n =>
    if peek (op "}") ts then Some ([], tl ts)
    else
      do (s, ts) <- p_stmt n ts;
      match ts with
      | TSemi :: ts => do (l, ts) <- p_stmts n ts; Some (s :: l, ts)
      | _ => if peek (op "}") ts then Some ([s], tl ts) else None
      end
  end
(** The cases of a switch, up to and including the closing brace. *)
with p_cases (n : nat) (ts : tokens) : option (list (option (list expr) * list stmt) * tokens) :=
  match n with
  | O => None
  | S n =>
    if peek (op "}") ts then Some ([], tl ts)
    else
      do (vs, ts) <- (if peek (id "default") ts then Some (None, tl ts)
                      else do ts <- expect (id "case") ts; do (es, ts) <- p_exprs n true ts; Some (Some es, ts));
      do ts <- expect (op ":") ts;
      do (b, ts) <- p_clause n ts;
      do (l, ts) <- p_cases n ts; Some ((vs, b) :: l, ts)
  end
(** The statements of a case: up to the next one or the closing brace, which stays. *)
with p_clause (n : nat) (ts : tokens) : option (list stmt * tokens) :=
  match n with
  | O => None
  | S n =>
    if peek (op "}") ts || peek (id "case") ts || peek (id "default") ts then Some ([], ts)
    else
      do (s, ts) <- p_stmt n ts;
      match ts with
      | TSemi :: ts => do (l, ts) <- p_clause n ts; Some (s :: l, ts)
      | _ => if peek (op "}") ts then Some ([s], ts) else None
      end
  end.
Definition semi (ts : tokens) : option tokens := expect (fun t => match t with TSemi => true | _ => false end) ts.
Definition p_func (n : nat) (ts : tokens) : option (func * tokens) :=
  do ts <- expect (id "func") ts;
  do (recv, ts) <- (if peek (op "(") ts then
                      do (l, ts) <- p_params n (tl ts); match l with [r] => Some (Some r, ts) | _ => None end
                    else Some (None, ts));
  do (name, ts) <- ident ts;
  do ts <- expect (op "(") ts; do (ps, ts) <- match p_params n ts with Some r => Some r | None => p_types n ts end;
  do (rs, ts) <- p_results n ts;
  do ts <- expect (op "{") ts;
  do (body, ts) <- p_stmts n ts;
  do ts <- semi ts;
  Some (mkFunc recv name ps rs body, ts).
(** Top-level declarations.  A constant or variable: name, type, value; in a const block without a value the previous type
    and value are repeated, iota counting on ([DConst] has the iota). *)
Inductive decl :=
| DFunc (f : func)
| DConst (x : bytes) (iota : N) (t : option gtype) (e : expr)
| DVar (x : bytes) (t : option gtype) (e : option expr)
| DType (x : bytes) (t : gtype).
(** [name [type] [= value]] *)
Definition p_spec (n : nat) (ts : tokens) : option (bytes * option gtype * option expr * tokens) :=
  do (x, ts) <- ident ts;
  do (t, ts) <- (if peek (op "=") ts then Some (None, ts) else match ts with TSemi :: _ => Some (None, ts) | _ => do (t, ts) <- p_type n ts; Some (Some t, ts) end);
  if peek (op "=") ts then do (e, ts) <- p_expr n true 0 (tl ts); Some (x, t, Some e, ts) else Some (x, t, None, ts).
Definition const_of (i : N) (x : bytes) (t : option gtype) (e : option expr) (prev : option (option gtype * expr)) : option (decl * option (option gtype * expr)) :=
  match e, t, prev with
  | Some e, _, _ => Some (DConst x i t e, Some (t, e))
  | None, None, Some (t, e) => Some (DConst x i t e, prev)
  | _, _, _ => None
  end.
Fixpoint p_specs (n : nat) (const : bool) (i : N) (prev : option (option gtype * expr)) (ts : tokens) : option (list decl * tokens) :=
  match n with
  | O => None
  | S n =>
    if peek (op ")") ts then Some ([], tl ts)
    else
      do (x, t, e, ts) <- p_spec n ts;
      do ts <- semi ts;
      do (d, prev) <- (if const then const_of i x t e prev else Some (DVar x t e, None));
      do (l, ts) <- p_specs n const (i + 1) prev ts; Some (d :: l, ts)
  end.
Fixpoint p_tspecs (n : nat) (ts : tokens) : option (list decl * tokens) :=
  match n with
  | O => None
  | S n =>
    if peek (op ")") ts then Some ([], tl ts)
    else do (x, ts) <- ident ts; do (t, ts) <- p_type n ts; do ts <- semi ts; do (l, ts) <- p_tspecs n ts; Some (DType x t :: l, ts)
  end.
Definition p_decl (n : nat) (ts : tokens) : option (list decl * tokens) :=
  if peek (id "func") ts then do (f, ts) <- p_func n ts; Some ([DFunc f], ts)
  else if peek (id "type") ts then
    if peek (op "(") (tl ts) then do (l, ts) <- p_tspecs n (tl (tl ts)); do ts <- semi ts; Some (l, ts)
    else do (x, ts) <- ident (tl ts); do (t, ts) <- p_type n ts; do ts <- semi ts; Some ([DType x t], ts)
  else
    do const <- (if peek (id "const") ts then Some true else if peek (id "var") ts then Some false else None);
    if peek (op "(") (tl ts) then do (l, ts) <- p_specs n const 0 None (tl (tl ts)); do ts <- semi ts; Some (l, ts)
    else
      do (x, t, e, ts) <- p_spec n (tl ts); do ts <- semi ts;
      do (d, _) <- (if const : bool then const_of 0 x t e None else Some (DVar x t e, None)); Some ([d], ts).
Fixpoint p_decls (n : nat) (ts : tokens) : option (list decl) :=
  match n with
  | O => None
  | S n => match ts with [] => Some [] | _ => do (d, ts) <- p_decl n ts; do l <- p_decls n ts; Some (d ++ l) end
  end.
(** Everything between "import (" and ")" *)
Fixpoint p_imports (n : nat) (ts : tokens) : option tokens :=
  match n with
  | O => None
  | S n =>
    match ts with
    | TStr _ :: TSemi :: ts => p_imports n ts
    | TId _ :: TStr _ :: TSemi :: ts => p_imports n ts
    | TOp _ :: TSemi :: ts' => if peek (op ")") ts then Some ts' else None
    | _ => None
    end
  end.
Definition fuel : nat := 1000.
Definition p_file (ts : tokens) : option (list decl) :=
  do ts <- expect (id "package") ts; do (_, ts) <- ident ts; do ts <- semi ts;
  do ts <- (if peek (id "import") ts then
              if peek (op "(") (tl ts) then p_imports fuel (tl (tl ts))
              else match tl ts with TStr _ :: TSemi :: ts => Some ts | _ => None end
            else Some ts);
  p_decls fuel ts.
(** A source file; the functions of one that has only functions. *)
Definition parse_file (src : bytes) : option (list decl) := do ts <- lex (S (List.length src)) false src; p_file ts.
Fixpoint only_funcs (ds : list decl) : option (list func) :=
  match ds with
  | [] => Some []
  | DFunc f :: ds => do l <- only_funcs ds; Some (f :: l)
  | _ => None
  end.
Definition parse (src : bytes) : option (list func) := do ds <- parse_file src; only_funcs ds.
