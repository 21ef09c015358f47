(** Model of the Go library functions path.Clean, path.Join, path.Dir and filepath.IsAbs (Unix), which
    /repo/filesystem/filesystem.go calls to build file names.  The library source is not part of /repo; these
    definitions follow the byte loops of Go's src/path/path.go (Clean, Join, Split, Dir). *)
From Verif Require Import Base.

Definition slash : byte := "/"%byte.
Definition dot : byte := "."%byte.
Definition is_slash (b : byte) : bool := Byte.eqb b slash.
Definition is_dot (b : byte) : bool := Byte.eqb b dot.
(** [r == n || path[r] == '/'] for the rest of the path from r on. *)
Definition at_end (rest : bytes) : bool := match rest with [] => true | b :: _ => is_slash b end.

(** [out.w--; for out.w > dotdot && out.index(out.w) != '/' { out.w-- }].  The output buffer is kept backwards, so
    out.w is its length and out.index(out.w) is the byte just dropped. *)
Fixpoint drop_elem (dotdot : nat) (out : bytes) : bytes :=
  match out with
  | [] => []
  | b :: out' => if Nat.leb (List.length out') dotdot || is_slash b then out' else drop_elem dotdot out'
  end.

(** [for ; r < n && path[r] != '/'; r++ { out.append(path[r]) }] *)
Fixpoint copy_elem (path out : bytes) : bytes * bytes :=
  match path with
  | [] => ([], out)
  | b :: path' => if is_slash b then (path, out) else copy_elem path' (b :: out)
  end.

(** The loop of path.Clean.  path: the rest from r on; every turn consumes a byte, so [length path] turns suffice. *)
Fixpoint clean_loop (fuel : nat) (rooted : bool) (path out : bytes) (dotdot : nat) : bytes :=
  match fuel with
  | O => out
  | S fuel =>
      match path with
      | [] => out
      | b :: path1 =>
          if is_slash b then clean_loop fuel rooted path1 out dotdot (* empty path element *)
          else if is_dot b && at_end path1 then clean_loop fuel rooted path1 out dotdot (* . element *)
          else if is_dot b && match path1 with b1 :: path2 => is_dot b1 && at_end path2 | [] => false end then
            (* .. element: remove to last / *)
            let path2 := skipn 1 path1 in
            if Nat.ltb dotdot (List.length out) then clean_loop fuel rooted path2 (drop_elem dotdot out) dotdot (* can backtrack *)
            else if negb rooted then (* cannot backtrack, but not rooted, so append .. element *)
              let out := if Nat.ltb 0 (List.length out) then slash :: out else out in
              let out := dot :: dot :: out in
              clean_loop fuel rooted path2 out (List.length out)
            else clean_loop fuel rooted path2 out dotdot
          else (* real path element *)
            let out := if (if rooted then negb (Nat.eqb (List.length out) 1) else negb (Nat.eqb (List.length out) 0)) then slash :: out else out in
            let (path2, out) := copy_elem path out in
            clean_loop fuel rooted path2 out dotdot
      end
  end.

(** path.Clean *)
Definition Clean (path : bytes) : bytes :=
  match path with
  | [] => [dot]
  | b :: path1 =>
      let out := if is_slash b
                 then clean_loop (List.length path) true path1 [slash] 1
                 else clean_loop (List.length path) false path [] 0 in
      match out with [] => [dot] | _ => rev out end
  end.

(** path.Join with two arguments, the only form used in /repo. *)
Definition Join (a b : bytes) : bytes :=
  match a, b with
  | [], [] => []
  | [], _ => Clean b
  | _, _ => Clean (a ++ slash :: b)
  end.

(** path.Split, first result: everything up to and including the last slash. *)
Fixpoint upto_last_slash (path : bytes) : bytes :=
  match path with
  | [] => []
  | b :: r => match upto_last_slash r with
              | [] => if is_slash b then [b] else []
              | d => b :: d
              end
  end.
(** path.Dir *)
Definition Dirname (path : bytes) : bytes := Clean (upto_last_slash path).
(** filepath.IsAbs (Unix): strings.HasPrefix(path, "/") *)
Definition IsAbs (path : bytes) : bool := match path with b :: _ => is_slash b | [] => false end.

Example Clean_ex : map Clean [str ""; str "a//b"; str "/../a/./b/.."; str "../../x/.."; str "a/.."; str "/"; str "a/b/../../.."]
  = [str "."; str "a/b"; str "/a"; str "../.."; str "."; str "/"; str ".."].
Proof. reflexivity. Qed.
Example Join_ex : Join (str "/srv") (Join (str "/") (str "../../etc")) = str "/srv/etc" /\ Join (str "/srv") (str "../etc") = str "/etc"
  /\ Dirname (str "/a/b") = str "/a" /\ Dirname (str "b") = str "." /\ Dirname (str "/b") = str "/".
Proof. repeat split; reflexivity. Qed.
