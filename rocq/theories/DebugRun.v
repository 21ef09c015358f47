(** Running the text of debug.go. *)
From Verif Require Import Base GoBuf CodecPrim Types Codec Msgs StubPrim GoSyntax Ufs GoText GoRun GoFmt GoProg GoWp ServerSpec Debugfs.
From Verif Require UfsRun.

(** Package debugfs, with the types of package protocol. *)
Definition debug_decls : list decl := file protocol_text ++ file debug_text.
Definition debug_program : program := Eval vm_compute in program_of debug_decls.

(** * Requests and replies as Go values *)
(** The name of the method for a request, with its arguments. *)
Definition method (m : tmsg) : bytes := skipn 11 (fst (UfsRun.method_call m)).
Definition arguments (m : tmsg) : list value := snd (UfsRun.method_call m).
Definition v_qids (l : list QID) : list value := map UfsRun.v_qid l.
(** What a method returns besides the error: for a reply, and together with an error (an error comes with zero values). *)
Definition v_reply (r : rmsg) : list value :=
  match r with
  | MRversion p => [VU 32 (Rversion_RMsize p); VStr (Rversion_RVersion p)]
  | MRattach p => [UfsRun.v_qid (Rattach_QID p)]
  | MRwalk p => [VList (v_qids (Rwalk_QIDs p))]
  | MRopen p => [UfsRun.v_qid (Ropen_OQID p); VU 32 (Ropen_IOUnit p)]
  | MRcreate p => [UfsRun.v_qid (Rcreate_OQID p); VU 32 (Rcreate_IOUnit p)]
  | MRread p => [VBytes (Rread_Data p)]
  | MRwrite p => [VI 32 (Rwrite_RLen p)]
  | MRstat p => [VBytes (Rstat_B p)]
  | _ => []
  end.
Definition zeroQ : value := UfsRun.v_qid zeroQID.
Definition v_zero (m : tmsg) : list value :=
  match m with
  | MTversion _ => [VU 32 0; VStr []]
  | MTattach _ => [zeroQ]
  | MTwalk _ => [VNil]
  | MTopen _ | MTcreate _ => [zeroQ; VU 32 0]
  | MTread _ | MTstat _ => [VNil]
  | MTwrite _ => [VI 32 0]
  | _ => []
  end.
(** The request a call of a method of the wrapped server is. *)
Fixpoint strings_of (vs : list value) : option (list bytes) :=
  match vs with [] => Some [] | VStr s :: vs => match strings_of vs with Some l => Some (s :: l) | None => None end | _ => None end.
Definition as_message (f : bytes) (vs : list value) : option tmsg :=
  let is x := beq f x in
  match vs with
  | [VU _ a; VStr b] => if is (str "NineServer.Rversion") then Some (MTversion (mkTversionPkt a b)) else None
  | [VU _ a; VU _ b; VStr d; VStr e] => if is (str "NineServer.Rattach") then Some (MTattach (mkTattachPkt a b d e)) else None
  | [VU _ a; VU _ b; VList d] => if is (str "NineServer.Rwalk") then match strings_of d with Some d => Some (MTwalk (mkTwalkPkt a b d)) | None => None end else None
  | [VU _ a; VU _ b] => if is (str "NineServer.Ropen") then Some (MTopen (mkTopenPkt a b)) else None
  | [VU _ a; VStr b; VU _ d; VU _ e] => if is (str "NineServer.Rcreate") then Some (MTcreate (mkTcreatePkt a b d e)) else None
  | [VU _ a; VU _ b; VI _ d] => if is (str "NineServer.Rread") then Some (MTread (mkTreadPkt a b d)) else None
  | [VU _ a; VU _ b; VBytes d] => if is (str "NineServer.Rwrite") then Some (MTwrite (mkTwritePkt a b d)) else None
  | [VU _ a; VBytes b] => if is (str "NineServer.Rwstat") then Some (MTwstat (mkTwstatPkt a b)) else None
  | [VU _ a] => if is (str "NineServer.Rflush") then Some (MTflush (mkTflushPkt a))
                else if is (str "NineServer.Rclunk") then Some (MTclunk (mkTclunkPkt a))
                else if is (str "NineServer.Rremove") then Some (MTremove (mkTremovePkt a))
                else if is (str "NineServer.Rstat") then Some (MTstat (mkTstatPkt a)) else None
  | _ => None
  end.

Section Debug.
Context {St : Type} (ns : NineServer St).
Notation M := (memory (St * list bytes)).
(** The format of a log line; the newline at its end is the one a log line gets anyway. *)
Definition newline : byte := x0a.
Fixpoint line_format (f : bytes) : bytes :=
  match f with [] => [] | c :: r => match r with [] => if Byte.eqb c newline then [] else [c] | _ => c :: line_format r end end.
Definition debug_call (f : bytes) (args : list value) (s : M) : reply (St * list bytes) :=
  match args with
  | VObj k _ :: args =>
      match as_message f args with
      | Some m =>
          match invoke ns (fst (rest s)) m with
          | NSOk x r => Answer (also (v_reply r) [VNil]) (with_rest s (x, snd (rest s)))
          | NSErr x e => Answer (also (v_zero m) [VErr (OSErr e)]) (with_rest s (x, snd (rest s)))
          | NSPanic => Crash
          end
      | None => NoAnswer
      end
  | VStr p :: args =>
      if beq f (str "log.Printf") then
        match format (line_format p) args with Some t => Answer [] (with_rest s (fst (rest s), snd (rest s) ++ [t])) | None => NoAnswer end
      else NoAnswer
  | [VBytes b] => if beq f (str "bytes.NewBuffer") then Answer [VPtr (str "bytes.Buffer") (free s) []] (with_new s (VBuf (Buf b []))) else NoAnswer
  | [VPtr _ a p] =>
      if beq f (str "Unmarshaldir") then
        match cells s a with
        | Some (VBuf b) =>
            match Unmarshaldir b with
            | UPanic => Crash
            | URet d _ b e => Answer [UfsRun.v_dir d; match e with Some e => VErr (OSErr e) | None => VNil end] (with_cell s a (VBuf b))
            end
        | _ => NoAnswer
        end
      else NoAnswer
  | _ => NoAnswer
  end.
Definition outside (r : req) (s : M) : reply (St * list bytes) := match r with RExt f args => debug_call f args s | _ => NoAnswer end.
End Debug.
(** debug.go:14-16 *)
Definition v_debug : value := VStruct (str "DebugFileServer") [(str "FileServer", VObj (str "NineServer") 0)].
Definition method_name (m : tmsg) : bytes := also (str "DebugFileServer.") (method m).
Definition debug_method (A : N) (m : tmsg) : machine := start (method_name m) [VPtr (str "DebugFileServer") A []] (arguments m).
