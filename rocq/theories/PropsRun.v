(** Property C60: the Go text of package ufs, run statement by statement. *)
From Verif Require Import Base GoBuf CodecPrim Types Codec Msgs StubPrim GoPath GoSyntax GoRun GoProg GoText Ufs GoFmt UfsRun UfsRunLemmas UfsRunThm UfsRunThm2 UfsRunThm3 MemOS.

(** * C60 *)
(** The machine of GoRun.v runs one program: what is in the files. *)
Theorem C60_program : ufs_program = program_of ufs_decls.
Proof. vm_cast_no_check (eq_refl ufs_program). Qed.
Print Assumptions C60_program.
(** One method call, in any state the file server can be in. *)
Theorem C60_request : forall W (h : os W) c L s u m r u' w' tr, holds c L s u -> run_prog h (method c m) u (osw s) = (r, u', w', tr) ->
  exists n out s', run h L n (request L m) s = Some (out, s') /\ same_result m r out s' /\ (r <> None -> holds c L s' u') /\
    osw s' = w' /\ calls_made s' = calls_made s ++ filter external tr.
Proof. exact @text_request. Qed.
Print Assumptions C60_request.
(** The file server that the function literal in NewUFS makes, and all requests it then gets: the text answers, calls the
    operating system, locks and panics exactly as the model does. *)
Theorem C60_text : forall W (h : os W) c L s ms rs u' w' tr, locked s = false -> (forall a, next s <= a -> heap s a = None) ->
  heap s (a_user L) = Some (VStr (user c)) -> heap s (a_root L) = Some (VStr (rootPath c)) -> heap s (a_debug L) = Some (VI 64 0) -> IOunit c = 8192 ->
  answers h c ms no_fids (osw s) = (rs, u', w', tr) ->
  exists n A M s0, run h L n create_server s = Some (Returned [VPtr (str "FileServer") A []], s0) /\
    let L' := mkLayout A M (a_user L) (a_root L) (a_debug L) in
    (exists s', text_serves h L' s0 ms rs s') /\
    (forall rs' s', text_serves h L' s0 ms rs' s' -> rs' = rs /\ osw s' = w' /\ calls_made s' = calls_made s ++ filter external tr).
Proof. exact @text_from_start. Qed.
Print Assumptions C60_text.
(** From the text alone: on a small file system, a file server is made and gets 25 requests. *)
Definition cells : N -> option value := fun a =>
  if a =? 0 then Some (VStr (str "me")) else if a =? 1 then Some (VStr (str "/x")) else if a =? 2 then Some (VI 64 0) else None.
Definition files : MemOS.world :=
  mkWorld [(str "/", 1); (str "/x", 2); (str "/x/a", 3)] (fun i => mkNode (i <? 3) 493 (str "hello") (mkTime 100 0) (mkTime 100 0)) 4 (fun _ => None) 100 (mkTime 1000 0).
Definition keep (mode mtime len : N) (name : bytes) : bytes :=
  Marshaldir (mkDir 65535 4294967295 (mkQID 255 4294967295 18446744073709551615) mode mtime 4294967295 len name [] [] []).
Definition requests : list tmsg :=
  [MTversion (mkTversionPkt 8192 (str "9P2000")); MTversion (mkTversionPkt 8192 (str "9P")); MTattach (mkTattachPkt 1 NOFID (str "me") (str "/"));
   MTwalk (mkTwalkPkt 1 2 [str "a"]); MTwalk (mkTwalkPkt 1 3 []); MTwalk (mkTwalkPkt 1 3 [str "a"]); MTwalk (mkTwalkPkt 1 5 [str "b"; str "c"]);
   MTopen (mkTopenPkt 2 2); MTopen (mkTopenPkt 3 0); MTread (mkTreadPkt 2 1 3); MTwrite (mkTwritePkt 2 3 (str "xyz")); MTread (mkTreadPkt 2 0 30);
   MTread (mkTreadPkt 3 0 300); MTread (mkTreadPkt 3 71 300); MTread (mkTreadPkt 3 0 3); MTstat (mkTstatPkt 2); MTcreate (mkTcreatePkt 1 (str "nn") 493 1);
   MTwstat (mkTwstatPkt 2 (keep 4294967295 7 18446744073709551615 (str "zz"))); MTwstat (mkTwstatPkt 2 (keep 384 4294967295 2 (str "/q")));
   MTwalk (mkTwalkPkt 2 9 []); MTflush (mkTflushPkt 3); MTclunk (mkTclunkPkt 2); MTclunk (mkTclunkPkt 2); MTremove (mkTremovePkt 1);
   MTwstat (mkTwstatPkt 3 (str "abc")); MTread (mkTreadPkt 9 0 1); MTopen (mkTopenPkt 9 0); MTread (mkTreadPkt 9 0 (-1))].
Fixpoint serve_all {W} (h : os W) (L : layout) (ms : list tmsg) (s : store W) : list (option (option (answerOf rmsg))) * list event :=
  match ms with
  | [] => ([], calls_made s)
  | m :: ms =>
    match run h L 5000 (request L m) s with
    | Some (Returned vs, s) => let (rs, ev) := serve_all h L ms s in (Some (reply_of s m vs) :: rs, ev)
    | Some (Panicked, s) => ([Some None], calls_made s)
    | None => ([None], calls_made s)
    end
  end.
Example C60_case :
  match run mem_os (mkLayout 0 0 0 1 2) 2000 create_server (mkStore cells 3 false files []) with
  | Some (Returned [VPtr _ a []], s0) =>
      match heap s0 a with
      | Some (VStruct _ fs) =>
          match assoc (str "files") fs with
          | Some (VPtr _ m []) =>
              let '(rs, _, _, tr) := answers mem_os (mkConfig (str "/x") (str "me") 8192) requests no_fids files in
              serve_all mem_os (mkLayout a m 0 1 2) requests s0 = (map Some rs, filter external tr) /\ length rs = 28%nat /\
              nth_error rs 12 <> nth_error rs 14
          | _ => False
          end
      | _ => False
      end
  | _ => False
  end.
Proof. vm_compute. repeat split. discriminate. Qed.
