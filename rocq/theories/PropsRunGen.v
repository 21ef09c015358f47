(** Property C67: protocol.go declares 9P2000; C68: the text of gen.go, run, writes genout.go. *)
From Verif Require Import Base GoSyntax GoRun GoText GoProg GoWp GenGoText GenRun ProtocolSpec GenRunThm.
From Verif Require GoSem GenoutText.

(** * C67 *)
(** The text of protocol.go is parsed inside Coq; [protocol_consts], [protocol_types] and [protocol_names] are what it declares. *)
Theorem C67_parsed : parse_file (concat protocol_text) = Some protocol_file /\ p_consts (program_of protocol_file) = protocol_consts /\ types_of protocol_file = protocol_types /\
  map_literal (program_of protocol_file) (str "RPCNames") protocol_file = protocol_names.
Proof. exact protocol_parsed. Qed.
Print Assumptions C67_parsed.
(** The numbers are those of 9P2000. *)
Theorem C67_constants : forall x n, In (x, n) (message_types ++ other_constants) -> constant x = Some n.
Proof. exact constants_hold. Qed.
Print Assumptions C67_constants.
(** RPCNames gives every message type its name. *)
Theorem C67_names : forall x n, In (x, n) message_types -> name_in_text n = Some x.
Proof. exact names_hold. Qed.
Print Assumptions C67_names.
(** The fields of the struct of every message are the parts the manual lists, in this order; the same for qids and directory entries. *)
Theorem C67_layouts : forall x l, In (x, l) layouts -> struct_parts (x ++ str "Pkt") = Some l.
Proof. exact layouts_hold. Qed.
Print Assumptions C67_layouts.
Theorem C67_stat : struct_parts (str "QID") = Some qid_layout /\ struct_parts (str "Dir") = Some stat_layout.
Proof. exact dir_holds. Qed.
Print Assumptions C67_stat.
(** The tables in the model agree with the text: numbers in Types.v; constants, structs and integer types in GoSem.v. *)
Theorem C67_model : forall x n, In (x, n) model_constants -> constant x = Some n.
Proof. exact model_constants_hold. Qed.
Print Assumptions C67_model.
Theorem C67_tables :
  (forall x v, In (x, v) GoSem.constants -> v = GoSem.VNil \/ exists n, v = GoSem.VU 8 n /\ assoc x protocol_consts = Some (VU 8 n)) /\
  (forall x fs, In (x, fs) GoSem.struct_types -> assoc x protocol_types = Some (GStruct fs)) /\
  (forall x w s, In (x, (w, s)) GoSem.int_types -> declared_int x = Some (w, s)).
Proof. exact (conj sem_constants (conj sem_structs sem_ints)). Qed.
Print Assumptions C67_tables.
Example C67_case : constant (str "Twstat") = Some 126 /\ constant (str "DMDIR") = Some 2147483648 /\ constant (str "Tlast") = Some 128 /\ name_in_text 128 = None /\
  struct_parts (str "TwalkPkt") = Some [Bytes 4; Bytes 4; Strs] /\ struct_parts (str "Client") = None.
Proof. repeat split; vm_compute; reflexivity. Qed.

(** * C68 *)
(** Parsed and run statement by statement (package variables first, then main), with the struct types in the text of protocol.go
    behind reflect, the text of gen.go writes one file, genout.go, whose contents are those of the file in /repo; it reports nothing. *)
Theorem C68_generated : match go_run steps gen_program (file gen_text) with
  | Some (Returned [], s) => files (rest s) = [(str "genout.go", concat GenoutText.genout_text, 384)] /\ logged (rest s) = []
  | _ => False
  end.
Proof. exact gen_runs. Qed.
Print Assumptions C68_generated.
Theorem C68_parsed : parse_file (concat protocol_text) <> None /\ parse_file (concat gen_text) <> None.
Proof. exact gen_parsed. Qed.
Print Assumptions C68_parsed.
(** Another program writes another file: gen.go without the statement that writes ServerError. *)
Example C68_case : match go_run steps other_program (file [other_text]) with
  | Some (Returned [], s) => match files (rest s) with [(_, out, _)] => blen out = 47867 | _ => False end
  | _ => False
  end /\ blen (concat GenoutText.genout_text) = 48084.
Proof. split; [exact other_runs|vm_compute; reflexivity]. Qed.
