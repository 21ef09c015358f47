(** What the texts of protocol.go and gen.go say and do: by running them. *)
From Verif Require Import Base GoBuf GoSyntax GoRun GoText GoProg GoWp GenGoText GenRun ProtocolSpec.
From Verif Require Types GoSem GenText GenoutText.

(** * protocol.go, parsed and its constants evaluated *)
Definition protocol_file : list decl := Eval vm_compute in file protocol_text.
Definition protocol_consts : list (bytes * value) := Eval vm_compute in p_consts (program_of protocol_file).
Definition protocol_types : list (bytes * gtype) := Eval vm_compute in types_of protocol_file.
Definition protocol_names : option (list (N * value)) := Eval vm_compute in map_literal (program_of protocol_file) (str "RPCNames") protocol_file.
Lemma protocol_parsed : parse_file (concat protocol_text) = Some protocol_file /\ p_consts (program_of protocol_file) = protocol_consts /\ types_of protocol_file = protocol_types /\
  map_literal (program_of protocol_file) (str "RPCNames") protocol_file = protocol_names.
Proof. split; [|split; [|split]]; vm_compute; reflexivity. Qed.

(** * Constants *)
(** The number a name is declared to be in protocol.go. *)
Definition constant (x : bytes) : option N :=
  match assoc x (protocol_consts) with Some (VU _ n) => Some n | Some (VC z) => Some (Z.to_N z) | _ => None end.
Definition same_number (d : bytes * N) : bool := match constant (fst d) with Some n => n =? snd d | None => false end.
Lemma constants_ok : forallb same_number (message_types ++ other_constants) = true.
Proof. vm_compute. reflexivity. Qed.
Lemma constants_hold x n : In (x, n) (message_types ++ other_constants) -> constant x = Some n.
Proof.
  intros Hin. pose proof (proj1 (forallb_forall _ _) constants_ok _ Hin) as H. unfold same_number in H. cbn [fst snd] in H.
  destruct (constant x); [apply N.eqb_eq in H; subst; reflexivity|discriminate].
Qed.
(** The numbers of Types.v, which the model uses *)
Definition model_constants : list (bytes * N) :=
  [(str "Tversion", Types.Tversion_t); (str "Rversion", Types.Rversion_t); (str "Tauth", Types.Tauth_t); (str "Rauth", Types.Rauth_t); (str "Tattach",
   Types.Tattach_t); (str "Rattach", Types.Rattach_t); (str "Terror", Types.Terror_t); (str "Rerror", Types.Rerror_t); (str "Tflush", Types.Tflush_t);
   (str "Rflush", Types.Rflush_t); (str "Twalk", Types.Twalk_t); (str "Rwalk", Types.Rwalk_t); (str "Topen", Types.Topen_t); (str "Ropen",
   Types.Ropen_t); (str "Tcreate", Types.Tcreate_t); (str "Rcreate", Types.Rcreate_t); (str "Tread", Types.Tread_t); (str "Rread", Types.Rread_t);
   (str "Twrite", Types.Twrite_t); (str "Rwrite", Types.Rwrite_t); (str "Tclunk", Types.Tclunk_t); (str "Rclunk", Types.Rclunk_t); (str "Tremove",
   Types.Tremove_t); (str "Rremove", Types.Rremove_t); (str "Tstat", Types.Tstat_t); (str "Rstat", Types.Rstat_t); (str "Twstat", Types.Twstat_t);
   (str "Rwstat", Types.Rwstat_t); (str "Tlast", Types.Tlast_t); (str "IOHDRSZ", Types.IOHDRSZ); (str "NumFID", Types.NumFID); (str "QIDLen",
   Types.QIDLen); (str "NOTAG", Types.NOTAG); (str "NOFID", Types.NOFID); (str "NumTags", Types.NumTags); (str "MSIZE", Types.MSIZE); (str "QTDIR",
   Types.QTDIR); (str "QTAPPEND", Types.QTAPPEND); (str "QTEXCL", Types.QTEXCL); (str "QTMOUNT", Types.QTMOUNT); (str "QTAUTH", Types.QTAUTH); (str
   "QTTMP", Types.QTTMP); (str "QTSYMLINK", Types.QTSYMLINK); (str "QTLINK", Types.QTLINK); (str "QTFILE", Types.QTFILE); (str "OREAD", Types.OREAD);
   (str "OWRITE", Types.OWRITE); (str "ORDWR", Types.ORDWR); (str "OEXEC", Types.OEXEC); (str "OTRUNC", Types.OTRUNC); (str "OCEXEC", Types.OCEXEC);
   (str "ORCLOSE", Types.ORCLOSE); (str "OAPPEND", Types.OAPPEND); (str "OEXCL", Types.OEXCL); (str "DMDIR", Types.DMDIR); (str "DMAPPEND",
   Types.DMAPPEND); (str "DMEXCL", Types.DMEXCL); (str "DMMOUNT", Types.DMMOUNT); (str "DMAUTH", Types.DMAUTH); (str "DMTMP", Types.DMTMP); (str
   "DMREAD", Types.DMREAD); (str "DMWRITE", Types.DMWRITE); (str "DMEXEC", Types.DMEXEC)].
Lemma model_constants_ok : forallb same_number model_constants = true.
Proof. vm_compute. reflexivity. Qed.
Lemma model_constants_hold x n : In (x, n) model_constants -> constant x = Some n.
Proof.
  intros Hin. pose proof (proj1 (forallb_forall _ _) model_constants_ok _ Hin) as H. unfold same_number in H. cbn [fst snd] in H.
  destruct (constant x); [apply N.eqb_eq in H; subst; reflexivity|discriminate].
Qed.
(** Types.v has all of them, except these. *)
Definition not_in_model : list bytes := [str "PORT"; str "EPERM"; str "ENOENT"; str "EIO"; str "EACCES"; str "EEXIST"; str "ENOTDIR"; str "EINVAL"].
Lemma model_constants_all : forallb (fun d => existsb (fun m => beq (fst d) (fst m)) model_constants || GoSyntax.mem (fst d) not_in_model) protocol_consts = true.
Proof. vm_compute. reflexivity. Qed.
(** RPCNames *)
Definition name_in_text (t : N) : option bytes :=
  match protocol_names with
  | Some l => match find (fun e => fst e =? t) l with Some (_, VStr s) => Some s | _ => None end
  | None => None
  end.
Definition same_name (d : bytes * N) : bool := match name_in_text (snd d) with Some s => beq s (fst d) | None => false end.
Lemma beq_eq a : forall b, beq a b = true -> a = b.
Proof.
  induction a as [|x a IH]; intros [|y b] H; try discriminate; [reflexivity|]. cbn in H. destruct (Byte.eqb x y) eqn:E; [|discriminate].
  apply Byte.byte_dec_bl in E. subst y. f_equal. auto.
Qed.
Lemma names_ok : forallb same_name message_types = true.
Proof. vm_compute. reflexivity. Qed.
Lemma names_hold x n : In (x, n) message_types -> name_in_text n = Some x.
Proof.
  intros Hin. pose proof (proj1 (forallb_forall _ _) names_ok _ Hin) as H. unfold same_name in H. cbn [fst snd] in H.
  destruct (name_in_text n); [apply beq_eq in H; subst; reflexivity|discriminate].
Qed.

(** * Messages *)
(** The part of a message that a field of a type stands for. *)
Definition part_of (t : gtype) : option part :=
  let w x := if beq x (str "uint8") || beq x (str "byte") then Some 1 else if beq x (str "uint16") then Some 2
             else if beq x (str "uint32") || beq x (str "int32") then Some 4 else if beq x (str "uint64") then Some 8 else None in
  match t with
  | GName x =>
      if beq x (str "string") then Some Str else if beq x (str "QID") then Some Qid
      else match underlying t with GName y => match w y with Some n => Some (Bytes n) | None => None end | _ => None end
  | GoSyntax.GSlice (GName x) =>
      if beq x (str "string") then Some Strs else if beq x (str "QID") then Some Qids else if beq x (str "byte") then Some Data
      else if beq x (str "DataCnt16") then Some Stat else None
  | _ => None
  end.
Fixpoint parts_of (fs : list (bytes * gtype)) : option (list part) :=
  match fs with
  | [] => Some []
  | (_, t) :: fs => match part_of t, parts_of fs with Some p, Some l => Some (p :: l) | _, _ => None end
  end.
(** What a struct type of protocol.go says a message is made of. *)
Definition struct_parts (x : bytes) : option (list part) :=
  match assoc x (protocol_types) with Some (GoSyntax.GStruct fs) => parts_of fs | _ => None end.
Definition part_eq : forall a b : part, {a = b} + {a <> b}.
Proof. decide equality. apply N.eq_dec. Defined.
Definition same_parts (d : bytes * list part) : bool :=
  match struct_parts (fst d ++ str "Pkt") with Some l => if list_eq_dec part_eq l (snd d) then true else false | None => false end.
Lemma layouts_ok : forallb same_parts layouts = true.
Proof. vm_compute. reflexivity. Qed.
Lemma layouts_hold x l : In (x, l) layouts -> struct_parts (x ++ str "Pkt") = Some l.
Proof.
  intros Hin. pose proof (proj1 (forallb_forall _ _) layouts_ok _ Hin) as H. unfold same_parts in H. cbn [fst snd] in H.
  destruct (struct_parts (x ++ str "Pkt")); [|discriminate]. destruct (list_eq_dec part_eq l0 l); [subst; reflexivity|discriminate].
Qed.
Lemma dir_holds : struct_parts (str "QID") = Some qid_layout /\ struct_parts (str "Dir") = Some stat_layout.
Proof. split; vm_compute; reflexivity. Qed.

(** * The tables of GoSem.v, on which C57 rests, are those of the text *)
Definition sem_constant (d : bytes * GoSem.value) : bool :=
  match snd d with
  | GoSem.VNil => true
  | GoSem.VU 8 n => match assoc (fst d) (protocol_consts) with Some (VU 8 m) => n =? m | _ => false end
  | _ => false
  end.
Lemma sem_constants_ok : forallb sem_constant GoSem.constants = true.
Proof. vm_compute. reflexivity. Qed.
Lemma sem_constants x v : In (x, v) GoSem.constants ->
  v = GoSem.VNil \/ exists n, v = GoSem.VU 8 n /\ assoc x (protocol_consts) = Some (VU 8 n).
Proof.
  intros Hin. pose proof (proj1 (forallb_forall _ _) sem_constants_ok _ Hin) as H. unfold sem_constant in H. cbn [fst snd] in H.
  generalize dependent (assoc x (protocol_consts)). intros o H.
  destruct v as [w n| | | | | | | | | | | | |]; try discriminate H; [|left; reflexivity]. right.
  destruct (N.eq_dec w 8) as [->|Hw].
  - destruct o as [[w m| | | | | | | | | | | | | | | | | | | | |]|]; try discriminate H. destruct (N.eq_dec w 8) as [->|Hw].
    + apply N.eqb_eq in H. subst m. eauto.
    + destruct w as [|p]; [discriminate H|]. destruct p as [p|p|]; try discriminate H. destruct p as [p|p|]; try discriminate H. destruct p as [p|p|]; try discriminate H.
      destruct p; try discriminate H. contradiction Hw. reflexivity.
  - destruct w as [|p]; [discriminate H|]. destruct p as [p|p|]; try discriminate H. destruct p as [p|p|]; try discriminate H. destruct p as [p|p|]; try discriminate H.
    destruct p; try discriminate H. contradiction Hw. reflexivity.
Qed.
Definition gtype_eqb (a b : gtype) : bool := match a, b with GName x, GName y => beq x y | _, _ => false end.
Fixpoint fields_eqb (a b : list (bytes * gtype)) : bool :=
  match a, b with [], [] => true | (x, t) :: a, (y, u) :: b => beq x y && gtype_eqb t u && fields_eqb a b | _, _ => false end.
Lemma fields_eqb_eq a : forall b, fields_eqb a b = true -> a = b.
Proof.
  induction a as [|[x t] a IH]; intros [|[y u] b] H; try discriminate H; [reflexivity|]. cbn in H.
  apply Bool.andb_true_iff in H. destruct H as [H Hr]. apply Bool.andb_true_iff in H. destruct H as [Hx Ht].
  apply beq_eq in Hx. apply IH in Hr. destruct t, u; try discriminate Ht. cbn in Ht. apply beq_eq in Ht. subst. reflexivity.
Qed.
Definition sem_struct (d : bytes * list (bytes * gtype)) : bool :=
  match assoc (fst d) (protocol_types) with Some (GoSyntax.GStruct fs) => fields_eqb fs (snd d) | _ => false end.
Lemma sem_structs_ok : forallb sem_struct GoSem.struct_types = true.
Proof. vm_compute. reflexivity. Qed.
Lemma sem_structs x fs : In (x, fs) GoSem.struct_types -> assoc x (protocol_types) = Some (GoSyntax.GStruct fs).
Proof.
  intros Hin. pose proof (proj1 (forallb_forall _ _) sem_structs_ok _ Hin) as H. unfold sem_struct in H. cbn [fst snd] in H.
  generalize dependent (assoc x (protocol_types)). intros o H. destruct o as [t|]; [|discriminate H]. destruct t; try discriminate H.
  apply fields_eqb_eq in H. subst. reflexivity.
Qed.
(** The width and signedness of integer types. *)
Definition declared_int (x : bytes) : option (N * bool) := int_type (mkProgram [] (protocol_types) [] []) x.
Definition sem_int (d : bytes * (N * bool)) : bool :=
  match declared_int (fst d) with Some (w, s) => (w =? fst (snd d)) && Bool.eqb s (snd (snd d)) | None => false end.
Lemma sem_ints_ok : forallb sem_int GoSem.int_types = true.
Proof. vm_compute. reflexivity. Qed.
Lemma sem_ints x w s : In (x, (w, s)) GoSem.int_types -> declared_int x = Some (w, s).
Proof.
  intros Hin. pose proof (proj1 (forallb_forall _ _) sem_ints_ok _ Hin) as H. unfold sem_int in H. cbn [fst snd] in H.
  destruct (declared_int x) as [[w' s']|]; [|discriminate H]. apply Bool.andb_true_iff in H. destruct H as [Hw Hs].
  apply N.eqb_eq in Hw. apply Bool.eqb_prop in Hs. subst. reflexivity.
Qed.

(** * gen.go *)
Definition steps : nat := N.to_nat 1000000.
Lemma gen_parsed : parse_file (concat protocol_text) <> None /\ parse_file (concat gen_text) <> None.
Proof. split; vm_compute; discriminate. Qed.
Lemma gen_runs : match go_run steps gen_program (file gen_text) with
  | Some (Returned [], s) => files (rest s) = [(str "genout.go", concat GenoutText.genout_text, 384)] /\ logged (rest s) = []
  | _ => False
  end.
Proof. vm_cast_no_check (conj (eq_refl (A := list (bytes * bytes * N)) [(str "genout.go", concat GenoutText.genout_text, 384)]) (eq_refl (A := list bytes) [])). Qed.
(** The same for a gen.go without the statement that writes ServerError. *)
Fixpoint without (n : nat) (a s : bytes) : bytes :=
  match n with
  | O => s
  | S n => match s with [] => [] | c :: s' => if beq (firstn (List.length a) s) a then skipn (List.length a) s else c :: without n a s' end
  end.
Definition other_text : bytes := Eval vm_compute in let t := concat gen_text in without (List.length t) (str "b.WriteString(serverError)") t.
Definition other_program : program := Eval vm_compute in
  let p := program_of (file protocol_text ++ file [other_text]) in mkProgram (p_funcs p) (p_types p) (p_consts p ++ reflect_kinds) (p_vars p).
Lemma other_runs : match go_run steps other_program (file [other_text]) with
  | Some (Returned [], s) => match files (rest s) with [(_, out, _)] => blen out = 47867 | _ => False end
  | _ => False
  end.
Proof. vm_compute. reflexivity. Qed.
