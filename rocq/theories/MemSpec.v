(** What is said about file contents on the operating system of MemOS.v. *)
From Verif Require Import Base GoBuf CodecPrim Types Codec Msgs StubPrim GoPath PathSpec Ufs UfsSpec MemOS.

(** The contents of a node. *)
Definition data (w : world) (i : N) : bytes := n_data (w_nodes w i).
(** Nodes in use have numbers below w_next, open files below w_nexth. *)
Definition wf (w : world) : Prop :=
  (forall q, In q (w_names w) -> snd q < w_next w) /\ (forall h f, w_files w h = Some f -> o_ino f < w_next w /\ h < w_nexth w).

(** The node an open fid is on. *)
Definition node_of (s : table * world) (fid : N) : option N :=
  match held (fst s) fid with
  | Some h => match w_files (snd s) h with Some f => Some (o_ino f) | None => None end
  | None => None
  end.
(** The node of the fid's name. *)
Definition named (s : table * world) (fid : N) : option N :=
  match fst s fid with Some f => lookup (snd s) (f_fullName f) | None => None end.
(** The request truncates node i (or sets its length). *)
Definition resets (s : table * world) (m : tmsg) (i : N) : Prop :=
  match m with
  | MTopen p => named s (Topen_OFID p) = Some i /\ N.testbit (Topen_Omode p) 4 = true
  | MTcreate p => exists f, fst s (Tcreate_OFID p) = Some f /\ f_file f = None /\ N.land (Tcreate_CreatePerm p) DMDIR = 0 /\
      lookup (snd s) (Join (f_fullName f) (Tcreate_Name p)) = Some i
  | MTwstat p => named s (Twstat_OFID p) = Some i /\
      exists d t rest, Unmarshaldir (Buf (Twstat_B p) []) = URet d t rest None /\ Dir_Length d <> keep64
  | _ => False
  end.

(** Requests, one after another, that neither truncate node i nor write at an offset beyond 64 bits (no message can carry
    such an offset). *)
Fixpoint undisturbed (c : config) (ms : list tmsg) (s : table * world) (i : N) : Prop :=
  match ms with
  | [] => True
  | m :: ms => ~ resets s m i /\ (forall p, m = MTwrite p -> Twrite_Off p < 18446744073709551616) /\
               undisturbed c ms (snd (fst (run1 c m s))) i
  end.
(** Was the request a successful write to node i?  Then where, and what. *)
Definition wrote (s : table * world) (m : tmsg) (r : option (answerOf rmsg)) (i : N) : option (nat * bytes) :=
  match m, r, node_of s (match m with MTwrite p => Twrite_OFID p | _ => 0 end) with
  | MTwrite p, Some (inr _), Some j => if j =? i then Some (N.to_nat (Twrite_Off p), Twrite_Data p) else None
  | _, _, _ => None
  end.
(** The successful writes to node i, in order. *)
Fixpoint writes (c : config) (ms : list tmsg) (s : table * world) (i : N) : list (nat * bytes) :=
  match ms with
  | [] => []
  | m :: ms => let '(r, s', _) := run1 c m s in
      match wrote s m r i with Some x => [x] | None => [] end ++ writes c ms s' i
  end.
(** The byte at position k after writes: that of the last write that covers k. *)
Definition covers (k : nat) (x : nat * bytes) : bool := (fst x <=? k)%nat && (k <? fst x + List.length (snd x))%nat.
Definition byte_after (ws : list (nat * bytes)) (k : nat) (old : byte) : byte :=
  fold_left (fun b x => if covers k x then nth (k - fst x) (snd x) x00 else b) ws old.
(** The size after writes. *)
Definition size_after (ws : list (nat * bytes)) (old : nat) : nat :=
  fold_left (fun n x => match snd x with [] => n | b => Nat.max n (fst x + List.length b) end) ws old.
