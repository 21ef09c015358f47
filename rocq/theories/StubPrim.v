(** What the generated stubs call: the NineServer interface, and the shapes of their results. *)
From Verif Require Import Base GoBuf CodecPrim Types Codec.

(** Result of one method of a NineServer: new server state and value, or new server state and
    error text (what fmt.Sprintf("%v", err) prints), or a run-time panic. *)
Inductive nsres (St A : Type) :=
| NSOk (s : St) (r : A)
| NSErr (s : St) (err : bytes)
| NSPanic.
Arguments NSOk {St A}. Arguments NSErr {St A}. Arguments NSPanic {St A}.

(** protocol.go:293-306, type NineServer.  The state type St is arbitrary.  Simplification: a
    method gets its arguments as values; in Go the []byte argument of Rwrite and Rwstat is a
    slice of the request buffer, so a server that keeps it would later see it change. *)
Record NineServer (St : Type) := mkNineServer {
  ns_Rversion : St -> N -> bytes -> nsres St RversionPkt;
  ns_Rattach : St -> N -> N -> bytes -> bytes -> nsres St RattachPkt;
  ns_Rwalk : St -> N -> N -> list bytes -> nsres St RwalkPkt;
  ns_Ropen : St -> N -> N -> nsres St RopenPkt;
  ns_Rcreate : St -> N -> bytes -> N -> N -> nsres St RcreatePkt;
  ns_Rstat : St -> N -> nsres St RstatPkt;
  ns_Rwstat : St -> N -> bytes -> nsres St RwstatPkt;
  ns_Rclunk : St -> N -> nsres St RclunkPkt;
  ns_Rremove : St -> N -> nsres St RremovePkt;
  ns_Rread : St -> N -> N -> Z -> nsres St RreadPkt;
  ns_Rwrite : St -> N -> N -> bytes -> nsres St RwritePkt;
  ns_Rflush : St -> N -> nsres St RflushPkt
}.
Arguments ns_Rversion {St}. Arguments ns_Rattach {St}. Arguments ns_Rwalk {St}.
Arguments ns_Ropen {St}. Arguments ns_Rcreate {St}. Arguments ns_Rstat {St}.
Arguments ns_Rwstat {St}. Arguments ns_Rclunk {St}. Arguments ns_Rremove {St}.
Arguments ns_Rread {St}. Arguments ns_Rwrite {St}. Arguments ns_Rflush {St}.

(** Result of a Srv* stub: the buffer now holds the reply bytes; or the goroutine panicked. *)
Inductive srvres (St : Type) :=
| SrvReply (s : St) (out : bytes)
| SrvPanic.
Arguments SrvReply {St}. Arguments SrvPanic {St}.

(** Result of a CallT* stub. *)
Inductive callres (R : Type) :=
| CallRet (r : R) (err : option bytes)
| CallPanic.
Arguments CallRet {R}. Arguments CallPanic {R}.
