(** What protocol/protocol.go should declare: the numbers of 9P2000 (Plan 9, sys/include/fcall.h and libc.h; sections intro(5),
    open(5), stat(5) of the manual) and the layouts of its messages, written down from there. *)
From Verif Require Import Base.

(** fcall.h: message types.  106 is Terror, which no one sends. *)
Definition message_types : list (bytes * N) :=
  [(str "Tversion", 100); (str "Rversion", 101); (str "Tauth", 102); (str "Rauth", 103); (str "Tattach", 104); (str "Rattach", 105);
   (str "Terror", 106); (str "Rerror", 107); (str "Tflush", 108); (str "Rflush", 109); (str "Twalk", 110); (str "Rwalk", 111);
   (str "Topen", 112); (str "Ropen", 113); (str "Tcreate", 114); (str "Rcreate", 115); (str "Tread", 116); (str "Rread", 117);
   (str "Twrite", 118); (str "Rwrite", 119); (str "Tclunk", 120); (str "Rclunk", 121); (str "Tremove", 122); (str "Rremove", 123);
   (str "Tstat", 124); (str "Rstat", 125); (str "Twstat", 126); (str "Rwstat", 127)].
(** NOTAG is (ushort)~0, NOFID is (u32int)~0; modes of open(5); types of qids and bits of modes, stat(5). *)
Definition other_constants : list (bytes * N) :=
  [(str "NOTAG", 2^16 - 1); (str "NOFID", 2^32 - 1); (str "IOHDRSZ", 24); (str "QIDLen", 13); (str "PORT", 564);
   (str "OREAD", 0); (str "OWRITE", 1); (str "ORDWR", 2); (str "OEXEC", 3); (str "OTRUNC", 16); (str "OCEXEC", 32); (str "ORCLOSE", 64); (str "OEXCL", 4096);
   (str "QTDIR", 128); (str "QTAPPEND", 64); (str "QTEXCL", 32); (str "QTMOUNT", 16); (str "QTAUTH", 8); (str "QTTMP", 4); (str "QTFILE", 0);
   (str "DMDIR", 2^31); (str "DMAPPEND", 2^30); (str "DMEXCL", 2^29); (str "DMMOUNT", 2^28); (str "DMAUTH", 2^27); (str "DMTMP", 2^26);
   (str "DMREAD", 4); (str "DMWRITE", 2); (str "DMEXEC", 1)].

(** The notation of intro(5): name[n]: n bytes, name[s]: a string; n*(name[s]) and n*(qid[13]): a two-byte count and so many
    of them; data[count]: a four-byte count and so many bytes; stat[n]: a two-byte count and so many bytes. *)
Inductive part := Bytes (n : N) | Str | Strs | Qid | Qids | Data | Stat.
(** Sections version(5), attach(5), ..., in the order of the manual; what follows size[4] type[1] tag[2]. *)
Definition layouts : list (bytes * list part) :=
  [(str "Tversion", [Bytes 4; Str]); (str "Rversion", [Bytes 4; Str]);
   (str "Rerror", [Str]);
   (str "Tattach", [Bytes 4; Bytes 4; Str; Str]); (str "Rattach", [Qid]);
   (str "Tflush", [Bytes 2]); (str "Rflush", []);
   (str "Twalk", [Bytes 4; Bytes 4; Strs]); (str "Rwalk", [Qids]);
   (str "Topen", [Bytes 4; Bytes 1]); (str "Ropen", [Qid; Bytes 4]);
   (str "Tcreate", [Bytes 4; Str; Bytes 4; Bytes 1]); (str "Rcreate", [Qid; Bytes 4]);
   (str "Tread", [Bytes 4; Bytes 8; Bytes 4]); (str "Rread", [Data]);
   (str "Twrite", [Bytes 4; Bytes 8; Data]); (str "Rwrite", [Bytes 4]);
   (str "Tclunk", [Bytes 4]); (str "Rclunk", []); (str "Tremove", [Bytes 4]); (str "Rremove", []);
   (str "Tstat", [Bytes 4]); (str "Rstat", [Stat]); (str "Twstat", [Bytes 4; Stat]); (str "Rwstat", [])].
(** intro(5): qid: type[1] vers[4] path[8].  stat(5), after size[2]: type[2] dev[4] qid[13] mode[4] atime[4] mtime[4] length[8] name[s]
    uid[s] gid[s] muid[s] *)
Definition qid_layout : list part := [Bytes 1; Bytes 4; Bytes 8].
Definition stat_layout : list part := [Bytes 2; Bytes 4; Qid; Bytes 4; Bytes 4; Bytes 4; Bytes 8; Str; Str; Str; Str].
