(** GENERATED by tools/transcribe.py from /repo/protocol/genout.go: every line of every
    Marshal*, Unmarshal* function, in order. Do not edit.
    [u] is the scratch array, [b] the bytes.Buffer, [l] the length variable, [t] the tag;
    named results are let-bound variables starting at their zero value, so an early [return]
    hands back whatever had been assigned by then. *)
From Verif Require Import Base GoBuf CodecPrim Types.

(** genout.go:8-23 *)
Definition MarshalRerrorPkt (t : N) (Error : bytes) : bytes :=
  set_len4
    ([x00;
      x00;
      x00;
      x00;
      u8 Rerror_t;
      u8 (N.shiftr t 0);
      u8 (N.shiftr t 8);
      u8 (N.shiftr (blen Error) 0);
      u8 (N.shiftr (blen Error) 8)]
     ++ Error).

(** genout.go:24-50 *)
Definition UnmarshalRerrorPkt (b : buf) : ures RerrorPkt :=
  let u := u_zero in let l := 0 in let t := 0 in
  let Error := [] in
  rd 2 u b (fun b => URet (mkRerrorPkt Error) t b (Some (str "pkt too short for Tag; need 2, have " ++ dec (buf_len b)))) (fun u b =>
  let l := N.lor (ub u 0) (N.shiftl (ub u 1) 8) in
  let t := l mod 65536 in
  rd 2 u b (fun b => URet (mkRerrorPkt Error) t b (Some (str "pkt too short for uint16: need 2, have " ++ dec (buf_len b)))) (fun u b =>
  let l := ub u 0 in
  let l := N.lor l (N.shiftl (ub u 1) 8) in
  if buf_len b <? l then URet (mkRerrorPkt Error) t b (Some (str "pkt too short for string: need " ++ dec l ++ str ", have " ++ dec (buf_len b))) else
  reslice l b UPanic (fun Error =>
  let b := buf_next l b in
  if 0 <? buf_len b then URet (mkRerrorPkt Error) t b (Some (str "Packet too long: " ++ dec (buf_len b) ++ str " bytes left over after decode")) else
  URet (mkRerrorPkt Error) t b None))).

(** genout.go:51-70 *)
Definition MarshalRversionPkt (t : N) (RMsize : N) (RVersion : bytes) : bytes :=
  set_len4
    ([x00;
      x00;
      x00;
      x00;
      u8 Rversion_t;
      u8 (N.shiftr t 0);
      u8 (N.shiftr t 8);
      u8 (N.shiftr RMsize 0);
      u8 (N.shiftr RMsize 8);
      u8 (N.shiftr RMsize 16);
      u8 (N.shiftr RMsize 24);
      u8 (N.shiftr (blen RVersion) 0);
      u8 (N.shiftr (blen RVersion) 8)]
     ++ RVersion).

(** genout.go:71-105 *)
Definition UnmarshalRversionPkt (b : buf) : ures RversionPkt :=
  let u := u_zero in let l := 0 in let t := 0 in
  let RMsize := 0 in let RVersion := [] in
  rd 2 u b (fun b => URet (mkRversionPkt RMsize RVersion) t b (Some (str "pkt too short for Tag; need 2, have " ++ dec (buf_len b)))) (fun u b =>
  let l := N.lor (ub u 0) (N.shiftl (ub u 1) 8) in
  let t := l mod 65536 in
  rd 4 u b (fun b => URet (mkRversionPkt RMsize RVersion) t b (Some (str "pkt too short for uint32: need 4, have " ++ dec (buf_len b)))) (fun u b =>
  let RMsize := ub u 0 in
  let RMsize := N.lor RMsize (N.shiftl (ub u 1) 8) in
  let RMsize := N.lor RMsize (N.shiftl (ub u 2) 16) in
  let RMsize := N.lor RMsize (N.shiftl (ub u 3) 24) in
  rd 2 u b (fun b => URet (mkRversionPkt RMsize RVersion) t b (Some (str "pkt too short for uint16: need 2, have " ++ dec (buf_len b)))) (fun u b =>
  let l := ub u 0 in
  let l := N.lor l (N.shiftl (ub u 1) 8) in
  if buf_len b <? l then URet (mkRversionPkt RMsize RVersion) t b (Some (str "pkt too short for string: need " ++ dec l ++ str ", have " ++ dec (buf_len b))) else
  reslice l b UPanic (fun RVersion =>
  let b := buf_next l b in
  if 0 <? buf_len b then URet (mkRversionPkt RMsize RVersion) t b (Some (str "Packet too long: " ++ dec (buf_len b) ++ str " bytes left over after decode")) else
  URet (mkRversionPkt RMsize RVersion) t b None)))).

(** genout.go:106-125 *)
Definition MarshalTversionPkt (t : N) (TMsize : N) (TVersion : bytes) : bytes :=
  set_len4
    ([x00;
      x00;
      x00;
      x00;
      u8 Tversion_t;
      u8 (N.shiftr t 0);
      u8 (N.shiftr t 8);
      u8 (N.shiftr TMsize 0);
      u8 (N.shiftr TMsize 8);
      u8 (N.shiftr TMsize 16);
      u8 (N.shiftr TMsize 24);
      u8 (N.shiftr (blen TVersion) 0);
      u8 (N.shiftr (blen TVersion) 8)]
     ++ TVersion).

(** genout.go:126-160 *)
Definition UnmarshalTversionPkt (b : buf) : ures TversionPkt :=
  let u := u_zero in let l := 0 in let t := 0 in
  let TMsize := 0 in let TVersion := [] in
  rd 2 u b (fun b => URet (mkTversionPkt TMsize TVersion) t b (Some (str "pkt too short for Tag; need 2, have " ++ dec (buf_len b)))) (fun u b =>
  let l := N.lor (ub u 0) (N.shiftl (ub u 1) 8) in
  let t := l mod 65536 in
  rd 4 u b (fun b => URet (mkTversionPkt TMsize TVersion) t b (Some (str "pkt too short for uint32: need 4, have " ++ dec (buf_len b)))) (fun u b =>
  let TMsize := ub u 0 in
  let TMsize := N.lor TMsize (N.shiftl (ub u 1) 8) in
  let TMsize := N.lor TMsize (N.shiftl (ub u 2) 16) in
  let TMsize := N.lor TMsize (N.shiftl (ub u 3) 24) in
  rd 2 u b (fun b => URet (mkTversionPkt TMsize TVersion) t b (Some (str "pkt too short for uint16: need 2, have " ++ dec (buf_len b)))) (fun u b =>
  let l := ub u 0 in
  let l := N.lor l (N.shiftl (ub u 1) 8) in
  if buf_len b <? l then URet (mkTversionPkt TMsize TVersion) t b (Some (str "pkt too short for string: need " ++ dec l ++ str ", have " ++ dec (buf_len b))) else
  reslice l b UPanic (fun TVersion =>
  let b := buf_next l b in
  if 0 <? buf_len b then URet (mkTversionPkt TMsize TVersion) t b (Some (str "Packet too long: " ++ dec (buf_len b) ++ str " bytes left over after decode")) else
  URet (mkTversionPkt TMsize TVersion) t b None)))).

(** genout.go:193-219 *)
Definition MarshalRattachPkt (t : N) (QID : QID) : bytes :=
  set_len4
    ([x00;
      x00;
      x00;
      x00;
      u8 Rattach_t;
      u8 (N.shiftr t 0);
      u8 (N.shiftr t 8);
      u8 (N.shiftr (QID_Type QID) 0);
      u8 (N.shiftr (QID_Version QID) 0);
      u8 (N.shiftr (QID_Version QID) 8);
      u8 (N.shiftr (QID_Version QID) 16);
      u8 (N.shiftr (QID_Version QID) 24);
      u8 (N.shiftr (QID_Path QID) 0);
      u8 (N.shiftr (QID_Path QID) 8);
      u8 (N.shiftr (QID_Path QID) 16);
      u8 (N.shiftr (QID_Path QID) 24);
      u8 (N.shiftr (QID_Path QID) 32);
      u8 (N.shiftr (QID_Path QID) 40);
      u8 (N.shiftr (QID_Path QID) 48);
      u8 (N.shiftr (QID_Path QID) 56)]).

(** genout.go:220-259 *)
Definition UnmarshalRattachPkt (b : buf) : ures RattachPkt :=
  let u := u_zero in let l := 0 in let t := 0 in
  let QID_Type := 0 in let QID_Version := 0 in let QID_Path := 0 in
  rd 2 u b (fun b => URet (mkRattachPkt (mkQID QID_Type QID_Version QID_Path)) t b (Some (str "pkt too short for Tag; need 2, have " ++ dec (buf_len b)))) (fun u b =>
  let l := N.lor (ub u 0) (N.shiftl (ub u 1) 8) in
  let t := l mod 65536 in
  rd 1 u b (fun b => URet (mkRattachPkt (mkQID QID_Type QID_Version QID_Path)) t b (Some (str "pkt too short for uint8: need 1, have " ++ dec (buf_len b)))) (fun u b =>
  let QID_Type := ub u 0 in
  rd 4 u b (fun b => URet (mkRattachPkt (mkQID QID_Type QID_Version QID_Path)) t b (Some (str "pkt too short for uint32: need 4, have " ++ dec (buf_len b)))) (fun u b =>
  let QID_Version := ub u 0 in
  let QID_Version := N.lor QID_Version (N.shiftl (ub u 1) 8) in
  let QID_Version := N.lor QID_Version (N.shiftl (ub u 2) 16) in
  let QID_Version := N.lor QID_Version (N.shiftl (ub u 3) 24) in
  rd 8 u b (fun b => URet (mkRattachPkt (mkQID QID_Type QID_Version QID_Path)) t b (Some (str "pkt too short for uint64: need 8, have " ++ dec (buf_len b)))) (fun u b =>
  let QID_Path := ub u 0 in
  let QID_Path := N.lor QID_Path (N.shiftl (ub u 1) 8) in
  let QID_Path := N.lor QID_Path (N.shiftl (ub u 2) 16) in
  let QID_Path := N.lor QID_Path (N.shiftl (ub u 3) 24) in
  let QID_Path := N.lor QID_Path (N.shiftl (ub u 4) 32) in
  let QID_Path := N.lor QID_Path (N.shiftl (ub u 5) 40) in
  let QID_Path := N.lor QID_Path (N.shiftl (ub u 6) 48) in
  let QID_Path := N.lor QID_Path (N.shiftl (ub u 7) 56) in
  if 0 <? buf_len b then URet (mkRattachPkt (mkQID QID_Type QID_Version QID_Path)) t b (Some (str "Packet too long: " ++ dec (buf_len b) ++ str " bytes left over after decode")) else
  URet (mkRattachPkt (mkQID QID_Type QID_Version QID_Path)) t b None)))).

(** genout.go:260-286 *)
Definition MarshalTattachPkt (t : N) (SFID : N) (AFID : N) (Uname : bytes) (Aname : bytes) : bytes :=
  set_len4
    ([x00;
      x00;
      x00;
      x00;
      u8 Tattach_t;
      u8 (N.shiftr t 0);
      u8 (N.shiftr t 8);
      u8 (N.shiftr SFID 0);
      u8 (N.shiftr SFID 8);
      u8 (N.shiftr SFID 16);
      u8 (N.shiftr SFID 24);
      u8 (N.shiftr AFID 0);
      u8 (N.shiftr AFID 8);
      u8 (N.shiftr AFID 16);
      u8 (N.shiftr AFID 24);
      u8 (N.shiftr (blen Uname) 0);
      u8 (N.shiftr (blen Uname) 8)]
     ++ Uname
     ++ [u8 (N.shiftr (blen Aname) 0);
      u8 (N.shiftr (blen Aname) 8)]
     ++ Aname).

(** genout.go:287-341 *)
Definition UnmarshalTattachPkt (b : buf) : ures TattachPkt :=
  let u := u_zero in let l := 0 in let t := 0 in
  let SFID := 0 in let AFID := 0 in let Uname := [] in let Aname := [] in
  rd 2 u b (fun b => URet (mkTattachPkt SFID AFID Uname Aname) t b (Some (str "pkt too short for Tag; need 2, have " ++ dec (buf_len b)))) (fun u b =>
  let l := N.lor (ub u 0) (N.shiftl (ub u 1) 8) in
  let t := l mod 65536 in
  rd 4 u b (fun b => URet (mkTattachPkt SFID AFID Uname Aname) t b (Some (str "pkt too short for uint32: need 4, have " ++ dec (buf_len b)))) (fun u b =>
  let SFID := ub u 0 in
  let SFID := N.lor SFID (N.shiftl (ub u 1) 8) in
  let SFID := N.lor SFID (N.shiftl (ub u 2) 16) in
  let SFID := N.lor SFID (N.shiftl (ub u 3) 24) in
  rd 4 u b (fun b => URet (mkTattachPkt SFID AFID Uname Aname) t b (Some (str "pkt too short for uint32: need 4, have " ++ dec (buf_len b)))) (fun u b =>
  let AFID := ub u 0 in
  let AFID := N.lor AFID (N.shiftl (ub u 1) 8) in
  let AFID := N.lor AFID (N.shiftl (ub u 2) 16) in
  let AFID := N.lor AFID (N.shiftl (ub u 3) 24) in
  rd 2 u b (fun b => URet (mkTattachPkt SFID AFID Uname Aname) t b (Some (str "pkt too short for uint16: need 2, have " ++ dec (buf_len b)))) (fun u b =>
  let l := ub u 0 in
  let l := N.lor l (N.shiftl (ub u 1) 8) in
  if buf_len b <? l then URet (mkTattachPkt SFID AFID Uname Aname) t b (Some (str "pkt too short for string: need " ++ dec l ++ str ", have " ++ dec (buf_len b))) else
  reslice l b UPanic (fun Uname =>
  let b := buf_next l b in
  rd 2 u b (fun b => URet (mkTattachPkt SFID AFID Uname Aname) t b (Some (str "pkt too short for uint16: need 2, have " ++ dec (buf_len b)))) (fun u b =>
  let l := ub u 0 in
  let l := N.lor l (N.shiftl (ub u 1) 8) in
  if buf_len b <? l then URet (mkTattachPkt SFID AFID Uname Aname) t b (Some (str "pkt too short for string: need " ++ dec l ++ str ", have " ++ dec (buf_len b))) else
  reslice l b UPanic (fun Aname =>
  let b := buf_next l b in
  if 0 <? buf_len b then URet (mkTattachPkt SFID AFID Uname Aname) t b (Some (str "Packet too long: " ++ dec (buf_len b) ++ str " bytes left over after decode")) else
  URet (mkTattachPkt SFID AFID Uname Aname) t b None))))))).

(** genout.go:374-387 *)
Definition MarshalRflushPkt (t : N) : bytes :=
  set_len4
    ([x00;
      x00;
      x00;
      x00;
      u8 Rflush_t;
      u8 (N.shiftr t 0);
      u8 (N.shiftr t 8)]).

(** genout.go:388-402 *)
Definition UnmarshalRflushPkt (b : buf) : ures RflushPkt :=
  let u := u_zero in let l := 0 in let t := 0 in
  rd 2 u b (fun b => URet (mkRflushPkt ) t b (Some (str "pkt too short for Tag; need 2, have " ++ dec (buf_len b)))) (fun u b =>
  let l := N.lor (ub u 0) (N.shiftl (ub u 1) 8) in
  let t := l mod 65536 in
  if 0 <? buf_len b then URet (mkRflushPkt ) t b (Some (str "Packet too long: " ++ dec (buf_len b) ++ str " bytes left over after decode")) else
  URet (mkRflushPkt ) t b None).

(** genout.go:403-418 *)
Definition MarshalTflushPkt (t : N) (OTag : N) : bytes :=
  set_len4
    ([x00;
      x00;
      x00;
      x00;
      u8 Tflush_t;
      u8 (N.shiftr t 0);
      u8 (N.shiftr t 8);
      u8 (N.shiftr OTag 0);
      u8 (N.shiftr OTag 8)]).

(** genout.go:419-439 *)
Definition UnmarshalTflushPkt (b : buf) : ures TflushPkt :=
  let u := u_zero in let l := 0 in let t := 0 in
  let OTag := 0 in
  rd 2 u b (fun b => URet (mkTflushPkt OTag) t b (Some (str "pkt too short for Tag; need 2, have " ++ dec (buf_len b)))) (fun u b =>
  let l := N.lor (ub u 0) (N.shiftl (ub u 1) 8) in
  let t := l mod 65536 in
  rd 2 u b (fun b => URet (mkTflushPkt OTag) t b (Some (str "pkt too short for uint16: need 2, have " ++ dec (buf_len b)))) (fun u b =>
  let OTag := ub u 0 in
  let OTag := N.lor OTag (N.shiftl (ub u 1) 8) in
  if 0 <? buf_len b then URet (mkTflushPkt OTag) t b (Some (str "Packet too long: " ++ dec (buf_len b) ++ str " bytes left over after decode")) else
  URet (mkTflushPkt OTag) t b None)).

(** genout.go:472-503 *)
Definition MarshalRwalkPkt (t : N) (QIDs : (list QID)) : bytes :=
  set_len4
    ([x00;
      x00;
      x00;
      x00;
      u8 Rwalk_t;
      u8 (N.shiftr t 0);
      u8 (N.shiftr t 8);
      u8 (N.shiftr (glen QIDs) 0);
      u8 (N.shiftr (glen QIDs) 8)]
     ++ flat_map (fun QIDs_i => [u8 (N.shiftr (QID_Type QIDs_i) 0);
      u8 (N.shiftr (QID_Version QIDs_i) 0);
      u8 (N.shiftr (QID_Version QIDs_i) 8);
      u8 (N.shiftr (QID_Version QIDs_i) 16);
      u8 (N.shiftr (QID_Version QIDs_i) 24);
      u8 (N.shiftr (QID_Path QIDs_i) 0);
      u8 (N.shiftr (QID_Path QIDs_i) 8);
      u8 (N.shiftr (QID_Path QIDs_i) 16);
      u8 (N.shiftr (QID_Path QIDs_i) 24);
      u8 (N.shiftr (QID_Path QIDs_i) 32);
      u8 (N.shiftr (QID_Path QIDs_i) 40);
      u8 (N.shiftr (QID_Path QIDs_i) 48);
      u8 (N.shiftr (QID_Path QIDs_i) 56)]) QIDs).

(** genout.go:504-552 *)
Definition UnmarshalRwalkPkt (b : buf) : ures RwalkPkt :=
  let u := u_zero in let l := 0 in let t := 0 in
  let QIDs := [] in
  rd 2 u b (fun b => URet (mkRwalkPkt QIDs) t b (Some (str "pkt too short for Tag; need 2, have " ++ dec (buf_len b)))) (fun u b =>
  let l := N.lor (ub u 0) (N.shiftl (ub u 1) 8) in
  let t := l mod 65536 in
  rd 2 u b (fun b => URet (mkRwalkPkt QIDs) t b (Some (str "pkt too short for uint16: need 2, have " ++ dec (buf_len b)))) (fun u b =>
  let l := ub u 0 in
  let l := N.lor l (N.shiftl (ub u 1) 8) in
  for_range zeroQID (N.to_nat l) u b (fun u b => let l := 0 in
    let QIDs_i_Type := 0 in let QIDs_i_Version := 0 in let QIDs_i_Path := 0 in
  rd 1 u b (fun b => LRet (mkQID QIDs_i_Type QIDs_i_Version QIDs_i_Path) b (str "pkt too short for uint8: need 1, have " ++ dec (buf_len b))) (fun u b =>
  let QIDs_i_Type := ub u 0 in
  rd 4 u b (fun b => LRet (mkQID QIDs_i_Type QIDs_i_Version QIDs_i_Path) b (str "pkt too short for uint32: need 4, have " ++ dec (buf_len b))) (fun u b =>
  let QIDs_i_Version := ub u 0 in
  let QIDs_i_Version := N.lor QIDs_i_Version (N.shiftl (ub u 1) 8) in
  let QIDs_i_Version := N.lor QIDs_i_Version (N.shiftl (ub u 2) 16) in
  let QIDs_i_Version := N.lor QIDs_i_Version (N.shiftl (ub u 3) 24) in
  rd 8 u b (fun b => LRet (mkQID QIDs_i_Type QIDs_i_Version QIDs_i_Path) b (str "pkt too short for uint64: need 8, have " ++ dec (buf_len b))) (fun u b =>
  let QIDs_i_Path := ub u 0 in
  let QIDs_i_Path := N.lor QIDs_i_Path (N.shiftl (ub u 1) 8) in
  let QIDs_i_Path := N.lor QIDs_i_Path (N.shiftl (ub u 2) 16) in
  let QIDs_i_Path := N.lor QIDs_i_Path (N.shiftl (ub u 3) 24) in
  let QIDs_i_Path := N.lor QIDs_i_Path (N.shiftl (ub u 4) 32) in
  let QIDs_i_Path := N.lor QIDs_i_Path (N.shiftl (ub u 5) 40) in
  let QIDs_i_Path := N.lor QIDs_i_Path (N.shiftl (ub u 6) 48) in
  let QIDs_i_Path := N.lor QIDs_i_Path (N.shiftl (ub u 7) 56) in
    LNext (mkQID QIDs_i_Type QIDs_i_Version QIDs_i_Path) u b))))
  UPanic (fun QIDs b err => URet (mkRwalkPkt QIDs) t b (Some err))
  (fun QIDs u b =>
  if 0 <? buf_len b then URet (mkRwalkPkt QIDs) t b (Some (str "Packet too long: " ++ dec (buf_len b) ++ str " bytes left over after decode")) else
  URet (mkRwalkPkt QIDs) t b None))).

(** genout.go:553-581 *)
Definition MarshalTwalkPkt (t : N) (SFID : N) (NewFID : N) (Paths : (list bytes)) : bytes :=
  set_len4
    ([x00;
      x00;
      x00;
      x00;
      u8 Twalk_t;
      u8 (N.shiftr t 0);
      u8 (N.shiftr t 8);
      u8 (N.shiftr SFID 0);
      u8 (N.shiftr SFID 8);
      u8 (N.shiftr SFID 16);
      u8 (N.shiftr SFID 24);
      u8 (N.shiftr NewFID 0);
      u8 (N.shiftr NewFID 8);
      u8 (N.shiftr NewFID 16);
      u8 (N.shiftr NewFID 24);
      u8 (N.shiftr (glen Paths) 0);
      u8 (N.shiftr (glen Paths) 8)]
     ++ flat_map (fun Paths_i => [u8 (N.shiftr (blen Paths_i) 0);
      u8 (N.shiftr (blen Paths_i) 8)] ++ Paths_i) Paths).

(** genout.go:582-633 *)
Definition UnmarshalTwalkPkt (b : buf) : ures TwalkPkt :=
  let u := u_zero in let l := 0 in let t := 0 in
  let SFID := 0 in let NewFID := 0 in let Paths := [] in
  rd 2 u b (fun b => URet (mkTwalkPkt SFID NewFID Paths) t b (Some (str "pkt too short for Tag; need 2, have " ++ dec (buf_len b)))) (fun u b =>
  let l := N.lor (ub u 0) (N.shiftl (ub u 1) 8) in
  let t := l mod 65536 in
  rd 4 u b (fun b => URet (mkTwalkPkt SFID NewFID Paths) t b (Some (str "pkt too short for uint32: need 4, have " ++ dec (buf_len b)))) (fun u b =>
  let SFID := ub u 0 in
  let SFID := N.lor SFID (N.shiftl (ub u 1) 8) in
  let SFID := N.lor SFID (N.shiftl (ub u 2) 16) in
  let SFID := N.lor SFID (N.shiftl (ub u 3) 24) in
  rd 4 u b (fun b => URet (mkTwalkPkt SFID NewFID Paths) t b (Some (str "pkt too short for uint32: need 4, have " ++ dec (buf_len b)))) (fun u b =>
  let NewFID := ub u 0 in
  let NewFID := N.lor NewFID (N.shiftl (ub u 1) 8) in
  let NewFID := N.lor NewFID (N.shiftl (ub u 2) 16) in
  let NewFID := N.lor NewFID (N.shiftl (ub u 3) 24) in
  rd 2 u b (fun b => URet (mkTwalkPkt SFID NewFID Paths) t b (Some (str "pkt too short for uint16: need 2, have " ++ dec (buf_len b)))) (fun u b =>
  let l := ub u 0 in
  let l := N.lor l (N.shiftl (ub u 1) 8) in
  for_range [] (N.to_nat l) u b (fun u b => let l := 0 in
    let Paths_i := [] in
  rd 2 u b (fun b => LRet Paths_i b (str "pkt too short for uint16: need 2, have " ++ dec (buf_len b))) (fun u b =>
  let l := ub u 0 in
  let l := N.lor l (N.shiftl (ub u 1) 8) in
  if buf_len b <? l then LRet Paths_i b (str "pkt too short for string: need " ++ dec l ++ str ", have " ++ dec (buf_len b)) else
  reslice l b LPanic (fun Paths_i =>
  let b := buf_next l b in
    LNext Paths_i u b)))
  UPanic (fun Paths b err => URet (mkTwalkPkt SFID NewFID Paths) t b (Some err))
  (fun Paths u b =>
  if 0 <? buf_len b then URet (mkTwalkPkt SFID NewFID Paths) t b (Some (str "Packet too long: " ++ dec (buf_len b) ++ str " bytes left over after decode")) else
  URet (mkTwalkPkt SFID NewFID Paths) t b None))))).

(** genout.go:666-696 *)
Definition MarshalRopenPkt (t : N) (OQID : QID) (IOUnit : N) : bytes :=
  set_len4
    ([x00;
      x00;
      x00;
      x00;
      u8 Ropen_t;
      u8 (N.shiftr t 0);
      u8 (N.shiftr t 8);
      u8 (N.shiftr (QID_Type OQID) 0);
      u8 (N.shiftr (QID_Version OQID) 0);
      u8 (N.shiftr (QID_Version OQID) 8);
      u8 (N.shiftr (QID_Version OQID) 16);
      u8 (N.shiftr (QID_Version OQID) 24);
      u8 (N.shiftr (QID_Path OQID) 0);
      u8 (N.shiftr (QID_Path OQID) 8);
      u8 (N.shiftr (QID_Path OQID) 16);
      u8 (N.shiftr (QID_Path OQID) 24);
      u8 (N.shiftr (QID_Path OQID) 32);
      u8 (N.shiftr (QID_Path OQID) 40);
      u8 (N.shiftr (QID_Path OQID) 48);
      u8 (N.shiftr (QID_Path OQID) 56);
      u8 (N.shiftr IOUnit 0);
      u8 (N.shiftr IOUnit 8);
      u8 (N.shiftr IOUnit 16);
      u8 (N.shiftr IOUnit 24)]).

(** genout.go:697-744 *)
Definition UnmarshalRopenPkt (b : buf) : ures RopenPkt :=
  let u := u_zero in let l := 0 in let t := 0 in
  let OQID_Type := 0 in let OQID_Version := 0 in let OQID_Path := 0 in let IOUnit := 0 in
  rd 2 u b (fun b => URet (mkRopenPkt (mkQID OQID_Type OQID_Version OQID_Path) IOUnit) t b (Some (str "pkt too short for Tag; need 2, have " ++ dec (buf_len b)))) (fun u b =>
  let l := N.lor (ub u 0) (N.shiftl (ub u 1) 8) in
  let t := l mod 65536 in
  rd 1 u b (fun b => URet (mkRopenPkt (mkQID OQID_Type OQID_Version OQID_Path) IOUnit) t b (Some (str "pkt too short for uint8: need 1, have " ++ dec (buf_len b)))) (fun u b =>
  let OQID_Type := ub u 0 in
  rd 4 u b (fun b => URet (mkRopenPkt (mkQID OQID_Type OQID_Version OQID_Path) IOUnit) t b (Some (str "pkt too short for uint32: need 4, have " ++ dec (buf_len b)))) (fun u b =>
  let OQID_Version := ub u 0 in
  let OQID_Version := N.lor OQID_Version (N.shiftl (ub u 1) 8) in
  let OQID_Version := N.lor OQID_Version (N.shiftl (ub u 2) 16) in
  let OQID_Version := N.lor OQID_Version (N.shiftl (ub u 3) 24) in
  rd 8 u b (fun b => URet (mkRopenPkt (mkQID OQID_Type OQID_Version OQID_Path) IOUnit) t b (Some (str "pkt too short for uint64: need 8, have " ++ dec (buf_len b)))) (fun u b =>
  let OQID_Path := ub u 0 in
  let OQID_Path := N.lor OQID_Path (N.shiftl (ub u 1) 8) in
  let OQID_Path := N.lor OQID_Path (N.shiftl (ub u 2) 16) in
  let OQID_Path := N.lor OQID_Path (N.shiftl (ub u 3) 24) in
  let OQID_Path := N.lor OQID_Path (N.shiftl (ub u 4) 32) in
  let OQID_Path := N.lor OQID_Path (N.shiftl (ub u 5) 40) in
  let OQID_Path := N.lor OQID_Path (N.shiftl (ub u 6) 48) in
  let OQID_Path := N.lor OQID_Path (N.shiftl (ub u 7) 56) in
  rd 4 u b (fun b => URet (mkRopenPkt (mkQID OQID_Type OQID_Version OQID_Path) IOUnit) t b (Some (str "pkt too short for uint32: need 4, have " ++ dec (buf_len b)))) (fun u b =>
  let IOUnit := ub u 0 in
  let IOUnit := N.lor IOUnit (N.shiftl (ub u 1) 8) in
  let IOUnit := N.lor IOUnit (N.shiftl (ub u 2) 16) in
  let IOUnit := N.lor IOUnit (N.shiftl (ub u 3) 24) in
  if 0 <? buf_len b then URet (mkRopenPkt (mkQID OQID_Type OQID_Version OQID_Path) IOUnit) t b (Some (str "Packet too long: " ++ dec (buf_len b) ++ str " bytes left over after decode")) else
  URet (mkRopenPkt (mkQID OQID_Type OQID_Version OQID_Path) IOUnit) t b None))))).

(** genout.go:745-763 *)
Definition MarshalTopenPkt (t : N) (OFID : N) (Omode : N) : bytes :=
  set_len4
    ([x00;
      x00;
      x00;
      x00;
      u8 Topen_t;
      u8 (N.shiftr t 0);
      u8 (N.shiftr t 8);
      u8 (N.shiftr OFID 0);
      u8 (N.shiftr OFID 8);
      u8 (N.shiftr OFID 16);
      u8 (N.shiftr OFID 24);
      u8 (N.shiftr Omode 0)]).

(** genout.go:764-791 *)
Definition UnmarshalTopenPkt (b : buf) : ures TopenPkt :=
  let u := u_zero in let l := 0 in let t := 0 in
  let OFID := 0 in let Omode := 0 in
  rd 2 u b (fun b => URet (mkTopenPkt OFID Omode) t b (Some (str "pkt too short for Tag; need 2, have " ++ dec (buf_len b)))) (fun u b =>
  let l := N.lor (ub u 0) (N.shiftl (ub u 1) 8) in
  let t := l mod 65536 in
  rd 4 u b (fun b => URet (mkTopenPkt OFID Omode) t b (Some (str "pkt too short for uint32: need 4, have " ++ dec (buf_len b)))) (fun u b =>
  let OFID := ub u 0 in
  let OFID := N.lor OFID (N.shiftl (ub u 1) 8) in
  let OFID := N.lor OFID (N.shiftl (ub u 2) 16) in
  let OFID := N.lor OFID (N.shiftl (ub u 3) 24) in
  rd 1 u b (fun b => URet (mkTopenPkt OFID Omode) t b (Some (str "pkt too short for uint8: need 1, have " ++ dec (buf_len b)))) (fun u b =>
  let Omode := ub u 0 in
  if 0 <? buf_len b then URet (mkTopenPkt OFID Omode) t b (Some (str "Packet too long: " ++ dec (buf_len b) ++ str " bytes left over after decode")) else
  URet (mkTopenPkt OFID Omode) t b None))).

(** genout.go:824-854 *)
Definition MarshalRcreatePkt (t : N) (OQID : QID) (IOUnit : N) : bytes :=
  set_len4
    ([x00;
      x00;
      x00;
      x00;
      u8 Rcreate_t;
      u8 (N.shiftr t 0);
      u8 (N.shiftr t 8);
      u8 (N.shiftr (QID_Type OQID) 0);
      u8 (N.shiftr (QID_Version OQID) 0);
      u8 (N.shiftr (QID_Version OQID) 8);
      u8 (N.shiftr (QID_Version OQID) 16);
      u8 (N.shiftr (QID_Version OQID) 24);
      u8 (N.shiftr (QID_Path OQID) 0);
      u8 (N.shiftr (QID_Path OQID) 8);
      u8 (N.shiftr (QID_Path OQID) 16);
      u8 (N.shiftr (QID_Path OQID) 24);
      u8 (N.shiftr (QID_Path OQID) 32);
      u8 (N.shiftr (QID_Path OQID) 40);
      u8 (N.shiftr (QID_Path OQID) 48);
      u8 (N.shiftr (QID_Path OQID) 56);
      u8 (N.shiftr IOUnit 0);
      u8 (N.shiftr IOUnit 8);
      u8 (N.shiftr IOUnit 16);
      u8 (N.shiftr IOUnit 24)]).

(** genout.go:855-902 *)
Definition UnmarshalRcreatePkt (b : buf) : ures RcreatePkt :=
  let u := u_zero in let l := 0 in let t := 0 in
  let OQID_Type := 0 in let OQID_Version := 0 in let OQID_Path := 0 in let IOUnit := 0 in
  rd 2 u b (fun b => URet (mkRcreatePkt (mkQID OQID_Type OQID_Version OQID_Path) IOUnit) t b (Some (str "pkt too short for Tag; need 2, have " ++ dec (buf_len b)))) (fun u b =>
  let l := N.lor (ub u 0) (N.shiftl (ub u 1) 8) in
  let t := l mod 65536 in
  rd 1 u b (fun b => URet (mkRcreatePkt (mkQID OQID_Type OQID_Version OQID_Path) IOUnit) t b (Some (str "pkt too short for uint8: need 1, have " ++ dec (buf_len b)))) (fun u b =>
  let OQID_Type := ub u 0 in
  rd 4 u b (fun b => URet (mkRcreatePkt (mkQID OQID_Type OQID_Version OQID_Path) IOUnit) t b (Some (str "pkt too short for uint32: need 4, have " ++ dec (buf_len b)))) (fun u b =>
  let OQID_Version := ub u 0 in
  let OQID_Version := N.lor OQID_Version (N.shiftl (ub u 1) 8) in
  let OQID_Version := N.lor OQID_Version (N.shiftl (ub u 2) 16) in
  let OQID_Version := N.lor OQID_Version (N.shiftl (ub u 3) 24) in
  rd 8 u b (fun b => URet (mkRcreatePkt (mkQID OQID_Type OQID_Version OQID_Path) IOUnit) t b (Some (str "pkt too short for uint64: need 8, have " ++ dec (buf_len b)))) (fun u b =>
  let OQID_Path := ub u 0 in
  let OQID_Path := N.lor OQID_Path (N.shiftl (ub u 1) 8) in
  let OQID_Path := N.lor OQID_Path (N.shiftl (ub u 2) 16) in
  let OQID_Path := N.lor OQID_Path (N.shiftl (ub u 3) 24) in
  let OQID_Path := N.lor OQID_Path (N.shiftl (ub u 4) 32) in
  let OQID_Path := N.lor OQID_Path (N.shiftl (ub u 5) 40) in
  let OQID_Path := N.lor OQID_Path (N.shiftl (ub u 6) 48) in
  let OQID_Path := N.lor OQID_Path (N.shiftl (ub u 7) 56) in
  rd 4 u b (fun b => URet (mkRcreatePkt (mkQID OQID_Type OQID_Version OQID_Path) IOUnit) t b (Some (str "pkt too short for uint32: need 4, have " ++ dec (buf_len b)))) (fun u b =>
  let IOUnit := ub u 0 in
  let IOUnit := N.lor IOUnit (N.shiftl (ub u 1) 8) in
  let IOUnit := N.lor IOUnit (N.shiftl (ub u 2) 16) in
  let IOUnit := N.lor IOUnit (N.shiftl (ub u 3) 24) in
  if 0 <? buf_len b then URet (mkRcreatePkt (mkQID OQID_Type OQID_Version OQID_Path) IOUnit) t b (Some (str "Packet too long: " ++ dec (buf_len b) ++ str " bytes left over after decode")) else
  URet (mkRcreatePkt (mkQID OQID_Type OQID_Version OQID_Path) IOUnit) t b None))))).

(** genout.go:903-928 *)
Definition MarshalTcreatePkt (t : N) (OFID : N) (Name : bytes) (CreatePerm : N) (Omode : N) : bytes :=
  set_len4
    ([x00;
      x00;
      x00;
      x00;
      u8 Tcreate_t;
      u8 (N.shiftr t 0);
      u8 (N.shiftr t 8);
      u8 (N.shiftr OFID 0);
      u8 (N.shiftr OFID 8);
      u8 (N.shiftr OFID 16);
      u8 (N.shiftr OFID 24);
      u8 (N.shiftr (blen Name) 0);
      u8 (N.shiftr (blen Name) 8)]
     ++ Name
     ++ [u8 (N.shiftr CreatePerm 0);
      u8 (N.shiftr CreatePerm 8);
      u8 (N.shiftr CreatePerm 16);
      u8 (N.shiftr CreatePerm 24);
      u8 (N.shiftr Omode 0)]).

(** genout.go:929-976 *)
Definition UnmarshalTcreatePkt (b : buf) : ures TcreatePkt :=
  let u := u_zero in let l := 0 in let t := 0 in
  let OFID := 0 in let Name := [] in let CreatePerm := 0 in let Omode := 0 in
  rd 2 u b (fun b => URet (mkTcreatePkt OFID Name CreatePerm Omode) t b (Some (str "pkt too short for Tag; need 2, have " ++ dec (buf_len b)))) (fun u b =>
  let l := N.lor (ub u 0) (N.shiftl (ub u 1) 8) in
  let t := l mod 65536 in
  rd 4 u b (fun b => URet (mkTcreatePkt OFID Name CreatePerm Omode) t b (Some (str "pkt too short for uint32: need 4, have " ++ dec (buf_len b)))) (fun u b =>
  let OFID := ub u 0 in
  let OFID := N.lor OFID (N.shiftl (ub u 1) 8) in
  let OFID := N.lor OFID (N.shiftl (ub u 2) 16) in
  let OFID := N.lor OFID (N.shiftl (ub u 3) 24) in
  rd 2 u b (fun b => URet (mkTcreatePkt OFID Name CreatePerm Omode) t b (Some (str "pkt too short for uint16: need 2, have " ++ dec (buf_len b)))) (fun u b =>
  let l := ub u 0 in
  let l := N.lor l (N.shiftl (ub u 1) 8) in
  if buf_len b <? l then URet (mkTcreatePkt OFID Name CreatePerm Omode) t b (Some (str "pkt too short for string: need " ++ dec l ++ str ", have " ++ dec (buf_len b))) else
  reslice l b UPanic (fun Name =>
  let b := buf_next l b in
  rd 4 u b (fun b => URet (mkTcreatePkt OFID Name CreatePerm Omode) t b (Some (str "pkt too short for uint32: need 4, have " ++ dec (buf_len b)))) (fun u b =>
  let CreatePerm := ub u 0 in
  let CreatePerm := N.lor CreatePerm (N.shiftl (ub u 1) 8) in
  let CreatePerm := N.lor CreatePerm (N.shiftl (ub u 2) 16) in
  let CreatePerm := N.lor CreatePerm (N.shiftl (ub u 3) 24) in
  rd 1 u b (fun b => URet (mkTcreatePkt OFID Name CreatePerm Omode) t b (Some (str "pkt too short for uint8: need 1, have " ++ dec (buf_len b)))) (fun u b =>
  let Omode := ub u 0 in
  if 0 <? buf_len b then URet (mkTcreatePkt OFID Name CreatePerm Omode) t b (Some (str "Packet too long: " ++ dec (buf_len b) ++ str " bytes left over after decode")) else
  URet (mkTcreatePkt OFID Name CreatePerm Omode) t b None)))))).

(** genout.go:1009-1025 *)
Definition MarshalRstatPkt (t : N) (B : bytes) : bytes :=
  set_len4
    ([x00;
      x00;
      x00;
      x00;
      u8 Rstat_t;
      u8 (N.shiftr t 0);
      u8 (N.shiftr t 8);
      u8 (N.shiftr (blen B) 0);
      u8 (N.shiftr (blen B) 8)]
     ++ B).

(** genout.go:1026-1048 *)
Definition UnmarshalRstatPkt (b : buf) : ures RstatPkt :=
  let u := u_zero in let l := 0 in let t := 0 in
  let B := [] in
  rd 2 u b (fun b => URet (mkRstatPkt B) t b (Some (str "pkt too short for Tag; need 2, have " ++ dec (buf_len b)))) (fun u b =>
  let l := N.lor (ub u 0) (N.shiftl (ub u 1) 8) in
  let t := l mod 65536 in
  rd 2 u b (fun b => URet (mkRstatPkt B) t b (Some (str "pkt too short for uint16: need 2, have " ++ dec (buf_len b)))) (fun u b =>
  let l := ub u 0 in
  let l := N.lor l (N.shiftl (ub u 1) 8) in
  reslice l b UPanic (fun B =>
  let b := buf_next l b in
  if 0 <? buf_len b then URet (mkRstatPkt B) t b (Some (str "Packet too long: " ++ dec (buf_len b) ++ str " bytes left over after decode")) else
  URet (mkRstatPkt B) t b None))).

(** genout.go:1049-1066 *)
Definition MarshalTstatPkt (t : N) (OFID : N) : bytes :=
  set_len4
    ([x00;
      x00;
      x00;
      x00;
      u8 Tstat_t;
      u8 (N.shiftr t 0);
      u8 (N.shiftr t 8);
      u8 (N.shiftr OFID 0);
      u8 (N.shiftr OFID 8);
      u8 (N.shiftr OFID 16);
      u8 (N.shiftr OFID 24)]).

(** genout.go:1067-1089 *)
Definition UnmarshalTstatPkt (b : buf) : ures TstatPkt :=
  let u := u_zero in let l := 0 in let t := 0 in
  let OFID := 0 in
  rd 2 u b (fun b => URet (mkTstatPkt OFID) t b (Some (str "pkt too short for Tag; need 2, have " ++ dec (buf_len b)))) (fun u b =>
  let l := N.lor (ub u 0) (N.shiftl (ub u 1) 8) in
  let t := l mod 65536 in
  rd 4 u b (fun b => URet (mkTstatPkt OFID) t b (Some (str "pkt too short for uint32: need 4, have " ++ dec (buf_len b)))) (fun u b =>
  let OFID := ub u 0 in
  let OFID := N.lor OFID (N.shiftl (ub u 1) 8) in
  let OFID := N.lor OFID (N.shiftl (ub u 2) 16) in
  let OFID := N.lor OFID (N.shiftl (ub u 3) 24) in
  if 0 <? buf_len b then URet (mkTstatPkt OFID) t b (Some (str "Packet too long: " ++ dec (buf_len b) ++ str " bytes left over after decode")) else
  URet (mkTstatPkt OFID) t b None)).

(** genout.go:1122-1135 *)
Definition MarshalRwstatPkt (t : N) : bytes :=
  set_len4
    ([x00;
      x00;
      x00;
      x00;
      u8 Rwstat_t;
      u8 (N.shiftr t 0);
      u8 (N.shiftr t 8)]).

(** genout.go:1136-1150 *)
Definition UnmarshalRwstatPkt (b : buf) : ures RwstatPkt :=
  let u := u_zero in let l := 0 in let t := 0 in
  rd 2 u b (fun b => URet (mkRwstatPkt ) t b (Some (str "pkt too short for Tag; need 2, have " ++ dec (buf_len b)))) (fun u b =>
  let l := N.lor (ub u 0) (N.shiftl (ub u 1) 8) in
  let t := l mod 65536 in
  if 0 <? buf_len b then URet (mkRwstatPkt ) t b (Some (str "Packet too long: " ++ dec (buf_len b) ++ str " bytes left over after decode")) else
  URet (mkRwstatPkt ) t b None).

(** genout.go:1151-1171 *)
Definition MarshalTwstatPkt (t : N) (OFID : N) (B : bytes) : bytes :=
  set_len4
    ([x00;
      x00;
      x00;
      x00;
      u8 Twstat_t;
      u8 (N.shiftr t 0);
      u8 (N.shiftr t 8);
      u8 (N.shiftr OFID 0);
      u8 (N.shiftr OFID 8);
      u8 (N.shiftr OFID 16);
      u8 (N.shiftr OFID 24);
      u8 (N.shiftr (blen B) 0);
      u8 (N.shiftr (blen B) 8)]
     ++ B).

(** genout.go:1172-1202 *)
Definition UnmarshalTwstatPkt (b : buf) : ures TwstatPkt :=
  let u := u_zero in let l := 0 in let t := 0 in
  let OFID := 0 in let B := [] in
  rd 2 u b (fun b => URet (mkTwstatPkt OFID B) t b (Some (str "pkt too short for Tag; need 2, have " ++ dec (buf_len b)))) (fun u b =>
  let l := N.lor (ub u 0) (N.shiftl (ub u 1) 8) in
  let t := l mod 65536 in
  rd 4 u b (fun b => URet (mkTwstatPkt OFID B) t b (Some (str "pkt too short for uint32: need 4, have " ++ dec (buf_len b)))) (fun u b =>
  let OFID := ub u 0 in
  let OFID := N.lor OFID (N.shiftl (ub u 1) 8) in
  let OFID := N.lor OFID (N.shiftl (ub u 2) 16) in
  let OFID := N.lor OFID (N.shiftl (ub u 3) 24) in
  rd 2 u b (fun b => URet (mkTwstatPkt OFID B) t b (Some (str "pkt too short for uint16: need 2, have " ++ dec (buf_len b)))) (fun u b =>
  let l := ub u 0 in
  let l := N.lor l (N.shiftl (ub u 1) 8) in
  reslice l b UPanic (fun B =>
  let b := buf_next l b in
  if 0 <? buf_len b then URet (mkTwstatPkt OFID B) t b (Some (str "Packet too long: " ++ dec (buf_len b) ++ str " bytes left over after decode")) else
  URet (mkTwstatPkt OFID B) t b None)))).

(** genout.go:1235-1248 *)
Definition MarshalRclunkPkt (t : N) : bytes :=
  set_len4
    ([x00;
      x00;
      x00;
      x00;
      u8 Rclunk_t;
      u8 (N.shiftr t 0);
      u8 (N.shiftr t 8)]).

(** genout.go:1249-1263 *)
Definition UnmarshalRclunkPkt (b : buf) : ures RclunkPkt :=
  let u := u_zero in let l := 0 in let t := 0 in
  rd 2 u b (fun b => URet (mkRclunkPkt ) t b (Some (str "pkt too short for Tag; need 2, have " ++ dec (buf_len b)))) (fun u b =>
  let l := N.lor (ub u 0) (N.shiftl (ub u 1) 8) in
  let t := l mod 65536 in
  if 0 <? buf_len b then URet (mkRclunkPkt ) t b (Some (str "Packet too long: " ++ dec (buf_len b) ++ str " bytes left over after decode")) else
  URet (mkRclunkPkt ) t b None).

(** genout.go:1264-1281 *)
Definition MarshalTclunkPkt (t : N) (OFID : N) : bytes :=
  set_len4
    ([x00;
      x00;
      x00;
      x00;
      u8 Tclunk_t;
      u8 (N.shiftr t 0);
      u8 (N.shiftr t 8);
      u8 (N.shiftr OFID 0);
      u8 (N.shiftr OFID 8);
      u8 (N.shiftr OFID 16);
      u8 (N.shiftr OFID 24)]).

(** genout.go:1282-1304 *)
Definition UnmarshalTclunkPkt (b : buf) : ures TclunkPkt :=
  let u := u_zero in let l := 0 in let t := 0 in
  let OFID := 0 in
  rd 2 u b (fun b => URet (mkTclunkPkt OFID) t b (Some (str "pkt too short for Tag; need 2, have " ++ dec (buf_len b)))) (fun u b =>
  let l := N.lor (ub u 0) (N.shiftl (ub u 1) 8) in
  let t := l mod 65536 in
  rd 4 u b (fun b => URet (mkTclunkPkt OFID) t b (Some (str "pkt too short for uint32: need 4, have " ++ dec (buf_len b)))) (fun u b =>
  let OFID := ub u 0 in
  let OFID := N.lor OFID (N.shiftl (ub u 1) 8) in
  let OFID := N.lor OFID (N.shiftl (ub u 2) 16) in
  let OFID := N.lor OFID (N.shiftl (ub u 3) 24) in
  if 0 <? buf_len b then URet (mkTclunkPkt OFID) t b (Some (str "Packet too long: " ++ dec (buf_len b) ++ str " bytes left over after decode")) else
  URet (mkTclunkPkt OFID) t b None)).

(** genout.go:1337-1350 *)
Definition MarshalRremovePkt (t : N) : bytes :=
  set_len4
    ([x00;
      x00;
      x00;
      x00;
      u8 Rremove_t;
      u8 (N.shiftr t 0);
      u8 (N.shiftr t 8)]).

(** genout.go:1351-1365 *)
Definition UnmarshalRremovePkt (b : buf) : ures RremovePkt :=
  let u := u_zero in let l := 0 in let t := 0 in
  rd 2 u b (fun b => URet (mkRremovePkt ) t b (Some (str "pkt too short for Tag; need 2, have " ++ dec (buf_len b)))) (fun u b =>
  let l := N.lor (ub u 0) (N.shiftl (ub u 1) 8) in
  let t := l mod 65536 in
  if 0 <? buf_len b then URet (mkRremovePkt ) t b (Some (str "Packet too long: " ++ dec (buf_len b) ++ str " bytes left over after decode")) else
  URet (mkRremovePkt ) t b None).

(** genout.go:1366-1383 *)
Definition MarshalTremovePkt (t : N) (OFID : N) : bytes :=
  set_len4
    ([x00;
      x00;
      x00;
      x00;
      u8 Tremove_t;
      u8 (N.shiftr t 0);
      u8 (N.shiftr t 8);
      u8 (N.shiftr OFID 0);
      u8 (N.shiftr OFID 8);
      u8 (N.shiftr OFID 16);
      u8 (N.shiftr OFID 24)]).

(** genout.go:1384-1406 *)
Definition UnmarshalTremovePkt (b : buf) : ures TremovePkt :=
  let u := u_zero in let l := 0 in let t := 0 in
  let OFID := 0 in
  rd 2 u b (fun b => URet (mkTremovePkt OFID) t b (Some (str "pkt too short for Tag; need 2, have " ++ dec (buf_len b)))) (fun u b =>
  let l := N.lor (ub u 0) (N.shiftl (ub u 1) 8) in
  let t := l mod 65536 in
  rd 4 u b (fun b => URet (mkTremovePkt OFID) t b (Some (str "pkt too short for uint32: need 4, have " ++ dec (buf_len b)))) (fun u b =>
  let OFID := ub u 0 in
  let OFID := N.lor OFID (N.shiftl (ub u 1) 8) in
  let OFID := N.lor OFID (N.shiftl (ub u 2) 16) in
  let OFID := N.lor OFID (N.shiftl (ub u 3) 24) in
  if 0 <? buf_len b then URet (mkTremovePkt OFID) t b (Some (str "Packet too long: " ++ dec (buf_len b) ++ str " bytes left over after decode")) else
  URet (mkTremovePkt OFID) t b None)).

(** genout.go:1439-1457 *)
Definition MarshalRreadPkt (t : N) (Data : bytes) : bytes :=
  set_len4
    ([x00;
      x00;
      x00;
      x00;
      u8 Rread_t;
      u8 (N.shiftr t 0);
      u8 (N.shiftr t 8);
      u8 (N.shiftr (blen Data) 0);
      u8 (N.shiftr (blen Data) 8);
      u8 (N.shiftr (blen Data) 16);
      u8 (N.shiftr (blen Data) 24)]
     ++ Data).

(** genout.go:1458-1482 *)
Definition UnmarshalRreadPkt (b : buf) : ures RreadPkt :=
  let u := u_zero in let l := 0 in let t := 0 in
  let Data := [] in
  rd 2 u b (fun b => URet (mkRreadPkt Data) t b (Some (str "pkt too short for Tag; need 2, have " ++ dec (buf_len b)))) (fun u b =>
  let l := N.lor (ub u 0) (N.shiftl (ub u 1) 8) in
  let t := l mod 65536 in
  rd 4 u b (fun b => URet (mkRreadPkt Data) t b (Some (str "pkt too short for uint32: need 4, have " ++ dec (buf_len b)))) (fun u b =>
  let l := ub u 0 in
  let l := N.lor l (N.shiftl (ub u 1) 8) in
  let l := N.lor l (N.shiftl (ub u 2) 16) in
  let l := N.lor l (N.shiftl (ub u 3) 24) in
  reslice l b UPanic (fun Data =>
  let b := buf_next l b in
  if 0 <? buf_len b then URet (mkRreadPkt Data) t b (Some (str "Packet too long: " ++ dec (buf_len b) ++ str " bytes left over after decode")) else
  URet (mkRreadPkt Data) t b None))).

(** genout.go:1483-1512 *)
Definition MarshalTreadPkt (t : N) (OFID : N) (Off : N) (Len : Z) : bytes :=
  set_len4
    ([x00;
      x00;
      x00;
      x00;
      u8 Tread_t;
      u8 (N.shiftr t 0);
      u8 (N.shiftr t 8);
      u8 (N.shiftr OFID 0);
      u8 (N.shiftr OFID 8);
      u8 (N.shiftr OFID 16);
      u8 (N.shiftr OFID 24);
      u8 (N.shiftr Off 0);
      u8 (N.shiftr Off 8);
      u8 (N.shiftr Off 16);
      u8 (N.shiftr Off 24);
      u8 (N.shiftr Off 32);
      u8 (N.shiftr Off 40);
      u8 (N.shiftr Off 48);
      u8 (N.shiftr Off 56);
      u8z (Z.shiftr Len 0);
      u8z (Z.shiftr Len 8);
      u8z (Z.shiftr Len 16);
      u8z (Z.shiftr Len 24)]).

(** genout.go:1513-1555 *)
Definition UnmarshalTreadPkt (b : buf) : ures TreadPkt :=
  let u := u_zero in let l := 0 in let t := 0 in
  let OFID := 0 in let Off := 0 in let Len := 0%Z in
  rd 2 u b (fun b => URet (mkTreadPkt OFID Off Len) t b (Some (str "pkt too short for Tag; need 2, have " ++ dec (buf_len b)))) (fun u b =>
  let l := N.lor (ub u 0) (N.shiftl (ub u 1) 8) in
  let t := l mod 65536 in
  rd 4 u b (fun b => URet (mkTreadPkt OFID Off Len) t b (Some (str "pkt too short for uint32: need 4, have " ++ dec (buf_len b)))) (fun u b =>
  let OFID := ub u 0 in
  let OFID := N.lor OFID (N.shiftl (ub u 1) 8) in
  let OFID := N.lor OFID (N.shiftl (ub u 2) 16) in
  let OFID := N.lor OFID (N.shiftl (ub u 3) 24) in
  rd 8 u b (fun b => URet (mkTreadPkt OFID Off Len) t b (Some (str "pkt too short for uint64: need 8, have " ++ dec (buf_len b)))) (fun u b =>
  let Off := ub u 0 in
  let Off := N.lor Off (N.shiftl (ub u 1) 8) in
  let Off := N.lor Off (N.shiftl (ub u 2) 16) in
  let Off := N.lor Off (N.shiftl (ub u 3) 24) in
  let Off := N.lor Off (N.shiftl (ub u 4) 32) in
  let Off := N.lor Off (N.shiftl (ub u 5) 40) in
  let Off := N.lor Off (N.shiftl (ub u 6) 48) in
  let Off := N.lor Off (N.shiftl (ub u 7) 56) in
  rd 4 u b (fun b => URet (mkTreadPkt OFID Off Len) t b (Some (str "pkt too short for uint32: need 4, have " ++ dec (buf_len b)))) (fun u b =>
  let Len := i32 (ub u 0) in
  let Len := Z.lor Len (i32 (N.shiftl (ub u 1) 8)) in
  let Len := Z.lor Len (i32 (N.shiftl (ub u 2) 16)) in
  let Len := Z.lor Len (i32 (N.shiftl (ub u 3) 24)) in
  if 0 <? buf_len b then URet (mkTreadPkt OFID Off Len) t b (Some (str "Packet too long: " ++ dec (buf_len b) ++ str " bytes left over after decode")) else
  URet (mkTreadPkt OFID Off Len) t b None)))).

(** genout.go:1588-1605 *)
Definition MarshalRwritePkt (t : N) (RLen : Z) : bytes :=
  set_len4
    ([x00;
      x00;
      x00;
      x00;
      u8 Rwrite_t;
      u8 (N.shiftr t 0);
      u8 (N.shiftr t 8);
      u8z (Z.shiftr RLen 0);
      u8z (Z.shiftr RLen 8);
      u8z (Z.shiftr RLen 16);
      u8z (Z.shiftr RLen 24)]).

(** genout.go:1606-1628 *)
Definition UnmarshalRwritePkt (b : buf) : ures RwritePkt :=
  let u := u_zero in let l := 0 in let t := 0 in
  let RLen := 0%Z in
  rd 2 u b (fun b => URet (mkRwritePkt RLen) t b (Some (str "pkt too short for Tag; need 2, have " ++ dec (buf_len b)))) (fun u b =>
  let l := N.lor (ub u 0) (N.shiftl (ub u 1) 8) in
  let t := l mod 65536 in
  rd 4 u b (fun b => URet (mkRwritePkt RLen) t b (Some (str "pkt too short for uint32: need 4, have " ++ dec (buf_len b)))) (fun u b =>
  let RLen := i32 (ub u 0) in
  let RLen := Z.lor RLen (i32 (N.shiftl (ub u 1) 8)) in
  let RLen := Z.lor RLen (i32 (N.shiftl (ub u 2) 16)) in
  let RLen := Z.lor RLen (i32 (N.shiftl (ub u 3) 24)) in
  if 0 <? buf_len b then URet (mkRwritePkt RLen) t b (Some (str "Packet too long: " ++ dec (buf_len b) ++ str " bytes left over after decode")) else
  URet (mkRwritePkt RLen) t b None)).

(** genout.go:1629-1659 *)
Definition MarshalTwritePkt (t : N) (OFID : N) (Off : N) (Data : bytes) : bytes :=
  set_len4
    ([x00;
      x00;
      x00;
      x00;
      u8 Twrite_t;
      u8 (N.shiftr t 0);
      u8 (N.shiftr t 8);
      u8 (N.shiftr OFID 0);
      u8 (N.shiftr OFID 8);
      u8 (N.shiftr OFID 16);
      u8 (N.shiftr OFID 24);
      u8 (N.shiftr Off 0);
      u8 (N.shiftr Off 8);
      u8 (N.shiftr Off 16);
      u8 (N.shiftr Off 24);
      u8 (N.shiftr Off 32);
      u8 (N.shiftr Off 40);
      u8 (N.shiftr Off 48);
      u8 (N.shiftr Off 56);
      u8 (N.shiftr (blen Data) 0);
      u8 (N.shiftr (blen Data) 8);
      u8 (N.shiftr (blen Data) 16);
      u8 (N.shiftr (blen Data) 24)]
     ++ Data).

(** genout.go:1660-1704 *)
Definition UnmarshalTwritePkt (b : buf) : ures TwritePkt :=
  let u := u_zero in let l := 0 in let t := 0 in
  let OFID := 0 in let Off := 0 in let Data := [] in
  rd 2 u b (fun b => URet (mkTwritePkt OFID Off Data) t b (Some (str "pkt too short for Tag; need 2, have " ++ dec (buf_len b)))) (fun u b =>
  let l := N.lor (ub u 0) (N.shiftl (ub u 1) 8) in
  let t := l mod 65536 in
  rd 4 u b (fun b => URet (mkTwritePkt OFID Off Data) t b (Some (str "pkt too short for uint32: need 4, have " ++ dec (buf_len b)))) (fun u b =>
  let OFID := ub u 0 in
  let OFID := N.lor OFID (N.shiftl (ub u 1) 8) in
  let OFID := N.lor OFID (N.shiftl (ub u 2) 16) in
  let OFID := N.lor OFID (N.shiftl (ub u 3) 24) in
  rd 8 u b (fun b => URet (mkTwritePkt OFID Off Data) t b (Some (str "pkt too short for uint64: need 8, have " ++ dec (buf_len b)))) (fun u b =>
  let Off := ub u 0 in
  let Off := N.lor Off (N.shiftl (ub u 1) 8) in
  let Off := N.lor Off (N.shiftl (ub u 2) 16) in
  let Off := N.lor Off (N.shiftl (ub u 3) 24) in
  let Off := N.lor Off (N.shiftl (ub u 4) 32) in
  let Off := N.lor Off (N.shiftl (ub u 5) 40) in
  let Off := N.lor Off (N.shiftl (ub u 6) 48) in
  let Off := N.lor Off (N.shiftl (ub u 7) 56) in
  rd 4 u b (fun b => URet (mkTwritePkt OFID Off Data) t b (Some (str "pkt too short for uint32: need 4, have " ++ dec (buf_len b)))) (fun u b =>
  let l := ub u 0 in
  let l := N.lor l (N.shiftl (ub u 1) 8) in
  let l := N.lor l (N.shiftl (ub u 2) 16) in
  let l := N.lor l (N.shiftl (ub u 3) 24) in
  reslice l b UPanic (fun Data =>
  let b := buf_next l b in
  if 0 <? buf_len b then URet (mkTwritePkt OFID Off Data) t b (Some (str "Packet too long: " ++ dec (buf_len b) ++ str " bytes left over after decode")) else
  URet (mkTwritePkt OFID Off Data) t b None))))).

(** genout.go:1737-1745; the buffer contents afterwards. *)
Definition ServerError (b : buf) (s : bytes) : bytes :=
  rd 2 u_zero b (fun b => unread b) (fun u b =>
    let t := N.lor (ub u 0) (N.shiftl (ub u 1) 8) in
    MarshalRerrorPkt t s).

(** genout.go:1746-1805 *)
Definition Marshaldir (D : Dir) : bytes :=
  set_len2
    ([x00;
      x00]
     ++ [u8 (N.shiftr (Dir_Type D) 0);
      u8 (N.shiftr (Dir_Type D) 8);
      u8 (N.shiftr (Dir_Dev D) 0);
      u8 (N.shiftr (Dir_Dev D) 8);
      u8 (N.shiftr (Dir_Dev D) 16);
      u8 (N.shiftr (Dir_Dev D) 24);
      u8 (N.shiftr (QID_Type (Dir_QID D)) 0);
      u8 (N.shiftr (QID_Version (Dir_QID D)) 0);
      u8 (N.shiftr (QID_Version (Dir_QID D)) 8);
      u8 (N.shiftr (QID_Version (Dir_QID D)) 16);
      u8 (N.shiftr (QID_Version (Dir_QID D)) 24);
      u8 (N.shiftr (QID_Path (Dir_QID D)) 0);
      u8 (N.shiftr (QID_Path (Dir_QID D)) 8);
      u8 (N.shiftr (QID_Path (Dir_QID D)) 16);
      u8 (N.shiftr (QID_Path (Dir_QID D)) 24);
      u8 (N.shiftr (QID_Path (Dir_QID D)) 32);
      u8 (N.shiftr (QID_Path (Dir_QID D)) 40);
      u8 (N.shiftr (QID_Path (Dir_QID D)) 48);
      u8 (N.shiftr (QID_Path (Dir_QID D)) 56);
      u8 (N.shiftr (Dir_Mode D) 0);
      u8 (N.shiftr (Dir_Mode D) 8);
      u8 (N.shiftr (Dir_Mode D) 16);
      u8 (N.shiftr (Dir_Mode D) 24);
      u8 (N.shiftr (Dir_Atime D) 0);
      u8 (N.shiftr (Dir_Atime D) 8);
      u8 (N.shiftr (Dir_Atime D) 16);
      u8 (N.shiftr (Dir_Atime D) 24);
      u8 (N.shiftr (Dir_Mtime D) 0);
      u8 (N.shiftr (Dir_Mtime D) 8);
      u8 (N.shiftr (Dir_Mtime D) 16);
      u8 (N.shiftr (Dir_Mtime D) 24);
      u8 (N.shiftr (Dir_Length D) 0);
      u8 (N.shiftr (Dir_Length D) 8);
      u8 (N.shiftr (Dir_Length D) 16);
      u8 (N.shiftr (Dir_Length D) 24);
      u8 (N.shiftr (Dir_Length D) 32);
      u8 (N.shiftr (Dir_Length D) 40);
      u8 (N.shiftr (Dir_Length D) 48);
      u8 (N.shiftr (Dir_Length D) 56);
      u8 (N.shiftr (blen (Dir_Name D)) 0);
      u8 (N.shiftr (blen (Dir_Name D)) 8)]
     ++ (Dir_Name D)
     ++ [u8 (N.shiftr (blen (Dir_User D)) 0);
      u8 (N.shiftr (blen (Dir_User D)) 8)]
     ++ (Dir_User D)
     ++ [u8 (N.shiftr (blen (Dir_Group D)) 0);
      u8 (N.shiftr (blen (Dir_Group D)) 8)]
     ++ (Dir_Group D)
     ++ [u8 (N.shiftr (blen (Dir_ModUser D)) 0);
      u8 (N.shiftr (blen (Dir_ModUser D)) 8)]
     ++ (Dir_ModUser D)).

(** genout.go:1806-1935 *)
Definition Unmarshaldir (b : buf) : ures Dir :=
  let u := u_zero in let l := 0 in let t := 0 in
  let D_Type := 0 in let D_Dev := 0 in let D_QID_Type := 0 in let D_QID_Version := 0 in let D_QID_Path := 0 in let D_Mode := 0 in let D_Atime := 0 in let D_Mtime := 0 in let D_Length := 0 in let D_Name := [] in let D_User := [] in let D_Group := [] in let D_ModUser := [] in
  let b := buf_next 2 b in
  rd 2 u b (fun b => URet (mkDir D_Type D_Dev (mkQID D_QID_Type D_QID_Version D_QID_Path) D_Mode D_Atime D_Mtime D_Length D_Name D_User D_Group D_ModUser) t b (Some (str "pkt too short for uint16: need 2, have " ++ dec (buf_len b)))) (fun u b =>
  let D_Type := ub u 0 in
  let D_Type := N.lor D_Type (N.shiftl (ub u 1) 8) in
  rd 4 u b (fun b => URet (mkDir D_Type D_Dev (mkQID D_QID_Type D_QID_Version D_QID_Path) D_Mode D_Atime D_Mtime D_Length D_Name D_User D_Group D_ModUser) t b (Some (str "pkt too short for uint32: need 4, have " ++ dec (buf_len b)))) (fun u b =>
  let D_Dev := ub u 0 in
  let D_Dev := N.lor D_Dev (N.shiftl (ub u 1) 8) in
  let D_Dev := N.lor D_Dev (N.shiftl (ub u 2) 16) in
  let D_Dev := N.lor D_Dev (N.shiftl (ub u 3) 24) in
  rd 1 u b (fun b => URet (mkDir D_Type D_Dev (mkQID D_QID_Type D_QID_Version D_QID_Path) D_Mode D_Atime D_Mtime D_Length D_Name D_User D_Group D_ModUser) t b (Some (str "pkt too short for uint8: need 1, have " ++ dec (buf_len b)))) (fun u b =>
  let D_QID_Type := ub u 0 in
  rd 4 u b (fun b => URet (mkDir D_Type D_Dev (mkQID D_QID_Type D_QID_Version D_QID_Path) D_Mode D_Atime D_Mtime D_Length D_Name D_User D_Group D_ModUser) t b (Some (str "pkt too short for uint32: need 4, have " ++ dec (buf_len b)))) (fun u b =>
  let D_QID_Version := ub u 0 in
  let D_QID_Version := N.lor D_QID_Version (N.shiftl (ub u 1) 8) in
  let D_QID_Version := N.lor D_QID_Version (N.shiftl (ub u 2) 16) in
  let D_QID_Version := N.lor D_QID_Version (N.shiftl (ub u 3) 24) in
  rd 8 u b (fun b => URet (mkDir D_Type D_Dev (mkQID D_QID_Type D_QID_Version D_QID_Path) D_Mode D_Atime D_Mtime D_Length D_Name D_User D_Group D_ModUser) t b (Some (str "pkt too short for uint64: need 8, have " ++ dec (buf_len b)))) (fun u b =>
  let D_QID_Path := ub u 0 in
  let D_QID_Path := N.lor D_QID_Path (N.shiftl (ub u 1) 8) in
  let D_QID_Path := N.lor D_QID_Path (N.shiftl (ub u 2) 16) in
  let D_QID_Path := N.lor D_QID_Path (N.shiftl (ub u 3) 24) in
  let D_QID_Path := N.lor D_QID_Path (N.shiftl (ub u 4) 32) in
  let D_QID_Path := N.lor D_QID_Path (N.shiftl (ub u 5) 40) in
  let D_QID_Path := N.lor D_QID_Path (N.shiftl (ub u 6) 48) in
  let D_QID_Path := N.lor D_QID_Path (N.shiftl (ub u 7) 56) in
  rd 4 u b (fun b => URet (mkDir D_Type D_Dev (mkQID D_QID_Type D_QID_Version D_QID_Path) D_Mode D_Atime D_Mtime D_Length D_Name D_User D_Group D_ModUser) t b (Some (str "pkt too short for uint32: need 4, have " ++ dec (buf_len b)))) (fun u b =>
  let D_Mode := ub u 0 in
  let D_Mode := N.lor D_Mode (N.shiftl (ub u 1) 8) in
  let D_Mode := N.lor D_Mode (N.shiftl (ub u 2) 16) in
  let D_Mode := N.lor D_Mode (N.shiftl (ub u 3) 24) in
  rd 4 u b (fun b => URet (mkDir D_Type D_Dev (mkQID D_QID_Type D_QID_Version D_QID_Path) D_Mode D_Atime D_Mtime D_Length D_Name D_User D_Group D_ModUser) t b (Some (str "pkt too short for uint32: need 4, have " ++ dec (buf_len b)))) (fun u b =>
  let D_Atime := ub u 0 in
  let D_Atime := N.lor D_Atime (N.shiftl (ub u 1) 8) in
  let D_Atime := N.lor D_Atime (N.shiftl (ub u 2) 16) in
  let D_Atime := N.lor D_Atime (N.shiftl (ub u 3) 24) in
  rd 4 u b (fun b => URet (mkDir D_Type D_Dev (mkQID D_QID_Type D_QID_Version D_QID_Path) D_Mode D_Atime D_Mtime D_Length D_Name D_User D_Group D_ModUser) t b (Some (str "pkt too short for uint32: need 4, have " ++ dec (buf_len b)))) (fun u b =>
  let D_Mtime := ub u 0 in
  let D_Mtime := N.lor D_Mtime (N.shiftl (ub u 1) 8) in
  let D_Mtime := N.lor D_Mtime (N.shiftl (ub u 2) 16) in
  let D_Mtime := N.lor D_Mtime (N.shiftl (ub u 3) 24) in
  rd 8 u b (fun b => URet (mkDir D_Type D_Dev (mkQID D_QID_Type D_QID_Version D_QID_Path) D_Mode D_Atime D_Mtime D_Length D_Name D_User D_Group D_ModUser) t b (Some (str "pkt too short for uint64: need 8, have " ++ dec (buf_len b)))) (fun u b =>
  let D_Length := ub u 0 in
  let D_Length := N.lor D_Length (N.shiftl (ub u 1) 8) in
  let D_Length := N.lor D_Length (N.shiftl (ub u 2) 16) in
  let D_Length := N.lor D_Length (N.shiftl (ub u 3) 24) in
  let D_Length := N.lor D_Length (N.shiftl (ub u 4) 32) in
  let D_Length := N.lor D_Length (N.shiftl (ub u 5) 40) in
  let D_Length := N.lor D_Length (N.shiftl (ub u 6) 48) in
  let D_Length := N.lor D_Length (N.shiftl (ub u 7) 56) in
  rd 2 u b (fun b => URet (mkDir D_Type D_Dev (mkQID D_QID_Type D_QID_Version D_QID_Path) D_Mode D_Atime D_Mtime D_Length D_Name D_User D_Group D_ModUser) t b (Some (str "pkt too short for uint16: need 2, have " ++ dec (buf_len b)))) (fun u b =>
  let l := ub u 0 in
  let l := N.lor l (N.shiftl (ub u 1) 8) in
  if buf_len b <? l then URet (mkDir D_Type D_Dev (mkQID D_QID_Type D_QID_Version D_QID_Path) D_Mode D_Atime D_Mtime D_Length D_Name D_User D_Group D_ModUser) t b (Some (str "pkt too short for string: need " ++ dec l ++ str ", have " ++ dec (buf_len b))) else
  reslice l b UPanic (fun D_Name =>
  let b := buf_next l b in
  rd 2 u b (fun b => URet (mkDir D_Type D_Dev (mkQID D_QID_Type D_QID_Version D_QID_Path) D_Mode D_Atime D_Mtime D_Length D_Name D_User D_Group D_ModUser) t b (Some (str "pkt too short for uint16: need 2, have " ++ dec (buf_len b)))) (fun u b =>
  let l := ub u 0 in
  let l := N.lor l (N.shiftl (ub u 1) 8) in
  if buf_len b <? l then URet (mkDir D_Type D_Dev (mkQID D_QID_Type D_QID_Version D_QID_Path) D_Mode D_Atime D_Mtime D_Length D_Name D_User D_Group D_ModUser) t b (Some (str "pkt too short for string: need " ++ dec l ++ str ", have " ++ dec (buf_len b))) else
  reslice l b UPanic (fun D_User =>
  let b := buf_next l b in
  rd 2 u b (fun b => URet (mkDir D_Type D_Dev (mkQID D_QID_Type D_QID_Version D_QID_Path) D_Mode D_Atime D_Mtime D_Length D_Name D_User D_Group D_ModUser) t b (Some (str "pkt too short for uint16: need 2, have " ++ dec (buf_len b)))) (fun u b =>
  let l := ub u 0 in
  let l := N.lor l (N.shiftl (ub u 1) 8) in
  if buf_len b <? l then URet (mkDir D_Type D_Dev (mkQID D_QID_Type D_QID_Version D_QID_Path) D_Mode D_Atime D_Mtime D_Length D_Name D_User D_Group D_ModUser) t b (Some (str "pkt too short for string: need " ++ dec l ++ str ", have " ++ dec (buf_len b))) else
  reslice l b UPanic (fun D_Group =>
  let b := buf_next l b in
  rd 2 u b (fun b => URet (mkDir D_Type D_Dev (mkQID D_QID_Type D_QID_Version D_QID_Path) D_Mode D_Atime D_Mtime D_Length D_Name D_User D_Group D_ModUser) t b (Some (str "pkt too short for uint16: need 2, have " ++ dec (buf_len b)))) (fun u b =>
  let l := ub u 0 in
  let l := N.lor l (N.shiftl (ub u 1) 8) in
  if buf_len b <? l then URet (mkDir D_Type D_Dev (mkQID D_QID_Type D_QID_Version D_QID_Path) D_Mode D_Atime D_Mtime D_Length D_Name D_User D_Group D_ModUser) t b (Some (str "pkt too short for string: need " ++ dec l ++ str ", have " ++ dec (buf_len b))) else
  reslice l b UPanic (fun D_ModUser =>
  let b := buf_next l b in
  URet (mkDir D_Type D_Dev (mkQID D_QID_Type D_QID_Version D_QID_Path) D_Mode D_Atime D_Mtime D_Length D_Name D_User D_Group D_ModUser) t b None))))))))))))))))).

