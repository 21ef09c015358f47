(** A small file server for examples and counterexamples: it counts how often it is called and does nothing
    else.  With [refuse] it refuses every version request. *)
From Verif Require Import Base GoBuf CodecPrim Types Codec Msgs StubPrim Server ServerSpec.

Definition counting (refuse : bool) : NineServer N :=
  mkNineServer N
    (fun s _ _ => if refuse then NSErr (s + 1) (str "no") else NSOk (s + 1) (mkRversionPkt 8 (str "9P2000")))
    (fun s _ _ _ _ => NSOk (s + 1) (mkRattachPkt (mkQID 128 0 7)))
    (fun s _ _ names => NSOk (s + 1) (mkRwalkPkt (map (fun _ => mkQID 0 0 7) names)))
    (fun s _ _ => NSOk (s + 1) (mkRopenPkt (mkQID 0 0 7) 8000))
    (fun s _ _ _ _ => NSOk (s + 1) (mkRcreatePkt (mkQID 0 0 7) 8000))
    (fun s _ => NSOk (s + 1) (mkRstatPkt [x01; x02]))
    (fun s _ _ => NSErr (s + 1) (str "read-only"))
    (fun s _ => NSOk (s + 1) mkRclunkPkt)
    (fun s _ => NSErr (s + 1) (str "read-only"))
    (fun s _ _ _ => NSOk (s + 1) (mkRreadPkt [x68; x69]))
    (fun s _ _ d => NSOk (s + 1) (mkRwritePkt (Z.of_N (blen d))))
    (fun s _ => NSOk (s + 1) mkRflushPkt).
Lemma counting_total b s m : invoke (counting b) s m <> NSPanic.
Proof. destruct b, m as [[]|[]|[]|[]|[]|[]|[]|[]|[]|[]|[]|[]]; cbn; discriminate. Qed.

(** No write fails, 512 zero bytes behind every message. *)
Definition quiet : env := mkEnv (fun _ => repeat x00 512) (fun _ => None).
