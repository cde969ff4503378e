(* S_sercomm.v - the serial multiplex as its users see it: messages are sent on a DLCI; lower DLCI first, first come first
   served within one DLCI; one message is one HDLC-like frame: flag, address, control 3, payload, flag, with the octets
   7E, 7D and 00 between the flags sent as 7D followed by the octet with bit 5 inverted. *)
From Verif Require Import Base.

Definition smsg : Type := Z * list Z.   (* dlci, payload *)
Definition special (c : Z) : bool := (c =? 126) || (c =? 125) || (c =? 0).
Definition esc (c : Z) : list Z := if special c then [125; Z.lxor c 32] else [c].
Definition body (m : smsg) : list Z := flat_map esc (fst m :: 3 :: snd m).
Definition wire (m : smsg) : list Z := 126 :: body m ++ [126].

(* the message to be sent next: the oldest of those with the lowest dlci *)
Definition lowest (l : list smsg) : option Z := fold_right (fun m o => Some (match o with None => fst m | Some d => Z.min (fst m) d end)) None l.
Fixpoint take_dlci (d : Z) (l : list smsg) : option (smsg * list smsg) :=
  match l with
  | [] => None
  | m :: r => if fst m =? d then Some (m, r) else match take_dlci d r with Some (x, r') => Some (x, m :: r') | None => None end
  end.
Definition pick (l : list smsg) : option (smsg * list smsg) :=
  match lowest l with Some d => take_dlci d l | None => None end.

(* operations of the user and of the serial driver *)
Inductive scop := Send (m : smsg) | Pull.
(* waiting messages in order of sending; message on the wire with the octets left *)
Record sstate := mkss { s_wait : list smsg; s_cur : option (smsg * list Z) }.
Definition s_init : sstate := mkss [] None.
(* octet handed to the driver, message completed by it *)
Definition s_pull (s : sstate) : option Z * list smsg * sstate :=
  let go m rest w := match rest with
    | [] => (None, [], s)
    | [c] => (Some c, [m], mkss w None)
    | c :: r => (Some c, [], mkss w (Some (m, r)))
    end in
  match s_cur s with
  | Some (m, rest) => go m rest (s_wait s)
  | None => match pick (s_wait s) with Some (m, w) => go m (wire m) w | None => (None, [], s) end
  end.
(* all octets handed out, all messages completed *)
Fixpoint s_run (s : sstate) (ops : list scop) : list Z * list smsg :=
  match ops with
  | [] => ([], [])
  | Send m :: t => s_run (mkss (s_wait s ++ [m]) (s_cur s)) t
  | Pull :: t => let '(o, dn, s') := s_pull s in let '(os, ds) := s_run s' t in
                 ((match o with Some c => [c] | None => [] end) ++ os, dn ++ ds)
  end.
