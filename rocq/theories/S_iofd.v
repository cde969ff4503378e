(* S_iofd.v - messages on a byte stream, recognised by a segmentation call-back as documented for osmo_io: given the octets
   from the start of a message on, it returns the length of that message as soon as it can tell, -EAGAIN before *)
From Verif Require Import Base.

Definition recognised (seg : list Z -> Z) (size : Z) (m : list Z) : Prop :=
  1 <= zlen m <= size /\ (forall rest, seg (m ++ rest) = zlen m) /\
  (forall p q, m = p ++ q -> p <> [] -> q <> [] -> seg p = - 11 \/ zlen p < seg p).

(* CBSP (3GPP TS 48.049): type octet, 24 bit length of what follows *)
Definition cbsp_msg (m : list Z) : Prop :=
  exists t a b c body, m = t :: a :: b :: c :: body /\ bytes m /\ a * 65536 + b * 256 + c = zlen body.

(* ---- transmitting: the user writes a message; the descriptor is writable and the kernel takes k octets or fails ---- *)
Inductive kern := Takes (k : Z) | Fails (e : Z).
Inductive txop := Write (m : list Z) | Writable (k : kern).
(* messages accepted: those whose write returned 0 *)
Fixpoint accepted (ops : list txop) (rcs : list Z) : list (list Z) :=
  match ops, rcs with
  | Write m :: t, rc :: r => if rc =? 0 then m :: accepted t r else accepted t r
  | Writable _ :: t, r => accepted t r
  | _, _ => []
  end.
(* the kernel takes the whole message or fails *)
Definition whole (op : txop) : Prop := match op with Writable (Takes k) => 65536 <= k | Writable (Fails e) => 0 < e | Write m => zlen m < 65536 end.
(* messages whose fate was reported to the call-back *)
Definition finished (l : list (Z * option (list Z))) : list (list Z) := flat_map (fun e => match snd e with Some m => [m] | None => [] end) l.
Definition succeeded (l : list (Z * option (list Z))) : list (list Z) := flat_map (fun e => match snd e with Some m => if 0 <? fst e then [m] else [] | None => [] end) l.

