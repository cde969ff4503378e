(** The card: 3GPP TS 34.108, 8.1.2, and 3GPP TS 33.102, 6.8.1.2. *)
From Verif Require Import Base.

Fixpoint xorl (a b : list Z) : list Z := match a, b with x :: a, y :: b => Z.lxor x y :: xorl a b | _, _ => [] end.
Definition first (n : nat) (l : list Z) := firstn n l.
Definition rotate (n : nat) (l : list Z) := skipn n l ++ firstn n l.
Definition anonymity (x : list Z) := firstn 6 (skipn 3 x).
Definition mac (x sqn amf : list Z) := xorl (firstn 8 x) (sqn ++ amf).

(** What the card does with a challenge: it finds the sequence number and checks the message authentication code *)
Definition card (key rand autn : list Z) : option (list Z * list Z * list Z * list Z * list Z) :=
  let x := xorl key rand in
  let sqn := xorl (firstn 6 autn) (anonymity x) in
  let amf := firstn 2 (skipn 6 autn) in
  if list_eq_dec Z.eq_dec (skipn 8 autn) (mac x sqn amf) then Some (sqn, amf, x, rotate 1 x, rotate 2 x) else None.
(** The token by which the card tells its own sequence number in answer to the challenge [rand] *)
Definition card_auts (key rand sqn : list Z) : list Z := let x := xorl key rand in xorl sqn (anonymity x) ++ mac x sqn [0; 0].
(** The conversion functions c2 and c3: four, or eight, parts added *)
Definition c2 (r : list Z) := xorl (xorl (firstn 4 r) (firstn 4 (skipn 4 r))) (xorl (firstn 4 (skipn 8 r)) (skipn 12 r)).
Definition c3 (ck ik : list Z) := xorl (xorl (xorl (firstn 8 ck) (skipn 8 ck)) (firstn 8 ik)) (skipn 8 ik).

Definition octets (n : nat) (l : list Z) : Prop := length l = n /\ bytes l.
