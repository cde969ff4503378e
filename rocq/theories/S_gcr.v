(** 3GPP TS 29.205, B.2.1.9: network, node and call reference, each after its length. *)
From Verif Require Import Base M_gcr.

(** The octets; [nl] stands in the place of the length of the node, which is 2 *)
Definition octets (net : list Z) (nl node : Z) (cr : list Z) : list Z :=
  zlen net :: net ++ nl :: [node / 256; node mod 256] ++ 5 :: cr.
(** What may be in a reference *)
Definition reference (net : list Z) (node : Z) (cr : list Z) : Prop := 3 <= zlen net <= 5 /\ 0 <= node < 65536 /\ zlen cr = 5 /\ bytes net /\ bytes cr.
(** Octets that start with a reference *)
Definition good (elem : list Z) : Prop := exists net nl node cr rest, reference net node cr /\ elem = octets net nl node cr ++ rest.
(** At least 13 octets, but the reference does not end within them *)
Definition cut (elem : list Z) : Prop := 13 <= zlen elem /\ exists net nl node cr more, reference net node cr /\ more <> [] /\ elem ++ more = octets net nl node cr.
(** A structure as the program has it: arrays of five octets *)
Definition struct_ok (g : gcr) : Prop := zlen (g_net g) = 5 /\ zlen (g_cr g) = 5 /\ bytes (g_net g) /\ bytes (g_cr g) /\ 0 <= g_node g < 65536 /\ 0 <= g_net_len g < 256.
(** The network of a structure *)
Definition net_of (g : gcr) : list Z := firstn (Z.to_nat (g_net_len g)) (g_net g).
