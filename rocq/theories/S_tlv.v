(* S_tlv.v - information elements of TS 04.07 / 24.007, 11.2.1 and 44.318, 11.1.4 as octet strings, independent of the parser *)
From Verif Require Import Base M_tlv.

(* the octet o is a half-octet element (tag in the upper half): the table has the type at tag N, or (older tables) at 0xN0 *)
Definition half (def : tlv_definition) (o : Z) : Prop :=
  fst (def (o / 16)) = TYPE_SINGLE_TV \/ 16 <= o /\ fst (def (16 * (o / 16))) = TYPE_SINGLE_TV.
(* ie def e t v: the octets e are one element with tag t and value v.  For a half-octet element the "value" is its whole octet. *)
Inductive ie (def : tlv_definition) : list Z -> Z -> list Z -> Prop :=
| ie_half o : fst (def (o / 16)) = TYPE_SINGLE_TV -> ie def [o] (o / 16) [o]
| ie_half_old o : fst (def (o / 16)) <> TYPE_SINGLE_TV -> 16 <= o -> fst (def (16 * (o / 16))) = TYPE_SINGLE_TV -> ie def [o] (16 * (o / 16)) [o]
| ie_T t : ~ half def t -> fst (def t) = TYPE_T -> ie def [t] t []
| ie_TV t x : ~ half def t -> fst (def t) = TYPE_TV -> ie def [t; x] t [x]
| ie_FIXED t v : ~ half def t -> fst (def t) = TYPE_FIXED -> zlen v = snd (def t) -> ie def (t :: v) t v
| ie_TLV t v : ~ half def t -> fst (def t) = TYPE_TLV -> zlen v < 256 -> ie def (t :: zlen v :: v) t v
| ie_TL16V t v : ~ half def t -> fst (def t) = TYPE_TL16V -> zlen v < 65536 -> ie def (t :: zlen v / 256 :: zlen v mod 256 :: v) t v
| ie_TvLV1 t v : ~ half def t -> fst (def t) = TYPE_TvLV -> zlen v < 128 -> ie def (t :: 128 + zlen v :: v) t v
| ie_TvLV2 t v : ~ half def t -> fst (def t) = TYPE_TvLV -> zlen v < 32768 -> ie def (t :: zlen v / 256 :: zlen v mod 256 :: v) t v
| ie_GAN1 t v : ~ half def t -> fst (def t) = TYPE_vTvLV_GAN -> zlen v < 128 -> ie def (t :: zlen v :: v) t v
| ie_GAN2 t v : ~ half def t -> fst (def t) = TYPE_vTvLV_GAN -> zlen v < 32768 -> ie def (t :: 128 + zlen v / 256 :: zlen v mod 256 :: v) t v.

(* a sequence of elements, with their tags and values *)
Inductive ies (def : tlv_definition) : list Z -> list (Z * list Z) -> Prop :=
| ies_nil : ies def [] []
| ies_cons e t v r l : ie def e t v -> ies def r l -> ies def (e ++ r) ((t, v) :: l).
(* an optional leading length-value element, to which the caller gives the tag (0: there is none) *)
Inductive lead (tag : Z) : list Z -> list Z -> list (Z * list Z) -> Prop :=
| lead_none r : tag = 0 -> lead tag r r []
| lead_lv v r : tag <> 0 -> zlen v < 256 -> lead tag (zlen v :: v ++ r) r [(tag, v)].
Definition message (def : tlv_definition) (lv1 lv2 : Z) (buf : list Z) (l : list (Z * list Z)) : Prop :=
  exists r1 r2 l1 l2 l3, lead lv1 buf r1 l1 /\ lead lv2 r1 r2 l2 /\ ies def r2 l3 /\ l = l1 ++ l2 ++ l3.

(* the values of the elements with tag t, in order *)
Definition occurrences (t : Z) (l : list (Z * list Z)) : list (list Z) := map snd (filter (fun p => fst p =? t) l).
(* what a parsed entry tells its user: the length, and the octets found at the value pointer; and the entry of a value *)
Definition value (buf : list Z) (e : entry) : option (Z * list Z) :=
  match fst e with Some o => Some (snd e, zslice buf o (snd e)) | None => None end.
Definition as_entry (v : option (list Z)) : option (Z * list Z) := option_map (fun v => (zlen v, v)) v.
(* what the wire format can carry for a tag: the value length the type admits; the half-octet types need a tag below 16, the type of
   TS 44.318 a one-octet tag *)
Definition encodable (def : tlv_definition) (t : Z) (v : list Z) : Prop :=
  bytes v /\
  match fst (def t) with
  | TYPE_SINGLE_TV => t < 16 /\ v <> []
  | TYPE_T => ~ half def t /\ v = []
  | TYPE_TV => ~ half def t /\ zlen v = 1
  | TYPE_FIXED => ~ half def t /\ zlen v = snd (def t)
  | TYPE_TLV => ~ half def t /\ zlen v < 256
  | TYPE_TL16V => ~ half def t /\ zlen v < 65536
  | TYPE_TvLV => ~ half def t /\ zlen v < 32768
  | TYPE_vTvLV_GAN => ~ half def t /\ zlen v < 32768 /\ t < 128
  | TYPE_NONE | TYPE_OTHER => False
  end.
(* the value as the receiver sees it: a half-octet value comes back as the octet it shares with its tag *)
Definition received (def : tlv_definition) (t : Z) (v : list Z) : list Z :=
  match fst (def t) with TYPE_SINGLE_TV => [16 * t + at0 v 0 mod 16] | _ => v end.
