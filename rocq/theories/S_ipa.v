(* S_ipa.v - the IPA frame on a byte stream: two octets length of the payload (big endian), protocol octet, payload *)
From Verif Require Import Base.

Definition ipa_frame : Type := Z * list Z.
Definition frame (f : ipa_frame) : list Z := (zlen (snd f) / 256) :: (zlen (snd f) mod 256) :: fst f :: snd f.
Definition wire (fs : list ipa_frame) : list Z := flat_map frame fs.
(* frames a receiver must accept: at most 1200 octets in all *)
Definition fits (f : ipa_frame) : Prop := zlen (snd f) <= 1197.
(* a frame without payload carries nothing to deliver *)
Definition carries (f : ipa_frame) : bool := match snd f with [] => false | _ => true end.
