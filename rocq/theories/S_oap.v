(** Messages of the Osmocom Authentication Protocol: a type and a sequence of elements tag, length, value. *)
From Verif Require Import Base M_oap.

Notation ie := (Z * list Z)%type (only parsing).
(** An element on the wire *)
Definition wire (e : ie) : list Z := fst e :: zlen (snd e) :: snd e.
Definition wires (l : list ie) : list Z := concat (map wire l).
(** The lengths the protocol gives to the elements it knows: cause 1, RAND 16, AUTN 16, XRES 8, AUTS 14, client identity 2 and not zero *)
Definition well_formed (e : ie) : Prop :=
  zlen (snd e) <= 255 /\
  (fst e = 0x02 -> zlen (snd e) = 1) /\ (fst e = 0x20 -> zlen (snd e) = 16) /\ (fst e = 0x23 -> zlen (snd e) = 16) /\
  (fst e = 0x24 -> zlen (snd e) = 8) /\ (fst e = 0x25 -> zlen (snd e) = 14) /\ (fst e = 0x30 -> zlen (snd e) = 2 /\ be_val (snd e) <> 0).
(** The value of the last element with this tag *)
Definition last_of (tag : Z) (l : list ie) : option (list Z) := fold_left (fun a e => if fst e =? tag then Some (snd e) else a) l None.
(** What a message with these elements says *)
Definition number_of (o : option (list Z)) : Z := match o with Some v => be_val v | None => 0 end.
Definition array_of (o : option (list Z)) (n : nat) : Z * list Z := match o with Some v => (1, v) | None => (0, repeat 0 n) end.
Definition says (typ : Z) (l : list ie) (m : oap) : Prop :=
  o_type m = typ /\ o_cause m = number_of (last_of 0x02 l) /\ o_client m = number_of (last_of 0x30 l) /\
  (o_rand_present m, o_rand m) = array_of (last_of 0x20 l) 16 /\ (o_autn_present m, o_autn m) = array_of (last_of 0x23 l) 16 /\
  (o_xres_present m, o_xres m) = array_of (last_of 0x24 l) 8 /\ (o_auts_present m, o_auts m) = array_of (last_of 0x25 l) 14.
(** A message as a user fills it in: what is absent is zero *)
Definition field (p : Z) (v : list Z) (n : nat) : Prop := length v = n /\ bytes v /\ (p = 1 \/ (p = 0 /\ v = repeat 0 n)).
Definition valid (m : oap) : Prop :=
  1 <= o_type m <= 255 /\ 0 <= o_cause m <= 255 /\ 0 <= o_client m <= 65535 /\ field (o_rand_present m) (o_rand m) 16 /\
  field (o_autn_present m) (o_autn m) 16 /\ field (o_xres_present m) (o_xres m) 8 /\ field (o_auts_present m) (o_auts m) 14.
