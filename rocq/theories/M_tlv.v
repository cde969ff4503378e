(* M_tlv.v - src/gsm/tlv_parser.c and the put functions of include/osmocom/gsm/tlv.h it uses.
   Pointers into the parsed buffer are offsets; a message under construction is the list of octets appended to it. *)
From Verif Require Import Base.

(* include/osmocom/gsm/tlv.h:508-518 enum tlv_type; TYPE_OTHER: any value outside the enumeration *)
Inductive tlv_type := TYPE_NONE | TYPE_FIXED | TYPE_T | TYPE_TV | TYPE_TLV | TYPE_TL16V | TYPE_TvLV | TYPE_SINGLE_TV | TYPE_vTvLV_GAN | TYPE_OTHER.
Definition type_eqb (a b : tlv_type) : bool :=
  match a, b with
  | TYPE_NONE, TYPE_NONE | TYPE_FIXED, TYPE_FIXED | TYPE_T, TYPE_T | TYPE_TV, TYPE_TV | TYPE_TLV, TYPE_TLV | TYPE_TL16V, TYPE_TL16V
  | TYPE_TvLV, TYPE_TvLV | TYPE_SINGLE_TV, TYPE_SINGLE_TV | TYPE_vTvLV_GAN, TYPE_vTvLV_GAN | TYPE_OTHER, TYPE_OTHER => true
  | _, _ => false
  end.
(* include/osmocom/gsm/tlv.h:521-529 struct tlv_def, struct tlv_definition: def[tag] = (type, fixed_len) *)
Definition tlv_definition := Z -> tlv_type * Z.
(* include/osmocom/gsm/tlv.h:502-505, 532-534 struct tlv_p_entry (val: offset or NULL, len), struct tlv_parsed *)
Definition entry := (option Z * Z)%type.
Definition tlv_parsed := Z -> entry.
Definition empty_parsed : tlv_parsed := fun _ => (None, 0).
Definition set_entry (d : tlv_parsed) (tag : Z) (e : entry) : tlv_parsed := fun t => if t =? tag then e else d t.

(* src/gsm/tlv_parser.c:234-330: tlv_parse_one at offset o of mem; Ok (consumed, tag, value offset, length), Err: negative return *)
Definition parse_end (buf_len len tag val vlen : Z) : res (Z * Z * Z * Z) :=
  if buf_len <? len then Err (-2) else Ok (len, tag, val, vlen).
Definition parse_tlv (mem : list Z) (o buf_len tag : Z) : res (Z * Z * Z * Z) :=
  if buf_len <? 2 then Err (-1) else
  do l <- rd mem (o + 1) ;;
  parse_end buf_len (u16 l + 2) tag (o + 2) (u16 l).
Definition parse_tl16v (mem : list Z) (o buf_len tag : Z) : res (Z * Z * Z * Z) :=
  if buf_len <? 3 then Err (-1) else
  do h <- rd mem (o + 1) ;; do l <- rd mem (o + 2) ;;
  let ol := u16 (Z.lor (Z.shiftl h 8) l) in
  parse_end buf_len (ol + 3) tag (o + 3) ol.
Definition tlv_parse_one (def : tlv_definition) (mem : list Z) (o buf_len : Z) : res (Z * Z * Z * Z) :=
  if buf_len <? 1 then Err (-1) else
  do tag <- rd mem o ;;
  if type_eqb (fst (def (Z.shiftr tag 4))) TYPE_SINGLE_TV then Ok (1, Z.shiftr tag 4, o, 1)
  else if (tag >? 15) && type_eqb (fst (def (Z.land tag 240))) TYPE_SINGLE_TV then Ok (1, Z.land tag 240, o, 1)
  else
  match fst (def tag) with
  | TYPE_T => parse_end buf_len 1 tag o 0
  | TYPE_TV => parse_end buf_len 2 tag (o + 1) 1
  | TYPE_FIXED => parse_end buf_len (snd (def tag) + 1) tag (o + 1) (snd (def tag))
  | TYPE_TLV => parse_tlv mem o buf_len tag
  | TYPE_vTvLV_GAN =>
    if buf_len <? 2 then Err (-1) else
    do l <- rd mem (o + 1) ;;
    if negb (Z.land l 128 =? 0) then
      if buf_len <? 3 then Err (-1) else
      do l2 <- rd mem (o + 2) ;;
      let ol := u16 (Z.lor (Z.shiftl (Z.land l 127) 8) l2) in
      parse_end buf_len (ol + 3) tag (o + 3) ol
    else parse_tlv mem o buf_len tag
  | TYPE_TvLV =>
    if buf_len <? 2 then Err (-1) else
    do l <- rd mem (o + 1) ;;
    if negb (Z.land l 128 =? 0) then parse_end buf_len (Z.land l 127 + 2) tag (o + 2) (Z.land l 127)
    else parse_tl16v mem o buf_len tag
  | TYPE_TL16V => parse_tl16v mem o buf_len tag
  | _ => Err (-3)
  end.

(* src/gsm/tlv_parser.c:432-438: store the entry in the first dec[] in which the tag is free *)
Fixpoint store (dec : list tlv_parsed) (tag : Z) (e : entry) : list tlv_parsed :=
  match dec with
  | [] => []
  | d :: r => match fst (d tag) with Some _ => d :: store r tag e | None => set_entry d tag e :: r end
  end.
(* src/gsm/tlv_parser.c:393-399, 415-421: the loop looks for the first dec[dec_i] with the tag free but stores in dec[0] *)
Definition store_lv (dec : list tlv_parsed) (tag : Z) (e : entry) : list tlv_parsed :=
  if existsb (fun d => match fst (d tag) with None => true | Some _ => false end) dec then
    match dec with [] => [] | d :: r => set_entry d tag e :: r end
  else dec.
(* src/gsm/tlv_parser.c:380-400, 401-421: one leading LV; Ok (inl (dec, ofs, num_parsed)) or Ok (inr negative return) *)
Definition parse_lv (mem : list Z) (buf_len tag : Z) (dec : list tlv_parsed) (ofs num : Z) : res ((list tlv_parsed * Z * Z) + (Z * list tlv_parsed)) :=
  if tag =? 0 then Ok (inl (dec, ofs, num)) else
  if ofs >? buf_len then Ok (inr (-1, dec)) else
  do len <- rd mem ofs ;;
  let parsed_len := u16 (len + 1) in
  if ofs + parsed_len >? buf_len then Ok (inr (-2, dec)) else
  Ok (inl (store_lv dec tag (Some (ofs + 1), len), ofs + parsed_len, num + 1)).
(* src/gsm/tlv_parser.c:423-441: the main loop; (return value, dec) *)
Fixpoint parse_loop (fuel : nat) (def : tlv_definition) (mem : list Z) (buf_len : Z) (dec : list tlv_parsed) (ofs num : Z) : res (Z * list tlv_parsed) :=
  if ofs <? buf_len then
    match fuel with
    | O => UB
    | S f =>
      match tlv_parse_one def mem ofs (buf_len - ofs) with
      | Ok (rv, tag, val, len) => parse_loop f def mem buf_len (store dec tag (Some val, len)) (ofs + rv) (num + 1)
      | Err c => Ok (c, dec)
      | Abort => Abort
      | UB => UB
      end
    end
  else Ok (num, dec).
(* src/gsm/tlv_parser.c:369-444: tlv_parse2 of exactly the octets of buf; dec_multiples is a number of array elements (a negative
   one behaves as 0) *)
Definition tlv_parse2 (n : nat) (def : tlv_definition) (buf : list Z) (lv_tag lv_tag2 : Z) : res (Z * list tlv_parsed) :=
  let dec := repeat empty_parsed n in
  do a <- parse_lv buf (zlen buf) lv_tag dec 0 0 ;;
  match a with
  | inr r => Ok r
  | inl (dec, ofs, num) =>
    do b <- parse_lv buf (zlen buf) lv_tag2 dec ofs num ;;
    match b with
    | inr r => Ok r
    | inl (dec, ofs, num) => parse_loop (length buf) def buf (zlen buf) dec ofs num
    end
  end.
(* src/gsm/tlv_parser.c:346-351: tlv_parse *)
Definition tlv_parse def buf lv_tag lv_tag2 := tlv_parse2 1 def buf lv_tag lv_tag2.

(* include/osmocom/gsm/tlv.h: a msgb_put() of n octets followed by writing the octets; writing more or fewer octets than were reserved is
   treated as UB (the tail room check of msgb_put is C01) *)
Definition put (n : Z) (octets : list Z) : res (list Z) := if n =? zlen octets then Ok octets else UB.
(* memcpy(buf, val, len) from a value of zlen v octets *)
Definition val_copy (v : list Z) (len : Z) : res (list Z) := if zlen v <? len then UB else Ok (firstn (Z.to_nat len) v).
(* include/osmocom/gsm/tlv.h:55-61 *)
Definition TVLV_GROSS_LEN (len : Z) : Z := if len <=? 127 then u16 (len + 2) else u16 (len + 3).
(* include/osmocom/gsm/tlv.h:78-91 *)
Definition VTVLV_GAN_GROSS_LEN (tag len : Z) : Z :=
  let ret := if len <=? 127 then u16 (len + 2) else u16 (len + 3) in
  if tag >? 127 then u16 (ret + 1) else ret.
(* include/osmocom/gsm/tlv.h:207-217: vt_gan_put *)
Definition vt_gan (x : Z) : list Z := if x >? 127 then [u8 (Z.lor 128 (Z.shiftr x 8)); Z.land x 255] else [u8 x].
(* include/osmocom/gsm/tlv.h:111-123, 144-152, 175-187, 229-240, 250-255, 275-280, 297-302, 318-341, 366-395; src/gsm/tlv_parser.c:132-166: tlv_encode_one.  len is the unsigned int argument, converted to
   the parameter type of the put function *)
Definition tlv_encode_one (ty : tlv_type) (tag len : Z) (v : list Z) : res (list Z) :=
  match ty with
  | TYPE_NONE => Ok []
  | TYPE_FIXED => do b <- val_copy v len ;; put (u32 (1 + len)) (tag :: b)
  | TYPE_T => put 1 [tag]
  | TYPE_TV => do x <- rd v 0 ;; put 2 [tag; x]
  | TYPE_TLV => let l := u8 len in do b <- val_copy v l ;; put (l + 2) (tag :: l :: b)
  | TYPE_TL16V => let l := u16 len in do b <- val_copy v l ;; put (l + 3) (tag :: u8 (Z.shiftr l 8) :: Z.land l 255 :: b)
  | TYPE_TvLV =>
    let l := u16 len in do b <- val_copy v l ;;
    put (TVLV_GROSS_LEN l) (if l <=? 127 then tag :: Z.lor (u8 l) 128 :: b else tag :: u8 (Z.shiftr l 8) :: Z.land l 255 :: b)
  | TYPE_SINGLE_TV => do x <- rd v 0 ;; put 1 [u8 (Z.lor (Z.shiftl tag 4) (Z.land x 15))]
  | TYPE_vTvLV_GAN =>
    let l := u16 len in do b <- val_copy v l ;;
    put (VTVLV_GAN_GROSS_LEN tag l) (vt_gan tag ++ vt_gan l ++ b)
  | TYPE_OTHER => Err (- EINVAL)
  end.
(* a set of values to be encoded: for every tag the octets at val (len of them), or NULL *)
Definition tlv_values := Z -> option (list Z).
(* src/gsm/tlv_parser.c:199-219: tlv_encode_ordered; the octets appended.  The return value is their number *)
Fixpoint tlv_encode_ordered (def : tlv_definition) (tp : tlv_values) (order : list Z) : res (list Z) :=
  match order with
  | [] => Ok []
  | tag :: r =>
    match tp tag with
    | None => tlv_encode_ordered def tp r
    | Some v => do a <- tlv_encode_one (fst (def tag)) tag (zlen v) v ;; do b <- tlv_encode_ordered def tp r ;; Ok (a ++ b)
    end
  end.
(* src/gsm/tlv_parser.c:173-190: tlv_encode: the tags 0..255 in order *)
Definition tlv_encode (def : tlv_definition) (tp : tlv_values) : res (list Z) := tlv_encode_ordered def tp (zseq 0 256).

(* include/osmocom/gsm/tlv.h:193-204, 268-272: msgb_tvl_put; (octets reserved in the message, octets written) *)
Definition msgb_tvl_put (tag len : Z) : Z * list Z :=
  (TVLV_GROSS_LEN len, if len <=? 127 then [tag; Z.lor (u8 len) 128] else [tag; u8 (Z.shiftr len 8); Z.land len 255]).
(* include/osmocom/gsm/tlv.h:229-240: the offset, relative to buf, of the pointer vtvlv_gan_put returns *)
Definition vtvlv_gan_put_ret (tag len : Z) : Z := len.

(* src/gsm/tlv_parser.c:449-459: tlv_def_patch *)
Definition tlv_def_patch (dst src : tlv_definition) : tlv_definition := fun i =>
  if type_eqb (fst (src i)) TYPE_NONE then dst i else if type_eqb (fst (dst i)) TYPE_NONE then src i else dst i.

(* src/gsm/tlv_parser.c:478-496: osmo_shift_v_fixed; *data with its *data_len octets is the list.  (return value, data afterwards, *value) *)
Definition osmo_shift_v_fixed (data : list Z) (len : Z) : Z * list Z * option (list Z) :=
  if len >? zlen data then (-1, [], None) else (s32 len, skipn (Z.to_nat len) data, Some (firstn (Z.to_nat len) data)).
(* src/gsm/tlv_parser.c:506-534: osmo_match_shift_tv_fixed *)
Definition osmo_match_shift_tv_fixed (data : list Z) (tag len : Z) : Z * list Z * option (list Z) :=
  match data with
  | [] => (-1, [], None)
  | t :: r => if negb (t =? tag) then (0, data, None) else
              if len >? zlen data - 1 then (-1, [], None) else
              (s32 (len + 1), skipn (Z.to_nat (len + 1)) data, Some (firstn (Z.to_nat len) r))
  end.
(* src/gsm/tlv_parser.c:572-603: osmo_shift_tlv; the tag and value are written on success only *)
Definition osmo_shift_tlv (data : list Z) : Z * list Z * option (Z * list Z) :=
  if zlen data <? 2 then (-1, [], None) else
  let len := at0 data 1 in
  if len >? zlen data - 2 then (-1, [], None) else
  (s32 (len + 2), skipn (Z.to_nat (len + 2)) data, Some (at0 data 0, zslice data 2 len)).
(* src/gsm/tlv_parser.c:544-562: osmo_match_shift_tlv *)
Definition osmo_match_shift_tlv (data : list Z) (expected : Z) : Z * list Z * option (Z * list Z) :=
  let '(rc, d, o) := osmo_shift_tlv data in
  match o with
  | Some (tag, _) => if (rc >? 0) && negb (tag =? expected) then (0, data, o) else (rc, d, o)
  | None => (rc, d, o)
  end.
(* src/gsm/tlv_parser.c:612-640: osmo_shift_lv *)
Definition osmo_shift_lv (data : list Z) : Z * list Z * option (list Z) :=
  if zlen data <? 1 then (-1, [], None) else
  let len := at0 data 0 in
  if len >? zlen data - 1 then (-1, [], None) else
  (s32 (len + 1), skipn (Z.to_nat (len + 1)) data, Some (zslice data 1 len)).

(* src/gsm/tlv_parser.c:677-714: osmo_tlv_prot_validate_tp.  mand: mand_ies/mand_count of the message type (empty when NULL), min_len: of
   every IE.  err is an unsigned int holding the negative code, returned as int *)
Fixpoint mand_loop (mand : list Z) (tp : tlv_parsed) (err : Z) : Z :=
  match mand with
  | [] => err
  | iei :: r => mand_loop r tp (match fst (tp iei) with None => if err =? 0 then u32 (-50) else err | Some _ => err end)
  end.
Fixpoint min_loop (tags : list Z) (min_len : Z -> Z) (tp : tlv_parsed) (err : Z) : Z :=
  match tags with
  | [] => err
  | i :: r => min_loop r min_len tp
      (match fst (tp i) with None => err | Some _ => if snd (tp i) <? min_len i then (if err =? 0 then u32 (-51) else err) else err end)
  end.
Definition osmo_tlv_prot_validate_tp (mand : list Z) (min_len : Z -> Z) (tp : tlv_parsed) : Z :=
  s32 (min_loop (zseq 0 256) min_len tp (mand_loop mand tp 0)).
(* src/gsm/tlv_parser.c:729-744: osmo_tlv_prot_parse, with at least one element in dec *)
Definition osmo_tlv_prot_parse (def : tlv_definition) (mand : list Z) (min_len : Z -> Z) (n : nat) (buf : list Z) (lv_tag lv_tag2 : Z) : res (Z * list tlv_parsed) :=
  do ' (rc, dec) <- tlv_parse2 n def buf lv_tag lv_tag2 ;;
  if rc <? 0 then Ok (rc, dec) else
  match dec with [] => UB | d :: _ => Ok (osmo_tlv_prot_validate_tp mand min_len d, dec) end.

(* a parsed set with its values: (octets at val or NULL, len) for every tag *)
Definition tlv_set := Z -> option (list Z) * Z.
(* src/gsm/tlv_parser.c:70-98: osmo_tlvp_copy of a non-NULL set with the allocation of the structure succeeding; the structure is
   zeroed, so tp_out->lv[i].val is NULL when tested and no value is ever allocated *)
Definition osmo_tlvp_copy (orig : tlv_set) : tlv_set :=
  let out : tlv_set := fun _ => (None, 0) in
  fun i => let len := snd (orig i) in
           match fst (out i) with
           | Some _ => if negb (len =? 0) then (fst (orig i), len) else (fst (out i), len)
           | None => (fst (out i), len)
           end.
(* src/gsm/tlv_parser.c:105-122: osmo_tlvp_merge; alloc i: does the allocation for tag i succeed.  (return value, dst) *)
Fixpoint merge_loop (alloc : Z -> bool) (src : tlv_set) (tags : list Z) (dst : tlv_set) : Z * tlv_set :=
  match tags with
  | [] => (0, dst)
  | i :: r =>
    match src i with
    | (Some v, len) =>
      if len =? 0 then merge_loop alloc src r dst else
      let dlen := match fst (dst i) with Some _ => 0 | None => snd (dst i) end in
      if alloc i then merge_loop alloc src r (fun j => if j =? i then (Some v, dlen) else dst j)
      else (- ENOMEM, fun j => if j =? i then (None, dlen) else dst j)
    | (None, _) => merge_loop alloc src r dst
    end
  end.
Definition osmo_tlvp_merge (alloc : Z -> bool) (dst src : tlv_set) : Z * tlv_set := merge_loop alloc src (zseq 0 256) dst.
