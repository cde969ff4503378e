(** Model of src/gsm/oap.c: the Osmocom Authentication Protocol.
    Simplifications: a message buffer is the list of octets put into it (room in it: C01); log output is left out; the header pointer that
    osmo_oap_encode sets at the end is left out. *)
From Verif Require Import Base M_tlv.

(** include/osmocom/gsm/oap.h:65-77 struct osmo_oap_message *)
Record oap := Oap { o_type : Z; o_cause : Z; o_client : Z; o_rand_present : Z; o_rand : list Z; o_autn_present : Z; o_autn : list Z;
                    o_xres_present : Z; o_xres : list Z; o_auts_present : Z; o_auts : list Z }.
(** src/gsm/oap.c:57 memset *)
Definition oap_zero : oap := Oap 0 0 0 0 (repeat 0 16) 0 (repeat 0 16) 0 (repeat 0 8) 0 (repeat 0 14).
(** include/osmocom/gsm/oap.h:40-47 enum osmo_oap_iei *)
Definition OAP_CAUSE_IE := 0x02. Definition OAP_RAND_IE := 0x20. Definition OAP_AUTN_IE := 0x23. Definition OAP_XRES_IE := 0x24.
Definition OAP_AUTS_IE := 0x25. Definition OAP_CLIENT_ID_IE := 0x30.
(** include/osmocom/gsm/protocol/gsm_04_08_gprs.h:259-265 *)
Definition GMM_CAUSE_INV_MAND_INFO := 0x60. Definition GMM_CAUSE_PROTO_ERR_UNSPEC := 0x6f.

Definition set_type (m : oap) x := let 'Oap a b c d e f g h i j k := m in Oap x b c d e f g h i j k.
Definition set_cause (m : oap) x := let 'Oap a b c d e f g h i j k := m in Oap a x c d e f g h i j k.
Definition set_client (m : oap) x := let 'Oap a b c d e f g h i j k := m in Oap a b x d e f g h i j k.
Definition set_rand (m : oap) p x := let 'Oap a b c d e f g h i j k := m in Oap a b c p x f g h i j k.
Definition set_autn (m : oap) p x := let 'Oap a b c d e f g h i j k := m in Oap a b c d e p x h i j k.
Definition set_xres (m : oap) p x := let 'Oap a b c d e f g h i j k := m in Oap a b c d e f g p x j k.
Definition set_auts (m : oap) p x := let 'Oap a b c d e f g h i j k := m in Oap a b c d e f g h i p x.

(** the loop of src/gsm/oap.c:66-151; [Err]: out of fuel.  The cause is read from where the value starts, which for an empty value is what follows it *)
Fixpoint decode_loop (fuel : nat) (data : list Z) (m : oap) : res (Z * oap) :=
  match data with
  | [] => Ok (0, m)
  | _ :: _ =>
      match fuel with
      | O => Err 0
      | S fuel =>
          let '(rc, data, o) := osmo_shift_tlv data in
          match o with
          | None => Ok (- GMM_CAUSE_PROTO_ERR_UNSPEC, m)
          | Some (iei, value) =>
              if iei =? OAP_CLIENT_ID_IE then
                if negb (zlen value =? 2) then Ok (- GMM_CAUSE_PROTO_ERR_UNSPEC, m) else
                let m := set_client m (u16 (be_val value)) in
                if o_client m =? 0 then Ok (- GMM_CAUSE_PROTO_ERR_UNSPEC, m) else
                decode_loop fuel data m
              else if iei =? OAP_AUTN_IE then
                if negb (zlen value =? 16) then Ok (- GMM_CAUSE_PROTO_ERR_UNSPEC, m) else
                decode_loop fuel data (set_autn m 1 value)
              else if iei =? OAP_RAND_IE then
                if negb (zlen value =? 16) then Ok (- GMM_CAUSE_PROTO_ERR_UNSPEC, m) else
                decode_loop fuel data (set_rand m 1 value)
              else if iei =? OAP_XRES_IE then
                if negb (zlen value =? 8) then Ok (- GMM_CAUSE_PROTO_ERR_UNSPEC, m) else
                decode_loop fuel data (set_xres m 1 value)
              else if iei =? OAP_AUTS_IE then
                if negb (zlen value =? 14) then Ok (- GMM_CAUSE_PROTO_ERR_UNSPEC, m) else
                decode_loop fuel data (set_auts m 1 value)
              else if iei =? OAP_CAUSE_IE then
                if zlen value >? 1 then Ok (- GMM_CAUSE_PROTO_ERR_UNSPEC, m) else
                do c <- rd (value ++ data) 0 ;;
                decode_loop fuel data (set_cause m c)
              else decode_loop fuel data m
          end
      end
  end.
(** src/gsm/oap.c:43-154 osmo_oap_decode: the value returned and the message *)
Definition osmo_oap_decode (data : list Z) : res (Z * oap) :=
  let '(rc, data, value) := osmo_shift_v_fixed data 1 in
  match value with
  | None => Ok (- GMM_CAUSE_INV_MAND_INFO, oap_zero)
  | Some v => decode_loop (length data) data (set_type oap_zero (be_val v))
  end.

(** include/osmocom/gsm/tlv.h:366-370 msgb_tlv_put, :111-118 tlv_put *)
Definition msgb_tlv_put (msg : list Z) (tag len : Z) (val : list Z) : list Z := msg ++ [tag; u8 len] ++ firstn (Z.to_nat (u8 len)) val.
(** src/gsm/oap.c:160-190 osmo_oap_encode *)
Definition osmo_oap_encode (msg : list Z) (m : oap) : res (list Z) :=
  if o_type m =? 0 then Abort else
  let msg := msg ++ [u8 (o_type m)] in
  let c := u8 (o_cause m) in
  let msg := if negb (c =? 0) then msgb_tlv_put msg OAP_CAUSE_IE 1 [c] else msg in
  let msg := if o_client m >? 0 then msgb_tlv_put msg OAP_CLIENT_ID_IE 2 (be_bytes 2 (o_client m)) else msg in
  let msg := if negb (o_rand_present m =? 0) then msgb_tlv_put msg OAP_RAND_IE 16 (o_rand m) else msg in
  let msg := if negb (o_autn_present m =? 0) then msgb_tlv_put msg OAP_AUTN_IE 16 (o_autn m) else msg in
  let msg := if negb (o_auts_present m =? 0) then msgb_tlv_put msg OAP_AUTS_IE 14 (o_auts m) else msg in
  let msg := if negb (o_xres_present m =? 0) then msgb_tlv_put msg OAP_XRES_IE 8 (o_xres m) else msg in
  Ok msg.
