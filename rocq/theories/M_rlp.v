(** Model of src/gsm/rlp.c: Radio Link Protocol frames. *)
From Verif Require Import Base.

(** include/osmocom/gsm/rlp.h:31-35 enum osmo_rlp_ftype *)
Definition FT_U := 0.
Definition FT_S := 1.
Definition FT_IS := 2.
(** include/osmocom/gsm/rlp.h:45 OSMO_RLP_U_FT_XID *)
Definition U_FT_XID := 23.
Definition EINVAL := -22.
Definition ENOTSUP := -95.

(** include/osmocom/gsm/rlp.h:62-75 struct osmo_rlp_frame_decoded; [r_info] is the array of 67 octets. *)
Record rlp := Rlp { r_version : Z; r_ftype : Z; r_u : Z; r_s : Z; r_cr : bool; r_pf : bool; r_sbits : Z;
  r_ns : Z; r_nr : Z; r_fcs : Z; r_info : list Z; r_info_len : Z }.

(** What the C types of the fields guarantee (rlp.h:62-75; the enums are unsigned). *)
Definition rlp_typed (f : rlp) : Prop :=
  is_byte (r_version f) /\ 0 <= r_u f /\ 0 <= r_s f /\ is_u16 (r_ns f) /\ is_u16 (r_nr f) /\
  bytes (r_info f) /\ length (r_info f) = 67%nat /\ is_u16 (r_info_len f).


(** rlp.c:191-224 rlp_fcs_table *)
Definition rlp_fcs_table : list Z :=
[ 11705645; 6568539; 4511866; 9600780; 334904; 13876046; 15948143; 2489881;
  8819900; 5256138; 7393771; 10909341; 3216809; 15184607; 13062398; 1177480;
  14323215; 797049; 2935640; 16411694; 7147290; 12298348; 10177101; 5107003;
  15632286; 3678440; 1622729; 13526463; 5834379; 9413117; 11486172; 7988394;
  6470505; 11803679; 9764414; 4348232; 13974140; 236810; 2326315; 16111709;
  5681912; 8394126; 10549167; 7753945; 14758893; 3642523; 1537722; 12702156;
  698443; 14421821; 16575772; 2771562; 12396894; 7048744; 4942857; 10341247;
  4104666; 15206060; 13165709; 1983483; 8986831; 6260665; 8349080; 11125486;
  4839966; 10452328; 12558153; 6895679; 16669451; 2686077; 532060; 14596394;
  8246159; 11236601; 9148120; 6107566; 13259418; 1897964; 3938253; 15380667;
  2214204; 16215626; 14126187; 76573; 9848873; 4255583; 6294910; 11971080;
  1425581; 12806107; 14910970; 3482252; 10633656; 7661262; 5506287; 8561561;
  10091610; 5200684; 7321869; 12131963; 3046735; 16308793; 14170136; 958318;
  11400651; 8082109; 6008988; 9246698; 1733854; 13423528; 15479177; 3839743;
  15855480; 2574350; 502319; 13700441; 4615789; 9488667; 11545402; 6720588;
  12969705; 1261983; 3384254; 15008968; 7497724; 10797194; 8659627; 5408221;
  2038000; 13221766; 15293863; 4192977; 11049445; 8273555; 6216882; 8944580;
  2822497; 16627223; 14505014; 783168; 10260596; 4863746; 7001379; 12350037;
  7801810; 10595492; 8474245; 5761523; 12618439; 1453489; 3592080; 14706918;
  4391491; 9807157; 11880212; 6545506; 16024406; 2237472; 181761; 13918583;
  13582004; 1677762; 3767267; 15719573; 7913377; 11409623; 9370358; 5791104;
  16463653; 2986067; 881266; 14406916; 5027376; 10096966; 12252007; 7099409;
  10956182; 7441120; 5335233; 8900535; 1092739; 12979189; 15133140; 3165858;
  9643015; 4555633; 6644048; 11781670; 2401554; 15860324; 13819973; 280371;
  14966723; 3340469; 1186452; 12893666; 5496534; 8747424; 10853249; 7552247;
  13653586; 454948; 2495237; 15774835; 6805319; 11628593; 9540112; 4666726;
  9194721; 5958551; 7997878; 11316928; 3919348; 15559298; 13469859; 1781717;
  12076400; 7266822; 5111847; 10004305; 1033317; 14246675; 16351538; 3089988;
  3438983; 14868209; 12729552; 1350566; 8648850; 5595108; 7716293; 10689203;
  28694; 14079840; 16135489; 2134583; 12054787; 6379125; 4306004; 9900834;
  6056613; 9096659; 11153394; 8161412; 15461296; 4017350; 1945319; 13306257;
  6841140; 12502082; 10364515; 4751637; 14672417; 607575; 2729846; 16711680 ].

(** rlp.c:230-241 osmo_rlp_fcs_compute *)
Definition rlp_fcs_compute (inp : list Z) (in_len : Z) : res Z :=
  zfor (Z.to_nat in_len) 0 (fun i divider =>
    do b <- rd inp i ;;
    let input := Z.lxor b (Z.land divider 255) in
    do t <- rd rlp_fcs_table input ;;
    Ok (Z.lxor (Z.shiftr divider 8) t)) 0.

(** memcpy from [n] octets at [off] of the input; reading outside is undefined *)
Definition get_bytes (l : list Z) (off n : Z) : res (list Z) :=
  if (0 <=? n) && (off + n <=? zlen l) then Ok (zslice l off n) else UB.
(** memcpy of [s] to [off] of an object; writing outside is undefined *)
Definition put_bytes (l : list Z) (off : Z) (s : list Z) : res (list Z) :=
  if off + zlen s <=? zlen l then Ok (blit l (Z.to_nat off) s) else UB.
Definition ZERO_INFO : list Z := repeat 0 67.

(** rlp.c:69-115 osmo_rlp_decode.  [data] is the memory behind the pointer. *)
Definition rlp_decode (version : Z) (data : list Z) (data_len : Z) : res rlp :=
  if negb (data_len =? 30) && negb (data_len =? 72) then Err EINVAL else
  if 2 <=? version then Err ENOTSUP else
  do d0 <- rd data 0 ;;
  do d1 <- rd data 1 ;;
  let c_r := negb (Z.land d0 1 =? 0) in
  let n_s := u8 (Z.lor (Z.shiftr d0 3) (Z.shiftl (Z.land d1 1) 5)) in
  let n_r := Z.shiftr d1 2 in
  do f2 <- rd data (data_len - 1) ;;
  do f1 <- rd data (data_len - 2) ;;
  do f0 <- rd data (data_len - 3) ;;
  let fcs := Z.lor (Z.lor (Z.shiftl f2 16) (Z.shiftl f1 8)) (Z.shiftl f0 0) in
  let p_f := negb (Z.land (Z.shiftr d1 1) 1 =? 0) in
  if n_s =? 63 then
    let u := Z.land n_r 31 in
    if u =? U_FT_XID then
      do inf <- get_bytes data 2 (data_len - 5) ;;
      do inf <- put_bytes ZERO_INFO 0 inf ;;
      Ok (Rlp version FT_U u 0 c_r p_f 0 0 0 fcs inf (data_len - 5))
    else Ok (Rlp version FT_U u 0 c_r p_f 0 0 0 fcs ZERO_INFO 0)
  else if n_s =? 62 then
    Ok (Rlp version FT_S 0 (Z.land (Z.shiftr d0 1) 3) c_r p_f 0 0 n_r fcs ZERO_INFO 0)
  else
    do inf <- get_bytes data 2 (data_len - 5) ;;
    do inf <- put_bytes ZERO_INFO 0 inf ;;
    Ok (Rlp version FT_IS 0 (Z.land (Z.shiftr d0 1) 3) c_r p_f 0 n_s n_r fcs inf (data_len - 5)).

(** out[i] |= v *)
Definition or_byte (l : list Z) (i v : Z) : res (list Z) := do b <- rd l i ;; wr l i (u8 (Z.lor b v)).

(** rlp.c:122-188 osmo_rlp_encode.  [out] is the memory behind the output pointer; the result is its new
    contents (returned with the number of octets). *)
Definition rlp_encode (out : list Z) (out_size : Z) (f : rlp) : res (Z * list Z) :=
  if 2 <=? r_version f then Err ENOTSUP else
  if negb (out_size =? 30) && negb (out_size =? 72) then Err EINVAL else
  do out <- put_bytes out 0 (repeat 0 (Z.to_nat out_size)) ;;
  do out <- (if r_cr f then or_byte out 0 1 else Ok out) ;;
  do out <- (if r_pf f then or_byte out 1 2 else Ok out) ;;
  do ' (n_s, n_r, s_bits, out) <-
    (if r_ftype f =? FT_U then
       do out <- (if r_u f =? U_FT_XID then
                    if out_size - 5 <? r_info_len f then Err EINVAL else
                    do inf <- get_bytes (r_info f) 0 (r_info_len f) ;; put_bytes out 2 inf
                  else Ok out) ;;
       Ok (63, u8 (r_u f), 0, out)
     else if r_ftype f =? FT_S then Ok (62, u8 (r_nr f), u8 (r_s f), out)
     else if r_ftype f =? FT_IS then
       if out_size - 5 <? r_info_len f then Err EINVAL else
       do inf <- get_bytes (r_info f) 0 (r_info_len f) ;;
       do out <- put_bytes out 2 inf ;;
       Ok (u8 (r_ns f), u8 (r_nr f), u8 (r_s f), out)
     else Err EINVAL) ;;
  do out <- or_byte out 0 (Z.shiftl (Z.land n_s 31) 3) ;;
  do out <- or_byte out 1 (Z.shiftr (Z.land n_s 32) 5) ;;
  do out <- or_byte out 1 (Z.shiftl (Z.land n_r 63) 2) ;;
  do out <- or_byte out 0 (Z.shiftl (Z.land s_bits 3) 1) ;;
  do fcs <- rlp_fcs_compute out (out_size - 3) ;;
  do out <- wr out (out_size - 3) (Z.land (Z.shiftr fcs 0) 255) ;;
  do out <- wr out (out_size - 2) (Z.land (Z.shiftr fcs 8) 255) ;;
  do out <- wr out (out_size - 1) (Z.land (Z.shiftr fcs 16) 255) ;;
  Ok (out_size, out).
