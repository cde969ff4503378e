(* M_plmn.v - src/gsm/gsm23003.c: identities of TS 23.003 *)
From Verif Require Import Base Str M_num.

(* include/osmocom/gsm/gsm23003.h:10-14: struct osmo_plmn_id *)
Record plmn := mkplmn { mcc : Z; mnc : Z; mnc3 : bool }.

(* src/gsm/gsm23003.c:32-49: is_n_digits; the string is given without its NUL (a NULL string is not modelled) *)
Fixpoint n_digits_loop (s : list Z) (len max_digits : Z) : option (Z * list Z) :=
  match s with
  | c :: t => if len <? max_digits then (if negb (isdigit c) then None else n_digits_loop t (len + 1) max_digits) else Some (len, s)
  | [] => Some (len, s)
  end.
Definition is_n_digits (s : list Z) (min_digits max_digits : Z) : bool :=
  match n_digits_loop s 0 max_digits with
  | None => false
  | Some (len, rest) => if len <? min_digits then false else match rest with [] => true | _ => false end
  end.
(* src/gsm/gsm23003.c:56-59, 66-69 *)
Definition osmo_imsi_str_valid (s : list Z) : bool := is_n_digits s 6 15.
Definition osmo_msisdn_str_valid (s : list Z) : bool := is_n_digits s 1 15.
(* src/gsm/gsm23003.c:80-86 *)
Definition osmo_imei_str_valid (s : list Z) (with_15th_digit : bool) : res bool :=
  if with_15th_digit then
    if is_n_digits s 15 15 then do c <- osmo_luhn s 14 ;; do d <- rd s 14 ;; Ok (c =? d) else Ok false
  else Ok (is_n_digits s 14 14).

(* src/gsm/gsm23003.c:454-461: to_bcd *)
Definition to_bcd (val : Z) : Z * Z * Z := (val / 10 / 10 mod 10, val / 10 mod 10, val mod 10).
(* src/gsm/gsm23003.c:513-529: osmo_plmn_to_bcd *)
Definition osmo_plmn_to_bcd (p : plmn) : list Z :=
  let '(c0, c1, c2) := to_bcd (mcc p) in
  let '(n0, n1, n2) := to_bcd (mnc p) in
  if (mnc p >? 99) || mnc3 p then [u8 (Z.lor c0 (Z.shiftl c1 4)); u8 (Z.lor c2 (Z.shiftl n2 4)); u8 (Z.lor n0 (Z.shiftl n1 4))]
  else [u8 (Z.lor c0 (Z.shiftl c1 4)); u8 (Z.lor c2 (Z.shiftl 15 4)); u8 (Z.lor n1 (Z.shiftl n2 4))].
(* src/gsm/gsm23003.c:538-554: osmo_plmn_from_bcd *)
Definition osmo_plmn_from_bcd (b0 b1 b2 : Z) : plmn :=
  let mc := u16 (Z.land b0 15 * 100 + Z.shiftr b0 4 * 10 + Z.land b1 15) in
  if Z.land b1 240 =? 240 then mkplmn mc (u16 (Z.land b2 15 * 10 + Z.shiftr b2 4)) false
  else mkplmn mc (u16 (Z.land b2 15 * 100 + Z.shiftr b2 4 * 10 + Z.shiftr b1 4)) true.

(* src/gsm/gsm23003.c:565-591: osmo_mnc_from_str; (return code, mnc, mnc_3_digits); the out values are those written, if any *)
Definition osmo_mnc_from_str (s : list Z) : Z * option (Z * bool) :=
  if negb (isdigit (hd 0 s)) || (zlen s >? 3) then (-22, None) else
  let '(rc, v) := osmo_str_to_int s 10 0 999 in
  if rc =? -7 then (-22, None) else
  if rc >? 0 then (- rc, None) else
  if rc <? 0 then (rc, None) else (rc, Some (u16 v, zlen s >? 2)).

(* src/gsm/gsm23003.c:602-612: osmo_mnc_cmp *)
Definition osmo_mnc_cmp (a_mnc : Z) (a3 : bool) (b_mnc : Z) (b3 : bool) : Z :=
  if a_mnc <? b_mnc then -1 else
  if a_mnc >? b_mnc then 1 else
  if (a_mnc <? 100) && negb (Bool.eqb a3 b3) then (if a3 then 1 else -1) else 0.
(* src/gsm/gsm23003.c:618-627: osmo_plmn_cmp (two pointers to the same structure return 0, as equal contents do) *)
Definition osmo_plmn_cmp (a b : plmn) : Z :=
  if mcc a <? mcc b then -1 else
  if mcc a >? mcc b then 1 else
  osmo_mnc_cmp (mnc a) (mnc3 a) (mnc b) (mnc3 b).

(* include/osmocom/gsm/gsm23003.h:17-37, 57-60, 96-106 *)
Record lai := mklai { lai_plmn : plmn; lac : Z }.
Record rai := mkrai { rai_lac : lai; rac : Z }.
Record cgi := mkcgi { cgi_lai : lai; cell_identity : Z }.
Record cgi_ps := mkcgi_ps { cgi_ps_rai : rai; ps_cell_identity : Z }.
Record rnc := mkrnc { rnc_plmn : plmn; rnc_id : Z }.
Record mme_id := mkmme { group_id : Z; mme_code : Z }.
Record gummei := mkgummei { gummei_plmn : plmn; gummei_mme : mme_id }.
Definition then_cmp (rc a b : Z) : Z := if negb (rc =? 0) then rc else if a <? b then -1 else if a >? b then 1 else 0.
(* src/gsm/gsm23003.c:634-644 *)
Definition osmo_lai_cmp (a b : lai) : Z := then_cmp (osmo_plmn_cmp (lai_plmn a) (lai_plmn b)) (lac a) (lac b).
(* src/gsm/gsm23003.c:651-661 *)
Definition osmo_rai_cmp (a b : rai) : Z := then_cmp (osmo_lai_cmp (rai_lac a) (rai_lac b)) (rac a) (rac b).
(* src/gsm/gsm23003.c:668-678 *)
Definition osmo_cgi_cmp (a b : cgi) : Z := then_cmp (osmo_lai_cmp (cgi_lai a) (cgi_lai b)) (cell_identity a) (cell_identity b).
(* src/gsm/gsm23003.c:685-695 *)
Definition osmo_cgi_ps_cmp (a b : cgi_ps) : Z := then_cmp (osmo_rai_cmp (cgi_ps_rai a) (cgi_ps_rai b)) (ps_cell_identity a) (ps_cell_identity b).
(* src/gsm/gsm23003.c:702-713 *)
Definition osmo_rnc_id_cmp (a b : rnc) : Z := then_cmp (osmo_plmn_cmp (rnc_plmn a) (rnc_plmn b)) (rnc_id a) (rnc_id b).
(* src/gsm/gsm23003.c:720-733 *)
Definition osmo_mme_id_cmp (a b : mme_id) : Z :=
  if group_id a <? group_id b then -1 else if group_id a >? group_id b then 1 else
  if mme_code a <? mme_code b then -1 else if mme_code a >? mme_code b then 1 else 0.
(* src/gsm/gsm23003.c:740-747 *)
Definition osmo_gummei_cmp (a b : gummei) : Z :=
  let rc := osmo_plmn_cmp (gummei_plmn a) (gummei_plmn b) in
  if negb (rc =? 0) then rc else osmo_mme_id_cmp (gummei_mme a) (gummei_mme b).

(* the texts printed by the *_name_buf functions (the formatting is the C library's; snprintf's truncation to the buffer size
   is not modelled here, the length of the text is what is proved about) *)
(* src/gsm/gsm23003.c:94-98 *)
Definition osmo_mcc_name (m : Z) : list Z := pad0 3 (dec m).
(* src/gsm/gsm23003.c:130-134 *)
Definition osmo_mnc_name (m : Z) (three : bool) : list Z := pad0 (if three then 3 else 2) (dec m).
(* src/gsm/gsm23003.c:167-173 *)
Definition osmo_plmn_name (p : plmn) : list Z := osmo_mcc_name (mcc p) ++ [45] ++ osmo_mnc_name (mnc p) (mnc3 p).
(* src/gsm/gsm23003.c:216-221 *)
Definition osmo_lai_name (l : lai) : list Z := osmo_plmn_name (lai_plmn l) ++ [45] ++ dec (lac l).
(* src/gsm/gsm23003.c:252-258 *)
Definition osmo_rai_name2 (r : rai) : list Z := osmo_plmn_name (lai_plmn (rai_lac r)) ++ [45] ++ dec (lac (rai_lac r)) ++ [45] ++ dec (rac r).
(* src/gsm/gsm23003.c:289-293 *)
Definition osmo_cgi_name (c : cgi) : list Z := osmo_lai_name (cgi_lai c) ++ [45] ++ dec (cell_identity c).
(* src/gsm/gsm23003.c:333-337 *)
Definition osmo_cgi_ps_name (c : cgi_ps) : list Z := osmo_rai_name2 (cgi_ps_rai c) ++ [45] ++ dec (ps_cell_identity c).
(* src/gsm/gsm23003.c:366-372 (%d of a uint16_t) *)
Definition osmo_rnc_id_name (r : rnc) : list Z := osmo_plmn_name (rnc_plmn r) ++ [45] ++ dec (rnc_id r).
(* src/gsm/gsm23003.c:469-475 *)
Definition osmo_gummei_name (g : gummei) : list Z :=
  osmo_plmn_name (gummei_plmn g) ++ [45] ++ pad0 4 (hex (group_id (gummei_mme g))) ++ [45] ++ pad0 2 (hex (mme_code (gummei_mme g))).

(* sscanf() of the C library, for the conversions used below: %<w>u and %<w>x skip white space, then take an optional sign,
   for %x an optional 0x, and digits, w characters at most; the value is reduced to the size of the target *)
Definition scan_u (base : Z) (w : nat) (s : list Z) : option (Z * list Z) :=
  let '(r, _) := skip_ws s in
  let f := firstn w r in
  let '(neg, f1) := match f with c :: t => if c =? 45 then (true, t) else if c =? 43 then (false, t) else (false, f) | [] => (false, f) end in
  let f2 := if (base =? 16) && hex_prefix f1 then skipn 2 f1 else f1 in
  let '(v, k) := c_digits base 0 f2 in
  if k =? 0 then None else Some ((if neg : bool then - v else v), skipn (length f - length f2 + Z.to_nat k) r).
Fixpoint lit (l s : list Z) : option (list Z) :=
  match l with
  | [] => Some s
  | c :: l' => match s with d :: s' => if c =? d then lit l' s' else None | [] => None end
  end.

(* src/gsm/gsm23003.c:753-760: osmo_gen_home_network_domain: the text, or None for -EINVAL *)
Definition osmo_gen_home_network_domain (p : plmn) : option (list Z) :=
  if mcc p >? 999 then None else if mnc p >? 999 then None else
  Some (bs "epc.mnc" ++ pad0 3 (dec (mnc p)) ++ bs ".mcc" ++ pad0 3 (dec (mcc p)) ++ bs ".3gppnetwork.org").
(* src/gsm/gsm23003.c:766-777: osmo_parse_home_network_domain; None stands for any negative return.  A text that differs only
   after the second number is accepted: sscanf counts conversions. *)
Definition osmo_parse_home_network_domain (s : list Z) : option plmn :=
  match lit (bs "epc.mnc") s with None => None | Some s =>
  match scan_u 10 3 s with None => None | Some (m, s) =>
  match lit (bs ".mcc") s with None => None | Some s =>
  match scan_u 10 3 s with None => None | Some (c, s) => Some (mkplmn (u16 c) (u16 m) false) end end end end.
(* src/gsm/gsm23003.c:783-791: osmo_gen_mme_domain *)
Definition osmo_gen_mme_domain (g : gummei) : option (list Z) :=
  match osmo_gen_home_network_domain (gummei_plmn g) with
  | None => None
  | Some d => Some (bs "mmec" ++ pad0 2 (hex (mme_code (gummei_mme g))) ++ bs ".mmegi" ++ pad0 4 (hex (group_id (gummei_mme g))) ++ bs ".mme." ++ d)
  end.
(* src/gsm/gsm23003.c:797-810: osmo_parse_mme_domain *)
Definition osmo_parse_mme_domain (s : list Z) : option gummei :=
  match lit (bs "mmec") s with None => None | Some s =>
  match scan_u 16 2 s with None => None | Some (code, s) =>
  match lit (bs ".mmegi") s with None => None | Some s =>
  match scan_u 16 4 s with None => None | Some (gi, s) =>
  match lit (bs ".mme.epc.mnc") s with None => None | Some s =>
  match scan_u 10 3 s with None => None | Some (m, s) =>
  match lit (bs ".mcc") s with None => None | Some s =>
  match scan_u 10 3 s with None => None | Some (c, s) =>
    Some (mkgummei (mkplmn (u16 c) (u16 m) false) (mkmme (u16 gi) (u8 code))) end end end end end end end end.
(* src/gsm/gsm23003.c:817-825: osmo_gen_mme_group_domain *)
Definition osmo_gen_mme_group_domain (mmegi : Z) (p : plmn) : option (list Z) :=
  match osmo_gen_home_network_domain p with
  | None => None
  | Some d => Some (bs "mmegi" ++ pad0 4 (hex mmegi) ++ bs ".mme." ++ d)
  end.
