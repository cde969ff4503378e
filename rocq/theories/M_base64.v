(* M_base64.v - model of src/core/base64.c *)
From Verif Require Import Base Lib.

(* base64.c:25-33 base64_enc_map *)
Definition enc_map : list Z :=
  [65;66;67;68;69;70;71;72;73;74;75;76;77;78;79;80;81;82;83;84;85;86;87;88;89;90;
   97;98;99;100;101;102;103;104;105;106;107;108;109;110;111;112;113;114;115;116;117;118;119;120;121;122;
   48;49;50;51;52;53;54;55;56;57;43;47].
(* base64.c:35-49 base64_dec_map *)
Definition dec_map : list Z :=
  [127;127;127;127;127;127;127;127;127;127;
   127;127;127;127;127;127;127;127;127;127;
   127;127;127;127;127;127;127;127;127;127;
   127;127;127;127;127;127;127;127;127;127;
   127;127;127;62;127;127;127;63;52;53;
   54;55;56;57;58;59;60;61;127;127;
   127;64;127;127;127;0;1;2;3;4;
   5;6;7;8;9;10;11;12;13;14;
   15;16;17;18;19;20;21;22;23;24;
   25;127;127;127;127;127;127;26;27;28;
   29;30;31;32;33;34;35;36;37;38;
   39;40;41;42;43;44;45;46;47;48;
   49;50;51;127;127;127;127;127].

(* base64.c:66-78: length without the terminating NUL; size_t arithmetic modulo 2^64 *)
Definition enc_len (slen : Z) : Z :=
  let n := u64 (Z.shiftl slen 3) / 6 in
  let r := u64 (u64 (Z.shiftl slen 3) - u64 (n * 6)) in
  if r =? 2 then u64 (n + 3) else if r =? 4 then u64 (n + 2) else n.

(* base64.c:87-95: one full group; src is read at offset i *)
Definition enc_group (src : list Z) (i : Z) (st : list Z * Z) : res (list Z * Z) :=
  let '(dst, p) := st in
  do c1 <- rd src i ;; do c2 <- rd src (i + 1) ;; do c3 <- rd src (i + 2) ;;
  do e1 <- rd enc_map (Z.land (Z.shiftr c1 2) 63) ;;
  do e2 <- rd enc_map (Z.land (Z.shiftl (Z.land c1 3) 4 + Z.shiftr c2 4) 63) ;;
  do e3 <- rd enc_map (Z.land (Z.shiftl (Z.land c2 15) 2 + Z.shiftr c3 6) 63) ;;
  do e4 <- rd enc_map (Z.land c3 63) ;;
  puts dst p [e1; e2; e3; e4].

(* base64.c:54-116 osmo_base64_encode; src has exactly slen bytes, dst exactly dlen.
   The result is (return value, *olen, dst). *)
Definition osmo_base64_encode (dst : list Z) (dlen : Z) (src : list Z) (slen : Z) : res (Z * Z * list Z) :=
  if slen =? 0 then Ok (0, 0, dst) else
  let n := enc_len slen in
  if dlen <? u64 (n + 1) then Ok (- ENOBUFS, u64 (n + 1), dst) else
  let n := slen / 3 * 3 in
  do ' (dst, p) <- zfor (Z.to_nat (slen / 3)) 0 (fun k st => enc_group src (3 * k) st) (dst, 0) ;;
  do ' (dst, p) <-
    (if n <? slen then
       do c1 <- rd src n ;;
       do c2 <- (if n + 1 <? slen then rd src (n + 1) else Ok 0) ;;
       do e1 <- rd enc_map (Z.land (Z.shiftr c1 2) 63) ;;
       do e2 <- rd enc_map (Z.land (Z.shiftl (Z.land c1 3) 4 + Z.shiftr c2 4) 63) ;;
       do e3 <- (if n + 1 <? slen then rd enc_map (Z.land (Z.shiftl (Z.land c2 15) 2) 63) else Ok 61) ;;
       puts dst p [e1; e2; e3; 61]
     else Ok (dst, p)) ;;
  do dst <- wr dst p 0 ;;
  Ok (0, p, dst).

(* base64.c:129-161, first pass over the remaining input l = src[i .. slen-1]; n, j as in the code,
   x counts the spaces skipped in the current iteration (lines 131-135).  The C loop is indexed; here it
   is structural on the remaining input, the loop exit always has i == slen.
   None = -EINVAL, Some (n, j) otherwise. *)
Fixpoint dec_scan (l : list Z) (n j x : Z) : res (option (Z * Z)) :=
  match l with
  | [] => Ok (Some (n, j))                                                    (* 138-139 *)
  | c :: t =>
    if c =? 32 then dec_scan t n j (u32 (x + 1)) else                         (* 132-135 *)
    if (c =? 13) && (match t with d :: _ => d =? 10 | [] => false end) then dec_scan t n j 0 else  (* 141-142 *)
    if c =? 10 then dec_scan t n j 0 else                                     (* 144-145 *)
    if negb (x =? 0) then Ok None else                                        (* 148-149 *)
    let j := if c =? 61 then u32 (j + 1) else j in
    if (c =? 61) && (2 <? j) then Ok None else                                (* 151-152 *)
    if 127 <? c then Ok None else                                             (* 154-155 *)
    do d <- rd dec_map c ;;
    if d =? 127 then Ok None else
    if (d <? 64) && negb (j =? 0) then Ok None else                           (* 157-158 *)
    dec_scan t (u64 (n + 1)) j 0
  end.

(* base64.c:174-190, second pass; state (j, n, x, dst, p) *)
Fixpoint dec_out (l : list Z) (j n x : Z) (dst : list Z) (p : Z) : res (list Z * Z) :=
  match l with
  | [] => Ok (dst, p)
  | c :: t =>
    if (c =? 13) || (c =? 10) || (c =? 32) then dec_out t j n x dst p else
    do d <- rd dec_map c ;;
    let j := if d =? 64 then u32 (j - 1) else j in
    let x := Z.lor (u32 (Z.shiftl x 6)) (Z.land d 63) in
    if n + 1 =? 4 then
      do ' (dst, p) <- (if 0 <? j then puts dst p [u8 (Z.shiftr x 16)] else Ok (dst, p)) ;;
      do ' (dst, p) <- (if 1 <? j then puts dst p [u8 (Z.shiftr x 8)] else Ok (dst, p)) ;;
      do ' (dst, p) <- (if 2 <? j then puts dst p [u8 x] else Ok (dst, p)) ;;
      dec_out t j 0 x dst p
    else dec_out t j (n + 1) x dst p
  end.

(* base64.c:121-195 osmo_base64_decode; dst = None is a NULL pointer, otherwise it has exactly dlen
   bytes.  [olen] is the value of *olen before the call.  Result (return value, *olen, dst). *)
Definition osmo_base64_decode (dst : option (list Z)) (dlen olen : Z) (src : list Z) : res (Z * Z * option (list Z)) :=
  do r <- dec_scan src 0 0 0 ;;
  match r with
  | None => Ok (- EINVAL, olen, dst)
  | Some (n, j) =>
    if n =? 0 then Ok (0, olen, dst) else
    let n := Z.shiftr (u64 (u64 (n * 6) + 7)) 3 in
    let n := u64 (n - j) in
    match dst with
    | None => Ok (- ENOBUFS, n, dst)
    | Some m => if dlen <? n then Ok (- ENOBUFS, n, dst) else
                do ' (m, p) <- dec_out src 3 0 0 m 0 ;; Ok (0, p, Some m)
    end
  end.
