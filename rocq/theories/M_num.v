(* M_num.v - src/core/utils.c: osmo_luhn, osmo_isqrt32, osmo_str_to_int64, osmo_str_to_int *)
From Verif Require Import Base.

(* isdigit() in the C locale *)
Definition isdigit (c : Z) : bool := (48 <=? c) && (c <=? 57).

(* utils.c:1203-1206 *)
Fixpoint luhn_check (s : list Z) (i : Z) (n : nat) : res bool :=
  match n with
  | O => Ok true
  | S n => do c <- rd s i ;; if negb (isdigit c) then Ok false else luhn_check s (i + 1) n
  end.
(* utils.c:1209-1214; n bounds the iterations (running out is UB, shown not to happen) *)
Fixpoint luhn_dbl (s : list Z) (i sum : Z) (n : nat) : res Z :=
  if i <? 0 then Ok sum else
  match n with
  | O => UB
  | S n => do c <- rd s i ;; let dbl := (c - 48) * 2 in let dbl := if 9 <? dbl then dbl - 9 else dbl in luhn_dbl s (i - 2) (sum + dbl) n
  end.
(* utils.c:1217-1218 *)
Fixpoint luhn_add (s : list Z) (i sum : Z) (n : nat) : res Z :=
  if i <? 0 then Ok sum else
  match n with
  | O => UB
  | S n => do c <- rd s i ;; luhn_add s (i - 2) (sum + (c - 48)) n
  end.
(* utils.c:1198-1222 osmo_luhn; -EINVAL is returned as a char.  sum only grows, so an overflow of sum implies one of sum * 9 *)
Definition osmo_luhn (s : list Z) (in_len : Z) : res Z :=
  let n := Z.to_nat in_len in
  do ok <- luhn_check s 0 n ;;
  if negb ok then Ok (-22) else
  do sum <- luhn_dbl s (in_len - 1) 0 n ;;
  do sum <- luhn_add s (in_len - 2) sum n ;;
  if 2147483647 <? sum * 9 then UB else Ok (Z.rem (sum * 9) 10 + 48).

(* utils.c:1067-1070: g0, g1 are int, x/g0 is computed in uint32_t *)
Fixpoint isqrt_loop (x g0 g1 : Z) (n : nat) : res Z :=
  if g1 <? g0 then
    match n with
    | O => UB
    | S n => if g1 =? 0 then UB else isqrt_loop x g1 (s32 (Z.shiftr (u32 (g1 + x / u32 g1)) 1)) n
    end
  else Ok (u32 g0).
(* utils.c:1040-1072 osmo_isqrt32 *)
Definition osmo_isqrt32 (x : Z) : res Z :=
  if x <=? 1 then Ok x else
  let s := 1 in let x1 := x - 1 in
  let '(s, x1) := if 65535 <? x1 then (s + 8, Z.shiftr x1 16) else (s, x1) in
  let '(s, x1) := if 255 <? x1 then (s + 4, Z.shiftr x1 8) else (s, x1) in
  let '(s, x1) := if 15 <? x1 then (s + 2, Z.shiftr x1 4) else (s, x1) in
  let s := if 3 <? x1 then s + 1 else s in
  let g0 := s32 (Z.shiftl 1 s) in
  let g1 := s32 (Z.shiftr (u32 (g0 + Z.shiftr x s)) 1) in
  isqrt_loop x g0 g1 (Z.to_nat g0).

(* strtoll() of the C library (external; as C11 7.22.1.4 defines it, with glibc's errno behaviour): returns
   (value, errno, number of characters consumed). s is the string without its terminating NUL. *)
Definition c_isspace (c : Z) : bool := (9 <=? c) && (c <=? 13) || (c =? 32).
Definition c_digit (base c : Z) : option Z :=
  let d := if (48 <=? c) && (c <=? 57) then c - 48 else if (65 <=? c) && (c <=? 90) then c - 55 else if (97 <=? c) && (c <=? 122) then c - 87 else 99 in
  if d <? base then Some d else None.
Fixpoint skip_ws (s : list Z) : list Z * Z :=
  match s with
  | c :: t => if c_isspace c then let '(r, k) := skip_ws t in (r, k + 1) else (s, 0)
  | [] => ([], 0)
  end.
(* value and number of the leading digits *)
Fixpoint c_digits (base acc : Z) (s : list Z) : Z * Z :=
  match s with
  | c :: t => match c_digit base c with Some d => let '(v, k) := c_digits base (acc * base + d) t in (v, k + 1) | None => (acc, 0) end
  | [] => (acc, 0)
  end.
Definition hex_prefix (s : list Z) : bool :=
  match s with a :: x :: c :: _ => (a =? 48) && ((x =? 120) || (x =? 88)) && (match c_digit 16 c with Some _ => true | None => false end) | _ => false end.
Definition LLONG_MAX := 9223372036854775807.
Definition LLONG_MIN := -9223372036854775808.
Definition ERANGE := 34.
Definition EINVAL := 22.
Definition strtoll (s : list Z) (base : Z) : Z * Z * Z :=
  if (base <? 0) || (base =? 1) || (36 <? base) then (0, EINVAL, 0) else
  let '(r, k) := skip_ws s in
  let '(neg, r, k) := match r with c :: t => if c =? 45 then (true, t, k + 1) else if c =? 43 then (false, t, k + 1) else (false, r, k) | [] => (false, r, k) end in
  let '(base, r, k) :=
    if ((base =? 0) || (base =? 16)) && hex_prefix r then (16, skipn 2 r, k + 2)
    else if base =? 0 then ((match r with c :: _ => if c =? 48 then 8 else 10 | [] => 10 end), r, k) else (base, r, k) in
  let '(v, m) := c_digits base 0 r in
  if m =? 0 then (0, 0, 0) else
  let v := if neg then - v else v in
  if v <? LLONG_MIN then (LLONG_MIN, ERANGE, k + m) else if LLONG_MAX <? v then (LLONG_MAX, ERANGE, k + m) else (v, 0, k + m).

(* utils.c:1493-1533 osmo_str_to_int64: (return code, *result); int64_t and long long coincide, so the first two checks never fire.
   NULL arguments are not modelled. *)
Definition osmo_str_to_int64 (s : list Z) (base min_val max_val : Z) : Z * Z :=
  match s with
  | [] => (-22, 0)
  | _ =>
      let '(val, errno, used) := strtoll s base in
      if negb (errno =? 0) then ((if errno =? ERANGE then -75 else -95), val) else
      if negb (used =? zlen s) then ((if used =? 0 then -22 else -7), val) else
      if (val <? min_val) || (max_val <? val) then (-34, val) else (0, val)
  end.
(* utils.c:1551-1570 osmo_str_to_int *)
Definition osmo_str_to_int (s : list Z) (base min_val max_val : Z) : Z * Z :=
  let '(rc, val) := osmo_str_to_int64 s base min_val max_val in
  if val <? -2147483648 then (-75, -2147483648) else
  if 2147483647 <? val then (-75, 2147483647) else (rc, val).
