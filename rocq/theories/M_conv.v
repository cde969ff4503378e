(* M_conv.v - model of src/core/conv.c (encoder and the generic Viterbi decoder).
   The accelerated decoder for K = 5, 7 (conv_acc*.c), to which osmo_conv_decode hands such codes, is not modelled. *)
From Verif Require Import Base S_conv.

(* conv.c:44-48 *)
Definition conv_get_input_length (c : code) (len : Z) : Z := if len <=? 0 then clen c else len.
(* conv.c:66: counts up to the first negative entry; no such entry: out of bounds *)
Fixpoint count_punct (p : list Z) (n : Z) : res Z :=
  match p with [] => UB | x :: t => if 0 <=? x then count_punct t (n + 1) else Ok n end.
(* conv.c:50-71 *)
Definition conv_get_output_length (c : code) (len : Z) : res Z :=
  let out_len := conv_get_input_length c len * cN c in
  let out_len := match cterm c with FLUSH => out_len + cN c * (cK c - 1) | _ => out_len end in
  match puncture c with
  | Some p => do pbits <- count_punct p 0 ;; Ok (out_len - pbits)
  | None => Ok out_len
  end.

(* conv.h:81-86 struct osmo_conv_encoder without the code pointer *)
Record encoder := Enc { i_idx : Z; p_idx : Z; st : Z }.

(* conv.c:91-102; input: the bits from the given pointer on *)
Definition conv_encode_load_state (c : code) (input : list Z) : res Z :=
  zfor (Z.to_nat (cK c - 1)) 0 (fun i state => do b <- rd input i ;; Ok (u8 (Z.lor (Z.shiftl state 1) b))) 0.

(* conv.c:104-130; the bits stored to output[], in order *)
Definition conv_encode_do_output (c : code) (e : encoder) (out : Z) : res (encoder * list Z) :=
  match puncture c with
  | Some p =>
    zfor (Z.to_nat (cN c)) 0 (fun j s =>
      let '(e, o) := s in
      let bit_no := cN c - j - 1 in
      let r_idx := i_idx e * cN c + j in
      do x <- rd p (p_idx e) ;;
      if x =? r_idx then Ok (Enc (i_idx e) (p_idx e + 1) (st e), o)
      else Ok (e, o ++ [Z.land (Z.shiftr out bit_no) 1])) (e, [])
  | None =>
    zfor (Z.to_nat (cN c)) 0 (fun j s =>
      let '(e, o) := s in
      let bit_no := cN c - j - 1 in
      Ok (e, o ++ [Z.land (Z.shiftr out bit_no) 1])) (e, [])
  end.

(* conv.c:132-159; the encoder's state field is written after the loop, the local variable is modelled by the field.
   A bit value above 1 indexes out of the row: not modelled, inputs are bits *)
Fixpoint conv_encode_raw (c : code) (e : encoder) (input : list Z) : res (encoder * list Z) :=
  match input with
  | [] => Ok (e, [])
  | bit :: t =>
    do out <- rd (next_output c) (2 * st e + bit) ;;
    do state <- rd (next_state c) (2 * st e + bit) ;;
    do '(e, o) <- conv_encode_do_output c (Enc (i_idx e) (p_idx e) state) out ;;
    do '(e, o') <- conv_encode_raw c (Enc (i_idx e + 1) (p_idx e) (st e)) t ;;
    Ok (e, o ++ o')
  end.

(* conv.c:178-184 and 478-484 *)
Definition term_step (c : code) (s : Z) : res (Z * Z) :=
  match next_term c with
  | Some (o, t) => do out <- rd o s ;; do state <- rd t s ;; Ok (out, state)
  | None => do out <- rd (next_output c) (2 * s) ;; do state <- rd (next_state c) (2 * s) ;; Ok (out, state)
  end.
(* conv.c:161-194, n = K - 1 *)
Fixpoint conv_encode_flush (c : code) (e : encoder) (n : nat) : res (encoder * list Z) :=
  match n with
  | O => Ok (e, [])
  | S m =>
    do '(out, state) <- term_step c (st e) ;;
    do '(e, o) <- conv_encode_do_output c (Enc (i_idx e) (p_idx e) state) out ;;
    do '(e, o') <- conv_encode_flush c (Enc (i_idx e + 1) (p_idx e) (st e)) m ;;
    Ok (e, o ++ o')
  end.

(* conv.c:206-226; the value returned is the number of bits stored *)
Definition conv_encode (c : code) (input : list Z) : res (list Z) :=
  if zlen input <? clen c then UB else
  do s0 <- (match cterm c with
            | TAIL_BITING => let eidx := clen c - cK c + 1 in
                             if eidx <? 0 then UB else conv_encode_load_state c (skipn (Z.to_nat eidx) input)
            | _ => Ok 0 end) ;;
  do '(e, o) <- conv_encode_raw c (Enc 0 0 s0) (firstn (Z.to_nat (clen c)) input) ;;
  match cterm c with
  | FLUSH => do '(_, o') <- conv_encode_flush c e (Z.to_nat (cK c - 1)) ;; Ok (o ++ o')
  | _ => Ok o
  end.

(* ---- decoder ---- *)
Definition MAX_AE := 0x00ffffff.
(* conv.h:108-121 struct osmo_conv_decoder without code, n_states, len and the scratch array ae_next *)
Record decoder := Dec { o_idx : Z; dp_idx : Z; ae : list Z; hist : list Z }.

(* conv.c:269-288 osmo_conv_decode_reset; conv.c:240-267 osmo_conv_decode_init allocates hist: its contents h0 are indeterminate *)
Definition conv_decode_reset (c : code) (h : list Z) (start_state : Z) : decoder :=
  let n := Z.to_nat (n_states c) in
  Dec 0 0 (if start_state <? 0 then repeat 0 n else map (fun i => if i =? start_state then 0 else MAX_AE) (zseq 0 n)) h.

(* conv.c:290-308 *)
Definition conv_decode_rewind (d : decoder) : decoder :=
  let min_ae := fold_left (fun m a => if a <? m then a else m) (ae d) MAX_AE in
  Dec 0 0 (map (fun a => u32 (a - min_ae)) (ae d)) (hist d).

(* conv.c:354-371 (and 450-467): the N soft bits of a step, base = o_idx + i; state: in_sym, i_idx, p_idx *)
Definition get_sym (c : code) (input : list Z) (base : Z) (i_idx p_idx : Z) : res (list Z * Z * Z) :=
  zfor (Z.to_nat (cN c)) 0 (fun j s =>
    let '(sym, i_idx, p_idx) := s in
    match puncture c with
    | Some p =>
      let idx := base * cN c + j in
      do x <- rd p p_idx ;;
      if idx =? x then Ok (sym ++ [0], i_idx, p_idx + 1)
      else do v <- rd input i_idx ;; Ok (sym ++ [v], i_idx + 1, p_idx)
    | None => do v <- rd input i_idx ;; Ok (sym ++ [v], i_idx + 1, p_idx)
    end) ([], i_idx, p_idx).

(* conv.c:384-396 (and 486-498): the new error; m is uint8_t; nae cannot leave int for accumulated errors up to MAX_AE *)
Definition new_ae (c : code) (sym : list Z) (a out : Z) : res Z :=
  do '(nae, _) <- zfor (Z.to_nat (cN c)) 0 (fun j s =>
    let '(nae, m) := s in
    do is_ <- rd sym j ;;
    let nae := if is_ =? 0 then nae else
                 let ov := if negb (Z.land out m =? 0) then -127 else 127 in
                 let e := is_ - ov in nae + Z.shiftr (e * e) 9 in
    Ok (nae, Z.shiftr m 1)) (a, u8 (Z.shiftl 1 (cN c - 1))) ;;
  Ok nae.
(* conv.c:398-402 (and 500-504): row: offset of the step in the history *)
Definition survive (c : code) (sym : list Z) (ae_ : list Z) (row s out state : Z) (x : list Z * list Z) : res (list Z * list Z) :=
  let '(ae_next, h) := x in
  do a <- rd ae_ s ;;
  do nae <- new_ae c sym a out ;;
  do old <- rd ae_next state ;;
  if nae <? old then
    do ae_next <- wr ae_next state nae ;;
    do h <- wr h (row + state) s ;;
    Ok (ae_next, h)
  else Ok x.

(* conv.c:350-408: one step of the trellis *)
Definition scan_step (c : code) (ae_ : list Z) (sym : list Z) (row : Z) (h : list Z) : res (list Z * list Z) :=
  zfor (Z.to_nat (n_states c)) 0 (fun s x =>
    zfor 2 0 (fun b x =>
      do out <- rd (next_output c) (2 * s + b) ;;
      do state <- rd (next_state c) (2 * s + b) ;;
      survive c sym ae_ row s out state x) x)
    (repeat MAX_AE (Z.to_nat (n_states c)), h).
(* conv.c:446-509 *)
Definition flush_step (c : code) (ae_ : list Z) (sym : list Z) (row : Z) (h : list Z) : res (list Z * list Z) :=
  zfor (Z.to_nat (n_states c)) 0 (fun s x =>
    do '(out, state) <- term_step c s ;; survive c sym ae_ row s out state x)
    (repeat MAX_AE (Z.to_nat (n_states c)), h).

(* conv.c:320-415 osmo_conv_decode_scan, conv.c:417-516 osmo_conv_decode_flush: n steps with the given step function; returns i_idx too *)
Definition steps (c : code) (step : list Z -> list Z -> Z -> list Z -> res (list Z * list Z)) (d : decoder) (input : list Z) (n : Z) : res (decoder * Z) :=
  do '(ae_, h, ii, pi) <- zfor (Z.to_nat n) 0 (fun i s =>
    let '(ae_, h, ii, pi) := s in
    do '(sym, ii, pi) <- get_sym c input (o_idx d + i) ii pi ;;
    do '(ae_, h) <- step ae_ sym (n_states c * (o_idx d + i)) h ;;
    Ok (ae_, h, ii, pi)) (ae d, hist d, 0, dp_idx d) ;;
  Ok (Dec (o_idx d + n) pi ae_ h, ii).
Definition conv_decode_scan (c : code) (d : decoder) (input : list Z) (n : Z) := steps c (scan_step c) d input n.
Definition conv_decode_flush (c : code) (d : decoder) (input : list Z) := steps c (flush_step c) d input (cK c - 1).

(* conv.c:541-549: tracing n steps back from state t *)
Fixpoint trace_back (c : code) (h : list Z) (n : nat) (t : Z) : res Z :=
  match n with O => Ok t | S m => do t <- rd h (n_states c * Z.of_nat m + t) ;; trace_back c h m t end.
(* conv.c:518-575 *)
Definition best_of (d : decoder) (ok : Z -> res bool) (n : Z) (init : Z * Z) : res (Z * Z) :=
  zfor (Z.to_nat n) 0 (fun s x =>
    let '(min_ae, min_state) := x in
    do k <- ok s ;;
    if negb k then Ok x else
    do a <- rd (ae d) s ;;
    if a <? min_ae then Ok (a, s) else Ok x) init.
Definition conv_decode_get_best_end_state (c : code) (d : decoder) : res Z :=
  match cterm c with
  | FLUSH => Ok 0
  | TAIL_BITING =>
    do '(min_ae, min_state) <- best_of d (fun s => do t <- trace_back c (hist d) (Z.to_nat (o_idx d)) s ;; Ok (s =? t)) (n_states c) (MAX_AE, -1) ;;
    if min_ae <? MAX_AE then Ok min_state else
    do '(_, min_state) <- best_of d (fun _ => Ok true) (n_states c) (min_ae, min_state) ;; Ok min_state
  | TRUNCATION =>
    do '(_, min_state) <- best_of d (fun _ => Ok true) (n_states c) (MAX_AE, -1) ;; Ok min_state
  end.

(* conv.c:615-626: output bits 0 .. n-1, walking backwards *)
Fixpoint out_back (c : code) (h : list Z) (n : nat) (cur : Z) (acc : list Z) : res (list Z) :=
  match n with
  | O => Ok acc
  | S m =>
    do prev <- rd h (n_states c * Z.of_nat m + cur) ;;
    do x <- rd (next_state c) (2 * prev) ;;
    out_back c h m prev ((if x =? cur then 0 else 1) :: acc)
  end.
(* conv.c:606-613: the states behind the K - 1 termination bits; from step n down *)
Fixpoint skip_back (c : code) (h : list Z) (n : Z) (k : nat) (cur : Z) : res Z :=
  match k with O => Ok cur | S m => do cur <- rd h (n_states c * (n - 1) + cur) ;; skip_back c h (n - 1) m cur end.
(* conv.c:577-629; result: the return value and output[0 .. n-1] *)
Definition conv_decode_get_output (c : code) (d : decoder) (has_flush : bool) (end_state : Z) : res (Z * list Z) :=
  do es <- (if end_state <? 0 then conv_decode_get_best_end_state c d else Ok end_state) ;;
  if es <? 0 then Err (-1) else
  do min_ae <- rd (ae d) es ;;
  let n := o_idx d in
  do '(n, cur) <- (if has_flush then do cur <- skip_back c (hist d) n (Z.to_nat (cK c - 1)) es ;; Ok (n - (cK c - 1), cur) else Ok (n, es)) ;;
  do out <- out_back c (hist d) (Z.to_nat n) cur [] ;;
  Ok (min_ae, out).

(* conv.c:641-672 osmo_conv_decode for the codes not handed to the accelerated implementation; h0: the memory returned by malloc *)
Definition conv_decode (c : code) (h0 : list Z) (input : list Z) : res (Z * list Z) :=
  let d := conv_decode_reset c h0 0 in
  do d <- (match cterm c with
           | TAIL_BITING => do '(d, _) <- conv_decode_scan c d input (clen c) ;; Ok (conv_decode_rewind d)
           | _ => Ok d end) ;;
  do '(d, l) <- conv_decode_scan c d input (clen c) ;;
  do d <- (match cterm c with
           | FLUSH => do '(d, _) <- conv_decode_flush c d (skipn (Z.to_nat l) input) ;; Ok d
           | _ => Ok d end) ;;
  conv_decode_get_output c d (match cterm c with FLUSH => true | _ => false end) (-1).
