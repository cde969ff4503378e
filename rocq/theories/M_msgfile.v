(** Model of src/core/msgfile.c: texts per network and option, one to a line.
    Simplifications: the file is the list of the lines getline delivers, each with its octets and without the terminating NUL; files can be opened and
    memory does not run out. *)
From Verif Require Import Base.

(** include/osmocom/core/msgfile.h:26-37 struct osmo_config_entry *)
Record entry := Entry { e_mcc : list Z; e_mnc : list Z; e_option : list Z; e_text : list Z }.

(** strlen *)
Fixpoint strlen (l : list Z) : res Z := match l with [] => UB | c :: l => if c =? 0 then Ok 0 else do n <- strlen l ;; Ok (n + 1) end.
(** talloc_strdup of the string at an offset *)
Fixpoint cstr (l : list Z) : res (list Z) := match l with [] => UB | c :: l => if c =? 0 then Ok [] else do r <- cstr l ;; Ok (c :: r) end.
Definition strdup (mem : list Z) (off : Z) : res (list Z) := if off <? 0 then UB else cstr (skipn (Z.to_nat off) mem).
(** src/core/msgfile.c:79-87 the loop of handle_line *)
Fixpoint line_loop (n : nat) (i : Z) (line items : list Z) : res (list Z * list Z) :=
  match n with
  | O => Ok (line, items)
  | S n =>
    do c <- rd line i ;;
    if (c =? 10) || (c =? 13) then do line <- wr line i 0 ;; line_loop n (i + 1) line items
    else if (c =? 58) && (zlen items <? 3) then do line <- wr line i 0 ;; line_loop n (i + 1) line (items ++ [i + 1])
    else line_loop n (i + 1) line items
  end.
(** src/core/msgfile.c:67-95 handle_line, with alloc_entry (src/core/msgfile.c:33-50) *)
Definition handle_line (entries : list entry) (line : list Z) : res (list entry) :=
  do len <- strlen line ;;
  do c <- rd line 0 ;;
  if c =? 35 then Ok entries else
  do x <- line_loop (Z.to_nat len) 0 line [] ;;
  let '(line, items) := x in
  if zlen items =? 3 then
    do i0 <- rd items 0 ;; do i1 <- rd items 1 ;; do i2 <- rd items 2 ;;
    do a <- strdup line 0 ;; do b <- strdup line i0 ;; do c <- strdup line i1 ;; do d <- strdup line i2 ;;
    Ok (entries ++ [Entry a b c d])
  else Ok entries.
(** src/core/msgfile.c:97-125 osmo_config_list_parse *)
Fixpoint parse_loop (entries : list entry) (file : list (list Z)) : res (list entry) :=
  match file with [] => Ok entries | l :: file => do entries <- handle_line entries (l ++ [0]) ;; parse_loop entries file end.
Definition osmo_config_list_parse (file : list (list Z)) : res (list entry) := parse_loop [] file.
