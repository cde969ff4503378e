(** Model of the environment functions of src/core/exec.c.
    A C string is the list of its characters without the NUL. An array of pointers is a list of [option string], None a null
    pointer; an access outside the list is UB. Pointers are not told apart from the strings they point to: only pointers are
    copied, the strings stay. Simplification: file descriptors, fork, user and exec of osmo_system_nowait2 are left out. *)
From Verif Require Import Base.

Notation str := (list Z) (only parsing).
Definition str_eqb (a b : str) : bool := if list_eq_dec Z.eq_dec a b then true else false.

(** src/core/exec.c:58-67 str_in_list: [list] an array ended by a null pointer *)
Fixpoint str_in_list (l : list (option str)) (key : str) : res bool :=
  match l with
  | [] => UB
  | None :: _ => Ok false
  | Some e :: r => if str_eqb e key then Ok true else str_in_list r key
  end.

(** strchr(s, '='): the position *)
Fixpoint eq_pos (s : str) : option Z :=
  match s with [] => None | c :: r => if c =? 61 then Some 0 else match eq_pos r with Some p => Some (p + 1) | None => None end end.

(** src/core/exec.c:84-123 osmo_environment_filter: its loop; result: the array, the number used *)
Fixpoint filter_loop (out : list (option str)) (out_len out_used : Z) (ent wl : list (option str)) : res (list (option str) * Z) :=
  match ent with
  | [] => UB
  | None :: _ => Ok (out, out_used)
  | Some e :: r =>
    match eq_pos e with
    | None => filter_loop out out_len out_used r wl
    | Some p =>
      if 256 <=? p then filter_loop out out_len out_used r wl else
      let tmp := firstn (Z.to_nat p) e in
      do hit <- str_in_list wl tmp ;;
      if hit then
        if out_used =? out_len - 1 then Ok (out, out_used) else
        do out1 <- wr out out_used (Some e) ;;
        filter_loop out1 out_len (out_used + 1) r wl
      else filter_loop out out_len out_used r wl
    end
  end.
(** the whole of it; a null pointer as an argument is None *)
Definition osmo_environment_filter (out : option (list (option str))) (out_len : Z) (inp : option (list (option str))) (whitelist : option (list (option str)))
  : res (Z * list (option str)) :=
  match out, whitelist with
  | Some out, Some wl =>
    if out_len =? 0 then Err (- EINVAL) else
    match inp with
    | None => do out1 <- wr out 0 None ;; Ok (1, out1)
    | Some ent =>
      do r <- filter_loop out out_len 0 ent wl ;;
      let '(out1, used) := r in
      if negb (used <? out_len) then Abort else
      do out2 <- wr out1 used None ;; Ok (used + 1, out2)
    end
  | _, _ => Err (- EINVAL)
  end.

(** src/core/exec.c:140-163 osmo_environment_append: seeking the end *)
Fixpoint seek (out : list (option str)) (used : Z) : res Z :=
  match out with [] => UB | None :: _ => Ok used | Some _ :: r => seek r (used + 1) end.
Fixpoint append_loop (out : list (option str)) (out_len used : Z) (inp : list (option str)) : res (list (option str) * Z) :=
  match inp with
  | [] => UB
  | None :: _ => Ok (out, used)
  | Some e :: r => if used <? out_len - 1 then do out1 <- wr out used (Some e) ;; append_loop out1 out_len (used + 1) r else Ok (out, used)
  end.
Definition osmo_environment_append (out : option (list (option str))) (out_len : Z) (inp : option (list (option str))) : res (Z * list (option str)) :=
  match out with
  | None => Err (- EINVAL)
  | Some out =>
    if out_len =? 0 then Err (- EINVAL) else
    do used <- seek out 0 ;;
    match inp with
    | None => if used =? 0 then do out1 <- wr out 0 None ;; Ok (1, out1) else Ok (used, out)
    | Some i =>
      do r <- append_loop out out_len used i ;;
      let '(out1, used1) := r in
      if negb (used1 <? out_len) then Abort else
      do out2 <- wr out1 used1 None ;; Ok (used1 + 1, out2)
    end
  end.

(** src/core/exec.c:210-282 osmo_system_nowait2: the environment given to the shell, lines 235-254; [mem]: the uninitialised
    array new_env of 1024 pointers *)
Definition child_env (mem : list (option str)) (environ env_whitelist addl_env : option (list (option str))) : res (list (option str)) :=
  do e0 <- wr mem 0 None ;;
  do e1 <- match env_whitelist with
           | None => Ok e0
           | Some _ => do r <- osmo_environment_filter (Some e0) 1024 environ env_whitelist ;; Ok (snd r)
           end ;;
  match addl_env with
  | None => Ok e1
  | Some _ => do r <- osmo_environment_append (Some e1) 1024 addl_env ;; Ok (snd r)
  end.
