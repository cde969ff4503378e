(* C14: string ring buffer *)
From Verif Require Import Base M_strrb P_strrb.

(* after any sequence of adds: the count, emptiness, and every index below size; the i-th entry is the i-th
   oldest of the last min(n, size-1) strings, cut to 239 bytes; adds report truncation *)
Theorem C14_history : forall size l i,
  1 <= size <= 65535 -> Forall (Forall (fun c => c <> 0)) l -> 0 <= i < size ->
  let k := Z.min (zlen l) (size - 1) in
  exists rb, adds (osmo_strrb_create size) l = Ok (rb, map (fun d => if 240 <=? zlen d then 1 else 0) l) /\
    osmo_strrb_elements rb = k /\ (osmo_strrb_is_empty rb = true <-> k = 0) /\
    osmo_strrb_get_nth rb i = if i <? k then Some (firstn 239 (nth (Z.to_nat (zlen l - k + i)) l [])) else None.
Proof. exact strrb_main. Qed.
Print Assumptions C14_history.

(* larger indices: NULL as long as the buffer has not wrapped ... *)
Theorem C14_big_index : forall size l i rb rs, 1 <= size <= 65535 -> Forall (Forall (fun c => c <> 0)) l -> zlen l < size ->
  size <= i < 4294967296 -> adds (osmo_strrb_create size) l = Ok (rb, rs) -> osmo_strrb_get_nth rb i = None.
Proof. exact get_big_ok. Qed.
Print Assumptions C14_big_index.

(* ... but after wrapping, an index beyond the number of entries may yield an entry instead of NULL *)
Theorem C14_beyond_refuted : exists size l i rb rs, 1 <= size <= 65535 /\ Forall (Forall (fun c => c <> 0)) l /\
  adds (osmo_strrb_create size) l = Ok (rb, rs) /\ osmo_strrb_elements rb <= i < 4294967296 /\
  osmo_strrb_get_nth rb i <> None.
Proof.
  exists 3, [[65];[66];[67];[68]], 3.
  destruct (adds (osmo_strrb_create 3) [[65];[66];[67];[68]]) as [[rb rs]| | |] eqn:E; vm_compute in E; try discriminate.
  exists rb, rs. split; [lia|]. split; [repeat constructor; lia|]. split; [reflexivity|].
  injection E as <- <-. vm_compute. repeat split; discriminate.
Qed.
Print Assumptions C14_beyond_refuted.

Example C14_nonvacuous :
  match adds (osmo_strrb_create 4) [[1];[2];[3];[4];[5;5]] with
  | Ok (rb, rs) => map (osmo_strrb_get_nth rb) [0;1;2;3] = [Some [3]; Some [4]; Some [5;5]; None]
  | _ => False
  end.
Proof. vm_compute. reflexivity. Qed.
