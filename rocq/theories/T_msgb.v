(* Property theorems for message buffers: C01 - C04.  Model: M_msgb.v.  Specification: S_msgb.v. *)
From Verif Require Import Base S_msgb M_msgb P_msgb.

(* C01: any history of put/push/get/pull (and integer forms) on any consistent msgb behaves like
   the byte deque; panics happen exactly when the deque says so; never undefined behaviour. *)
Theorem C01_msgb_deque : forall m ops, msgb_ok m -> Forall op_ok ops ->
  match d_run (view m) ops with
  | None => m_run m ops = Abort
  | Some (d, outs) =>
      exists m', m_run m ops = Ok (m', outs) /\ view m' = d /\ msgb_ok m' /\
        zlen (content d) = mlen m' /\ mtail m' - mdata m' = mlen m' /\
        hroom d + zlen (content d) + troom d = data_len m /\ data_len m' = data_len m /\
        l1h m' = l1h m /\ l2h m' = l2h m /\ l3h m' = l3h m /\ l4h m' = l4h m
  end.
Proof. exact m_run_deque. Qed.
Print Assumptions C01_msgb_deque.

(* freshly allocated buffers meet the hypothesis of C01_msgb_deque *)
Theorem C01_alloc_headroom : forall size headroom,
  0 <= headroom <= size -> size <= 65535 ->
  exists m, msgb_alloc_headroom size headroom = Ok m /\ msgb_ok m /\
            view m = Deque headroom [] (size - headroom) /\ data_len m = size.
Proof. exact alloc_headroom_ok. Qed.
Print Assumptions C01_alloc_headroom.

Theorem C01_pull_to_l3 : forall m h, msgb_ok m -> l3h m = Some h ->
  (mdata m <= h <= mtail m -> exists m', msgb_pull_to_l3 m = Ok m' /\
      view m' = Deque h (skipn (Z.to_nat (h - mdata m)) (content (view m))) (troom (view m)) /\
      l1h m' = None /\ l2h m' = None /\ l3h m' = Some h) /\
  (h < mdata m \/ mtail m < h -> msgb_pull_to_l3 m = Abort).
Proof. exact pull_to_l3_spec. Qed.
Print Assumptions C01_pull_to_l3.

Theorem C01_pull_to_l2 : forall m h, msgb_ok m -> l2h m = Some h ->
  (mdata m <= h <= mtail m -> exists m', msgb_pull_to_l2 m = Ok m' /\
      view m' = Deque h (skipn (Z.to_nat (h - mdata m)) (content (view m))) (troom (view m)) /\
      l1h m' = None /\ l2h m' = Some h /\ l3h m' = l3h m) /\
  (h < mdata m \/ mtail m < h -> msgb_pull_to_l2 m = Abort).
Proof. exact pull_to_l2_spec. Qed.
Print Assumptions C01_pull_to_l2.

Example C01_nonvacuous :
  let m := msgb_reserve (msgb_alloc 16) 4 in
  let ops := [OPut [1;2;3]; OPushU 2 258; OGetU 1; OPull 1; OPutU 4 16909060] in
  d_run (view m) ops =
    Some (Deque 3 [2;1;2;1;2;3;4] 6, [[]; []; [3]; [1]; []]) /\
  match m_run m ops with Ok (m', outs) => view m' = Deque 3 [2;1;2;1;2;3;4] 6 | _ => False end /\
  m_run m [OGet 1] = Abort /\ d_run (view m) [OPush [0;0;0;0;0]] = None.
Proof. vm_compute. auto. Qed.

(* push_tl prepends the tag and the length of what follows *)
Theorem C01_push_tl : forall m tag, msgb_ok m ->
  (msgb_headroom m < 2 -> msgb_push_tl m tag = Abort) /\
  (2 <= msgb_headroom m -> exists m', msgb_push_tl m tag = Ok m' /\ msgb_ok m' /\
     view m' = Deque (hroom (view m) - 2) ([tag mod 256; zlen (content (view m)) mod 256] ++ content (view m)) (troom (view m)) /\
     data_len m = data_len m' /\ l1h m = l1h m' /\ l2h m = l2h m' /\ l3h m = l3h m' /\ l4h m = l4h m').
Proof. exact push_tl_ok. Qed.
Print Assumptions C01_push_tl.

(* reset: empty message, full tailroom, layer 2-4 pointers forgotten *)
Theorem C01_reset : forall m, 0 <= data_len m <= 65535 -> zlen (mem m) = data_len m -> bytes (mem m) ->
  (forall h, l1h m = Some h -> 0 <= h <= data_len m) ->
  let m' := msgb_reset m in
  msgb_ok m' /\ view m' = Deque 0 [] (data_len m) /\ data_len m' = data_len m /\ l2h m' = None /\ l3h m' = None /\ l4h m' = None.
Proof. exact reset_ok. Qed.
Print Assumptions C01_reset.

(* C02: msgb_trim, exact condition *)
Theorem C02_trim : forall m n, msgb_ok m -> 0 <= n ->
  (data_len m < n -> msgb_trim m n = Err (-1)) /\
  (n <= data_len m -> exists m', msgb_trim m n = Ok m' /\
     (msgb_test_invariant m' = true <-> msgb_headroom m + n <= data_len m) /\
     (msgb_headroom m + n <= data_len m ->
        hroom (view m') = hroom (view m) /\ zlen (content (view m')) = n /\
        troom (view m') = data_len m - msgb_headroom m - n /\
        firstn (Z.to_nat (Z.min n (mlen m))) (content (view m')) =
        firstn (Z.to_nat (Z.min n (mlen m))) (content (view m)))).
Proof. exact trim_full. Qed.
Print Assumptions C02_trim.

Theorem C02_l3trim : forall m h n, msgb_ok m -> l3h m = Some h -> mdata m <= h -> 0 <= n -> h + n <= data_len m ->
  exists m', msgb_l3trim m n = Ok m' /\ mdata m' = mdata m /\ l3h m' = Some h /\ mtail m' - h = n /\
    zlen (content (view m')) = h - mdata m + n /\
    firstn (Z.to_nat (Z.min (h - mdata m + n) (mlen m))) (content (view m')) = firstn (Z.to_nat (Z.min (h - mdata m + n) (mlen m))) (content (view m)).
Proof. exact l3trim_ok. Qed.
Print Assumptions C02_l3trim.

(* the natural expectation "a successful trim keeps the message consistent" is false *)
Theorem C02_trim_refuted : exists m n m',
  msgb_ok m /\ msgb_trim m n = Ok m' /\ msgb_test_invariant m' = false.
Proof.
  exists (msgb_reserve (msgb_alloc 16) 4), 14.
  eexists. split; [|split; [reflexivity|reflexivity]].
  destruct (alloc_headroom_ok 16 4) as (m & E & H & _); [lia|lia|].
  injection E as <-. exact H.
Qed.
Print Assumptions C02_trim_refuted.

(* lengths of 2^31 and more pass the room checks and corrupt the message *)
Theorem C02_put_huge : forall m len, msgb_ok m -> 2147483648 <= len < 4294967296 ->
  exists p m', msgb_put m len = Ok (p, m') /\ msgb_test_invariant m' = false.
Proof. exact put_huge. Qed.
Print Assumptions C02_put_huge.
Theorem C02_push_huge : forall m len, msgb_ok m -> 2147483648 <= len < 4294967296 ->
  exists p m', msgb_push m len = Ok (p, m') /\ msgb_test_invariant m' = false.
Proof. exact push_huge. Qed.
Print Assumptions C02_push_huge.

(* C03: msgb_copy_resize: NULL / overflow / faithful copy, exactly *)
Theorem C03_copy_resize : forall m new_len, msgb_ok m -> 0 <= new_len <= 65535 ->
  (new_len < mlen m -> msgb_copy_resize true m new_len = Ok None) /\
  (mlen m <= new_len < mdata m + mlen m -> msgb_copy_resize true m new_len = UB) /\
  (mdata m + mlen m <= new_len -> exists c, msgb_copy_resize true m new_len = Ok (Some c) /\
     zlen (mem c) = new_len /\ data_len c = new_len /\
     hroom (view c) = hroom (view m) /\ content (view c) = content (view m) /\
     troom (view c) = new_len - mdata m - mlen m /\
     l1h c = l1h m /\ l2h c = l2h m /\ l3h c = l3h m /\ l4h c = l4h m /\ bytes (mem c)).
Proof. exact copy_resize_spec. Qed.
Print Assumptions C03_copy_resize.

(* plain msgb_copy always succeeds on a consistent message (given memory) and is consistent *)
Theorem C03_copy : forall m, msgb_ok m ->
  exists c, msgb_copy true m = Ok (Some c) /\ view c = view m /\ msgb_ok c /\
    l1h c = l1h m /\ l2h c = l2h m /\ l3h c = l3h m /\ l4h c = l4h m.
Proof. exact copy_spec. Qed.
Print Assumptions C03_copy.

Example C03_overflow_case :
  let m := Msgb (repeat 7 16) 4 12 8 16 None (Some 4) None None in
  msgb_test_invariant m = true /\ msgb_copy_resize true m 10 = UB /\
  exists c, msgb_copy_resize true m 12 = Ok (Some c) /\ view c = Deque 4 [7;7;7;7;7;7;7;7] 0.
Proof. vm_compute. repeat split. eexists. split; reflexivity. Qed.

(* C04: msgb_resize_area *)
Theorem C04_resize_area : forall m area old new,
  msgb_ok m -> 0 <= old -> 0 <= new -> mdata m <= area -> area + old <= mtail m ->
  mdata m + mlen m + (new - old) <= data_len m ->
  let keep := Z.min old new in
  exists m', msgb_resize_area m area old new = Ok m' /\
    hroom (view m') = hroom (view m) /\
    zlen (content (view m')) = mlen m + (new - old) /\
    troom (view m') = troom (view m) - (new - old) /\
    data_len m' = data_len m /\ zlen (mem m') = data_len m /\ bytes (mem m') /\
    firstn (Z.to_nat (area - mdata m + keep)) (content (view m')) =
    firstn (Z.to_nat (area - mdata m + keep)) (content (view m)) /\
    skipn (Z.to_nat (area - mdata m + new)) (content (view m')) =
    skipn (Z.to_nat (area - mdata m + old)) (content (view m)) /\
    l1h m' = shift_hdr (area + old) (new - old) (l1h m) /\ l2h m' = shift_hdr (area + old) (new - old) (l2h m) /\
    l3h m' = shift_hdr (area + old) (new - old) (l3h m) /\ l4h m' = shift_hdr (area + old) (new - old) (l4h m).
Proof. exact resize_area_spec. Qed.
Print Assumptions C04_resize_area.

Theorem C04_outside_panics : forall m area old new,
  msgb_ok m -> is_s32 (new - old) ->
  (old < 0 \/ new < 0 \/ area < mdata m \/ mtail m < area + old) ->
  msgb_resize_area m area old new = Abort.
Proof. exact resize_area_outside. Qed.
Print Assumptions C04_outside_panics.

Theorem C04_too_long_refused : forall m area old new,
  msgb_ok m -> 0 <= old -> 0 <= new -> mdata m <= area -> area + old <= mtail m ->
  is_s32 (mlen m + (new - old)) -> data_len m < mlen m + (new - old) ->
  msgb_resize_area m area old new = Err (-1).
Proof. exact resize_area_toolong. Qed.
Print Assumptions C04_too_long_refused.

(* with headroom, a growth that exceeds the tailroom but not data_len is not refused: it writes
   beyond the buffer *)
Theorem C04_grow_refuted : exists m area old new,
  msgb_ok m /\ 0 <= old /\ 0 <= new /\ mdata m <= area /\ area + old <= mtail m /\
  msgb_tailroom m < new - old /\ msgb_resize_area m area old new = UB.
Proof.
  exists (Msgb (repeat 7 16) 8 12 4 16 None None None None), 8, 1, 7.
  split; [|repeat split; vm_compute; congruence].
  split; [reflexivity|]. split; [cbn; lia|]. split; [reflexivity|]. split; [|cbn; lia].
  cbn [mem]. repeat constructor; unfold is_byte; lia.
Qed.
Print Assumptions C04_grow_refuted.

Example C04_nonvacuous :
  let m := Msgb [0;0;1;2;3;4;5;0;0;0] 2 7 5 10 None (Some 2) (Some 4) (Some 5) in
  msgb_test_invariant m = true /\
  match msgb_resize_area m 4 1 3 with
  | Ok m' => content (view m') = [1;2;3;4;5;4;5] /\ l3h m' = Some 4 /\ l4h m' = Some 7
  | _ => False end.
Proof. vm_compute. auto. Qed.
