(* M_timecc.v - model of the cumulative time counter (src/core/time_cc.c, include/osmocom/core/time_cc.h). *)
From Verif Require Import Base.

(* struct osmo_time_cc_cfg, time_cc.h:105-125, with the values osmo_tdef_get returns for T_gran, T_round_threshold
   and T_forget_sum: None: T_defs is NULL, a component None: that T number is 0 *)
Record tdefs := mkTd { td_gran : option Z; td_thr : option Z; td_forget : option Z }.
(* struct osmo_time_cc, time_cc.h:158-181; the rate counter stands for its value, the timer for the time at which it
   expires *)
Record tcc := mkTcc {
  cf_gran : Z; cf_thr : Z; cf_forget : Z;
  c_flag : bool; c_total : Z; c_timer : option Z; c_start : Z; c_last : Z; c_sum : Z; c_rep : Z; c_ctr : Z }.

Definition set_cfg (c : tcc) g r f := mkTcc g r f (c_flag c) (c_total c) (c_timer c) (c_start c) (c_last c) (c_sum c) (c_rep c) (c_ctr c).
Definition set_flagv (c : tcc) f := mkTcc (cf_gran c) (cf_thr c) (cf_forget c) f (c_total c) (c_timer c) (c_start c) (c_last c) (c_sum c) (c_rep c) (c_ctr c).
Definition set_timer (c : tcc) t := mkTcc (cf_gran c) (cf_thr c) (cf_forget c) (c_flag c) (c_total c) t (c_start c) (c_last c) (c_sum c) (c_rep c) (c_ctr c).
Definition set_start (c : tcc) s l := mkTcc (cf_gran c) (cf_thr c) (cf_forget c) (c_flag c) (c_total c) (c_timer c) s l (c_sum c) (c_rep c) (c_ctr c).
Definition set_sums (c : tcc) total last sum rep ctr :=
  mkTcc (cf_gran c) (cf_thr c) (cf_forget c) (c_flag c) total (c_timer c) (c_start c) last sum rep ctr.

(* GRAN_USEC and ROUND_THRESHOLD_USEC, time_cc.c:47-50 *)
Definition GRAN_USEC (c : tcc) : Z := if negb (cf_gran c =? 0) then cf_gran c else 1000000.
Definition ROUND_THRESHOLD_USEC (c : tcc) : Z :=
  if negb (cf_thr c =? 0) then Z.min (cf_thr c) (GRAN_USEC c) else GRAN_USEC c / 2.

(* osmo_time_cc_forget_sum, time_cc.c:146-153 *)
Definition forget_sum (c : tcc) (now : Z) : tcc :=
  set_sums c (c_total c) (if c_last c <? now then now else c_last c) 0 0 (c_ctr c).

(* osmo_time_cc_update_from_tdef, time_cc.c:62-85 *)
Definition update_from_tdef (td : option tdefs) (c : tcc) (now : Z) : tcc :=
  match td with
  | None => c
  | Some d =>
    let was := GRAN_USEC c in
    let c1 := match td_gran d with None => c | Some g => set_cfg c g (cf_thr c) (cf_forget c) end in
    let f1 := match td_gran d with None => false | Some _ => negb (was =? GRAN_USEC c1) end in
    let c2 := match td_thr d with None => c1 | Some r => set_cfg c1 (cf_gran c1) r (cf_forget c1) end in
    let was2 := cf_forget c2 in
    let c3 := match td_forget d with None => c2 | Some f => set_cfg c2 (cf_gran c2) (cf_thr c2) f end in
    let f2 := match td_forget d with None => f1
              | Some _ => if negb (cf_forget c3 =? 0) && negb (was2 =? cf_forget c3) then true else f1 end in
    if f2 && negb (c_sum c3 =? 0) then forget_sum c3 now else c3
  end.

(* osmo_time_cc_schedule_timer, time_cc.c:195-224.  osmo_timer_schedule(next_event / 1000000, next_event % 1000000)
   arms the timer for now + next_event.  Simplified: it reads the same time. *)
Definition UINT64_MAX : Z := 2 ^ 64 - 1.
Definition schedule_timer (td : option tdefs) (c : tcc) (now : Z) : tcc :=
  let c := update_from_tdef td c now in
  let next1 := if negb (cf_forget c =? 0) && negb (c_flag c) && (c_sum c >? 0)
               then Z.min UINT64_MAX (u64 (c_last c + cf_forget c)) else UINT64_MAX in
  let next2 := if c_flag c then Z.min next1 (u64 (now + u64 (c_rep c - c_sum c) + ROUND_THRESHOLD_USEC c)) else next1 in
  if next2 =? UINT64_MAX then c
  else let d := if next2 <=? now then 0 else next2 - now in set_timer c (Some (now + d)).

(* osmo_time_cc_cleanup, time_cc.c:91-97: all but cfg *)
Definition osmo_time_cc_cleanup (c : tcc) : tcc :=
  mkTcc (cf_gran c) (cf_thr c) (cf_forget c) false 0 None 0 0 0 0 (c_ctr c).

(* osmo_time_cc_start, time_cc.c:99-106 *)
Definition time_cc_start (td : option tdefs) (c : tcc) (now : Z) : tcc :=
  let c := osmo_time_cc_cleanup c in
  let c := set_start c now now in
  schedule_timer td (update_from_tdef td c now) now.

(* osmo_time_cc_count_time, time_cc.c:108-117 *)
Definition count_time (c : tcc) (now : Z) : tcc :=
  let delta := u64 (now - c_last c) in
  if c_flag c then set_sums c (u64 (c_total c + delta)) now (u64 (c_sum c + delta)) (c_rep c) (c_ctr c)
  else set_sums c (c_total c) now (c_sum c) (c_rep c) (c_ctr c).

(* osmo_time_cc_report, time_cc.c:119-144 *)
Definition INT_MAX : Z := 2147483647.
Definition report (c : tcc) : tcc :=
  if c_rep c >? c_sum c then c else
  let delta := u64 (c_sum c - c_rep c) in
  let n := delta / GRAN_USEC c in
  let delta2 := u64 (delta - u64 (n * GRAN_USEC c)) in
  let n := if delta2 >=? ROUND_THRESHOLD_USEC c then n + 1 else n in
  if n =? 0 then c else
  let n := if n >? INT_MAX then INT_MAX else n in
  set_sums c (c_total c) (c_last c) (c_sum c) (u64 (c_rep c + u64 (n * GRAN_USEC c))) (c_ctr c + n).

(* osmo_time_cc_init, time_cc.c:156-159, and the user's settings *)
Definition osmo_time_cc_init (gran thr forget : Z) : tcc := mkTcc gran thr forget false 0 None 0 0 0 0 0.

(* osmo_time_cc_set_flag, time_cc.c:162-175 *)
Definition osmo_time_cc_set_flag (td : option tdefs) (now : Z) (c : tcc) (flag : bool) : tcc :=
  let c := if c_start c =? 0 then time_cc_start td c now else c in
  if eqb flag (c_flag c) then c else
  let c := report (count_time c now) in
  schedule_timer td (set_flagv c flag) now.

(* osmo_time_cc_timer_cb, time_cc.c:177-192, called when the timer has expired and is no longer armed *)
Definition timer_cb (td : option tdefs) (now : Z) (c : tcc) : tcc :=
  let c := set_timer c None in
  let c := update_from_tdef td c now in
  let c :=
    if c_flag c then report (count_time c now)
    else if negb (cf_forget c =? 0) && negb (c_sum c =? 0) && (now >=? u64 (c_last c + cf_forget c)) then forget_sum c now
    else c in
  schedule_timer td c now.
