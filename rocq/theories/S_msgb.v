(* S_msgb.v - specification of a message buffer as a bounded byte deque.
   Independent of the model: a deque is headroom, content, tailroom. *)
From Verif Require Import Base.

Record deque := Deque { hroom : Z; content : list Z; troom : Z }.

(* user level operations.  Put/Push: extend at the end/front and fill with the given bytes.
   PutU/PushU/GetU/PullU w: the fixed-size integer forms, w octets, big endian. *)
Inductive op :=
| OPut (s : list Z) | OPush (s : list Z) | OGet (n : Z) | OPull (n : Z)
| OPutU (w x : Z) | OPushU (w x : Z) | OGetU (w : Z) | OPullU (w : Z).

Definition is_width (w : Z) : Prop := w = 1 \/ w = 2 \/ w = 4.

(* arguments a C caller can pass, with lengths below 2^31 for put/push *)
Definition op_ok (o : op) : Prop :=
  match o with
  | OPut s | OPush s => bytes s /\ zlen s < 2147483648
  | OGet n | OPull n => 0 <= n < 4294967296
  | OPutU w _ | OPushU w _ | OGetU w | OPullU w => is_width w
  end.

Definition d_put (d : deque) (s : list Z) : option deque :=
  if zlen s <=? troom d then Some (Deque (hroom d) (content d ++ s) (troom d - zlen s)) else None.
Definition d_push (d : deque) (s : list Z) : option deque :=
  if zlen s <=? hroom d then Some (Deque (hroom d - zlen s) (s ++ content d) (troom d)) else None.
Definition d_get (d : deque) (n : Z) : option (deque * list Z) :=
  if n <=? zlen (content d) then
    let k := Z.to_nat (zlen (content d) - n) in
    Some (Deque (hroom d) (firstn k (content d)) (troom d + n), skipn k (content d))
  else None.
Definition d_pull (d : deque) (n : Z) : option (deque * list Z) :=
  if n <=? zlen (content d) then
    let k := Z.to_nat n in
    Some (Deque (hroom d + n) (skipn k (content d)) (troom d), firstn k (content d))
  else None.

(* one step; None = panic.  The second component is what the caller reads back:
   the removed bytes, or the big-endian integer they form. *)
Definition d_step (d : deque) (o : op) : option (deque * list Z) :=
  match o with
  | OPut s => match d_put d s with Some d' => Some (d', []) | None => None end
  | OPush s => match d_push d s with Some d' => Some (d', []) | None => None end
  | OPutU w x => match d_put d (be_bytes (Z.to_nat w) x) with Some d' => Some (d', []) | None => None end
  | OPushU w x => match d_push d (be_bytes (Z.to_nat w) x) with Some d' => Some (d', []) | None => None end
  | OGet n => d_get d n
  | OPull n => d_pull d n
  | OGetU w => match d_get d w with Some (d', l) => Some (d', [be_val l]) | None => None end
  | OPullU w => match d_pull d w with Some (d', l) => Some (d', [be_val l]) | None => None end
  end.

Fixpoint d_run (d : deque) (ops : list op) : option (deque * list (list Z)) :=
  match ops with
  | [] => Some (d, [])
  | o :: t =>
    match d_step d o with
    | None => None
    | Some (d', out) =>
      match d_run d' t with
      | None => None
      | Some (d'', outs) => Some (d'', out :: outs)
      end
    end
  end.
