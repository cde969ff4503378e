(* S_bfc.v - specification of the leaky bucket of BSSGP flow control (TS 48.018 8.2), independent of the model *)
From Verif Require Import Base.

(* octets that leak out between two times (in microseconds): the rate is in octets per second, time counts in
   hundredths of a second *)
Definition leak (rate t1 t2 : Z) : Z := (rate / 100) * ((t2 - t1) / 10000).

(* transmissions: time and length *)
Definition sends := list (Z * Z).
Definition volume (l : sends) : Z := fold_right (fun p a => snd p + a) 0 l.
(* the bucket after them: B' = B + L - (Tc - Tp) * R *)
Fixpoint level (rate b t : Z) (l : sends) : Z * Z :=
  match l with
  | [] => (b, t)
  | (t1, n) :: l' => level rate (b - leak rate t t1 + n) t1 l'
  end.
(* the bucket has not run empty at any of them *)
Fixpoint never_empty (rate b t : Z) (l : sends) : Prop :=
  match l with
  | [] => True
  | (t1, n) :: l' => 0 <= b - leak rate t t1 /\ never_empty rate (b - leak rate t t1 + n) t1 l'
  end.

(* a PDU: which one, and its LLC PDU length *)
Definition pdu : Type := Z * Z.
(* the calls *)
Inductive fev := FIn (now : Z) (p : pdu) | FTick (now : Z) | FLimits (now size rate : Z).
(* what became of each PDU: passed on at once, put into the queue, refused; and taken out of the queue and passed on *)
Inductive fate := Passed (t : Z) (p : pdu) | Queued (p : pdu) | Refused (p : pdu) (rc : Z) | Dequeued (t : Z) (p : pdu).
Definition queued (l : list fate) : list pdu := flat_map (fun x => match x with Queued p => [p] | _ => [] end) l.
Definition dequeued (l : list fate) : list pdu := flat_map (fun x => match x with Dequeued _ p => [p] | _ => [] end) l.
Definition passed (l : list fate) : list pdu := flat_map (fun x => match x with Passed _ p => [p] | _ => [] end) l.
Definition refused (l : list fate) : list (pdu * Z) := flat_map (fun x => match x with Refused p rc => [(p, rc)] | _ => [] end) l.
Definition sent (l : list fate) : list (Z * pdu) := flat_map (fun x => match x with Passed t p | Dequeued t p => [(t, p)] | _ => [] end) l.
Definition offered (es : list fev) : list pdu := flat_map (fun e => match e with FIn _ p => [p] | _ => [] end) es.
