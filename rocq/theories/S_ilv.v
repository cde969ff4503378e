(* S_ilv.v - a transmitter that sends a sequence of speech/data frames with diagonal interleaving, and a receiver. *)
From Verif Require Import Base M_ilv.

(* one frame: contents, stealing flag, previous contents of the caller's scratch array *)
Record frame := mkframe { f_bits : list Z; f_flag : Z; f_scratch : list Z }.

(* encode one frame into the transmitted bits, starting at offset off; enc off is the code of the encoder *)
Definition tx (enc : Z -> prog) (air : list Z) (off : Z) (f : frame) : res (list Z) :=
  do e <- exec [f_bits f; f_scratch f; air; [f_flag f]] (enc off) ;; Ok (nth 2 e []).
(* encode all frames, each one "step" after the one before: the frames overlap in the transmitted bits *)
Fixpoint tx_all (enc : Z -> prog) (step : Z) (air : list Z) (off : Z) (fs : list frame) : res (list Z) :=
  match fs with
  | [] => Ok air
  | f :: r => do a <- tx enc air off f ;; tx_all enc step a (off + step) r
  end.
(* decode the frame at offset off into out; also the stealing flag seen last *)
Definition rx (dec : Z -> prog) (air out scratch : list Z) (flag off : Z) : res (list Z * list Z) :=
  do e <- exec [air; scratch; out; [flag]] (dec off) ;; Ok (nth 2 e [], nth 3 e []).
