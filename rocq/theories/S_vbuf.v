(** The VTY output buffer as its users see it: a queue of octets, looked at through buffer_getstr. *)
From Verif Require Import Base M_vbuf.

(** The buffer holds the octets [p]: that is the string it would return (with the final NUL). *)
Definition holds (b : vbuf) (p : list Z) : Prop := buffer_getstr b = Ok (p ++ [0]).

(** What can be done with a buffer; a write also with the kernel's answers to come. *)
Inductive vop :=
  | Put (p : list Z) | Putc (c : Z) | Putstr (c : list Z) | Flush (k : kern) | FlushAll (ks : list kern)
  | Write (p : list Z) (k : kern) | Reset.

(** A run: buffer and errno; the octets accepted (those a reset throws away are taken out again), the octets the kernel took. *)
Record run_st := Run { r_buf : vbuf; r_errno : Z; r_in : list Z; r_out : list Z }.
Definition vstep (s : run_st) (o : vop) : res run_st :=
  match o with
  | Put p => do b <- buffer_put (r_buf s) p ;; Ok (Run b (r_errno s) (r_in s ++ p) (r_out s))
  | Putc c => do b <- buffer_putc (r_buf s) c ;; Ok (Run b (r_errno s) (r_in s ++ [u8 c]) (r_out s))
  | Putstr c => do b <- buffer_putstr (r_buf s) c ;; do t <- c_str c ;; Ok (Run b (r_errno s) (r_in s ++ t) (r_out s))
  | Flush k => do r <- flush_available (r_buf s) (r_errno s) k ;;
               let '(_, b, en, w) := r in Ok (Run b en (r_in s) (r_out s ++ w))
  | FlushAll ks => do r <- flush_all (r_buf s) (r_errno s) ks ;;
                   let '(_, b, en, w) := r in Ok (Run b en (r_in s) (r_out s ++ w))
  | Write p k => do r <- buffer_write (r_buf s) p (r_errno s) k ;;
                 let '(st, b, en, w) := r in
                 Ok (Run b en (r_in s ++ match st with BUFFER_ERROR => [] | _ => p end) (r_out s ++ w))
  | Reset => (* what was taken so far is the start of a new stream *)
             Ok (Run (buffer_reset (r_buf s)) (r_errno s) (r_out s) (r_out s))
  end.
Fixpoint vrun (s : run_st) (os : list vop) : res run_st :=
  match os with [] => Ok s | o :: r => do s1 <- vstep s o ;; vrun s1 r end.
