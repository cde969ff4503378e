(* S_use.v - specification: a table from (non-NULL) tokens to integers *)
From Verif Require Import Base M_use.

Definition table := list Z -> Z.
Definition fits (x : Z) : Prop := -2147483648 <= x <= 2147483647.
(* f' is f with s mapped to v *)
Definition updated (f f' : table) (s : list Z) (v : Z) : Prop := f' s = v /\ forall x, x <> s -> f' x = f x.
Definition same (f f' : table) : Prop := forall x, f' x = f x.

(* one call: table before, call, result, table after *)
Inductive sp (f : table) : uop -> Z -> table -> Prop :=
| sp_zero a cb s f' : same f f' -> sp f (UGet a cb (Some s) 0) 0 f'
| sp_get a cb s c f' : c <> 0 -> fits (f s + c) -> updated f f' s (f s + c) ->
    sp f (UGet a cb (Some s) c) (match cb with Some x => x | None => 0 end) f'
| sp_range a cb s c f' : ~ fits (f s + c) -> same f f' -> sp f (UGet a cb (Some s) c) (- ERANGE) f'
| sp_nomem cb s c f' : c <> 0 -> f s = 0 -> same f f' -> sp f (UGet false cb (Some s) c) (- ENOMEM) f'
| sp_free s f' : updated f f' s 0 -> sp f (UFree (Some s)) 0 f'
| sp_static n f' : same f f' -> sp f (UStatic n) 0 f'.

Inductive sp_run : table -> list uop -> list Z -> table -> Prop :=
| spr_nil f f' : same f f' -> sp_run f [] [] f'
| spr_cons f o r f1 os rs f2 : sp f o r f1 -> sp_run f1 os rs f2 -> sp_run f (o :: os) (r :: rs) f2.

(* amounts other than INT32_MIN, non-NULL tokens *)
Definition op_ok (o : uop) : Prop :=
  match o with
  | UGet _ _ (Some s) c => -2147483648 < c <= 2147483647
  | UGet _ _ None _ | UFree None => False
  | _ => True
  end.
