(* S_plmn.v - specification vocabulary for C27 *)
From Verif Require Import Base Str S_num M_plmn.

(* TS 24.008 figure 10.5.3: digits of the PLMN in three octets; third MNC digit 15 if the MNC has two digits *)
Definition plmn_octets (c1 c2 c3 n1 n2 n3 : Z) : list Z := [c1 + 16 * c2; c3 + 16 * n3; n1 + 16 * n2].

(* lexicographic comparison of two number lists of the same length *)
Fixpoint lex (a b : list Z) : Z :=
  match a, b with
  | x :: a', y :: b' => if x <? y then -1 else if y <? x then 1 else lex a' b'
  | _, _ => 0
  end.

(* what an identity denotes: MCC, MNC value, whether the MNC has three digits (only a choice below 100) *)
Definition plmn_key (p : plmn) : list Z := [mcc p; mnc p; if (mnc p <? 100) && mnc3 p then 1 else 0].
Definition lai_key (l : lai) : list Z := plmn_key (lai_plmn l) ++ [lac l].
Definition rai_key (r : rai) : list Z := lai_key (rai_lac r) ++ [rac r].
Definition cgi_key (c : cgi) : list Z := lai_key (cgi_lai c) ++ [cell_identity c].
Definition cgi_ps_key (c : cgi_ps) : list Z := rai_key (cgi_ps_rai c) ++ [ps_cell_identity c].
Definition rnc_key (r : rnc) : list Z := plmn_key (rnc_plmn r) ++ [rnc_id r].
Definition mme_key (m : mme_id) : list Z := [group_id m; mme_code m].
Definition gummei_key (g : gummei) : list Z := plmn_key (gummei_plmn g) ++ mme_key (gummei_mme g).

(* a comparison function that is a total order, and 0 exactly for the same key *)
Definition total_order {A} (cmp : A -> A -> Z) (key : A -> list Z) : Prop :=
  (forall a b, cmp a b = lex (key a) (key b)) /\
  (forall a b, cmp a b = -1 \/ cmp a b = 0 \/ cmp a b = 1) /\
  (forall a b, cmp b a = - cmp a b) /\
  (forall a b c, cmp a b <= 0 -> cmp b c <= 0 -> cmp a c <= 0) /\
  (forall a b, cmp a b = 0 <-> key a = key b).

(* values of the structure members *)
Definition u16v (x : Z) : Prop := 0 <= x < 65536.
Definition wf_plmn (p : plmn) : Prop := u16v (mcc p) /\ u16v (mnc p).
Definition wf_lai (l : lai) : Prop := wf_plmn (lai_plmn l) /\ u16v (lac l).
Definition wf_rai (r : rai) : Prop := wf_lai (rai_lac r) /\ 0 <= rac r < 256.
Definition wf_cgi (c : cgi) : Prop := wf_lai (cgi_lai c) /\ u16v (cell_identity c).
Definition wf_cgi_ps (c : cgi_ps) : Prop := wf_rai (cgi_ps_rai c) /\ u16v (ps_cell_identity c).
Definition wf_rnc (r : rnc) : Prop := wf_plmn (rnc_plmn r) /\ u16v (rnc_id r).
Definition wf_gummei (g : gummei) : Prop := wf_plmn (gummei_plmn g) /\ u16v (group_id (gummei_mme g)) /\ 0 <= mme_code (gummei_mme g) < 256.

(* the text names the identity: no two identities that compare different print the same, and it fits in size octets with its NUL *)
Definition names {A} (wf : A -> Prop) (name : A -> list Z) (key : A -> list Z) (size : Z) : Prop :=
  (forall a, wf a -> zlen (name a) < size) /\ (forall a b, wf a -> wf b -> (name a = name b <-> key a = key b)).
