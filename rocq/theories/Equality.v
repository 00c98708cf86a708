(** * Model of operator== of estimator states: lib/src/estimator_state.cpp:24-42 and the comparisons it is made of.
      Proofs are elsewhere. *)
From Verif Require Export Estimator Mt.
From stdpp Require Import list.
Local Open Scope Z_scope.

(** std::vector::operator== on integers: same size, equal elements *)
Definition vec_eqb (l1 l2 : list Z) : bool := bool_decide (l1 = l2).
(** basic_numeric_matrix.hpp:144-150; the std::variant around it also compares which alternative is held, the width *)
Definition nm_eqb (m1 m2 : nmatrix) : bool :=
  (nm_w m1 =? nm_w m2) && Nat.eqb (nm_rows m1) (nm_rows m2) && Nat.eqb (nm_cols m1) (nm_cols m2) && vec_eqb (nm_data m1) (nm_data m2).
(** basic_bit_matrix.hpp:297-306: m_row_blocks is not compared *)
Definition bm_eqb (m1 m2 : bmatrix) : bool :=
  Nat.eqb (bm_rows m1) (bm_rows m2) && Nat.eqb (bm_cols m1) (bm_cols m2) && bool_decide (bm_data m1 = bm_data m2).
(** tsetlini_params.hpp:23: std::variant::operator==, same alternative and equal values; floats compare by value, so 0.0 == -0.0 and a
    NaN differs from everything; estimator_state.hpp:20 none_type values are equal *)
Definition pv_eqb (v1 v2 : pvalue) : bool :=
  match v1, v2 with
  | PInt a, PInt b | PSeed a, PSeed b => a =? b
  | PReal a, PReal b => SFeqb a b
  | PBool a, PBool b => Bool.eqb a b
  | PNone, PNone => true
  | PStr a, PStr b => (a =? b)%string
  | _, _ => false
  end.
(** std::unordered_map::operator==: same size, and every element of the left one is found in the right one with an equal value *)
Definition params_eqb (p1 p2 : params) : bool :=
  Nat.eqb (size p1) (size p2) &&
  forallb (fun '(k, v) => match p2 !! k with Some v2 => pv_eqb v v2 | None => false end) (map_to_list p1).

Section States.
  Context {P : Type} (pol_eqb : P -> P -> bool) {SS : Type}.
  (** ta_state.hpp:60-66 (TAState), 89-96 (TAStateWithPolarity, where [pol_eqb] is [bm_eqb]) *)
  Definition ta_eqb (s1 s2 : tastate P) : bool :=
    nm_eqb (ta_matrix s1) (ta_matrix s2) && vec_eqb (ta_weights s1) (ta_weights s2) && pol_eqb (ta_pol s1) (ta_pol s2).
  (** estimator_state_cache.cpp:34-40, 61-64 are_equal: sizes only *)
  Definition clf_cache_eqb (c1 c2 : cache SS) : bool :=
    Nat.eqb (length (ca_fb c1)) (length (ca_fb c2)) && Nat.eqb (length (ca_out c1)) (length (ca_out c2))
    && Nat.eqb (length (ca_sum c1)) (length (ca_sum c2)).
  Definition reg_cache_eqb (c1 c2 : cache SS) : bool := Nat.eqb (length (ca_out c1)) (length (ca_out c2)).
  (** estimator_state.cpp:24-42; [o1] and [o2] are the addresses of the two states *)
  Definition est_eqb (cache_eqb : cache SS -> cache SS -> bool) (o1 o2 : Z) (e1 e2 : est P SS irng frng) : bool :=
    if o1 =? o2 then true
    else ta_eqb (e_ta e1) (e_ta e2) && mt_eqb Z.eqb (e_igen e1) (e_igen e2) && mt_eqb SFeqb (e_fgen e1) (e_fgen e2)
         && params_eqb (e_params e1) (e_params e2) && cache_eqb (e_cache e1) (e_cache e2).
  Definition clf_eqb : Z -> Z -> est P SS irng frng -> est P SS irng frng -> bool := est_eqb clf_cache_eqb.
  Definition reg_eqb : Z -> Z -> est P SS irng frng -> est P SS irng frng -> bool := est_eqb reg_cache_eqb.
End States.

(** the two state types *)
Definition unit_eqb (_ _ : unit) : bool := true.
