(** * Property theorems about the containers as objects (C66).
    Reading guide.  [tsetlini_container K] : K is the numeric matrix (of elements of any width), the bit matrix or the bit vector.  A
    program [cs] is any sequence of declarations (also by copying and moving), assignments, calls of member functions, comparisons and
    destructions of named containers.  [vexecs K alloc vworld0 cs] runs it on memory, with blocks placed by [alloc] at any unused
    address; [vrun K ∅ cs] (ValueSpec.v) runs it on values: each variable holds dimensions and elements of its own.  [shows w x] : what
    variable x shows, its dimensions and elements; None when it is not in scope. *)
From Verif Require Import Base Containers ContainersFacts Values ValueSpec ValueProps MemberFacts Rng Env CoinTosser Algo Estimator Reach EstPredict Toy ToyFacts.
From stdpp Require Import gmap stringmap list.
Local Open Scope nat_scope.

(** C66: every program has the results it has on values, does not touch freed memory, and never leaks: each block of memory in use
    belongs to exactly one variable in scope. *)
Theorem C66_containers_are_values : forall H C Args Op Res (K : container H C Args Op Res), tsetlini_container K ->
  forall alloc, (forall h, h !! alloc h = None) -> forall cs,
  match vexecs K alloc vworld0 cs, vrun K ∅ cs with
  | Ret (rs, w), Ret (rs', v) => rs = rs' /\ (forall x, shows w x = v !! x) /\
      (forall a, is_Some (vw_heap w !! a) -> exists x h n, vw_vars w !! x = Some (h, Vec (Some a) n) /\ forall y h' n', vw_vars w !! y = Some (h', Vec (Some a) n') -> y = x) /\
      (forall x h a n, vw_vars w !! x = Some (h, Vec (Some a) n) -> is_Some (vw_heap w !! a))
  | Throw a, Throw b => a = b
  | UB a, UB b => a = b
  | OutOfFuel, OutOfFuel => True
  | _, _ => False
  end.
Proof. intros H C Args Op Res K HK alloc Ha. exact (programs_are_values K (tsetlini_length K HK) alloc Ha). Qed.
Print Assumptions C66_containers_are_values.
(** When all variables are out of scope, all memory is free. *)
Theorem C66_all_memory_freed : forall H C Args Op Res (K : container H C Args Op Res), tsetlini_container K ->
  forall alloc, (forall h, h !! alloc h = None) -> forall cs rs w, vexecs K alloc vworld0 cs = Ret (rs, w) -> (forall x, shows w x = None) -> vw_heap w = ∅.
Proof. intros H C Args Op Res K HK alloc Ha. exact (all_free K (tsetlini_length K HK) alloc Ha). Qed.
Print Assumptions C66_all_memory_freed.
(** A copy, made by construction or assignment, shows what the original shows ... *)
Theorem C66_copy : forall H C Args Op Res (K : container H C Args Op Res), tsetlini_container K ->
  forall alloc, (forall h, h !! alloc h = None) -> forall cs rs w x y a, vexecs K alloc vworld0 cs = Ret (rs, w) -> shows w y = Some a ->
  (shows w x = None -> exists w', vexecs K alloc vworld0 (cs ++ [VCopy x y]) = Ret (rs ++ [VNone], w') /\ shows w' x = Some a /\ shows w' y = Some a) /\
  (forall b, shows w x = Some b -> exists w', vexecs K alloc vworld0 (cs ++ [VAssign x y]) = Ret (rs ++ [VNone], w') /\ shows w' x = Some a /\ shows w' y = Some a).
Proof. exact ValueProps.copies. Qed.
Print Assumptions C66_copy.
(** ... and nothing done to other variables afterwards, in particular to the original, changes what it shows. *)
Theorem C66_independent : forall H C Args Op Res (K : container H C Args Op Res), tsetlini_container K ->
  forall alloc, (forall h, h !! alloc h = None) -> forall cs rs w cs' rs' w' x,
  vexecs K alloc vworld0 cs = Ret (rs, w) -> vexecs K alloc vworld0 (cs ++ cs') = Ret (rs', w') -> Forall (fun c => ~ changes c x) cs' -> shows w' x = shows w x.
Proof. intros H C Args Op Res K HK alloc Ha. exact (independent K (tsetlini_length K HK) alloc Ha). Qed.
Print Assumptions C66_independent.
(** What a member function returns, and how it changes its container, depends on what the container shows only. *)
Theorem C66_members : forall H C Args Op Res (K : container H C Args Op Res), tsetlini_container K ->
  forall alloc, (forall h, h !! alloc h = None) -> forall cs rs w x a o, vexecs K alloc vworld0 cs = Ret (rs, w) -> shows w x = Some a ->
  match member K a.1 a.2 o with
  | Ret (r, d) => exists w', vexecs K alloc vworld0 (cs ++ [VDo x o]) = Ret (rs ++ [VRes r], w') /\ shows w' x = Some (a.1, d)
  | Throw e => vexecs K alloc vworld0 (cs ++ [VDo x o]) = Throw e
  | UB k => vexecs K alloc vworld0 (cs ++ [VDo x o]) = UB k
  | OutOfFuel => vexecs K alloc vworld0 (cs ++ [VDo x o]) = OutOfFuel
  end.
Proof. intros H C Args Op Res K HK alloc Ha. exact (did K (tsetlini_length K HK) alloc Ha). Qed.
Print Assumptions C66_members.
(** Moving hands over what the source shows ... *)
Theorem C66_move : forall H C Args Op Res (K : container H C Args Op Res), tsetlini_container K ->
  forall alloc, (forall h, h !! alloc h = None) -> forall cs rs w x y a, vexecs K alloc vworld0 cs = Ret (rs, w) -> shows w y = Some a ->
  (shows w x = None -> exists w', vexecs K alloc vworld0 (cs ++ [VMove x y]) = Ret (rs ++ [VNone], w') /\ shows w' x = Some a) /\
  (forall b, shows w x = Some b -> x <> y -> exists w', vexecs K alloc vworld0 (cs ++ [VMoveAssign x y]) = Ret (rs ++ [VNone], w') /\ shows w' x = Some a).
Proof. exact ValueProps.moves. Qed.
Print Assumptions C66_move.
(** ... and leaves a numeric matrix or bit matrix as source with 0 rows, 0 columns and no elements, equal to a default-constructed one. *)
Theorem C66_moved_from_numeric : forall bits alloc, (forall h, h !! alloc h = None) -> let K := nm_container bits in
  forall cs rs w x y a c, vexecs K alloc vworld0 cs = Ret (rs, w) -> shows w y = Some a ->
  (c = VMove x y /\ shows w x = None \/ c = VMoveAssign x y /\ shows w x <> None) ->
  exists w', vexecs K alloc vworld0 (cs ++ [c]) = Ret (rs ++ [VNone], w') /\ shows w' y = Some ((0, 0), []) /\
    forall b, b = make K None -> equal K ((0, 0), []) b = true.
Proof. exact moved_from_numeric. Qed.
Print Assumptions C66_moved_from_numeric.
Theorem C66_moved_from_bits : forall W alloc, (forall h, h !! alloc h = None) -> let K := bm_container W in
  forall cs rs w x y a c, vexecs K alloc vworld0 cs = Ret (rs, w) -> shows w y = Some a ->
  (c = VMove x y /\ shows w x = None \/ c = VMoveAssign x y /\ shows w x <> None) ->
  exists w' k, vexecs K alloc vworld0 (cs ++ [c]) = Ret (rs ++ [VNone], w') /\ shows w' y = Some ((0, 0, k), []) /\
    forall b, b = make K None -> equal K ((0, 0, k), []) b = true.
Proof. exact moved_from_bits. Qed.
Print Assumptions C66_moved_from_bits.
(** std::swap exchanges what two containers show. *)
Theorem C66_swap : forall H C Args Op Res (K : container H C Args Op Res), tsetlini_container K ->
  forall alloc, (forall h, h !! alloc h = None) -> forall cs rs w t x y a b, vexecs K alloc vworld0 cs = Ret (rs, w) -> shows w t = None -> x <> y ->
  shows w x = Some a -> shows w y = Some b ->
  exists w', vexecs K alloc vworld0 (cs ++ [VMove t x; VMoveAssign x y; VMoveAssign y t; VDestroy t]) = Ret (rs ++ [VNone; VNone; VNone; VNone], w') /\
    shows w' x = Some b /\ shows w' y = Some a /\ forall z, z <> x -> z <> y -> shows w' z = shows w z.
Proof. intros H C Args Op Res K HK alloc Ha. exact (swapped K (tsetlini_length K HK) alloc Ha). Qed.
Print Assumptions C66_swap.
(** (defect) Moving a container onto itself loses its elements. *)
Theorem C66_self_move_refuted : forall H C Args Op Res (K : container H C Args Op Res), tsetlini_container K ->
  forall alloc, (forall h, h !! alloc h = None) -> forall cs rs w x h d, vexecs K alloc vworld0 cs = Ret (rs, w) -> shows w x = Some (h, d) ->
  exists w' h', vexecs K alloc vworld0 (cs ++ [VMoveAssign x x]) = Ret (rs ++ [VNone], w') /\ shows w' x = Some (h', []).
Proof. exact ValueProps.self_move. Qed.
Print Assumptions C66_self_move_refuted.
(** (defect) A bit vector moved from keeps its size but has no storage: reading or writing any of its bits is out of bounds. *)
Theorem C66_moved_from_bit_vector_refuted : forall W alloc, (forall h, h !! alloc h = None) -> let K := bv_container W in
  forall cs rs w x y n d i, vexecs K alloc vworld0 cs = Ret (rs, w) -> shows w x = None -> shows w y = Some (n, d) ->
  exists w', vexecs K alloc vworld0 (cs ++ [VMove x y; VDo y VSize]) = Ret (rs ++ [VNone; VRes (VRSize n)], w') /\
    forall o, o ∈ [VTest i; VSet i; VClear i; VFlip i; VPut i true; VPut i false; VXor i true; VXor i false] ->
      vexecs K alloc vworld0 (cs ++ [VMove x y; VDo y o]) = UB OutOfBounds.
Proof. exact moved_from_bit_vector. Qed.
Print Assumptions C66_moved_from_bit_vector_refuted.

(** (defect) Validating such a vector as input of a bitwise estimator is undefined as well: the check of the padding shifts by 64 bits or more. *)
Theorem C66_moved_from_input_refuted : forall n, 1 <= n -> bitwise_pad (BV n []) = UB BadShift.
Proof. exact moved_from_input. Qed.
Print Assumptions C66_moved_from_input_refuted.

(** A value of a container of a given size, however it was obtained from the constructor by calls of member functions with positions inside
    ([value_of], MemberFacts.v), is a table: reading gives the table's entry, and writing changes that entry only. A new container is all zero. *)
Theorem C66_numeric_members w rows cols h d : nm_fits w rows cols -> value_of (nm_container w) (nm_inside rows cols) (Some (rows, cols)) h d ->
  exists cell : nat -> nat -> Z,
    member (nm_container w) h d NShape = Ret (NRShape rows cols, d) /\
    (forall r c, r < rows -> c < cols -> member (nm_container w) h d (NGet r c) = Ret (NRValue (cell r c), d)) /\
    forall r c v, r < rows -> c < cols -> exists d', member (nm_container w) h d (NPut r c v) = Ret (NRDone, d') /\
      forall r' c', r' < rows -> c' < cols -> member (nm_container w) h d' (NGet r' c') =
        Ret (NRValue (if Nat.eqb r' r && Nat.eqb c' c then wrap_s w v else cell r' c'), d').
Proof. exact (nm_members w rows cols h d). Qed.
Print Assumptions C66_numeric_members.
Theorem C66_new_numeric w rows cols h d : nm_fits w rows cols -> make (nm_container w) (Some (rows, cols)) = (h, d) ->
  forall r c, r < rows -> c < cols -> member (nm_container w) h d (NGet r c) = Ret (NRValue 0, d).
Proof. exact (nm_made w rows cols h d). Qed.
Print Assumptions C66_new_numeric.
Theorem C66_bit_matrix_members W rows cols h d : bm_fits W rows cols -> value_of (bm_container W) (bm_inside rows cols) (Some (rows, cols)) h d ->
  exists cell : nat -> nat -> bool,
    member (bm_container W) h d BShape = Ret (BRShape rows cols, d) /\
    (forall r c, r < rows -> c < cols -> member (bm_container W) h d (BTest r c) = Ret (BRBit (cell r c), d)) /\
    forall r c o new, r < rows -> c < cols -> (o = BSet r c /\ new = true \/ o = BClear r c /\ new = false \/ o = BFlip r c /\ new = negb (cell r c)) ->
      exists d', member (bm_container W) h d o = Ret (BRDone, d') /\
        forall r' c', r' < rows -> c' < cols -> member (bm_container W) h d' (BTest r' c') =
          Ret (BRBit (if Nat.eqb r' r && Nat.eqb c' c then new else cell r' c'), d').
Proof. exact (bm_members W rows cols h d). Qed.
Print Assumptions C66_bit_matrix_members.
Theorem C66_new_bit_matrix W rows cols h d : bm_fits W rows cols -> make (bm_container W) (Some (rows, cols)) = (h, d) ->
  forall r c, r < rows -> c < cols -> member (bm_container W) h d (BTest r c) = Ret (BRBit false, d).
Proof. exact (bm_made W rows cols h d). Qed.
Print Assumptions C66_new_bit_matrix.
Theorem C66_bit_vector_members W n h d : 0 < W -> value_of (bv_container W) (bv_inside n) (Some n) h d ->
  exists bit : nat -> bool,
    member (bv_container W) h d VSize = Ret (VRSize n, d) /\
    (forall i, i < n -> member (bv_container W) h d (VTest i) = Ret (VRBit (bit i), d)) /\
    forall i o new, i < n ->
      (o = VSet i /\ new = true \/ o = VClear i /\ new = false \/ o = VFlip i /\ new = negb (bit i) \/ o = VPut i new \/
       exists b, o = VXor i b /\ new = xorb b (bit i)) ->
      exists d', member (bv_container W) h d o = Ret (VRDone, d') /\
        forall q, q < n -> member (bv_container W) h d' (VTest q) = Ret (VRBit (if Nat.eqb q i then new else bit q), d').
Proof. exact (bv_members W n h d). Qed.
Print Assumptions C66_bit_vector_members.
Theorem C66_new_bit_vector W n h d : 0 < W -> make (bv_container W) (Some n) = (h, d) ->
  forall i, i < n -> member (bv_container W) h d (VTest i) = Ret (VRBit false, d).
Proof. exact (bv_made W n h d). Qed.
Print Assumptions C66_new_bit_vector.

(** concrete values: a 2 by 3 matrix of 8-bit integers, a 3 by 70 bit matrix, a vector of 70 bits, each written to once *)
Example C66_example_members :
  (nm_fits 8 2 3 /\ exists h d, value_of (nm_container 8) (nm_inside 2 3) (Some (2, 3)) h d /\ member (nm_container 8) h d (NGet 1 2) = Ret (NRValue (-6), d)) /\
  (bm_fits 64 3 70 /\ exists h d, value_of (bm_container 64) (bm_inside 3 70) (Some (3, 70)) h d /\ member (bm_container 64) h d (BTest 2 69) = Ret (BRBit true, d)) /\
  exists h d, value_of (bv_container 64) (bv_inside 70) (Some 70) h d /\ member (bv_container 64) h d (VTest 69) = Ret (VRBit true, d).
Proof.
  split; [|split].
  - split; [unfold nm_fits; repeat split; try lia; vm_compute; done|]. eexists _, _. split; [eapply (value_changed _ _ _ _ _ (NPut 1 2 250)); [by apply value_made|cbn; lia|vm_compute; done]|vm_compute; done].
  - split; [unfold bm_fits; repeat split; try lia; vm_compute; done|]. eexists _, _. split; [eapply (value_changed _ _ _ _ _ (BFlip 2 69)); [by apply value_made|cbn; lia|vm_compute; done]|vm_compute; done].
  - eexists _, _. split; [eapply (value_changed _ _ _ _ _ (VXor 69 true)); [by apply value_made|cbn; lia|vm_compute; done]|vm_compute; done].
Qed.
(** a program with copies, moves and writes; 9 is written to the copy only *)
Definition ex_alloc (h : gmap Z (list Z)) : Z := fresh (dom h : gset Z).
Example C66_example_alloc : forall h, h !! ex_alloc h = None.
Proof. intros h. apply (not_elem_of_dom (D := gset Z)). unfold ex_alloc. apply is_fresh. Qed.
Example C66_example : match vexecs (nm_container 32) ex_alloc vworld0
  [VMake "m" (Some (2, 3)); VDo "m" (NPut 1 2 7); VCopy "c" "m"; VDo "c" (NPut 1 2 9); VDo "m" (NGet 1 2); VDo "c" (NGet 1 2); VEqual "m" "c";
   VMove "n" "m"; VDo "n" (NGet 1 2); VDo "m" NShape; VAssign "c" "n"; VEqual "n" "c"; VMoveAssign "n" "n"; VDo "n" NShape; VDo "c" (NGet 1 2);
   VDestroy "m"; VDestroy "n"; VDestroy "c"] with Ret (rs, w) => rs = [VNone; VRes NRDone; VNone; VRes NRDone; VRes (NRValue 7); VRes (NRValue 9); VBool false;
   VNone; VRes (NRValue 7); VRes (NRShape 0 0); VNone; VBool true; VNone; VRes (NRShape 0 0); VRes (NRValue 7); VNone; VNone; VNone] /\ map_to_list (vw_heap w) = [] | _ => False end.
Proof. vm_compute. done. Qed.
(** prediction from a moved-from vector of the right size is undefined behaviour *)
Example C66_example_predict : match clf_run toy_sch (Algo.bitwise toy) (construct toy_sch (Algo.bitwise toy) toy_clf_params)
  [CFit (Algo.bitwise toy) toy_B toy_y 0 1; CPredict1 (Algo.bitwise toy) (BV 3 [])] with UB k => k = BadShift | _ => False end.
Proof. vm_compute. done. Qed.
