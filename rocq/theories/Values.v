(** * Model of the containers as objects in memory: construction, copying, moving, assignment and destruction of
      basic_numeric_matrix.hpp:31-81, basic_bit_matrix.hpp:112-188, basic_bit_vector.hpp:31-48 (whose copy and move operations are the
      implicit ones), with std::vector as implemented by libstdc++ (bits/stl_vector.h, bits/vector.tcc) over aligned_allocator.hpp.

    A container object is a header (its dimensions) and a std::vector; the vector owns a block of the heap, or none.  The capacity of
    a vector is the length of its block.  Allocation does not fail.  Proofs are elsewhere. *)
From Verif Require Export Containers Equality.
From stdpp Require Import gmap stringmap.
Local Open Scope nat_scope.

(** the three pointers of a std::vector: start of the block and number of elements *)
Record cvec := Vec { v_start : option Z; v_size : nat }.
(** std::vector() *)
Definition vec0 : cvec := Vec None 0.

Section Values.
  (** [H] header; [C] elements; [Args] arguments of the constructors; [Op], [Res] the member functions that read and write elements *)
  Context {H C Args Op Res : Type}.
  Record container := Container {
    make : Args -> H * list C;                             (* the constructors *)
    member : H -> list C -> Op -> outcome (Res * list C);  (* the member functions; they do not change the header *)
    moved_by_ctor : H -> H;                                (* header of rhs after container(container && rhs) *)
    moved_by_assign : H -> H;                              (* header of rhs after operator=(container && rhs) *)
    equal : H * list C -> H * list C -> bool               (* operator== *) }.
  Context (K : container).

  Inductive vcmd :=
  | VMake (x : string) (a : Args)        (* T x(...); *)
  | VCopy (x y : string)                 (* T x(y); *)
  | VMove (x y : string)                 (* T x(std::move(y)); *)
  | VAssign (x y : string)               (* x = y; *)
  | VMoveAssign (x y : string)           (* x = std::move(y); *)
  | VDo (x : string) (o : Op)            (* x.member(...); *)
  | VEqual (x y : string)                (* x == y *)
  | VDestroy (x : string).               (* x goes out of scope *)
  Inductive vres := VNone | VRes (r : Res) | VBool (b : bool).

  (** the variables in scope, and the blocks allocated *)
  Record vworld := VWorld { vw_vars : stringmap (H * cvec); vw_heap : gmap Z (list C) }.
  Definition vworld0 : vworld := VWorld ∅ ∅.
  (** where the next block is put *)
  Context (alloc : gmap Z (list C) -> Z).

  (** a variable that is not in scope (or declared twice) is not a C++ program *)
  Definition var (w : vworld) (x : string) : outcome (H * cvec) := match vw_vars w !! x with Some o => Ret o | None => UB EmptyDeref end.
  Definition undeclared (w : vworld) (x : string) : outcome unit := match vw_vars w !! x with Some _ => UB EmptyDeref | None => Ret tt end.
  (** the block of a vector, with all of its capacity; a freed block is undefined behaviour *)
  Definition vblock (w : vworld) (q : cvec) : outcome (list C) :=
    match v_start q with None => Ret [] | Some a => match vw_heap w !! a with Some b => Ret b | None => UB OutOfBounds end end.
  (** the elements: reading beyond the block is undefined behaviour *)
  Definition velements (w : vworld) (q : cvec) : outcome (list C) :=
    let* b := vblock w q in if decide (v_size q <= length b) then Ret (take (v_size q) b) else UB OutOfBounds.
  (** vector(n elements): nothing is allocated for no elements *)
  Definition new_vec (h : gmap Z (list C)) (d : list C) : cvec * gmap Z (list C) :=
    if decide (length d = 0) then (vec0, h) else let a := alloc h in (Vec (Some a) (length d), <[a := d]> h).
  (** deallocation, aligned_allocator.hpp:135-138; freeing a freed block is undefined behaviour *)
  Definition free_vec (h : gmap Z (list C)) (q : cvec) : outcome (gmap Z (list C)) :=
    match v_start q with None => Ret h | Some a => match h !! a with Some _ => Ret (delete a h) | None => UB OutOfBounds end end.
  (** vector& operator=(vector const &), bits/vector.tcc: the block is kept if it is large enough *)
  Definition copy_assign (w : vworld) (x y : cvec) : outcome (cvec * gmap Z (list C)) :=
    let* d := velements w y in
    let* b := vblock w x in
    if decide (length b < length d) then
      let '(q, h) := new_vec (vw_heap w) d in
      let* h := free_vec h x in Ret (q, h)
    else match v_start x with
         | None => Ret (Vec None (length d), vw_heap w)
         | Some a => Ret (Vec (Some a) (length d), <[a := d ++ drop (length d) b]> (vw_heap w))
         end.

  Definition vexec (w : vworld) (c : vcmd) : outcome (vres * vworld) :=
    match c with
    | VMake x a =>
        let* _ := undeclared w x in
        let '(h, d) := make K a in
        let '(q, hp) := new_vec (vw_heap w) d in Ret (VNone, VWorld (<[x := (h, q)]> (vw_vars w)) hp)
    | VCopy x y =>
        (* basic_numeric_matrix.hpp:54-59, basic_bit_matrix.hpp:142-148 *)
        let* _ := undeclared w x in
        let* '(h, q) := var w y in
        let* d := velements w q in
        let '(q, hp) := new_vec (vw_heap w) d in Ret (VNone, VWorld (<[x := (h, q)]> (vw_vars w)) hp)
    | VMove x y =>
        (* basic_numeric_matrix.hpp:45-52, basic_bit_matrix.hpp:130-139: the vector of y takes the block of x; y's vector is empty *)
        let* _ := undeclared w x in
        let* '(h, q) := var w y in
        Ret (VNone, VWorld (<[x := (h, q)]> (<[y := (moved_by_ctor K h, vec0)]> (vw_vars w))) (vw_heap w))
    | VAssign x y =>
        (* basic_numeric_matrix.hpp:74-81, basic_bit_matrix.hpp:168-176; std::vector does nothing when assigned to itself *)
        let* '(hx, qx) := var w x in
        let* '(hy, qy) := var w y in
        if decide (x = y) then Ret (VNone, w)
        else let* '(q, hp) := copy_assign w qx qy in Ret (VNone, VWorld (<[x := (hy, q)]> (vw_vars w)) hp)
    | VMoveAssign x y =>
        (* basic_numeric_matrix.hpp:61-71, basic_bit_matrix.hpp:151-165: the header of x is set before that of y is cleared.
           vector& operator=(vector &&), bits/stl_vector.h _M_move_assign(true_type): the old block of x is freed, also when x is y *)
        let* '(hx, qx) := var w x in
        let* '(hy, qy) := var w y in
        let* hp := free_vec (vw_heap w) qx in
        Ret (VNone, VWorld (if decide (x = y) then <[x := (moved_by_assign K hx, vec0)]> (vw_vars w)
                            else <[x := (hy, qy)]> (<[y := (moved_by_assign K hy, vec0)]> (vw_vars w))) hp)
    | VDo x o =>
        let* '(h, q) := var w x in
        let* d := velements w q in
        let* '(r, d') := member K h d o in
        match v_start q with
        | None => Ret (VRes r, w)
        | Some a => let* b := vblock w q in Ret (VRes r, VWorld (vw_vars w) (<[a := d' ++ drop (v_size q) b]> (vw_heap w)))
        end
    | VEqual x y =>
        let* '(hx, qx) := var w x in
        let* dx := velements w qx in
        let* '(hy, qy) := var w y in
        let* dy := velements w qy in
        Ret (VBool (equal K (hx, dx) (hy, dy)), w)
    | VDestroy x =>
        let* '(_, q) := var w x in
        let* hp := free_vec (vw_heap w) q in Ret (VNone, VWorld (delete x (vw_vars w)) hp)
    end.
  Definition vexecs (w : vworld) (cs : list vcmd) : outcome (list vres * vworld) :=
    ofold cs ([], w) (fun c '(rs, w) => let* '(r, w) := vexec w c in Ret (rs ++ [r], w)).
End Values.
Arguments container : clear implicits.
Arguments vcmd : clear implicits.
Arguments vres : clear implicits.
Arguments vworld : clear implicits.

(** ** The three containers *)
(** basic_numeric_matrix.hpp: the header is m_nrows, m_ncols *)
Inductive nm_op := NShape | NGet (r c : nat) | NPut (r c : nat) (v : Z).
Inductive nm_res := NRDone | NRShape (r c : nat) | NRValue (v : Z).
Definition nm_member (w : Z) (h : nat * nat) (d : list Z) (o : nm_op) : outcome (nm_res * list Z) :=
  let m := NM w h.1 h.2 d in
  match o with
  | NShape => Ret (NRShape (nm_rows m) (nm_cols m), d)   (* 84-97 *)
  | NGet r c => let* v := nm_get m r c in Ret (NRValue v, d)
  | NPut r c v => let* m := nm_set m r c v in Ret (NRDone, nm_data m)
  end.
(** the constructors: None is the default one (31-36), Some (rows, cols) is 38-43 *)
Definition nm_make (w : Z) (a : option (nat * nat)) : nat * nat * list Z :=
  let m := match a with None => nm_empty w | Some (r, c) => nm_new w r c end in ((nm_rows m, nm_cols m), nm_data m).
Definition nm_container (w : Z) : container (nat * nat) Z (option (nat * nat)) nm_op nm_res :=
  Container (nm_make w) (nm_member w)
    (fun _ => (0, 0))   (* 50-51 *)
    (fun _ => (0, 0))   (* 63-67 *)
    (fun a b => nm_eqb (NM w a.1.1 a.1.2 a.2) (NM w b.1.1 b.1.2 b.2)).

(** basic_bit_matrix.hpp: the header is m_nrows, m_ncols, m_row_blocks *)
Inductive bm_op := BShape | BTest (r c : nat) | BSet (r c : nat) | BClear (r c : nat) | BFlip (r c : nat).
Inductive bm_res := BRDone | BRShape (r c : nat) | BRBit (b : bool).
Definition bm_member (W : nat) (h : nat * nat * nat) (d : list N) (o : bm_op) : outcome (bm_res * list N) :=
  let m := BM h.1.1 h.1.2 h.2 d in
  match o with
  | BShape => Ret (BRShape (bm_rows m) (bm_cols m), d)   (* 179-195 *)
  | BTest r c => let* b := bm_test W m r c in Ret (BRBit b, d)
  | BSet r c => let* m := bm_set W m r c in Ret (BRDone, bm_data m)
  | BClear r c => let* m := bm_clear W m r c in Ret (BRDone, bm_data m)
  | BFlip r c => let* m := bm_flip W m r c in Ret (BRDone, bm_data m)
  end.
(** the constructors 112-119 and 121-128 *)
Definition bm_make (W : nat) (a : option (nat * nat)) : nat * nat * nat * list N :=
  let m := match a with None => bm_empty | Some (r, c) => bm_new W r c end in ((bm_rows m, bm_cols m, bm_row_blocks m), bm_data m).
Definition bm_container (W : nat) : container (nat * nat * nat) N (option (nat * nat)) bm_op bm_res :=
  Container (bm_make W) (bm_member W)
    (fun h => (0, 0, h.2))   (* 137-138: m_row_blocks stays *)
    (fun _ => (0, 0, 0))     (* 153-160 *)
    (fun a b => bm_eqb (BM a.1.1.1 a.1.1.2 a.1.2 a.2) (BM b.1.1.1 b.1.1.2 b.1.2 b.2)).

(** basic_bit_vector.hpp: the header is m_bit_length *)
Inductive bv_op := VSize | VTest (i : nat) | VSet (i : nat) | VClear (i : nat) | VFlip (i : nat) | VPut (i : nat) (b : bool) | VXor (i : nat) (b : bool).
Inductive bv_res := VRDone | VRSize (n : nat) | VRBit (b : bool).
Definition bv_member (W : nat) (h : nat) (d : list N) (o : bv_op) : outcome (bv_res * list N) :=
  let v := BV h d in
  match o with
  | VSize => Ret (VRSize (bv_len v), d)   (* 51-55 *)
  | VTest i => let* b := bv_get W v i in Ret (VRBit b, d)
  | VSet i => let* v := bv_set W v i in Ret (VRDone, bv_blocks v)
  | VClear i => let* v := bv_clear W v i in Ret (VRDone, bv_blocks v)
  | VFlip i => let* v := bv_flip W v i in Ret (VRDone, bv_blocks v)
  | VPut i b => let* v := bv_assign W v i b in Ret (VRDone, bv_blocks v)
  | VXor i b => let* v := bv_XOR W v i b in Ret (VRDone, bv_blocks v)
  end.
(** the constructors 31-35 and 44-48 *)
Definition bv_make (W : nat) (a : option nat) : nat * list N :=
  let v := match a with None => BV 0 [] | Some n => bv_new W n end in (bv_len v, bv_blocks v).
Definition bv_container (W : nat) : container nat N (option nat) bv_op bv_res :=
  Container (bv_make W) (bv_member W)
    (fun h => h)   (* implicit move operations copy m_bit_length *)
    (fun h => h)
    (fun a b => Nat.eqb a.1 b.1 && bool_decide (a.2 = b.2)).   (* no operator== in the class: C++ programs cannot ask *)
