(** Model of linear <-> n-dimensional index conversion and of array visitors. *)
From Verif Require Import Common.

(** lue::nr_elements(Shape): core/shape.hpp:35-52.  Rank 0 gives 0. *)
Definition nr_elements (shape : list Z) : Z :=
  match shape with [] => 0 | _ => prodZ shape end.

(** linear_idx_to_idxs: core/index_util.hpp:10-28.  The loop over dimension_idx
    becomes recursion; [shape.begin() + dimension_idx + 1 .. shape.end()] is the
    tail.  C++ / and % truncate: Z.quot, Z.rem.  Asserts (lines 13-14) are checked
    by the caller [linear_idx_to_idxs_checked]. *)
Fixpoint linear_idx_to_idxs (linear_idx : Z) (shape : list Z) : list Z :=
  match shape with
  | [] => []
  | e :: rest => Z.rem (Z.quot linear_idx (prodZ rest)) e :: linear_idx_to_idxs linear_idx rest
  end.

(** idxs_to_linear_idx: core/index_util.hpp:31-48, loop with accumulator [idx];
    UB when the assert on line 40 fails or the ranks differ. *)
Fixpoint idxs_to_linear_idx_loop (idx : Z) (idxs shape : list Z) : outcome Z :=
  match idxs, shape with
  | [], [] => Ok idx
  | i :: idxs', e :: shape' =>
      if i <? e then idxs_to_linear_idx_loop (idx + i * prodZ shape') idxs' shape' else UB
  | _, _ => UB
  end.

Definition idxs_to_linear_idx (idxs shape : list Z) : outcome Z :=
  if 0 <? nr_elements shape then idxs_to_linear_idx_loop 0 idxs shape else UB.

(** linear_idx_to_idxs with its asserts (lines 13-14). *)
Definition linear_idx_to_idxs_checked (linear_idx : Z) (shape : list Z) : outcome (list Z) :=
  if (0 <? nr_elements shape) && (linear_idx <? nr_elements shape)
  then Ok (linear_idx_to_idxs linear_idx shape) else UB.

(** lue::linear_idx (recursive version): core/array_visitor.hpp:10-38. *)
Fixpoint linear_idx (cell_idxs shape : list Z) : Z :=
  match cell_idxs, shape with
  | [c], _ => c
  | c :: cs, _ :: shape' => c * prodZ shape' + linear_idx cs shape'
  | _, _ => 0
  end.

(** linear_to_shape_index: core/domain_decomposition.hpp:260-293 *)
Fixpoint linear_to_shape_index (shape : list Z) (idx : Z) : list Z :=
  match shape with
  | [] => []
  | _ :: rest =>
      let nr_cells := prodZ rest in
      let dimension_index := Z.quot idx nr_cells in
      dimension_index :: linear_to_shape_index rest (idx - dimension_index * nr_cells)
  end.

(** ** Array visitor: core/array_visitor.hpp *)

(** detail::ArrayVisitorCursor: lines 51-184 (the fields that change or are read). *)
Record cursor := Cursor {
  cur_start : list Z;
  cur_count : list Z;
  current_cell : list Z;
  dimension_idx : nat
}.

Definition znth (n : nat) (l : list Z) : Z := nth n l 0.

Fixpoint zset (n : nat) (v : Z) (l : list Z) : list Z :=
  match l, n with
  | [], _ => []
  | _ :: t, O => v :: t
  | h :: t, S n' => h :: zset n' v t
  end.

(** enter_next_dimension: lines 101-106 *)
Definition enter_next_dimension (c : cursor) : cursor :=
  Cursor (cur_start c) (cur_count c) (current_cell c) (S (dimension_idx c)).

(** leave_current_dimension: lines 108-116 *)
Definition leave_current_dimension (c : cursor) : cursor :=
  Cursor (cur_start c) (cur_count c)
    (zset (dimension_idx c) (znth (dimension_idx c) (cur_start c)) (current_cell c))
    (pred (dimension_idx c)).

(** operator++: lines 118-125 *)
Definition cursor_incr (c : cursor) : cursor :=
  Cursor (cur_start c) (cur_count c)
    (zset (dimension_idx c) (znth (dimension_idx c) (current_cell c) + 1) (current_cell c))
    (dimension_idx c).

(** start_idx, end_idx: lines 137-145 *)
Definition start_idx (c : cursor) : Z := znth (dimension_idx c) (cur_start c).
Definition end_idx (c : cursor) : Z :=
  znth (dimension_idx c) (cur_start c) + znth (dimension_idx c) (cur_count c).

(** The body of the loop at lines 300-317 executed [n] times. *)
Fixpoint visit_loop (n : nat) (body : cursor -> cursor * list (list Z)) (c : cursor)
  : cursor * list (list Z) :=
  match n with
  | O => (c, [])
  | S n' =>
      let '(c1, v1) := body c in
      let '(c2, v2) := visit_loop n' body c1 in
      (c2, v1 ++ v2)
  end.

(** detail::visit_array<rank>: lines 282-319.  Returns the cursor and the list of
    current cells at each call of the visitor, in call order. *)
Fixpoint visit_array_rec (rank : nat) (c : cursor) : cursor * list (list Z) :=
  match rank with
  | O => (c, [current_cell c])
  | S rank' =>
      visit_loop (Z.to_nat (end_idx c - start_idx c))
        (fun c0 =>
           let c1 := match rank' with O => c0 | _ => enter_next_dimension c0 end in
           let '(c2, v) := visit_array_rec rank' c1 in
           let c3 := match rank' with O => c2 | _ => leave_current_dimension c2 end in
           (cursor_incr c3, v)) c
  end.

(** visit_array(begin_indices, end_indices, visitor): lines 331-346, with
    ArrayVisitor::init / Cursor::init (lines 82-93).  Returns the visited cells. *)
Definition visit_array (begin_indices end_indices : list Z) : list (list Z) :=
  let count := map (fun '(b, e) => e - b) (combine begin_indices end_indices) in
  let c := Cursor begin_indices count begin_indices 0 in
  snd (visit_array_rec (length begin_indices) c).

(** ** Curves *)

(** LinearCurve<1..3>::visit and linear_curve: core/linear_curve.hpp:14-103. The
    visitor's argument list (idx, cell indices); idx++ per call. *)
Definition linear_curve_cells (shape : list Z) : list (list Z) :=
  match shape with
  | [n0] => flat_map (fun i => [[i]]) (zseq 0 n0)
  | [n0; n1] => flat_map (fun i => flat_map (fun j => [[i; j]]) (zseq 0 n1)) (zseq 0 n0)
  | [n0; n1; n2] =>
      flat_map (fun i => flat_map (fun j => flat_map (fun k => [[i; j; k]]) (zseq 0 n2))
                                  (zseq 0 n1)) (zseq 0 n0)
  | _ => []
  end.

Definition number_visits {A} (visits : list A) : list (Z * A) :=
  combine (zseq 0 (Z.of_nat (length visits))) visits.

Definition linear_curve (shape : list Z) : list (Z * list Z) :=
  if 0 <? nr_elements shape then number_visits (linear_curve_cells shape) else [].

(** offset (sign): core/hilbert_curve.hpp:40-52 *)
Definition sgn_offset (x : Z) : Z := if x <? 0 then -1 else if 0 <? x then 1 else 0.

(** HilbertCurve<2>::hilbert: core/hilbert_curve.hpp:68-160.  [fuel] bounds the
    recursion depth; [None] means out of fuel (infinite recursion in the code).
    Returns the cells (y, x) in visiting order; [idx] is incremented per visit and
    is therefore the position in this list. *)
Fixpoint hilbert (fuel : nat) (x y ax ay bx b_y : Z) : option (list (Z * Z)) :=
  match fuel with
  | O => None
  | S fuel' =>
      let w := Z.abs (ax + ay) in
      let h := Z.abs (bx + b_y) in
      let dax := sgn_offset ax in
      let day := sgn_offset ay in
      let dbx := sgn_offset bx in
      let dby := sgn_offset b_y in
      if h =? 1 then
        Some (map (fun i => (y + i * day, x + i * dax)) (zseq 0 w))
      else if w =? 1 then
        Some (map (fun i => (y + i * dby, x + i * dbx)) (zseq 0 h))
      else
        let ax2 := Z.quot ax 2 in
        let ay2 := Z.quot ay 2 in
        let bx2 := Z.quot bx 2 in
        let by2 := Z.quot b_y 2 in
        let w2 := Z.abs (ax2 + ay2) in
        let h2 := Z.abs (bx2 + by2) in
        if 3 * h <? 2 * w then
          let adj := (0 <? Z.rem w2 2) && (2 <? w) in
          let ax2 := if adj then ax2 + dax else ax2 in
          let ay2 := if adj then ay2 + day else ay2 in
          match hilbert fuel' x y ax2 ay2 bx b_y,
                hilbert fuel' (x + ax2) (y + ay2) (ax - ax2) (ay - ay2) bx b_y with
          | Some v1, Some v2 => Some (v1 ++ v2)
          | _, _ => None
          end
        else
          let adj := (0 <? Z.rem h2 2) && (2 <? h) in
          let bx2 := if adj then bx2 + dbx else bx2 in
          let by2 := if adj then by2 + dby else by2 in
          match hilbert fuel' x y bx2 by2 ax2 ay2,
                hilbert fuel' (x + bx2) (y + by2) ax ay (bx - bx2) (b_y - by2),
                hilbert fuel' (x + (ax - dax) + (bx2 - dbx)) (y + (ay - day) + (by2 - dby))
                  (- bx2) (- by2) (- (ax - ax2)) (- (ay - ay2)) with
          | Some v1, Some v2, Some v3 => Some (v1 ++ v2 ++ v3)
          | _, _, _ => None
          end
  end.

(** HilbertCurve<2>::visit: lines 162-178, and hilbert_curve<2> (hilbert_curve.hpp:346-357),
    which visits only when the shape is not empty. *)
Definition hilbert_curve (shape0 shape1 : Z) : option (list (Z * (Z * Z))) :=
  if 0 <? nr_elements [shape0; shape1] then
    let fuel := Z.to_nat (shape0 + shape1) in
    option_map number_visits
      (if shape0 <=? shape1 then hilbert fuel 0 0 shape1 0 0 shape0
       else hilbert fuel 0 0 0 shape0 shape1 0)
  else Some [].

(** ** Hyperslab (center, shape): core/hyperslab.hpp:27-66 *)

(** half_shape: lines 32-38 *)
Definition half_extent (count : Z) : Z :=
  Z.quot (if Z.rem count 2 =? 1 then count - 1 else count) 2.

(** Hyperslab(center, shape): lines 27-66.  Returns (offsets, counts); throws when the
    hyperslab would start before the first cell.  std::equal with a 3-iterator range
    walks [half_shape]; both have length rank. *)
Definition hyperslab_at (center shape : list Z) : outcome (list Z * list Z) :=
  let half_shape := map half_extent shape in
  if forallb (fun '(count, idx) => count <=? idx) (combine half_shape center)
  then Ok (map (fun '(idx, count) => idx - count) (combine center half_shape), shape)
  else Throw.

(** is_contained_by: lines 91-102 *)
Definition is_contained_by (offsets counts array_shape : list Z) : bool :=
  forallb (fun '((o, c), s) => o + c - 1 <? s) (combine (combine offsets counts) array_shape).
