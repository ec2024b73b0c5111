(** Model of integrate_and_allocate, which allocates crops along the routes of a SerialRoute: image_land/include/lue/framework/algorithm/definition/
    integrate_and_allocate.hpp, with algorithm/walk.hpp.  Paths are relative to source/framework; line numbers are those of definition/
    integrate_and_allocate.hpp.  The floating point element type is double; the compiler does not contract operations. *)
From Flocq Require Import BinarySingleNaN.
From Verif Require Import Common IndexModel DecompModel ArrayModel LocalModel ZonalModel OrderModel Float64.
Open Scope Z_scope.

Definition fplus (x y : b64) : b64 := @Bplus 53 1024 b64_prec_gt_0 b64_prec_lt_emax mode_NE x y.
Definition fminus (x y : b64) : b64 := @Bminus 53 1024 b64_prec_gt_0 b64_prec_lt_emax mode_NE x y.
Definition fless (x y : b64) : bool := @Bltb 53 1024 x y.
Definition fless_equal (x y : b64) : bool := @Bleb 53 1024 x y.
Definition fequal (x y : b64) : bool := @Beqb 53 1024 x y.
Definition fzero : b64 := B754_zero false.
Definition fone : b64 := b64_of_Z 1.
Definition fnan : b64 := B754_nan.

(** ** Data, 61-214 *)
Record alloc_data := AllocData { ad_demand : zmap (list b64); ad_production : zmap (list b64); ad_met : zmap (list bool) }.

(** operator<= of two vectors: the first elements that differ decide *)
Fixpoint vector_less_equal (d p : list b64) : bool :=
  match d, p with
  | [], _ => true
  | _ :: _, [] => false
  | x :: d, y :: p => if fequal x y then vector_less_equal d p else fless x y
  end.
(** The constructor, 78-115.  std::map::at throws.  The vectors of demands and productions of a zone have the same size (assertion). *)
Definition data_of (demand production : zmap (list b64)) : outcome alloc_data :=
  obind (sequence (map (fun '(zone, d) =>
    match zfind production zone with
    | None => Throw
    | Some p => if Nat.eqb (length p) (length d) then Ok (zone, map (fun _ => vector_less_equal d p) d) else UB
    end) demand)) (fun met => Ok (AllocData demand production met)).
(** keep_walking, 184-197 *)
Definition keep_allocating (d : alloc_data) : bool := forallb (fun '(_, met) => forallb (fun b => b) met) (ad_met d).
Definition at_zone {T} (m : zmap (list T)) (zone crop : Z) : outcome T := match zfind m zone with Some l => at_z l crop | None => Throw end.

(** ** A cell: 563-715 *)

(** What is known about a crop in a cell.  The code reads this from vectors, the maps in the data and the arrays. *)
Record crop := Crop { cr_fraction : b64; cr_sdp : b64; cr_yield : b64; cr_demand : b64; cr_production : b64; cr_met : bool; cr_extra : b64 }.
Definition with_fraction (x : b64) (c : crop) := Crop x (cr_sdp c) (cr_yield c) (cr_demand c) (cr_production c) (cr_met c) (cr_extra c).
Definition with_production (x : b64) (c : crop) := Crop (cr_fraction c) (cr_sdp c) (cr_yield c) (cr_demand c) x (cr_met c) (cr_extra c).
Definition with_extra (x : b64) (c : crop) := Crop (cr_fraction c) (cr_sdp c) (cr_yield c) (cr_demand c) (cr_production c) (cr_met c) x.

(** "adjust demand surpassers": 564-597, 654-689 *)
Definition adjust (c : crop) (x : b64) : b64 :=
  if cr_met c then fzero
  else
    let production := fplus (cr_production c) (b64_mul x (cr_yield c)) in
    if fless_equal (cr_demand c) production && fless fzero x then
      if fless fzero (cr_yield c) then b64_div (fminus (cr_demand c) (cr_production c)) (cr_yield c) else fzero
    else x.
(** All crops except the first one, which is grass: 521-522 *)
Definition others (f : crop -> crop) (crops : list crop) : list crop := match crops with [] => [] | g :: cs => g :: map f cs end.
(** 615-632 *)
Definition remaining (c : crop) : b64 := if cr_met c then fzero else fminus (cr_demand c) (cr_production c).
(** 563-715.  Without crops, the fraction of grass is written outside of the vector. *)
Definition allocate_cell (irrigated : b64) (crops : list crop) : outcome (list crop) :=
  let c1 := map (fun c => with_fraction (adjust c (cr_fraction c)) c) crops in
  let c2 := map (fun c => with_production (fplus (cr_production c) (b64_mul (cr_fraction c) (cr_yield c))) c) c1 in
  let f_sum := fplus (fold_left (fun s c => fplus s (cr_fraction c)) c2 fzero) irrigated in
  let sdp := fold_left (fun s c => fplus s (b64_mul (remaining c) (cr_sdp c))) c2 fzero in
  let c3 := if fless fzero sdp
            then others (fun c => with_extra (b64_mul (b64_div (b64_mul (fminus fone f_sum) (cr_sdp c)) sdp) (remaining c)) c) c2
            else c2 in
  let c4 := others (fun c => with_extra (adjust c (cr_extra c)) c) c3 in
  let c5 := map (fun c => with_production (fplus (cr_production c) (b64_mul (cr_extra c) (cr_yield c))) c) c4 in
  let f_sum := fold_left (fun s c => fplus s (cr_extra c)) c5 f_sum in
  if fless f_sum fone then match c5 with [] => UB | g :: cs => Ok (with_extra (fminus fone f_sum) g :: cs) end else Ok c5.

(** ** Fragments *)

(** The input partitions of a component: per crop the sdp factors, yield factors and current fractions, and the irrigated fractions *)
Record alloc_inputs := AllocInputs { ai_sdp : list (list b64); ai_yield : list (list b64); ai_current : list (list b64); ai_irrigated : list b64 }.
Definition cell_of (arrays : list (list b64)) (idx : Z) : outcome (list b64) := sequence (map (fun a => at_z a idx) arrays).

(** 552-561, and what is read of the data later on *)
Definition crop_of (d : alloc_data) (zone : Z) (current sdp yield extra : list b64) (k : Z) : outcome crop :=
  obind (at_z current k) (fun x => obind (at_z sdp k) (fun s => obind (at_z yield k) (fun y => obind (at_z extra k) (fun e =>
  obind (at_zone (ad_met d) zone k) (fun m => obind (at_zone (ad_demand d) zone k) (fun dem => obind (at_zone (ad_production d) zone k) (fun p =>
  Ok (Crop x s y dem p m e)))))))).
(** crop_fraction_per_crop_partition_data[crop_idx][cell_idx] = ...: 709-715 *)
Fixpoint write_fractions (idx : Z) (crops : list crop) (fractions : list (list b64)) : outcome (list (list b64)) :=
  match crops, fractions with
  | [], _ => Ok fractions
  | _ :: _, [] => UB
  | c :: crops, f :: fractions =>
      match upd_z idx (fplus (cr_fraction c) (cr_extra c)) f with
      | None => UB
      | Some f => obind (write_fractions idx crops fractions) (fun r => Ok (f :: r))
      end
  end.
Definition update_production (d : alloc_data) (zone : Z) (crops : list crop) : alloc_data :=
  match zfind (ad_production d) zone with
  | None => d
  | Some p => AllocData (ad_demand d) (zset_map (ad_production d) zone (map cr_production crops ++ skipn (length crops) p)) (ad_met d)
  end.

(** The loop over the cells of a fragment, 525-716.  A cell without value in one of the inputs ends it: 549. *)
Fixpoint allocate_cells (inputs : alloc_inputs) (zone : Z) (cells : list Z) (fractions : list (list b64)) (d : alloc_data) (extra : list b64) :
    outcome (list (list b64) * alloc_data) :=
  match cells with
  | [] => Ok (fractions, d)
  | idx :: cells' =>
      if keep_allocating d then
        obind (cell_of (ai_sdp inputs) idx) (fun sdp =>
        obind (cell_of (ai_yield inputs) idx) (fun yield =>
        obind (cell_of (ai_current inputs) idx) (fun current =>
        obind (at_z (ai_irrigated inputs) idx) (fun irrigated =>
        if existsb is_nan sdp || existsb is_nan yield || existsb is_nan current || is_nan irrigated then Ok (fractions, d)
        else
          obind (sequence (map (crop_of d zone current sdp yield extra) (zseq 0 (Z.of_nat (length fractions))))) (fun crops =>
          obind (allocate_cell irrigated crops) (fun crops =>
          obind (write_fractions idx crops fractions) (fun fractions =>
          allocate_cells inputs zone cells' fractions (update_production d zone crops) (map cr_extra crops))))))))
      else Ok (fractions, d)
  end.

(** ** Components: server::Walk, 225-904 *)

(** _fragment_idxs, the output partitions per crop, _zonal_productions_per_crop, how often the promises were set, and the value of the promise of
    the productions.  As for first_n, the components downstream are looked up by partition. *)
Record allocator := Allocator { al_idxs : zmap Z; al_fractions : list (list b64); al_productions : zmap (list b64); al_ready : Z; al_delivered : zmap (list b64) }.
(** Actions called asynchronously on the component of a partition *)
Inductive alloc_task :=
| AskResults (p : Z)                           (* results *)
| Allocate (p id : Z) (data : alloc_data)      (* walk *)
| SkipAllocating (p id : Z).                   (* skip_walking_route_fragments *)
Definition alloc_task_partition (t : alloc_task) : Z := match t with AskResults p => p | Allocate p _ _ => p | SkipAllocating p _ => p end.
Record alloc_state := AllocState { as_allocators : list allocator; as_tasks : list alloc_task }.

(** The constructor, 260-326 *)
Definition allocator_of (nr_crops : nat) (q : placed (zmap (list fragment))) : allocator :=
  Allocator (map (fun '(id, _) => (id, 0)) (pl_data q)) (repeat (map (fun _ => fnan) (zseq 0 (nr_elements (pl_shape q)))) nr_crops)
    (map (fun '(id, _) => (id, repeat fzero nr_crops)) (pl_data q)) 0 [].
(** finish_results, 851-873: setting a promise for the second time is an error, which hpx::promise reports by an exception. *)
Definition hand_over (w : allocator) : outcome allocator :=
  if 0 <? al_ready w then Throw else Ok (Allocator (al_idxs w) (al_fractions w) [] (al_ready w + 1) (al_productions w)).
Definition hand_over_if_walked (w : allocator) : outcome allocator := if is_nil (al_idxs w) then hand_over w else Ok w.
(** 719, 759-770, 826-836 *)
Definition next_allocation (w : allocator) (id fragment_idx nr_fragments : Z) (fractions : list (list b64)) : outcome allocator :=
  if fragment_idx =? nr_fragments then hand_over_if_walked (Allocator (zerase (al_idxs w) id) fractions (al_productions w) (al_ready w) (al_delivered w))
  else Ok (Allocator (zset_map (al_idxs w) id fragment_idx) fractions (al_productions w) (al_ready w) (al_delivered w)).
(** walk, 365-772, all of it within a write lock *)
Definition allocate_walk (nr_crops : nat) (q : placed (zmap (list fragment))) (inputs : alloc_inputs) (w : allocator) (id : Z) (data : alloc_data) :
    outcome (allocator * list alloc_task) :=
  match zfind (pl_data q) id, zfind (al_idxs w) id with
  | Some fragments, Some fragment_idx =>
      obind (at_z fragments fragment_idx) (fun f =>
      obind (allocate_cells inputs id (fr_cells f) (al_fractions w) data (repeat fzero nr_crops)) (fun '(fractions, data') =>
      let idx := fragment_idx + 1 in
      let nr := Z.of_nat (length fragments) in
      match fr_next f with
      | Some p => obind (next_allocation w id idx nr fractions) (fun w' => Ok (w', [if keep_allocating data' then Allocate p id data' else SkipAllocating p id]))
      | None => if idx =? nr then obind (next_allocation w id idx nr fractions) (fun w' => Ok (w', [])) else UB   (* assert, 754-757 *)
      end))
  | _, _ => UB   (* asserts, 385-398 *)
  end.
(** skip_walking_route_fragments, 779-838, all of it within a write lock *)
Definition allocate_skip (q : placed (zmap (list fragment))) (w : allocator) (id : Z) : outcome (allocator * list alloc_task) :=
  match zfind (pl_data q) id, zfind (al_idxs w) id with
  | Some fragments, Some fragment_idx =>
      obind (at_z fragments fragment_idx) (fun f =>
      obind (next_allocation w id (fragment_idx + 1) (Z.of_nat (length fragments)) (al_fractions w)) (fun w' =>
      Ok (w', match fr_next f with Some p => [SkipAllocating p id] | None => [] end)))
  | _, _ => UB
  end.
(** results, 329-355, is [hand_over_if_walked]. *)
Definition run_alloc_task (nr_crops : nat) (t : alloc_task) (q : placed (zmap (list fragment))) (inputs : alloc_inputs) (w : allocator) :
    outcome (allocator * list alloc_task) :=
  match t with
  | AskResults _ => obind (hand_over_if_walked w) (fun w' => Ok (w', []))
  | Allocate _ id data => allocate_walk nr_crops q inputs w id data
  | SkipAllocating _ id => allocate_skip q w id
  end.

Section Run.
Context (route : serial_route) (sdp yield current : list (parray b64)) (irrigated : parray b64).
Definition nr_crops : nat := length current.

(** The partitions at the same index, 1090-1141 *)
Definition partitions_at (p : Z) (arrays : list (parray b64)) : outcome (list (list b64)) := sequence (map (fun a => obind (at_z (pa_parts a) p) (fun q => Ok (pl_data q))) arrays).
Definition inputs_at (p : Z) : outcome alloc_inputs :=
  obind (partitions_at p sdp) (fun s => obind (partitions_at p yield) (fun y => obind (partitions_at p current) (fun c =>
  obind (at_z (pa_parts irrigated) p) (fun i => Ok (AllocInputs s y c (pl_data i)))))).

(** The scheduler picks task [k]. *)
Definition alloc_step (k : nat) (st : alloc_state) : option (outcome alloc_state) :=
  match nth_error (as_tasks st) k with
  | None => None
  | Some t =>
      let p := alloc_task_partition t in
      Some (match nth_z p (rt_parts route), nth_z p (as_allocators st) with
            | Some q, Some w =>
                obind (inputs_at p) (fun inputs =>
                obind (run_alloc_task nr_crops t q inputs w) (fun '(w', spawned) =>
                match upd_z p w' (as_allocators st) with
                | None => UB
                | Some allocators => Ok (AllocState allocators (firstn k (as_tasks st) ++ skipn (S k) (as_tasks st) ++ spawned))
                end))
            | _, _ => UB
            end)
  end.
Inductive alloc_run : alloc_state -> list nat -> alloc_state -> Prop :=
| alloc_run_nil st : alloc_run st [] st
| alloc_run_cons st k st' ks st'' : alloc_step k st = Some (Ok st') -> alloc_run st' ks st'' -> alloc_run st (k :: ks) st''.

(** integrate_and_allocate, 1001-1239, and walk, walk.hpp:66-250: the state once the components have been created, results has been called for
    each of these, and the walk of each route has been started, each with a copy of the data.  If the data cannot be made the walks are not started, and the
    results are never available; here that is [Throw]. *)
Definition integrate_and_allocate (demand production : zmap (list b64)) : outcome alloc_state :=
  if Nat.eqb (length sdp) nr_crops && Nat.eqb (length yield) nr_crops then
    obind (data_of demand production) (fun data =>
    Ok (AllocState (map (allocator_of nr_crops) (rt_parts route))
          (map AskResults (zseq 0 (Z.of_nat (length (rt_parts route)))) ++ map (fun '(id, p) => Allocate p id data) (rt_starts route))))
  else Throw.

(** The arrays returned, 1269-1277.  A partition may be used once its promise is set. *)
Definition fractions_result (k : nat) (st : alloc_state) : parray b64 :=
  PArray (rt_shape route) (rt_sip route)
    (map2 (fun q w => Placed (pl_locality q) (pl_offset q) (pl_shape q) (nth k (al_fractions w) [])) (rt_parts route) (as_allocators st)).
(** The productions returned, 1279-1325 *)
Definition merge_productions (result : zmap (list b64)) (e : Z * list b64) : zmap (list b64) :=
  match zfind result (fst e) with
  | None => zset_map result (fst e) (snd e)
  | Some r => zset_map result (fst e) (map2 fplus r (snd e))
  end.
Definition productions_result (st : alloc_state) : zmap (list b64) :=
  fold_left (fun result w => fold_left merge_productions (al_delivered w) result) (as_allocators st) [].
End Run.
