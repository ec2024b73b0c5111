(** Running the router on concrete arrays; used by examples and counterexamples only. *)
From Coq Require Import QArith Qcanon.
From Verif Require Import Common CoreSpec DecompSpec ArraySpec IndexModel DecompModel ArrayModel ArrayRep RasterCheck GridModel FlowSpec AccuSpec FlowModel RouterModel AccuModel FlowCheck.
Local Open Scope Z_scope.

Section Run.
Context {A X M : Type} (ac : accumulator A X M) (nd : Z -> bool) (n0 n1 : Z).
Definition all_labels : list label :=
  map (fun rc => Intra (fst rc) (snd rc)) (cells2 0 n0 0 n1) ++ flat_map (fun rc => map (Inter (fst rc) (snd rc)) (zseq 0 8)) (cells2 0 n0 0 n1).
(** Do steps until there are none left; [pick]: the order in which labels are tried *)
Fixpoint run_some (fuel : nat) (pick : list label -> list label) (st : router_state) : outcome (list label * router_state) :=
  match fuel with
  | O => UB
  | S fuel' =>
      match find (fun l => match step ac nd n0 n1 l st with Some _ => true | None => false end) (pick all_labels) with
      | None => Ok ([], st)
      | Some l => match step ac nd n0 n1 l st with
                  | Some (Ok st') => obind (run_some fuel' pick st') (fun '(ls, st'') => Ok (l :: ls, st''))
                  | _ => UB
                  end
      end
  end.
Definition values (flow : parray Z) (st : @router_state A X M) : list (list X) :=
  match router_results flow st with Ok a => map pl_data (pa_parts a) | _ => [] end.
(** The number of steps, whether all partitions are finished, and the results *)
Definition route (pick : list label -> list label) (flow : parray Z) (args : parray A) : outcome (nat * bool * list (list X)) :=
  obind (router_start ac nd flow args) (fun st =>
  obind (run_some 1000 pick st) (fun '(ls, st') => Ok (length ls, finished n0 n1 st', values flow st'))).
End Run.

Definition ex_material (x : list Z) : option Qc := Some (Q2Qc (inject_Z (1 + nth 1 x 0))).
Definition ex_pair (p : Qc) (x : list Z) : option Qc * option Qc := (ex_material x, Some p).
Definition show1 (v : option Qc) : Z := match v with Some q => Qnum (this q) | None => -1 end.
