(** C33: the recycle bin of the partition allocator. *)
From Coq Require Import Permutation.
From Verif Require Import Common CommonProofs RecycleModel RecycleProofs.

(** C33: a buffer that is handed out is not in use, and was allocated with the requested size; whatever happened before, in whatever order threads call. *)
Theorem C33_buffers_not_shared : forall es s e s' b n, bin_run es rb_empty = Some s -> bin_step e s = Some (s', Some (b, n)) ->
  (exists p, e = Allocate n \/ e = NewBuffer n p) /\ ~ In b (map fst (rb_in_use s)) /\ In (b, n) (rb_heap s') /\ rb_in_use s' = (b, n) :: rb_in_use s.
Proof.
  intros es s e s' b n H E. pose proof (bin_inv_run es _ _ bin_inv_empty H) as I. destruct (bin_inv_step e s s' _ I E) as [_ X]. exact (X b n eq_refl).
Qed.
Print Assumptions C33_buffers_not_shared.

(** C33: buffers in use stay allocated, with the size they were handed out with. *)
Theorem C33_buffers_in_use_stay_allocated : forall es s, bin_run es rb_empty = Some s ->
  NoDup (map fst (rb_in_use s)) /\ (forall b n, In (b, n) (rb_in_use s) -> In (b, n) (rb_heap s)) /\ NoDup (map fst (rb_heap s)).
Proof.
  intros es s H. destruct (bin_inv_run es _ _ bin_inv_empty H) as [K N A]. split; [|split; [|assumption]].
  - rewrite A, map_app in N. revert N. generalize (map fst (cached (rb_cache s))). intros l. induction l as [|x l IH]; cbn; [auto|]. intros N. inversion N; auto.
  - intros b n Hin. rewrite A. apply in_app_iff. now right.
Qed.
Print Assumptions C33_buffers_in_use_stay_allocated.

(** C33: the bin releases each recycled buffer once, with the size it was allocated with, and no buffer that is still in use. *)
Theorem C33_destroying_releases_once : forall es s, bin_run es rb_empty = Some s -> exists heap, bin_destroy s = Ok heap /\ Permutation heap (rb_in_use s).
Proof. intros es s H. apply bin_destroy_ok. exact (bin_inv_run es _ _ bin_inv_empty H). Qed.
Print Assumptions C33_destroying_releases_once.

(** Two threads; the second and third allocations of ten elements reuse buffers. *)
Definition bin_events : list bin_event :=
  [Allocate 10; Allocate 10; NewBuffer 10 100; NewBuffer 10 200; Deallocate 100 10; Allocate 20; NewBuffer 20 300; Deallocate 300 20; Allocate 10; Deallocate 200 10].
Example C33_ex : exists s, bin_run bin_events rb_empty = Some s /\ rb_in_use s = [(100, 10)] /\ rb_cache s = [(10, [200]); (20, [300])] /\ bin_destroy s = Ok [(100, 10)] /\
  exists s', bin_step (Allocate 20) s = Some (s', Some (300, 20)).
Proof.
  exists (RecycleBin [(10, [200]); (20, [300])] [(300, 20); (200, 10); (100, 10)] [(100, 10)] []). split; [vm_compute; reflexivity|]. split; [reflexivity|].
  split; [reflexivity|]. split; [vm_compute; reflexivity|].
  exists (RecycleBin [(10, [200]); (20, [])] [(300, 20); (200, 10); (100, 10)] [(300, 20); (100, 10)] []). vm_compute; reflexivity.
Qed.
