(** Proofs about the recycle bin. *)
From Coq Require Import Permutation.
From Verif Require Import Common CommonProofs RecycleModel.

Lemma remove_one_perm {A} dec (x : A) l r : remove_one dec x l = Some r -> Permutation l (x :: r).
Proof.
  revert r. induction l as [|y l IH]; intros r H; cbn in H; [discriminate|]. destruct (dec x y) as [<-|]; [now injection H as <-|].
  destruct (remove_one dec x l) as [r'|]; [|discriminate]. injection H as <-. rewrite (IH r' eq_refl). apply perm_swap.
Qed.
Lemma remove_one_in {A} dec (x : A) l : In x l -> exists r, remove_one dec x l = Some r.
Proof.
  induction l as [|y l IH]; [intros []|]. cbn. destruct (dec x y) as [<-|N]; [eauto|]. intros [->|H]; [congruence|]. destruct (IH H) as [r ->]. eauto.
Qed.

Definition cached (cache : list (Z * list address)) : list (address * Z) := flat_map (fun '(n, stack) => map (fun b => (b, n)) stack) cache.

Lemma set_stack_perm cache n stack : NoDup (map fst cache) ->
  Permutation (cached (set_stack cache n stack) ++ map (fun b => (b, n)) (stack_of cache n)) (cached cache ++ map (fun b => (b, n)) stack) /\
  NoDup (map fst (set_stack cache n stack)) /\ (forall m, In m (map fst (set_stack cache n stack)) <-> m = n \/ In m (map fst cache)).
Proof.
  induction cache as [|[m s] cache IH]; cbn [set_stack stack_of map fst]; intros N.
  - cbn. rewrite !app_nil_r. split; [reflexivity|]. split; [repeat constructor; intros []|]. intros m. intuition congruence.
  - inversion N as [|? ? N1 N2]; subst. destruct (Z.eqb_spec m n) as [->|Hne].
    + cbn [cached flat_map map fst]. split; [|split; [assumption|cbn; intuition congruence]].
      rewrite <- !app_assoc. rewrite (Permutation_app_comm (map (fun b => (b, n)) stack)). rewrite (Permutation_app_comm (map (fun b => (b, n)) s)).
      fold (cached cache). rewrite <- !app_assoc. rewrite (Permutation_app_comm (map (fun b => (b, n)) s) (map (fun b => (b, n)) stack)). reflexivity.
    + destruct (IH N2) as [P [N3 I]]. cbn [cached flat_map map fst]. fold (cached (set_stack cache n stack)) (cached cache). split; [|split].
      * rewrite <- !app_assoc. now apply Permutation_app_head.
      * constructor; [|assumption]. intros H. apply I in H. destruct H; congruence.
      * intros k. cbn [In]. rewrite I. tauto.
Qed.

Record bin_inv (s : recycle_bin) : Prop := {
  bi_keys : NoDup (map fst (rb_cache s));
  bi_heap : NoDup (map fst (rb_heap s));
  bi_all : Permutation (rb_heap s) (cached (rb_cache s) ++ rb_in_use s) }.

Lemma bin_inv_step e s s' o : bin_inv s -> bin_step e s = Some (s', o) -> bin_inv s' /\
  (forall b n, o = Some (b, n) -> (exists p, e = Allocate n \/ e = NewBuffer n p) /\ ~ In b (map fst (rb_in_use s)) /\ In (b, n) (rb_heap s') /\ rb_in_use s' = (b, n) :: rb_in_use s).
Proof.
  intros [K H A] E. destruct s as [cache heap in_use pending]. cbn [rb_cache rb_heap rb_in_use rb_pending] in *. destruct e as [n|n b|b n]; cbn [bin_step rb_cache rb_heap rb_in_use rb_pending] in E.
  - destruct (stack_of cache n) as [|b stack] eqn:Es.
    + injection E as <- <-. destruct (set_stack_perm cache n [] K) as [P [N _]]. rewrite Es in P. cbn [map] in P. rewrite !app_nil_r in P. split; [|discriminate]. split; cbn; try assumption.
      rewrite A. now rewrite P.
    + injection E as <- <-. destruct (set_stack_perm cache n stack K) as [P [N _]]. rewrite Es in P. cbn [map] in P.
      assert (P' : Permutation (cached cache) ((b, n) :: cached (set_stack cache n stack))).
      { apply (Permutation_app_inv_r (map (fun b0 => (b0, n)) stack)). rewrite <- P. cbn. symmetry. apply Permutation_middle. }
      assert (A' : Permutation heap (cached (set_stack cache n stack) ++ (b, n) :: in_use)).
      { rewrite A, P'. cbn. apply Permutation_middle. }
      split; [split; cbn; assumption|]. intros b' n' Eb. injection Eb as <- <-. split; [exists 0; now left|]. split; [|split; [|reflexivity]].
      * intros Hin. rewrite A' in H. rewrite map_app in H. cbn in H. apply NoDup_remove_2 in H. apply H. apply in_app_iff. now right.
      * cbn. rewrite A'. apply in_app_iff. right. now left.
  - destruct (existsb (fun x => fst x =? b) heap) eqn:Ex; [discriminate|]. destruct (remove_one Z.eq_dec n pending) as [pending'|]; [|discriminate]. injection E as <- <-.
    assert (Nb : ~ In b (map fst heap)).
    { intros Hin. apply in_map_iff in Hin. destruct Hin as [x [E1 E2]]. assert (X : existsb (fun x => fst x =? b) heap = true) by (apply existsb_exists; exists x; split; [assumption|now apply Z.eqb_eq]). congruence. }
    split; [split; cbn|].
    + assumption.
    + constructor; assumption.
    + rewrite A. apply Permutation_middle.
    + intros b' n' Eb. injection Eb as <- <-. split; [exists b; now right|]. split; [|split; [now left|reflexivity]]. intros Hin. apply Nb. rewrite A, map_app. apply in_app_iff. now right.
  - destruct (remove_one buffer_dec (b, n) in_use) as [in_use'|] eqn:Er; [|discriminate]. injection E as <- <-. apply remove_one_perm in Er. split; [|discriminate].
    destruct (set_stack_perm cache n (b :: stack_of cache n) K) as [P [N _]]. cbn [map] in P.
    assert (P' : Permutation (cached (set_stack cache n (b :: stack_of cache n))) ((b, n) :: cached cache)).
    { apply (Permutation_app_inv_r (map (fun b0 => (b0, n)) (stack_of cache n))). rewrite P. cbn. symmetry. apply Permutation_middle. }
    split; cbn; try assumption. rewrite A, P', Er. cbn. symmetry. apply Permutation_middle.
Qed.
Lemma bin_inv_run es : forall s s', bin_inv s -> bin_run es s = Some s' -> bin_inv s'.
Proof.
  induction es as [|e es IH]; intros s s' I H; cbn in H; [now injection H as <-|]. destruct (bin_step e s) as [[s1 o]|] eqn:E; [|discriminate].
  eapply IH; [|exact H]. eapply bin_inv_step; eassumption.
Qed.
Lemma bin_inv_empty : bin_inv rb_empty.
Proof. split; cbn; constructor. Qed.

Lemma release_all l : forall heap rest, Permutation heap (l ++ rest) ->
  exists heap', fold_left (fun acc x => obind acc (fun heap => release heap (fst x) (snd x))) l (Ok heap) = Ok heap' /\ Permutation heap' rest.
Proof.
  induction l as [|[b n] l IH]; intros heap rest P; cbn [fold_left fst snd obind].
  - exists heap. auto.
  - unfold release at 2. destruct (remove_one_in buffer_dec (b, n) heap) as [r Er]; [rewrite P; now left|]. rewrite Er. apply remove_one_perm in Er.
    apply IH. rewrite Er in P. cbn in P. now apply Permutation_cons_inv in P.
Qed.

Lemma bin_destroy_ok s : bin_inv s -> exists heap, bin_destroy s = Ok heap /\ Permutation heap (rb_in_use s).
Proof.
  intros [K H A]. unfold bin_destroy.
  assert (E : forall cache acc, fold_left (fun acc '(n, stack) => fold_left (fun acc b => obind acc (fun heap => release heap b n)) stack acc) cache acc =
    fold_left (fun acc x => obind acc (fun heap => release heap (fst x) (snd x))) (cached cache) acc).
  { induction cache as [|[n stack] cache IH]; intros acc; [reflexivity|]. cbn [fold_left cached flat_map]. fold (cached cache). rewrite fold_left_app, IH. f_equal.
    clear. revert acc. induction stack as [|b stack IH]; intros acc; [reflexivity|]. cbn [fold_left map fst snd]. apply IH. }
  rewrite E. now apply release_all.
Qed.
