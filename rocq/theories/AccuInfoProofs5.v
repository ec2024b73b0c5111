(** accu_info: consequences of the classes of AccuInfoSpec. *)
From Coq Require Import ZArith List Lia.
From Verif Require Import Common CommonProofs CoreSpec DecompSpec ArraySpec IndexModel DecompModel ArrayModel ArrayRep RasterCheck GridModel FlowSpec AccuSpec FlowModel RouterModel
  AccuInfoModel AccuInfoSpec.

Lemma no_lem (P : Prop) : ~ ~ (P \/ ~ P). Proof. tauto. Qed.
Lemma decide_eq (k1 k2 : Z) : ~ ~ (k1 = k2) -> k1 = k2. Proof. destruct (Z.eq_dec k1 k2); tauto. Qed.

Section Classes.
Context (a0 a1 p0 p1 : Z) (nd : Z -> bool) (f : cell -> Z).
Notation class_of := (class_of a0 a1 p0 p1 nd f).

Lemma receives_not_source x : receives a0 a1 p0 p1 nd f x -> ~ source a0 a1 nd f x.
Proof. intros [y [D _]] S. exact (S y D). Qed.
Lemma within_unique x k1 k2 : reached_within a0 a1 p0 p1 nd f x k1 -> reached_within a0 a1 p0 p1 nd f x k2 -> k1 = k2.
Proof.
  intros [A1 [A2 [A3 A4]]] [B1 [B2 [B3 B4]]]. apply decide_eq. intros N.
  apply (no_lem (ends f x)). intros [E|E]; [apply N; rewrite A1, B1 by exact E; reflexivity|].
  apply (no_lem (leaves a0 a1 p0 p1 f x)). intros [L|L]; [apply N; rewrite A2, B2 by exact L; reflexivity|].
  apply (no_lem (foreign a0 a1 p0 p1 nd f x)). intros [F|F]; apply N; [rewrite A4, B4|rewrite A3, B3]; auto.
Qed.
Lemma outside_unique x k1 k2 : reached_from_outside a0 a1 p0 p1 f x k1 -> reached_from_outside a0 a1 p0 p1 f x k2 -> k1 = k2.
Proof.
  intros [A1 A2] [B1 B2]. apply decide_eq. intros N.
  apply (no_lem (leaves a0 a1 p0 p1 f x)). intros [L|L]; apply N; [rewrite A1, B1|rewrite A2, B2]; auto.
Qed.
Lemma class_unique x k1 k2 : ~ (receives a0 a1 p0 p1 nd f x /\ may_be_last a0 a1 p0 p1 nd f x) -> class_of x k1 -> class_of x k2 -> k1 = k2.
Proof.
  intros NB [A1 [A2 [A3 [A4 _]]]] [B1 [B2 [B3 [B4 _]]]]. destruct (nd (f x)); [now rewrite A1, B1|].
  apply decide_eq. intros N.
  apply (no_lem (source a0 a1 nd f x)). intros [S|S]; [apply N; now rewrite A2, B2|].
  apply (no_lem (receives a0 a1 p0 p1 nd f x)). intros [R|R].
  - assert (M : ~ may_be_last a0 a1 p0 p1 nd f x) by (intros M; apply NB; split; assumption). apply N. apply (outside_unique x); auto.
  - apply N. apply (within_unique x); auto.
Qed.
Ltac pick := clear; cbn [In]; repeat first [left; reflexivity|right].
Lemma class_values x k : class_of x k -> In k [no_class; ridge_cell; intra_partition_stream_cell; partition_output_cell; partition_input_cell;
  partition_input_output_cell; inter_partition_stream_cell; sink_cell].
Proof.
  intros [A1 [A2 [A3 [A4 A5]]]]. destruct (in_dec Z.eq_dec k [no_class; ridge_cell; intra_partition_stream_cell; partition_output_cell; partition_input_cell; partition_input_output_cell; inter_partition_stream_cell; sink_cell]) as [H|H]; [exact H|]. exfalso.
  assert (W : ~ reached_within a0 a1 p0 p1 nd f x k).
  { intros [B1 [B2 [B3 B4]]].
    apply (no_lem (ends f x)). intros [E|E]; [apply H; rewrite B1 by exact E; pick|].
    apply (no_lem (leaves a0 a1 p0 p1 f x)). intros [L|L]; [apply H; rewrite B2 by exact L; pick|].
    apply (no_lem (foreign a0 a1 p0 p1 nd f x)). intros [F|F]; apply H; [rewrite B4|rewrite B3]; auto; pick. }
  assert (O : ~ reached_from_outside a0 a1 p0 p1 f x k).
  { intros [B1 B2]. apply (no_lem (leaves a0 a1 p0 p1 f x)). intros [L|L]; apply H; [rewrite B1|rewrite B2]; auto; pick. }
  destruct (nd (f x)) eqn:En; [apply H; rewrite A1 by reflexivity; pick|].
  apply (no_lem (source a0 a1 nd f x)). intros [S|S]; [apply H; rewrite A2; auto; pick|].
  apply (no_lem (receives a0 a1 p0 p1 nd f x)). intros [R|R]; [|now apply W, A3].
  apply (no_lem (may_be_last a0 a1 p0 p1 nd f x)). intros [M|M]; [destruct (A5 eq_refl R M); contradiction|now apply O, A4].
Qed.
End Classes.
