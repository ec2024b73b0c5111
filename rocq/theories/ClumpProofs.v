(** Proofs about the flood fill of clump (C28): one partition. *)
From Verif Require Import Common CommonProofs IndexModel DecompModel ArrayModel ArrayProofs GridModel GridProofs ClumpSpec ClumpModel.

Section Fill.
Context (znd cnd : Z -> bool) (how : connectivity) (nr nc : Z) (z : Z -> Z -> Z) (zid k : Z).
Hypothesis Hnr : 0 < nr.
Hypothesis Hnc : 0 < nc.

Definition cn (r c : Z) : bool := negb (znd (z r c)) && (z r c =? zid).
Definition inb (r c : Z) : Prop := 0 <= r < nr /\ 0 <= c < nc.
Definition conn (r c : Z) : Prop := inb r c /\ cn r c = true.
Definition delta : Z := match how with Diagonal => 1 | Nondiagonal => 0 end.

Local Notation zones := (gmake nr nc z).

Lemma delta_range : 0 <= delta <= 1.
Proof. unfold delta. destruct how; lia. Qed.

Lemma connected_ok : forall r c, inb r c -> cell_is_connected znd zones zid r c = Ok (cn r c).
Proof. intros r c [A B]. unfold cell_is_connected. rewrite gget_make by assumption. reflexivity. Qed.
Lemma added_ok : forall f r c, inb r c -> added_already cnd (gmake nr nc f) r c = Ok (negb (cnd (f r c))).
Proof. intros f r c [A B]. unfold added_already. rewrite gget_make by assumption. reflexivity. Qed.

Lemma conn_dec : forall r c, inb r c -> {conn r c} + {~ conn r c}.
Proof. intros r c H. destruct (cn r c) eqn:E; [left; split; assumption|right; intros [_ C]; congruence]. Qed.

(** Number of cells that are not in a clump yet *)
Definition unm (f : Z -> Z -> Z) : Z := Z.of_nat (length (filter (fun rc => cnd (f (fst rc) (snd rc))) (cells2 0 nr 0 nc))).

Lemma filter_one_less : forall (X : Type) (p q : X -> bool) (x : X) l, NoDup l -> In x l -> p x = true -> q x = false -> (forall y, In y l -> y <> x -> q y = p y) ->
  length (filter p l) = S (length (filter q l)).
Proof.
  intros X p q x l Hn Hi Hp Hq Ho. induction l as [|y l IH]; [contradiction|]. inversion Hn as [|? ? N1 N2]; subst. cbn [filter]. destruct Hi as [->|Hi].
  - rewrite Hp, Hq. cbn [length]. f_equal. f_equal. apply filter_ext_in. intros y Hy. symmetry. apply Ho; [right; assumption|]. intros ->. contradiction.
  - assert (y <> x) by (intros ->; contradiction). rewrite (Ho y) by (auto; left; reflexivity). assert (E : length (filter p l) = S (length (filter q l))).
    { apply IH; auto. intros w Hw. apply Ho. right. assumption. }
    destruct (p y); cbn [length]; lia.
Qed.

Hypothesis Hk : cnd k = false.

Lemma mark_one : forall f f' r c, inb r c -> cnd (f r c) = true -> (forall r' c', f' r' c' = if (r' =? r) && (c' =? c) then k else f r' c') ->
  unm f = unm f' + 1.
Proof.
  intros f f' r c [A B] Hc Hf. unfold unm. rewrite (filter_one_less _ (fun rc => cnd (f (fst rc) (snd rc))) (fun rc => cnd (f' (fst rc) (snd rc))) (r, c) (cells2 0 nr 0 nc)); [lia|apply cells2_NoDup|apply in_cells2; lia|exact Hc| |].
  - cbn. rewrite Hf, !Z.eqb_refl. exact Hk.
  - intros [r' c'] _ N. cbn. rewrite Hf. destruct (Z.eqb_spec r' r), (Z.eqb_spec c' c); cbn; try reflexivity. congruence.
Qed.

Lemma add_ok : forall f r c, inb r c -> cnd (f r c) = true -> exists f', add_to_clump cnd k (gmake nr nc f) r c = Ok (gmake nr nc f') /\
  (forall r' c', f' r' c' = if (r' =? r) && (c' =? c) then k else f r' c') /\ unm f = unm f' + 1.
Proof.
  intros f r c H Hc. unfold add_to_clump. rewrite added_ok by assumption. rewrite Hc. cbn [obind negb assert]. destruct H as [A B].
  rewrite gset_make by assumption. exists (fun x y => if (x =? r) && (y =? c) then k else f x y). split; [reflexivity|]. split; [intros; reflexivity|].
  apply (mark_one f _ r c); [split; assumption|exact Hc|intros; reflexivity].
Qed.

(** Marks the columns [a .. b - 1] of row [r] *)
Definition marks (f f' : Z -> Z -> Z) (r a b : Z) : Prop := forall r' c', f' r' c' = if (r' =? r) && (a <=? c') && (c' <? b) then k else f r' c'.
Lemma marks_nil : forall f r a, marks f f r a a.
Proof. intros f r a r' c'. destruct (Z.eqb_spec r' r), (Z.leb_spec a c'), (Z.ltb_spec c' a); cbn; try reflexivity; lia. Qed.
Lemma marks_in : forall f f' r a b c, marks f f' r a b -> a <= c < b -> f' r c = k.
Proof. intros f f' r a b c H Hc. rewrite H. destruct (Z.eqb_spec r r), (Z.leb_spec a c), (Z.ltb_spec c b); cbn; try reflexivity; lia. Qed.
Lemma marks_out : forall f f' r a b r' c', marks f f' r a b -> r' <> r \/ c' < a \/ b <= c' -> f' r' c' = f r' c'.
Proof. intros f f' r a b r' c' H Hc. rewrite H. destruct (Z.eqb_spec r' r), (Z.leb_spec a c'), (Z.ltb_spec c' b); cbn; try reflexivity; lia. Qed.
Lemma marks_east : forall f f1 f' r a b, a < b -> (forall r' c', f1 r' c' = if (r' =? r) && (c' =? a) then k else f r' c') -> marks f1 f' r (a + 1) b -> marks f f' r a b.
Proof.
  intros f f1 f' r a b Hab H1 H2 r' c'. rewrite H2, H1. destruct (Z.eqb_spec r' r), (Z.leb_spec (a + 1) c'), (Z.ltb_spec c' b), (Z.leb_spec a c'), (Z.eqb_spec c' a); cbn; try reflexivity; lia.
Qed.
Lemma marks_west : forall f f1 f' r a b, a <= b -> (forall r' c', f1 r' c' = if (r' =? r) && (c' =? b) then k else f r' c') -> marks f1 f' r a b -> marks f f' r a (b + 1).
Proof.
  intros f f1 f' r a b Hab H1 H2 r' c'. rewrite H2, H1. destruct (Z.eqb_spec r' r), (Z.leb_spec a c'), (Z.ltb_spec c' b), (Z.ltb_spec c' (b + 1)), (Z.eqb_spec c' b); cbn; try reflexivity; lia.
Qed.

Lemma scan_east_ok : forall fuel r west f, 0 <= r < nr -> 0 <= west <= nc -> (Z.to_nat (nc - west) < fuel)%nat ->
  (forall c, west <= c < nc -> (forall c', west <= c' <= c -> conn r c') -> cnd (f r c) = true) ->
  exists b f', scan_east znd cnd zones zid k fuel r west (gmake nr nc f) = Ok (b, gmake nr nc f') /\ west <= b <= nc /\
    (forall c, west <= c < b -> conn r c) /\ (b = nc \/ ~ conn r b) /\ marks f f' r west b /\ unm f = unm f' + (b - west).
Proof.
  induction fuel as [|fuel IH]; intros r west f Hr Hw Hfu Hun; [lia|]. cbn [scan_east g1 gmake].
  destruct (Z.ltb_spec west nc) as [Hlt|Hge].
  - rewrite connected_ok by (split; lia). cbn [obind]. destruct (cn r west) eqn:Ec.
    + assert (Hcw : conn r west) by (split; [split; lia|assumption]).
      destruct (add_ok f r west) as [f1 [E1 [F1 U1]]]; [split; lia| |].
      { apply Hun; [lia|]. intros c' Hc'. replace c' with west by lia. assumption. }
      rewrite E1. cbn [obind]. destruct (IH r (west + 1) f1) as [b [f' [E2 [B1 [B2 [B3 [B4 B5]]]]]]]; [assumption|lia|lia| |].
      { intros c Hc Hrun. rewrite F1. destruct (Z.eqb_spec c west); [lia|]. rewrite andb_false_r. apply Hun; [lia|]. intros c' Hc'. destruct (Z.eq_dec c' west) as [->|]; [assumption|]. apply Hrun. lia. }
      exists b, f'. split; [exact E2|]. split; [lia|]. split; [|split; [assumption|split; [|lia]]].
      * intros c Hc. destruct (Z.eq_dec c west) as [->|]; [assumption|]. apply B2. lia.
      * eapply marks_east; [lia|exact F1|exact B4].
    + exists west, f. split; [reflexivity|]. split; [lia|]. split; [intros; lia|]. split; [right; intros [_ C]; congruence|]. split; [apply marks_nil|lia].
  - exists west, f. split; [reflexivity|]. split; [lia|]. split; [intros; lia|]. split; [left; lia|]. split; [apply marks_nil|lia].
Qed.

Lemma scan_west_ok : forall fuel r col f, 0 <= r < nr -> 0 <= col <= nc -> (Z.to_nat col < fuel)%nat ->
  (forall c, 0 <= c < col -> (forall c', c <= c' < col -> conn r c') -> cnd (f r c) = true) ->
  exists a f', scan_west znd cnd zones zid k fuel r col (gmake nr nc f) = Ok (a, gmake nr nc f') /\ 0 <= a <= col /\
    (forall c, a <= c < col -> conn r c) /\ (a = 0 \/ ~ conn r (a - 1)) /\ marks f f' r a col /\ unm f = unm f' + (col - a).
Proof.
  induction fuel as [|fuel IH]; intros r col f Hr Hw Hfu Hun; [lia|]. cbn [scan_west].
  destruct (Z.ltb_spec 0 col) as [Hlt|Hge].
  - rewrite connected_ok by (split; lia). cbn [obind]. destruct (cn r (col - 1)) eqn:Ec.
    + assert (Hcw : conn r (col - 1)) by (split; [split; lia|assumption]).
      destruct (add_ok f r (col - 1)) as [f1 [E1 [F1 U1]]]; [split; lia| |].
      { apply Hun; [lia|]. intros c' Hc'. replace c' with (col - 1) by lia. assumption. }
      rewrite E1. cbn [obind]. destruct (IH r (col - 1) f1) as [a [f' [E2 [B1 [B2 [B3 [B4 B5]]]]]]]; [assumption|lia|lia| |].
      { intros c Hc Hrun. rewrite F1. destruct (Z.eqb_spec c (col - 1)); [lia|]. rewrite andb_false_r. apply Hun; [lia|]. intros c' Hc'. destruct (Z.eq_dec c' (col - 1)) as [->|]; [assumption|]. apply Hrun. lia. }
      exists a, f'. split; [exact E2|]. split; [lia|]. split; [|split; [assumption|split; [|lia]]].
      * intros c Hc. destruct (Z.eq_dec c (col - 1)) as [->|]; [assumption|]. apply B2. lia.
      * replace col with (col - 1 + 1) by lia. eapply marks_west; [lia|exact F1|exact B4].
    + exists col, f. split; [reflexivity|]. split; [lia|]. split; [intros; lia|]. split; [right; intros [_ C]; congruence|]. split; [apply marks_nil|lia].
  - exists col, f. split; [reflexivity|]. split; [lia|]. split; [intros; lia|]. split; [left; lia|]. split; [apply marks_nil|lia].
Qed.

Lemma skip_ok : forall fuel r west east, 0 <= r < nr -> 0 <= west -> east < nc -> (Z.to_nat (east + 1 - west) < fuel)%nat ->
  exists w, skip_cells znd zones zid fuel r west east = Ok w /\ west <= w /\ (west <= east + 1 -> w <= east + 1) /\ (forall c, west <= c < w -> ~ conn r c) /\ (w <= east -> conn r w).
Proof.
  induction fuel as [|fuel IH]; intros r west east Hr Hw He Hfu; [lia|]. cbn [skip_cells]. destruct (Z.leb_spec west east) as [Hle|Hgt].
  - rewrite connected_ok by (split; lia). cbn [obind]. destruct (cn r west) eqn:Ec.
    + exists west. split; [reflexivity|]. split; [lia|]. split; [lia|]. split; [intros; lia|]. intros _. split; [split; lia|assumption].
    + destruct (IH r (west + 1) east) as [w [E [A [B [C D]]]]]; [assumption|lia|assumption|lia|]. exists w. split; [exact E|]. split; [lia|]. split; [lia|]. split; [|assumption].
      intros c Hc. destruct (Z.eq_dec c west) as [->|]; [intros [_ X]; congruence|]. apply C. lia.
  - exists west. split; [reflexivity|]. split; [lia|]. split; [lia|]. split; [intros; lia|lia].
Qed.

(** ** The cells to find *)
Context (K : Z -> Z -> Prop) (f0 : Z -> Z -> Z).
Hypothesis K_conn : forall r c, K r c -> conn r c.
Hypothesis K_horizontal : forall r c c', K r c -> conn r c' -> c' = c - 1 \/ c' = c + 1 -> K r c'.
Hypothesis K_vertical : forall r c r' c', K r c -> conn r' c' -> r' = r - 1 \/ r' = r + 1 -> c - delta <= c' <= c + delta -> K r' c'.
Hypothesis f0_not_k : forall r c, inb r c -> f0 r c <> k.
Hypothesis f0_K : forall r c, K r c -> cnd (f0 r c) = true.

Definition Mk (f : Z -> Z -> Z) (r c : Z) : Prop := inb r c /\ f r c = k.
Definition Base (f : Z -> Z -> Z) : Prop := forall r c, inb r c -> f r c = f0 r c \/ f r c = k /\ K r c.

Lemma Mk_K : forall f r c, Base f -> Mk f r c -> K r c.
Proof. intros f r c B [I E]. destruct (B r c I) as [H|[_ H]]; [|exact H]. exfalso. apply (f0_not_k r c I). congruence. Qed.
Lemma K_inb : forall r c, K r c -> inb r c.
Proof. intros r c H. apply (K_conn r c H). Qed.
Lemma K_unmarked : forall f r c, Base f -> K r c -> ~ Mk f r c -> cnd (f r c) = true.
Proof.
  intros f r c B H N. destruct (B r c (K_inb _ _ H)) as [E|[E _]]; [rewrite E; now apply f0_K|]. exfalso. apply N. split; [now apply K_inb|exact E].
Qed.
Lemma Mk_added : forall f r c, Mk f r c -> cnd (f r c) = false.
Proof. intros f r c [_ E]. rewrite E. exact Hk. Qed.
Lemma K_added : forall f r c, Base f -> K r c -> cnd (f r c) = false -> Mk f r c.
Proof. intros f r c B H E. destruct (B r c (K_inb _ _ H)) as [E'|[E' _]]; [|split; [now apply K_inb|exact E']]. rewrite E', f0_K in E by assumption. discriminate. Qed.
Lemma Mk_dec : forall f r c, Base f -> K r c -> {Mk f r c} + {~ Mk f r c}.
Proof. intros f r c B H. destruct (cnd (f r c)) eqn:E; [right; intros M; rewrite (Mk_added _ _ _ M) in E; discriminate|left; now apply K_added]. Qed.

Lemma marks_Mk : forall f f' r a b r' c', marks f f' r a b -> Mk f r' c' -> Mk f' r' c'.
Proof. intros f f' r a b r' c' H [I E]. split; [exact I|]. rewrite H. destruct (_ && _); [reflexivity|exact E]. Qed.
Lemma marks_new : forall f f' r a b c, marks f f' r a b -> 0 <= r < nr -> 0 <= a -> b <= nc -> a <= c < b -> Mk f' r c.
Proof. intros f f' r a b c H Hr Ha Hb Hc. split; [split; lia|]. now apply (marks_in f f' r a b). Qed.
Lemma marks_inv : forall f f' r a b r' c', marks f f' r a b -> Mk f' r' c' -> Mk f r' c' \/ r' = r /\ a <= c' < b.
Proof.
  intros f f' r a b r' c' H [I E]. rewrite H in E. destruct (Z.eqb_spec r' r), (Z.leb_spec a c'), (Z.ltb_spec c' b); cbn in E; try (left; split; assumption). right. lia.
Qed.
Lemma marks_Base : forall f f' r a b, marks f f' r a b -> Base f -> (forall c, a <= c < b -> K r c) -> Base f'.
Proof.
  intros f f' r a b H B HK r' c' I. rewrite H. destruct (Z.eqb_spec r' r), (Z.leb_spec a c'), (Z.ltb_spec c' b); cbn; try (apply B; exact I).
  right. split; [reflexivity|]. subst. apply HK. lia.
Qed.

(** A run of connected cells next to a cell of K *)
Lemma run_K_east : forall r a b, K r a -> (forall c, a <= c < b -> conn r c) -> forall c, a <= c < b -> K r c.
Proof.
  intros r a b Ha Hr. assert (G : forall n : nat, a + Z.of_nat n < b -> K r (a + Z.of_nat n)).
  { induction n as [|n IH]; intros Hn; [rewrite Z.add_0_r; exact Ha|]. apply (K_horizontal r (a + Z.of_nat n)); [apply IH; lia|apply Hr; lia|lia]. }
  intros c Hc. replace c with (a + Z.of_nat (Z.to_nat (c - a))) by lia. apply G. lia.
Qed.
Lemma run_K_west : forall r a b, K r b -> (forall c, a <= c <= b -> conn r c) -> forall c, a <= c <= b -> K r c.
Proof.
  intros r a b Hb Hr. assert (G : forall n : nat, a <= b - Z.of_nat n -> K r (b - Z.of_nat n)).
  { induction n as [|n IH]; intros Hn; [rewrite Z.sub_0_r; exact Hb|]. apply (K_horizontal r (b - Z.of_nat n)); [apply IH; lia|apply Hr; lia|lia]. }
  intros c Hc. replace c with (b - Z.of_nat (Z.to_nat (b - c))) by lia. apply G. lia.
Qed.

(** Marked runs are maximal, except that the cells (row, west - 1) and (row, west) may differ *)
Definition hmax (X : Z -> Z -> Prop) (f : Z -> Z -> Z) : Prop :=
  forall r c, Mk f r c -> (conn r (c + 1) -> Mk f r (c + 1) \/ X r (c + 1)) /\ (conn r (c - 1) -> Mk f r (c - 1)).
Definition none : Z -> Z -> Prop := fun _ _ => False.
Lemma hmax_run_east : forall f r a b, hmax none f -> Mk f r a -> (forall c, a <= c <= b -> conn r c) -> forall c, a <= c <= b -> Mk f r c.
Proof.
  intros f r a b Hm Ha Hr. assert (G : forall n : nat, a + Z.of_nat n <= b -> Mk f r (a + Z.of_nat n)).
  { induction n as [|n IH]; intros Hn; [rewrite Z.add_0_r; exact Ha|]. destruct (Hm r (a + Z.of_nat n)) as [E _]; [apply IH; lia|]. destruct E as [E|[]]; [apply Hr; lia|]. replace (a + Z.of_nat (S n)) with (a + Z.of_nat n + 1) by lia. exact E. }
  intros c Hc. replace c with (a + Z.of_nat (Z.to_nat (c - a))) by lia. apply G. lia.
Qed.
Lemma hmax_run_west : forall X f r a b, hmax X f -> Mk f r b -> (forall c, a <= c <= b -> conn r c) -> forall c, a <= c <= b -> Mk f r c.
Proof.
  intros X f r a b Hm Hb Hr. assert (G : forall n : nat, a <= b - Z.of_nat n -> Mk f r (b - Z.of_nat n)).
  { induction n as [|n IH]; intros Hn; [rewrite Z.sub_0_r; exact Hb|]. destruct (Hm r (b - Z.of_nat n)) as [_ E]; [apply IH; lia|]. replace (b - Z.of_nat (S n)) with (b - Z.of_nat n - 1) by lia. apply E. replace (b - Z.of_nat n - 1) with (b - Z.of_nat (S n)) by lia. apply Hr. lia. }
  intros c Hc. replace c with (b - Z.of_nat (Z.to_nat (b - c))) by lia. apply G. lia.
Qed.

(** ** Requests *)
Definition good_req (X : Z -> Z -> Prop) (f : Z -> Z -> Z) (q : span_request) : Prop :=
  0 <= sr_row q < nr /\ 0 <= sr_west q <= sr_east q /\ sr_east q < nc /\ (sr_direction q = -1 \/ sr_direction q = 1) /\
  (forall c, sr_west q - delta <= c <= sr_east q + delta -> conn (sr_row q) c -> K (sr_row q) c) /\
  (forall c, sr_west q - 1 <= c <= sr_east q + 1 -> K (sr_row q - sr_direction q) c -> Mk f (sr_row q - sr_direction q) c \/ X (sr_row q - sr_direction q) c).
Definition cov (stack : list span_request) (r c : Z) : Prop := exists q, In q stack /\ sr_row q = r /\ sr_west q - delta <= c <= sr_east q + delta.
Definition pend (f : Z -> Z -> Z) (stack : list span_request) (T : Z -> Z -> Prop) : Prop :=
  forall r c r' c', Mk f r c -> r' = r - 1 \/ r' = r + 1 -> c - delta <= c' <= c + delta -> conn r' c' -> Mk f r' c' \/ cov stack r' c' \/ T r' c'.

Lemma good_req_mono : forall (X X' : Z -> Z -> Prop) f f' q, (forall r c, Mk f r c -> Mk f' r c) -> (forall r c, X r c -> K r c -> Mk f' r c \/ X' r c) -> good_req X f q -> good_req X' f' q.
Proof.
  intros X X' f f' q HM HX (A & B & C & D & E & F). repeat split; try assumption; try lia. intros c Hc HK. destruct (F c Hc HK) as [H|H]; [left; now apply HM|now apply HX].
Qed.
Lemma cov_mono : forall s s' r c, incl s s' -> cov s r c -> cov s' r c.
Proof. intros s s' r c H [q [I Q]]. exists q. split; [now apply H|exact Q]. Qed.

Lemma push_ok : forall f r d a b s, 0 <= r < nr -> d = -1 \/ d = 1 -> 0 <= a <= b -> b < nc -> (forall c, a <= c <= b -> Mk f r c) ->
  exists s', push zones k (gmake nr nc f) r d a b s = Ok s' /\ incl s s' /\ Z.of_nat (length s') <= Z.of_nat (length s) + 1 /\
    (forall q, In q s' -> In q s \/ q = SpanRequest (r + d) a b d /\ 0 <= r + d < nr) /\
    (forall c, conn (r + d) c -> a - delta <= c <= b + delta -> cov s' (r + d) c).
Proof.
  intros f r d a b s Hr Hd Ha Hb HM. unfold push. destruct (row_available zones r d) eqn:E.
  - assert (Hrd : 0 <= r + d < nr) by (unfold row_available in E; cbn [g0 gmake] in E; lia).
    assert (V : request_is_valid k (gmake nr nc f) (SpanRequest (r + d) a b d) = true).
    { unfold request_is_valid. cbn [sr_row sr_west sr_east sr_direction g0 g1 gmake]. rewrite !andb_true_iff. repeat split; try lia.
      apply forallb_forall. intros c Hc. apply in_zseq in Hc. replace (r + d - d) with r by lia. rewrite gget_make by lia. destruct (HM c) as [_ H]; [lia|]. rewrite H. apply Z.eqb_refl. }
    rewrite V. cbn [assert]. eexists. split; [reflexivity|]. split; [intros x Hx; right; exact Hx|]. split; [cbn [length]; lia|]. split.
    + intros q [<-|Hq]; [right; split; [reflexivity|exact Hrd]|left; exact Hq].
    + intros c Hc Hac. eexists. split; [left; reflexivity|]. split; [reflexivity|exact Hac].
  - exists s. split; [reflexivity|]. split; [apply incl_refl|]. split; [lia|]. split; [intros q Hq; left; exact Hq|].
    intros c [[I _] _]. exfalso. unfold row_available in E. cbn [g0 gmake] in E. lia.
Qed.

(** The request made for a run *)
Lemma good_run : forall X f r d a b, d = -1 \/ d = 1 -> 0 <= r + d < nr -> 0 <= a <= b -> b < nc -> (forall c, a <= c <= b -> K r c) ->
  (forall c, a - 1 <= c <= b + 1 -> K r c -> Mk f r c \/ X r c) -> good_req X f (SpanRequest (r + d) a b d).
Proof.
  intros X f r d a b Hd Hrd Ha Hb HK HB. unfold good_req. cbn [sr_row sr_west sr_east sr_direction]. repeat split; try assumption; try lia.
  - intros c Hc Hconn. destruct (Z.lt_ge_cases c a).
    + apply (K_vertical r a); [apply HK; lia|exact Hconn|lia|pose proof delta_range; lia].
    + destruct (Z.lt_ge_cases b c).
      * apply (K_vertical r b); [apply HK; lia|exact Hconn|lia|pose proof delta_range; lia].
      * apply (K_vertical r c); [apply HK; lia|exact Hconn|lia|pose proof delta_range; lia].
  - intros c Hc. replace (r + d - d) with r by lia. apply HB. exact Hc.
Qed.

(** ** One request *)
Definition marked (f f' : Z -> Z -> Z) : Prop := forall r c, Mk f r c -> Mk f' r c.

Section Request.
Context (row w e d : Z) (fs : Z -> Z -> Z).
Hypothesis Hrow : 0 <= row < nr.
Hypothesis Hw : 0 <= w <= e.
Hypothesis He : e < nc.
Hypothesis Hd : d = -1 \/ d = 1.
Hypothesis HA : forall c, w - delta <= c <= e + delta -> conn row c -> K row c.

Definition openX (west col : Z) : Z -> Z -> Prop := fun r c => col < west /\ r = row /\ c = west.
Definition openT (west col : Z) : Z -> Z -> Prop :=
  fun r c => (r = row /\ w - delta <= c <= e + delta) \/ (col < west /\ r = row + d /\ col - delta <= c <= west - 1 + delta).

Record LS (M : Z) (f : Z -> Z -> Z) (s : list span_request) (west col : Z) : Prop := {
  ls_from : marked fs f;
  ls_base : Base f;
  ls_west : w <= west;
  ls_col : 0 <= col <= west;
  ls_open : col < west -> west = w /\ (forall c, col <= c < west -> Mk f row c) /\ ~ conn row (col - 1);
  ls_hmax : hmax (openX west col) f;
  ls_done : forall c, w - delta <= c < west -> conn row c -> Mk f row c;
  ls_left : conn row west -> conn row (west - 1) -> Mk f row (west - 1);
  ls_pend : pend f s (openT west col);
  ls_good : forall q, In q s -> good_req (openX west col) f q;
  ls_B : forall c, w - 1 <= c <= e + 1 -> K (row - d) c -> Mk f (row - d) c;
  ls_measure : Z.of_nat (length s) + 3 * unm f + (if col <? west then 2 else 0) <= M }.

Lemma run_unmarked_east : forall X f west, Base f -> hmax X f -> ~ Mk f row west -> (conn row west -> K row west) ->
  forall c, west <= c < nc -> (forall c', west <= c' <= c -> conn row c') -> cnd (f row c) = true.
Proof.
  intros X f west B Hm Hn HK c Hc Hrun. apply K_unmarked; [exact B| |].
  - apply (run_K_east row west (c + 1)); [apply HK, Hrun; lia|intros; apply Hrun; lia|lia].
  - intros M. apply Hn. apply (hmax_run_west X f row west c); [exact Hm|exact M|exact Hrun|lia].
Qed.

(** Marking what is at the current column *)
Lemma fill_step : forall X f west, Base f -> hmax X f -> w <= west <= e ->
  exists b f', obind (added_already cnd (gmake nr nc f) row west) (fun added => if added then Ok (west, gmake nr nc f) else scan_east znd cnd zones zid k (columns zones) row west (gmake nr nc f)) = Ok (b, gmake nr nc f') /\
    west <= b <= nc /\ marks f f' row west b /\ (forall c, west <= c < b -> K row c) /\ (conn row b -> Mk f' row b) /\ (west < b -> ~ conn row b) /\
    (conn row west -> Mk f' row west) /\ unm f = unm f' + (b - west).
Proof.
  intros X f west B Hm Hwe. rewrite added_ok by (split; lia). cbn [obind].
  assert (HK : conn row west -> K row west) by (intros; apply HA; [pose proof delta_range; lia|assumption]).
  destruct (cnd (f row west)) eqn:E; cbn [negb].
  - destruct (scan_east_ok (columns zones) row west f) as [b [f' (E1 & B1 & B2 & B3 & B4 & B5)]]; [lia|lia|unfold columns; cbn [g1 gmake]; lia| |].
    { apply (run_unmarked_east X); auto. intros M. rewrite (Mk_added _ _ _ M) in E. discriminate. }
    assert (N : ~ conn row b). { destruct B3 as [->|]; [intros [[_ ?] _]; lia|assumption]. }
    exists b, f'. split; [exact E1|]. split; [lia|]. split; [exact B4|]. split; [|split; [intros; contradiction|split; [intros; exact N|split; [|lia]]]].
    + intros c Hc. apply (run_K_east row west b); [apply HK, B2; lia|exact B2|lia].
    + intros C. destruct (Z.eq_dec b west) as [->|]; [contradiction|]. apply (marks_new f f' row west b); auto; lia.
  - exists west, f. split; [reflexivity|]. split; [lia|]. split; [apply marks_nil|]. split; [intros; lia|].
    assert (H : conn row west -> Mk f row west) by (intros C; apply K_added; auto). split; [exact H|]. split; [lia|]. split; [exact H|lia].
Qed.

Lemma maybe_push : forall (b : bool) f r d' x y s, 0 <= r < nr -> d' = -1 \/ d' = 1 ->
  (b = true -> 0 <= x <= y /\ y < nc /\ forall c, x <= c <= y -> Mk f r c) ->
  exists s', (if b then push zones k (gmake nr nc f) r d' x y s else Ok s) = Ok s' /\ incl s s' /\ Z.of_nat (length s') <= Z.of_nat (length s) + (if b then 1 else 0) /\
    (forall q, In q s' -> In q s \/ b = true /\ q = SpanRequest (r + d') x y d' /\ 0 <= r + d' < nr) /\
    (b = true -> forall c, conn (r + d') c -> x - delta <= c <= y + delta -> cov s' (r + d') c).
Proof.
  intros b f r d' x y s Hr Hd' H. destruct b.
  - destruct (H eq_refl) as (H1 & H2 & H3). destruct (push_ok f r d' x y s Hr Hd' H1 H2 H3) as [s' (E & I & L & Q & C)]. exists s'.
    split; [exact E|]. split; [exact I|]. split; [exact L|]. split; [|intros _; exact C]. intros q Hq. destruct (Q q Hq) as [|[-> Hq']]; [left; assumption|right; auto].
  - exists s. split; [reflexivity|]. split; [apply incl_refl|]. split; [lia|]. split; [auto|discriminate].
Qed.

Lemma span_loop_ok : forall fuel M f s west col, (Z.to_nat (e + 1 - west) < fuel)%nat -> LS M f s west col ->
  exists west' col' f' s', span_loop znd cnd zones zid k fuel row e d west col (gmake nr nc f) s = Ok (west', gmake nr nc f', s') /\ LS M f' s' west' col' /\ e < west'.
Proof.
  induction fuel as [|fuel IH]; intros M f s west col Hfu L; [lia|]. cbn [span_loop]. destruct (Z.leb_spec west e) as [Hle|Hgt].
  2:{ exists west, col, f, s. split; [reflexivity|]. split; [exact L|lia]. }
  destruct L as [LF LB LW LC LO LH LD LL LP LG LQ LM]. pose proof delta_range as Hdel.
  destruct (fill_step (openX west col) f west LB LH) as [b [f' (E1 & Hb & Hmk & HKb & Hcb & Hnb & Hcw & HU)]]; [lia|].
  rewrite added_ok in * by (split; lia). cbn [obind] in E1 |- *. rewrite E1. cbn [obind]. clear E1.
  assert (Hmono : marked f f') by (intros r c; apply marks_Mk with (1 := Hmk)).
  assert (Hrun : forall c, col <= c < b -> Mk f' row c).
  { intros c Hc. destruct (Z.lt_ge_cases c west); [|apply (marks_new f f' row west b); auto; lia]. apply Hmono. apply LO; lia. }
  assert (HB' : Base f') by (apply (marks_Base f f' row west b); auto).
  destruct (maybe_push (col <? b) f' row d col (b - 1) s Hrow Hd) as [s1 (P1 & I1 & L1 & Q1 & C1)].
  { intros Hlt. split; [lia|]. split; [lia|]. intros c Hc. apply Hrun. lia. }
  rewrite P1. cbn [obind]. clear P1.
  destruct (maybe_push (e <? b - 1) f' row (- d) (e + 1) (b - 1) s1 Hrow) as [s2 (P2 & I2 & L2 & Q2 & C2)]; [lia| |].
  { intros Hlt. split; [lia|]. split; [lia|]. intros c Hc. apply Hrun. lia. }
  rewrite P2. cbn [obind]. clear P2.
  destruct (skip_ok (columns zones) row (b + 1) e) as [w' (E3 & W1 & W2 & W3 & W4)]; [lia|lia|lia|unfold columns; cbn [g1 gmake]; lia|].
  rewrite E3. cbn [obind]. clear E3.
  apply IH; [lia|].
  assert (Hdone : forall c, w - delta <= c < w' -> conn row c -> Mk f' row c).
  { intros c Hc Hconn. destruct (Z.lt_ge_cases c west); [apply Hmono, LD; [lia|assumption]|]. destruct (Z.lt_ge_cases c b); [apply Hrun; lia|].
    destruct (Z.eq_dec c b) as [->|]; [auto|]. exfalso. apply (W3 c); [lia|exact Hconn]. }
  assert (HkM : col < b -> forall c, col - 1 <= c <= b -> K row c -> Mk f' row c).
  { intros Hcb' c Hc HKc. pose proof (K_conn _ _ HKc) as Hcc. destruct (Z.eq_dec c b) as [->|]; [auto|]. destruct (Z.lt_ge_cases c col); [|apply Hrun; lia].
    assert (c = col - 1) by lia. subst c. destruct (Z.lt_ge_cases col west) as [Ho|Ho]; [exfalso; now apply (LO Ho)|]. assert (col = west) by lia. subst col.
    apply Hmono, LL; [apply K_conn, HKb; lia|exact Hcc]. }
  assert (Hrun_K : forall c, col <= c < b -> K row c) by (intros c Hc; apply (Mk_K f'); auto).
  assert (Hx : forall r c, openX west col r c -> K r c -> Mk f' r c \/ openX w' w' r c).
  { intros r c (_ & -> & ->) HKc. left. apply Hcw. now apply K_conn. }
  constructor.
  - intros r c H. auto.
  - exact HB'.
  - lia.
  - lia.
  - lia.
  - intros r c HM. destruct (marks_inv _ _ _ _ _ _ _ Hmk HM) as [HM'|[-> Hc]].
    + destruct (LH r c HM') as [H1 H2]. split; [|intros C; apply Hmono; auto]. intros C. left. destruct (H1 C) as [H|(Ho & -> & Heq)]; [auto|]. rewrite Heq in *. auto.
    + split.
      * intros C. left. destruct (Z.eq_dec (c + 1) b) as [Eb|]; [rewrite Eb in *; auto|]. apply Hrun. lia.
      * intros C. destruct (Z.eq_dec c west) as [->|]; [|apply Hrun; lia]. apply Hmono, LL; [apply K_conn, HKb; lia|exact C].
  - exact Hdone.
  - intros _ C. apply Hdone; [lia|exact C].
  - intros r c r' c' HM Hr' Hc' Hconn. destruct (marks_inv _ _ _ _ _ _ _ Hmk HM) as [HM'|[-> Hc]].
    + destruct (LP r c r' c' HM' Hr' Hc' Hconn) as [H|[H|[H|(Ho & -> & H)]]].
      * left. auto.
      * right. left. apply (cov_mono s1); [exact I2|]. apply (cov_mono s); assumption.
      * right. right. left. exact H.
      * right. left. apply (cov_mono s1); [exact I2|]. apply C1; [lia|exact Hconn|lia].
    + assert (HKc' : K r' c') by (apply (K_vertical row c); [apply HKb; lia|exact Hconn|exact Hr'|exact Hc']).
      destruct (Z.eq_dec r' (row + d)) as [->|Nr].
      * right. left. apply (cov_mono s1); [exact I2|]. apply C1; [lia|exact Hconn|lia].
      * assert (r' = row - d) by lia. subst r'. destruct (Z.le_gt_cases c' (e + 1)).
        -- left. apply Hmono, LQ; [lia|exact HKc'].
        -- right. left. replace (row - d) with (row + - d) in * by lia. apply C2; [lia|exact Hconn|lia].
  - intros q Hq. destruct (Q2 q Hq) as [Hq1|(Hlt & -> & Hin)].
    + destruct (Q1 q Hq1) as [Hq0|(Hlt & -> & Hin)].
      * apply (good_req_mono (openX west col) _ f f'); auto.
      * apply good_run; auto; try lia; [intros c Hc; apply Hrun_K; lia|]. intros c Hc HKc. left. apply HkM; [lia|lia|exact HKc].
    + apply good_run; auto; try lia; [intros c Hc; apply Hrun_K; lia|]. intros c Hc HKc. left. apply HkM; [lia|lia|exact HKc].
  - intros c Hc HKc. apply Hmono. auto.
  - destruct (Z.ltb_spec w' w'); [lia|]. destruct (Z.ltb_spec col west), (Z.ltb_spec col b), (Z.ltb_spec e (b - 1)); lia.
Qed.

(** Looking to the west of the span *)
Lemma start_ok : forall M f s, marked fs f -> Base f -> hmax none f -> pend f s (fun r c => r = row /\ w - delta <= c <= e + delta) -> (forall q, In q s -> good_req none f q) ->
  (forall c, w - 1 <= c <= e + 1 -> K (row - d) c -> Mk f (row - d) c) -> Z.of_nat (length s) + 3 * unm f <= M ->
  exists col f' s',
    obind (look_west znd cnd how zones zid row w (gmake nr nc f)) (fun look =>
      if look then
           obind (scan_west znd cnd zones zid k (columns zones) row w (gmake nr nc f)) (fun '(col, clumps) =>
           let end_ := match how with Nondiagonal => w - 1 | Diagonal => w end in
           obind (if col <? end_ then push zones k clumps row (- d) col (end_ - 1) s else Ok s) (fun requests =>
           Ok (col, clumps, requests)))
         else Ok (w, gmake nr nc f, s)) = Ok (col, gmake nr nc f', s') /\ LS M f' s' w col.
Proof.
  intros M f s HF HB Hm HP HG HQ HM. pose proof delta_range as Hdel.
  assert (Hnone : (conn row w -> conn row (w - 1) -> Mk f row (w - 1)) -> (forall c, w - delta <= c < w -> conn row c -> Mk f row c) -> LS M f s w w).
  { intros HL HDn. constructor; auto; try lia.
    - intros r c H. destruct (Hm r c H) as [H1 H2]. split; [|exact H2]. intros C. destruct (H1 C) as [|[]]. left. assumption.
    - intros r c r' c' H1 H2 H3 H4. destruct (HP r c r' c' H1 H2 H3 H4) as [|[|]]; auto. right. right. left. assumption.
    - intros q Hq. apply (good_req_mono none _ f f); auto. intros r c [].
    - destruct (Z.ltb_spec w w); lia. }
  unfold look_west. destruct (Z.ltb_spec 0 w) as [Hw0|Hw0].
  2:{ cbn [obind]. exists w, f, s. split; [reflexivity|]. apply Hnone; [intros _ [[_ ?] _]; lia|]. intros c Hc [[_ ?] _]. lia. }
  set (c0 := match how with Nondiagonal => w | Diagonal => w - 1 end). assert (Hc0 : w - delta = match how with Nondiagonal => w | Diagonal => w - 1 end) by (unfold delta; destruct how; lia).
  rewrite connected_ok by (split; [lia|unfold c0; destruct how; lia]). cbn [obind]. destruct (cn row c0) eqn:Ec.
  2:{ cbn [obind]. exists w, f, s. split; [reflexivity|]. unfold c0 in Ec. apply Hnone.
      - intros [_ C1] [_ C2]. destruct how; congruence.
      - intros c Hc [_ C]. unfold delta in Hc. destruct how; [|lia]. replace c with (w - 1) in C by lia. congruence. }
  rewrite added_ok by (split; lia). cbn [obind].
  assert (HKc0 : K row c0) by (apply HA; [unfold c0, delta; destruct how; lia|split; [split; [lia|unfold c0; destruct how; lia]|exact Ec]]).
  assert (HKw1 : conn row (w - 1) -> K row (w - 1)).
  { intros C. unfold c0 in HKc0. destruct how; [exact HKc0|]. apply (K_horizontal row w); [exact HKc0|exact C|lia]. }
  destruct (cnd (f row (w - 1))) eqn:Ea; cbn [negb].
  2:{ cbn [obind]. exists w, f, s. split; [reflexivity|]. assert (H : conn row (w - 1) -> Mk f row (w - 1)) by (intros C; apply K_added; auto). apply Hnone; [auto|].
      intros c Hc C. replace c with (w - 1) in * by lia. auto. }
  assert (HnM : ~ Mk f row (w - 1)) by (intros C; rewrite (Mk_added _ _ _ C) in Ea; discriminate).
  cbn [obind]. destruct (scan_west_ok (columns zones) row w f) as [a [f' (E1 & B1 & B2 & B3 & B4 & B5)]]; [lia|lia|unfold columns; cbn [g1 gmake]; lia| |].
  { intros c Hc Hrun. apply K_unmarked; [exact HB| |].
    - apply (run_K_west row c (w - 1)); [apply HKw1, Hrun; lia|intros; apply Hrun; lia|lia].
    - intros C. apply HnM. apply (hmax_run_east f row c (w - 1)); [exact Hm|exact C|intros; apply Hrun; lia|lia]. }
  rewrite E1. cbn [obind]. clear E1. cbv zeta.
  assert (Na : ~ conn row (a - 1)). { destruct B3 as [->|]; [intros [[_ ?] _]; lia|assumption]. }
  assert (HKrun : forall c, a <= c < w -> K row c).
  { intros c Hc. apply (run_K_west row a (w - 1)); [apply HKw1, B2; lia|intros; apply B2; lia|lia]. }
  assert (Hrun : forall c, a <= c < w -> Mk f' row c) by (intros c Hc; apply (marks_new f f' row a w); auto; lia).
  assert (Hmono : marked f f') by (intros r c; apply marks_Mk with (1 := B4)).
  set (e_ := match how with Nondiagonal => w - 1 | Diagonal => w end). assert (He_ : e_ = w - 1 + delta) by (unfold e_, delta; destruct how; lia).
  destruct (maybe_push (a <? e_) f' row (- d) a (e_ - 1) s Hrow) as [s1 (P1 & I1 & L1 & Q1 & C1)]; [lia| |].
  { intros Hlt. split; [lia|]. split; [lia|]. intros c Hc. apply Hrun. lia. }
  rewrite P1. cbn [obind]. clear P1. exists a, f', s1. split; [reflexivity|].
  destruct (Z.eq_dec a w) as [->|Naw].
  { (* the cell at the west is not connected *)
    assert (f' = f \/ True) by auto. assert (Ns : s1 = s \/ True) by auto. clear H Ns.
    assert (Hinv : forall r c, Mk f' r c -> Mk f r c) by (intros r c H; destruct (marks_inv _ _ _ _ _ _ _ B4 H) as [|[_ ?]]; [assumption|lia]).
    constructor; auto; try lia.
    - intros r c H. auto.
    - apply (marks_Base f f' row w w); auto.
    - intros r c H. destruct (Hm r c (Hinv _ _ H)) as [H1 H2]. split; [|auto]. intros C. destruct (H1 C) as [|[]]. left. auto.
    - intros c Hc C. replace c with (w - 1) in C by lia. contradiction.
    - intros _ C. contradiction.
    - intros r c r' c' H1 H2 H3 H4. destruct (HP r c r' c' (Hinv _ _ H1) H2 H3 H4) as [|[|]]; auto.
      + right. left. apply (cov_mono s); auto.
      + right. right. left. assumption.
    - intros q Hq. destruct (Q1 q Hq) as [Hq0|(Hlt & _)]; [|lia]. apply (good_req_mono none _ f f'); auto. intros r c [].
    - destruct (Z.ltb_spec w w); [lia|]. destruct (Z.ltb_spec w e_); lia. }
  constructor; auto; try lia.
  - intros r c H. auto.
  - apply (marks_Base f f' row a w); auto.
  - intros r c H. destruct (marks_inv _ _ _ _ _ _ _ B4 H) as [HM'|[-> Hc]].
    + destruct (Hm r c HM') as [H1 H2]. split; [|auto]. intros C. destruct (H1 C) as [|[]]. left. auto.
    + split.
      * intros C. destruct (Z.eq_dec (c + 1) w) as [Ew|]; [right; split; [lia|split; [reflexivity|exact Ew]]|]. left. apply Hrun. lia.
      * intros C. destruct (Z.eq_dec c a) as [->|]; [contradiction|]. apply Hrun. lia.
  - intros c Hc C. apply Hrun. lia.
  - intros _ C. apply Hrun. lia.
  - intros r c r' c' H1 H2 H3 H4. destruct (marks_inv _ _ _ _ _ _ _ B4 H1) as [HM'|[-> Hc]].
    + destruct (HP r c r' c' HM' H2 H3 H4) as [|[|]]; auto.
      * right. left. apply (cov_mono s); auto.
      * right. right. left. assumption.
    + assert (HKc' : K r' c') by (apply (K_vertical row c); auto).
      destruct (Z.eq_dec r' (row + d)) as [->|Nr]; [right; right; right; lia|]. assert (r' = row - d) by lia. subst r'.
      destruct (Z.le_gt_cases (w - 1) c'); [left; apply Hmono, HQ; [lia|exact HKc']|]. right. left. replace (row - d) with (row + - d) in * by lia. apply C1; [lia|exact H4|lia].
  - intros q Hq. destruct (Q1 q Hq) as [Hq0|(Hlt & -> & Hin)].
    + apply (good_req_mono none _ f f'); auto. intros r c [].
    + apply good_run; auto; try lia; [intros c Hc; apply HKrun; lia|]. intros c Hc HKc. destruct (Z.eq_dec c w) as [->|]; [right; split; [lia|split; reflexivity]|]. left.
      destruct (Z.eq_dec c (a - 1)) as [->|]; [exfalso; apply Na, K_conn, HKc|]. apply Hrun. lia.
  - destruct (Z.ltb_spec a w), (Z.ltb_spec a e_); lia.
Qed.
End Request.

Lemma handle_request_ok : forall q f s, Base f -> hmax none f -> good_req none f q -> (forall q', In q' s -> good_req none f q') -> pend f (q :: s) none ->
  exists f' s', handle_request znd cnd how zones zid k q (gmake nr nc f) s = Ok (gmake nr nc f', s') /\ Base f' /\ hmax none f' /\ (forall q', In q' s' -> good_req none f' q') /\ pend f' s' none /\
    Z.of_nat (length s') + 3 * unm f' <= Z.of_nat (length s) + 3 * unm f /\ (forall c, sr_west q <= c <= sr_east q -> conn (sr_row q) c -> Mk f' (sr_row q) c) /\ marked f f'.
Proof.
  intros [row w e d] f s HB Hm (Hrow & Hw & He & Hd & HA & HQ) HG HP. cbn [sr_row sr_west sr_east sr_direction] in *. pose proof delta_range as Hdel. unfold handle_request. cbn [sr_row sr_west sr_east sr_direction].
  destruct (start_ok row w e d f Hrow Hw He Hd HA (Z.of_nat (length s) + 3 * unm f) f s) as [col [f1 [s1 (E1 & L1)]]]; auto.
  { intros r c H. exact H. }
  { intros r c r' c' H1 H2 H3 H4. destruct (HP r c r' c' H1 H2 H3 H4) as [H|[[q [[<-|I] [Q1 Q2]]]|[]]]; auto.
    right. left. exists q. auto. }
  { intros c Hc HKc. destruct (HQ c Hc HKc) as [|[]]. assumption. }
  { lia. }
  destruct (look_west znd cnd how zones zid row w (gmake nr nc f)) as [look| |] eqn:El; cbn [obind] in E1 |- *; [|discriminate|discriminate].
  rewrite E1. cbn [obind]. clear E1.
  destruct (span_loop_ok row w e d f Hrow Hw He Hd HA (columns zones) (Z.of_nat (length s) + 3 * unm f) f1 s1 w col) with (2 := L1) as [west [col' [f2 [s2 (E2 & L2 & Hwe)]]]]; [unfold columns; cbn [g1 gmake]; lia|].
  rewrite E2. cbn [obind]. clear E2 L1 El. destruct L2 as [LF LB LW LC LO LH LD LL LP LG LQ LM].
  assert (col' = west) by (destruct (Z.lt_ge_cases col' west); [destruct LO as [LO _]; lia|lia]). subst col'.
  assert (Hopen : forall r c, ~ openX row west west r c) by (intros r c [? _]; lia).
  assert (Hm2 : hmax none f2). { intros r c H. destruct (LH r c H) as [H1 H2]. split; [|exact H2]. intros C. destruct (H1 C) as [|H3]; [left; assumption|]. destruct (Hopen _ _ H3). }
  assert (Hg2 : forall q', In q' s2 -> good_req none f2 q'). { intros q' Hq. apply (good_req_mono (openX row west west) _ f2 f2); auto. intros r c H3. destruct (Hopen _ _ H3). }
  assert (Hmeas : Z.of_nat (length s2) + 3 * unm f2 <= Z.of_nat (length s) + 3 * unm f) by (destruct (Z.ltb_spec west west); lia).
  assert (Hnow : (conn row (e + 1) -> delta = 1 -> west = e + 1 -> Mk f2 row (e + 1)) -> exists f' s', Ok (gmake nr nc f2, s2) = Ok (gmake nr nc f', s') /\ Base f' /\ hmax none f' /\ (forall q', In q' s' -> good_req none f' q') /\ pend f' s' none /\
    Z.of_nat (length s') + 3 * unm f' <= Z.of_nat (length s) + 3 * unm f /\ (forall c, w <= c <= e -> conn row c -> Mk f' row c) /\ marked f f').
  { intros Hlast. exists f2, s2. split; [reflexivity|]. split; [exact LB|]. split; [exact Hm2|]. split; [exact Hg2|]. split; [|split; [exact Hmeas|split; [|exact LF]]].
    - intros r c r' c' H1 H2 H3 H4. destruct (LP r c r' c' H1 H2 H3 H4) as [|[|[[-> Hc]|[? _]]]]; auto; [|lia]. left.
      destruct (Z.lt_ge_cases c' west); [apply LD; [lia|exact H4]|]. assert (c' = e + 1) by lia. subst c'. apply Hlast; [exact H4|lia|lia].
    - intros c Hc C. apply LD; [lia|exact C]. }
  destruct how eqn:Ehow.
  2:{ apply Hnow. unfold delta. rewrite Ehow. lia. }
  assert (Hdelta1 : delta = 1) by (unfold delta; rewrite Ehow; reflexivity).
  destruct (Z.ltb_spec e (g1 zones - 1)) as [Hin|Hin]; cbn [g1 gmake] in Hin; cbn [andb].
  2:{ apply Hnow. intros [[_ ?] _]. lia. }
  destruct (Z.eqb_spec (west - 1) e) as [Heq|Hne].
  2:{ apply Hnow. lia. }
  assert (Hwest : west = e + 1) by lia. clear Heq.
  rewrite connected_ok by (split; lia). cbn [obind]. destruct (cn row west) eqn:Ec.
  2:{ cbn [obind andb]. apply Hnow. intros [_ C] _ _. congruence. }
  rewrite added_ok by (split; lia). cbn [obind].
  assert (HKw : K row west) by (apply HA; [lia|split; [split; lia|exact Ec]]).
  destruct (cnd (f2 row west)) eqn:Ea; cbn [negb andb].
  2:{ apply Hnow. intros _ _ _. rewrite <- Hwest. apply K_added; auto. }
  assert (HnM : ~ Mk f2 row west) by (intros C; rewrite (Mk_added _ _ _ C) in Ea; discriminate).
  destruct (scan_east_ok (columns zones) row west f2) as [b [f3 (E3 & B1 & B2 & B3 & B4 & B5)]]; [lia|lia|unfold columns; cbn [g1 gmake]; lia| |].
  { eapply run_unmarked_east with (X := none); eauto. }
  rewrite E3. cbn [obind]. clear E3.
  assert (Nb : ~ conn row b). { destruct B3 as [->|]; [intros [[_ ?] _]; lia|assumption]. }
  assert (west < b). { destruct (Z.eq_dec b west) as [->|]; [|lia]. exfalso. apply Nb. split; [split; lia|exact Ec]. }
  assert (Hrun : forall c, west <= c < b -> Mk f3 row c) by (intros c Hc; apply (marks_new f2 f3 row west b); auto; lia).
  assert (Hmono : marked f2 f3) by (intros r c; apply marks_Mk with (1 := B4)).
  assert (HKrun : forall c, west <= c < b -> K row c) by (apply run_K_east; auto).
  destruct (push_ok f3 row d (e + 1) (b - 1) s2 Hrow Hd) as [s3 (P3 & I3 & L3 & Q3 & C3)]; [lia|lia|intros; apply Hrun; lia|].
  rewrite P3. cbn [obind]. clear P3.
  destruct (push_ok f3 row (- d) (e + 1) (b - 1) s3 Hrow) as [s4 (P4 & I4 & L4 & Q4 & C4)]; [lia|lia|lia|intros; apply Hrun; lia|].
  rewrite P4. cbn [obind]. clear P4.
  assert (HkM : forall c, e <= c <= b -> K row c -> Mk f3 row c).
  { intros c Hc HKc. pose proof (K_conn _ _ HKc) as Hcc. destruct (Z.eq_dec c b) as [->|]; [contradiction|]. destruct (Z.lt_ge_cases c west); [|apply Hrun; lia].
    apply Hmono, LD; [lia|exact Hcc]. }
  exists f3, s4. split; [reflexivity|]. split; [|split; [|split; [|split; [|split; [|split]]]]].
  - apply (marks_Base f2 f3 row west b); auto.
  - intros r c H'. destruct (marks_inv _ _ _ _ _ _ _ B4 H') as [HM'|[-> Hc]].
    + destruct (Hm2 r c HM') as [H1 H2]. split; [|auto]. intros C. destruct (H1 C) as [|[]]. left. auto.
    + split.
      * intros C. left. destruct (Z.eq_dec (c + 1) b) as [Eb|]; [rewrite Eb in *; contradiction|]. apply Hrun. lia.
      * intros C. destruct (Z.eq_dec c west) as [->|]; [|apply Hrun; lia]. apply Hmono, LD; [lia|exact C].
  - intros q' Hq. destruct (Q4 q' Hq) as [Hq1|[-> Hin']].
    + destruct (Q3 q' Hq1) as [Hq0|[-> Hin']].
      * apply (good_req_mono none _ f2 f3); auto.
      * apply good_run; auto; try lia; [intros c Hc; apply HKrun; lia|]. intros c Hc HKc. left. apply HkM; [lia|exact HKc].
    + apply good_run; auto; try lia; [intros c Hc; apply HKrun; lia|]. intros c Hc HKc. left. apply HkM; [lia|exact HKc].
  - intros r c r' c' H1 H2 H3 H4. destruct (marks_inv _ _ _ _ _ _ _ B4 H1) as [HM'|[-> Hc]].
    + destruct (LP r c r' c' HM' H2 H3 H4) as [|[|[[-> Hc]|[? _]]]]; [left; auto| | |lia].
      * right. left. apply (cov_mono s3); [exact I4|]. apply (cov_mono s2); assumption.
      * left. destruct (Z.lt_ge_cases c' west); [apply Hmono, LD; [lia|exact H4]|]. apply Hrun. lia.
    + right. left. destruct (Z.eq_dec r' (row + d)) as [->|Nr].
      * apply (cov_mono s3); [exact I4|]. apply C3; [exact H4|lia].
      * assert (r' = row + - d) by lia. subst r'. apply C4; [exact H4|lia].
  - lia.
  - intros c Hc C. apply Hmono, LD; [lia|exact C].
  - intros r c H'. auto.
Qed.

Lemma handle_requests_ok : forall fuel f s, Base f -> hmax none f -> (forall q', In q' s -> good_req none f q') -> pend f s none -> Z.of_nat (length s) + 3 * unm f <= Z.of_nat fuel ->
  exists f', handle_requests znd cnd how zones zid k fuel (gmake nr nc f) s = Ok (gmake nr nc f') /\ Base f' /\ hmax none f' /\ pend f' [] none /\ marked f f' /\
    match s with q :: _ => forall c, sr_west q <= c <= sr_east q -> conn (sr_row q) c -> Mk f' (sr_row q) c | [] => True end.
Proof.
  induction fuel as [|fuel IH]; intros f [|q s] HB Hm HG HP HM; cbn [handle_requests].
  - exists f. split; [reflexivity|]. split; [exact HB|]. split; [exact Hm|]. split; [exact HP|]. split; [intros r c H; exact H|exact I].
  - exfalso. cbn [length] in HM. unfold unm in HM. lia.
  - exists f. split; [reflexivity|]. split; [exact HB|]. split; [exact Hm|]. split; [exact HP|]. split; [intros r c H; exact H|exact I].
  - destruct (handle_request_ok q f s HB Hm) as [f1 [s1 (E & B1 & B2 & B3 & B4 & B5 & B6 & B7)]]; [apply HG; left; reflexivity|intros; apply HG; right; assumption|exact HP|].
    rewrite E. cbn [obind]. cbn [length] in HM. destruct (IH f1 s1 B1 B2 B3 B4) as [f' (E' & C1 & C2 & C3 & C4 & C5)]; [lia|]. exists f'. split; [exact E'|]. split; [exact C1|]. split; [exact C2|]. split; [exact C3|]. split; [intros r c H; auto|].
    intros c Hc C. apply C4, B6; assumption.
Qed.

(** A request that concerns no connected cell *)
Lemma handle_nothing : forall q f s, 0 <= sr_row q < nr -> 0 <= sr_west q < nc -> sr_east q = sr_west q -> sr_direction q = -1 \/ sr_direction q = 1 ->
  (forall c, sr_west q - delta <= c <= sr_west q + delta -> ~ conn (sr_row q) c) ->
  handle_request znd cnd how zones zid k q (gmake nr nc f) s = Ok (gmake nr nc f, s).
Proof.
  intros [row w e d] f s Hrow Hw He Hd HN. cbn [sr_row sr_west sr_east sr_direction] in *. subst e. pose proof delta_range as Hdel. unfold handle_request. cbn [sr_row sr_west sr_east sr_direction].
  assert (Hcn : forall c, 0 <= c < nc -> w - delta <= c <= w + delta -> cn row c = false).
  { intros c Hc Hc'. destruct (cn row c) eqn:E; [|reflexivity]. exfalso. apply (HN c Hc'). split; [split; lia|exact E]. }
  assert (El : look_west znd cnd how zones zid row w (gmake nr nc f) = Ok false).
  { unfold look_west. destruct (Z.ltb_spec 0 w); [|reflexivity]. rewrite connected_ok by (split; [lia|destruct how; lia]). rewrite Hcn; [reflexivity|destruct how; lia|unfold delta; destruct how; lia]. }
  rewrite El. cbn [obind].
  assert (Es : span_loop znd cnd zones zid k (columns zones) row w d w w (gmake nr nc f) s = Ok (w + 1, gmake nr nc f, s)).
  { unfold columns. cbn [g1 gmake]. remember (Z.to_nat nc) as n eqn:En. destruct n as [|n]; [lia|]. cbn [span_loop]. destruct (Z.leb_spec w w); [|lia]. rewrite added_ok by (split; lia). cbn [obind].
    assert (Ef : (if negb (cnd (f row w)) then Ok (w, gmake nr nc f) else scan_east znd cnd zones zid k (columns zones) row w (gmake nr nc f)) = Ok (w, gmake nr nc f)).
    { destruct (cnd (f row w)); [|reflexivity]. cbn [negb]. unfold columns. cbn [g1 gmake scan_east]. destruct (Z.ltb_spec w nc); [|lia]. rewrite connected_ok by (split; lia). rewrite Hcn by lia. reflexivity. }
    rewrite Ef. cbn [obind]. destruct (Z.ltb_spec w w); [lia|]. cbn [obind]. destruct (Z.ltb_spec w (w - 1)); [lia|]. cbn [obind].
    assert (Ek : skip_cells znd zones zid (columns zones) row (w + 1) w = Ok (w + 1)).
    { unfold columns. cbn [skip_cells]. destruct (Z.leb_spec (w + 1) w); [lia|reflexivity]. }
    rewrite Ek. cbn [obind]. destruct (Z.leb_spec (w + 1) w); [lia|reflexivity]. }
  rewrite Es. cbn [obind]. assert (Hwd : how = Diagonal -> delta = 1) by (intros Eh; unfold delta; rewrite Eh; reflexivity).
  destruct how; [|reflexivity]. destruct (Z.ltb_spec w (g1 zones - 1)) as [Hin|]; [|reflexivity]. cbn [g1 gmake] in Hin. cbn [andb]. destruct (Z.eqb_spec (w + 1 - 1) w); [|reflexivity].
  rewrite connected_ok by (split; lia). rewrite Hcn by (specialize (Hwd eq_refl); lia). reflexivity.
Qed.

(** ** flood_fill *)
Context (r0 c0 : Z).
Hypothesis K_start : K r0 c0.
Hypothesis zid_start : z r0 c0 = zid.
Hypothesis K_ind : forall P : Z -> Z -> Prop, P r0 c0 ->
  (forall r c c', K r c -> P r c -> conn r c' -> c' = c - 1 \/ c' = c + 1 -> P r c') ->
  (forall r c r' c', K r c -> P r c -> conn r' c' -> r' = r - 1 \/ r' = r + 1 -> c - delta <= c' <= c + delta -> P r' c') -> forall r c, K r c -> P r c.
Hypothesis K_first : forall r c, K r c -> r0 <= r.

Lemma unm_le : forall f, unm f <= nr * nc.
Proof.
  intros f. unfold unm. assert (H : forall (p : Z * Z -> bool) l, (length (filter p l) <= length l)%nat).
  { intros p l. induction l as [|x l IH]; cbn [filter length]; [lia|]. destruct (p x); cbn [length]; lia. }
  specialize (H (fun rc => cnd (f (fst rc) (snd rc))) (cells2 0 nr 0 nc)). rewrite cells2_length in H by lia. nia.
Qed.

Theorem flood_fill_ok : exists f', flood_fill znd cnd how zones r0 c0 (gmake nr nc f0) k = Ok (gmake nr nc f') /\
  (forall r c, K r c -> f' r c = k) /\ (forall r c, inb r c -> (f' r c = f0 r c /\ ~ K r c) \/ (f' r c = k /\ K r c)).
Proof.
  destruct (K_conn _ _ K_start) as [[Hr0 Hc0] Hcn]. pose proof delta_range as Hdel.
  unfold flood_fill. rewrite gget_make by assumption. cbn [obind]. rewrite zid_start. assert (Hv : znd zid = false) by (unfold cn in Hcn; rewrite zid_start in Hcn; destruct (znd zid); [discriminate|reflexivity]).
  rewrite Hv. cbn [negb assert]. change (g0 zones) with nr. change (g1 zones) with nc.
  assert (HB : Base f0) by (intros r c _; left; reflexivity).
  assert (Hno : forall r c, ~ Mk f0 r c) by (intros r c [Ii E]; exact (f0_not_k r c Ii E)).
  assert (Hmain : forall fuel, 3 * (nr * nc) + 1 <= Z.of_nat fuel -> exists f', handle_requests znd cnd how zones zid k fuel (gmake nr nc f0) [SpanRequest r0 c0 c0 1] = Ok (gmake nr nc f') /\
    (forall r c, K r c -> f' r c = k) /\ (forall r c, inb r c -> (f' r c = f0 r c /\ ~ K r c) \/ (f' r c = k /\ K r c))).
  { intros fuel Hfu. destruct (handle_requests_ok fuel f0 [SpanRequest r0 c0 c0 1] HB) as [f' (E & C1 & C2 & C3 & C4 & C5)].
    - intros r c H. destruct (Hno _ _ H).
    - intros q [<-|[]]. unfold good_req. cbn [sr_row sr_west sr_east sr_direction]. repeat split; try lia.
      + intros c Hc C. destruct (Z.eq_dec c c0) as [->|]; [exact K_start|]. apply (K_horizontal r0 c0); auto. lia.
      + intros c Hc HKc. apply K_first in HKc. lia.
    - intros r c r' c' H. destruct (Hno _ _ H).
    - cbn [length]. pose proof (unm_le f0). lia.
    - exists f'. split; [exact E|]. cbn [sr_row sr_west sr_east] in C5.
      assert (G : forall r c, K r c -> Mk f' r c).
      { apply K_ind.
        - apply C5; [lia|]. split; [split; assumption|exact Hcn].
        - intros r c c' _ HM C [->| ->]; [apply (C2 r c HM); exact C|]. destruct (C2 r c HM) as [H1 _]. destruct (H1 C) as [|[]]. assumption.
        - intros r c r' c' _ HM C H1 H2. destruct (C3 r c r' c' HM H1 H2 C) as [|[[q [[] _]]|[]]]. assumption. }
      split; [intros r c H; apply (G r c H)|]. intros r c Ii. destruct (C1 r c Ii) as [H|H]; [left|right; exact H]. split; [exact H|]. intros HK. destruct (G r c HK) as [_ H']. apply (f0_not_k r c Ii). congruence. }
  unfold row_available. change (g0 zones) with nr. destruct (Z.ltb_spec 0 r0) as [Hr|Hr].
  - replace ((-1 =? -1) && true || (-1 =? 1) && (r0 <? nr - 1)) with true by lia.
    remember (Z.to_nat (3 * (nr * nc) + 2)) as fuel eqn:Ef. destruct fuel as [|fuel]; [nia|]. cbn [handle_requests]. rewrite handle_nothing; cbn [sr_row sr_west sr_east sr_direction].
    + cbn [obind]. apply Hmain. nia.
    + lia.
    + lia.
    + reflexivity.
    + lia.
    + intros c Hc C. assert (HKc : K (r0 - 1) c) by (apply (K_vertical r0 c0); auto). apply K_first in HKc. lia.
  - replace ((-1 =? -1) && false || (-1 =? 1) && (r0 <? nr - 1)) with false by lia. apply Hmain. nia.
Qed.
End Fill.
