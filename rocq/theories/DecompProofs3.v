(** Proofs about creation from a buffer, erasing slabs and default partition shapes. *)
From Verif Require Import Common CommonProofs CoreSpec IndexModel IndexProofs Float64 Float64Proofs
  DecompModel DecompProofs DecompProofs2.
Open Scope Z_scope.

(** ** From a buffer *)

Lemma concat_outcomes_ok {E} (f : Z -> outcome (list E)) (g : Z -> list E) l :
  (forall i, In i l -> f i = Ok (g i)) -> concat_outcomes (map f l) = Ok (flat_map g l).
Proof.
  induction l as [|i l IH]; intros H; cbn; [reflexivity|].
  rewrite H by now left. cbn. rewrite IH by (intros; apply H; now right). reflexivity.
Qed.

Lemma nth_error_firstn_skipn {E} (l : list E) s n k : (k < n)%nat ->
  nth_error (firstn n (skipn s l)) k = nth_error l (s + k).
Proof.
  intros H. revert l. induction s as [|s IH]; intros l; cbn.
  - revert k n H. induction l as [|x l IHl]; intros [|k] [|n] H; cbn; try lia; try reflexivity. apply IHl. lia.
  - destruct l as [|x l]; cbn; [|apply IH]. rewrite firstn_nil. destruct k; reflexivity.
Qed.

Lemma from_buffer_ok {E} (eqb : E -> E -> bool) mark nd buffer a0 a1 o0 o1 p0 p1 :
  Z.of_nat (length buffer) = a0 * a1 -> 0 <= o0 -> 0 <= o1 -> 0 < p0 -> 0 < p1 ->
  o0 + p0 <= a0 -> o1 + p1 <= a1 ->
  exists data, from_buffer eqb mark nd buffer [a0; a1] [o0; o1] [p0; p1] = Ok data /\
    Z.of_nat (length data) = p0 * p1 /\
    forall i j, 0 <= i < p0 -> 0 <= j < p1 ->
      nth_error data (Z.to_nat (i * p1 + j)) =
      option_map (fun e => match nd with Some n => if eqb e n then mark else e | None => e end)
        (nth_error buffer (Z.to_nat ((o0 + i) * a1 + (o1 + j)))).
Proof.
  intros Hl Ho0 Ho1 Hp0 Hp1 H0 H1. unfold from_buffer. assert (Ha1 : 0 < a1) by lia.
  set (g := fun i => firstn (Z.to_nat p1) (skipn (Z.to_nat (o0 * a1 + o1 + i * a1)) buffer)).
  rewrite (concat_outcomes_ok _ g).
  2:{ intros i Hi. apply in_zseq in Hi. unfold copy_n.
      assert (o0 * a1 + o1 + i * a1 + p1 <= a0 * a1) by nia.
      destruct (Z.leb_spec 0 (o0 * a1 + o1 + i * a1)); [|nia].
      destruct (Z.leb_spec 0 p1); [|lia].
      destruct (Z.leb_spec (o0 * a1 + o1 + i * a1 + p1) (Z.of_nat (length buffer))); [|lia].
      reflexivity. }
  cbn [obind].
  assert (Hg : forall i, In i (zseq 0 p0) -> length (g i) = Z.to_nat p1).
  { intros i Hi. apply in_zseq in Hi. unfold g. rewrite firstn_length, skipn_length.
    assert (o0 * a1 + o1 + i * a1 + p1 <= a0 * a1) by nia. lia. }
  assert (Hlen : Z.of_nat (length (flat_map g (zseq 0 p0))) = p0 * p1).
  { rewrite (flat_map_const_length g (Z.to_nat p1)) by assumption. rewrite zseq_length. nia. }
  assert (Hnth : forall i j, 0 <= i < p0 -> 0 <= j < p1 ->
    nth_error (flat_map g (zseq 0 p0)) (Z.to_nat (i * p1 + j)) =
    nth_error buffer (Z.to_nat ((o0 + i) * a1 + (o1 + j)))).
  { intros i j Hi Hj. replace (Z.to_nat (i * p1 + j)) with (Z.to_nat i * Z.to_nat p1 + Z.to_nat j)%nat by nia.
    erewrite nth_error_flat_map_const; [|exact Hg|apply nth_error_zseq; lia|lia].
    unfold g. rewrite nth_error_firstn_skipn by lia. f_equal. nia. }
  destruct nd as [n|]; eexists; (split; [reflexivity|]).
  - rewrite map_length. split; [assumption|]. intros i j Hi Hj. rewrite nth_error_map, Hnth by assumption. reflexivity.
  - split; [assumption|]. intros i j Hi Hj. rewrite Hnth by assumption.
    destruct (nth_error buffer _); reflexivity.
Qed.

Lemma array_from_buffer_ok {E} (eqb : E -> E -> bool) mark nd buffer L a0 a1 p0 p1 :
  accepted L [a0; a1] [p0; p1] -> Z.of_nat (length buffer) = a0 * a1 ->
  exists parts,
    instantiate_individually L (fun _ => from_buffer eqb mark nd buffer [a0; a1]) [a0; a1] [p0; p1] = Ok parts /\
    (forall q, In q parts -> exists o0 o1 s0 s1 data,
       pl_offset q = [o0; o1] /\ pl_shape q = [s0; s1] /\ pl_data q = Ok data /\
       forall x0 x1, o0 <= x0 < o0 + s0 -> o1 <= x1 < o1 + s1 ->
         nth_error data (Z.to_nat ((x0 - o0) * s1 + (x1 - o1))) =
         option_map (fun e => match nd with Some n => if eqb e n then mark else e | None => e end)
           (nth_error buffer (Z.to_nat (x0 * a1 + x1)))).
Proof.
  intros Hacc Hlen.
  destruct (instantiate_individually_ok L (fun _ => from_buffer eqb mark nd buffer [a0; a1]) _ _ Hacc)
    as [visits [r [Ev [Er [Hl Hh]]]]].
  destruct (accepted_visits L _ _ Hacc) as [v [Hv [Hfst [Hnd Hin]]]]. rewrite Ev in Hv. injection Hv as <-.
  assert (HF : Forall2 (fun a p => 0 < p <= a) [a0; a1] [p0; p1]) by apply Hacc.
  assert (Hp := sip_pos _ _ HF).
  exists r. split; [assumption|]. intros q Hq. apply In_nth_error in Hq. destruct Hq as [n Hq].
  assert (Hn : (n < length r)%nat) by (apply nth_error_Some; congruence).
  destruct (pos_in_visits _ visits n Hp Hin) as [[k c] [Hv ->]]; [lia|].
  rewrite Hh in Hq by assumption. injection Hq as <-.
  assert (Hc : in_shape (map2 Z.div [a0; a1] [p0; p1]) c) by (apply Hin; apply (in_map snd) in Hv; exact Hv).
  destruct c as [|c0 [|c1 [|]]]; cbn in Hc; try tauto.
  inversion HF as [|? ? ? ? HF0 HF']; subst. inversion HF' as [|? ? ? ? HF1 _]; subst.
  assert (H0 : forall a p c, 0 < p <= a -> 0 <= c < a / p -> 0 < ext a p c /\ c * p + ext a p c <= a).
  { intros a p c Hpa Hc'. unfold ext. pose proof (Z.div_mod a p ltac:(lia)). pose proof (Z.mod_pos_bound a p ltac:(lia)).
    destruct (Z.eqb_spec c (a / p - 1)) as [->|]; nia. }
  destruct (H0 a0 p0 c0 HF0 ltac:(tauto)) as [He0 Hs0].
  destruct (H0 a1 p1 c1 HF1 ltac:(tauto)) as [He1 Hs1].
  cbn [expected pl_offset pl_shape pl_data map2 exts].
  destruct (from_buffer_ok eqb mark nd buffer a0 a1 (c0 * p0) (c1 * p1) (ext a0 p0 c0) (ext a1 p1 c1) Hlen)
    as [data [Ed [_ Hd]]]; try nia.
  exists (c0 * p0), (c1 * p1), (ext a0 p0 c0), (ext a1 p1 c1), data.
  repeat split; [exact Ed|]. intros x0 x1 Hx0 Hx1.
  rewrite Hd by lia. do 2 f_equal. nia.
Qed.

(** ** Erase *)

Lemma chunks {E} (k : nat) : forall n (l : list E), length l = (n * k)%nat ->
  exists blocks, l = concat blocks /\ length blocks = n /\ Forall (fun b => length b = k) blocks.
Proof.
  induction n as [|n IH]; intros l Hl.
  - exists []. destruct l; [|discriminate]. repeat split; constructor.
  - destruct (IH (skipn k l)) as [bs [E1 [E2 E3]]]; [rewrite skipn_length; lia|].
    exists (firstn k l :: bs). cbn. rewrite <- E1, firstn_skipn. repeat split; [lia|].
    constructor; [|assumption]. rewrite firstn_length. lia.
Qed.

Definition cut {E} (offset count : Z) (b : list E) : list E :=
  firstn (Z.to_nat offset) b ++ skipn (Z.to_nat (offset + count)) b.

Lemma cut_length {E} o c (b : list E) : 0 <= o -> 0 <= c -> o + c <= Z.of_nat (length b) ->
  Z.of_nat (length (cut o c b)) = Z.of_nat (length b) - c.
Proof. intros. unfold cut. rewrite app_length, firstn_length, skipn_length. lia. Qed.

Lemma nth_error_skipn {E} (l : list E) s k : nth_error (skipn s l) k = nth_error l (s + k).
Proof. revert l. induction s as [|s IH]; intros l; cbn; [reflexivity|]. destruct l; [destruct k; reflexivity|apply IH]. Qed.
Lemma nth_error_firstn {E} (l : list E) n k : (k < n)%nat -> nth_error (firstn n l) k = nth_error l k.
Proof. intros H. apply (nth_error_firstn_skipn l 0 n k H). Qed.

Lemma cut_nth {E} o c (b : list E) i : 0 <= o -> 0 <= c -> o + c <= Z.of_nat (length b) -> 0 <= i ->
  nth_error (cut o c b) (Z.to_nat i) = nth_error b (Z.to_nat (if i <? o then i else i + c)).
Proof.
  intros Ho Hc Hb Hi. unfold cut. destruct (Z.ltb_spec i o).
  - rewrite nth_error_app1 by (rewrite firstn_length; lia). apply nth_error_firstn. lia.
  - rewrite nth_error_app2 by (rewrite firstn_length; lia). rewrite nth_error_skipn, firstn_length. f_equal. lia.
Qed.

Lemma erase_loop_ok {E} offset count stride : 0 <= offset -> 0 < count -> offset + count <= stride ->
  forall (blocks : list (list E)) fuel done, Forall (fun b => Z.of_nat (length b) = stride) blocks ->
  (length blocks <= fuel)%nat ->
  erase_loop fuel (Z.of_nat (length done) + offset) count stride (done ++ concat blocks) =
  Ok (done ++ concat (map (cut offset count) blocks)).
Proof.
  intros Ho Hc Hs. induction blocks as [|b bs IH]; intros fuel done Hf Hfuel.
  - cbn [concat map]. destruct fuel; cbn [erase_loop]; rewrite app_nil_r;
    destruct (Z.ltb_spec (Z.of_nat (length done) + offset) (Z.of_nat (length done))); try lia; reflexivity.
  - inversion Hf as [|? ? Hb Hf']; subst. destruct fuel as [|fuel]; [cbn in Hfuel; lia|]. cbn [erase_loop concat map].
    rewrite !app_length.
    destruct (Z.ltb_spec (Z.of_nat (length done) + offset) (Z.of_nat (length done + (length b + length (concat bs))))); [|lia].
    unfold remove_range. rewrite !app_length.
    destruct (Z.leb_spec 0 (Z.of_nat (length done) + offset)); [|lia].
    destruct (Z.leb_spec 0 count); [|lia].
    destruct (Z.leb_spec (Z.of_nat (length done) + offset + count) (Z.of_nat (length done + (length b + length (concat bs))))); [|lia].
    cbn [andb obind].
    assert (E1 : firstn (Z.to_nat (Z.of_nat (length done) + offset)) (done ++ b ++ concat bs) ++
                 skipn (Z.to_nat (Z.of_nat (length done) + offset + count)) (done ++ b ++ concat bs) =
                 (done ++ cut offset count b) ++ concat bs).
    { replace (Z.to_nat (Z.of_nat (length done) + offset)) with (length done + Z.to_nat offset)%nat by lia.
      replace (Z.to_nat (Z.of_nat (length done) + offset + count)) with (length done + Z.to_nat (offset + count))%nat by lia.
      rewrite firstn_app_2, skipn_app, skipn_all2, app_nil_l by lia.
      replace (length done + Z.to_nat (offset + count) - length done)%nat with (Z.to_nat (offset + count)) by lia.
      unfold cut. rewrite <- !app_assoc. f_equal.
      rewrite firstn_app. replace (Z.to_nat offset - length b)%nat with O by lia. cbn [firstn]. rewrite app_nil_r. f_equal.
      rewrite skipn_app. replace (Z.to_nat (offset + count) - length b)%nat with O by lia. reflexivity. }
    rewrite E1.
    replace (Z.of_nat (length done) + offset + (Z.of_nat (length b) - count))
      with (Z.of_nat (length (done ++ cut offset count b)) + offset).
    2:{ rewrite app_length, Nat2Z.inj_add, cut_length by lia. lia. }
    rewrite IH by (try assumption; cbn in Hfuel; lia). rewrite <- app_assoc. reflexivity.
Qed.

Lemma linear_idx_split pre c1 i c2 e post : in_shape pre c1 -> in_shape post c2 ->
  linear_idx (c1 ++ i :: c2) (pre ++ e :: post) =
  linear_idx c1 pre * (e * prodZ post) + i * prodZ post + linear_idx c2 post.
Proof.
  intros H1 H2. pose proof (in_shape_length _ _ H2) as Hl2. revert c1 H1.
  induction pre as [|x pre IH]; intros [|y c1] H1; cbn in H1; try tauto.
  - cbn [app]. rewrite linear_idx_cons by lia. cbn. lia.
  - destruct H1 as [Hy H1]. pose proof (in_shape_length _ _ H1) as Hl1. cbn [app].
    rewrite !linear_idx_cons by (rewrite ?app_length; cbn; lia).
    rewrite IH by assumption. rewrite prodZ_app, prodZ_cons. ring.
Qed.

Lemma linear_idx_range' n c : in_shape n c -> 0 <= linear_idx c n < prodZ n.
Proof.
  destruct n as [|e n]; [destruct c; [rewrite prodZ_nil; cbn; lia|intros []]|]. apply linear_idx_range. discriminate.
Qed.

Lemma zset_split d v l : (d < length l)%nat -> zset d v l = firstn d l ++ v :: skipn (S d) l.
Proof.
  revert l. induction d as [|d IH]; intros [|h t] H; cbn in *; try lia; [reflexivity|].
  rewrite IH by lia. reflexivity.
Qed.

Lemma list_split_at d (l : list Z) : (d < length l)%nat -> l = firstn d l ++ znth d l :: skipn (S d) l.
Proof.
  unfold znth. revert l. induction d as [|d IH]; intros [|h t] H; cbn in *; try lia; [reflexivity|].
  f_equal. apply IH. lia.
Qed.

Lemma in_shape_app pre post c : in_shape (pre ++ post) c <->
  exists c1 c2, c = c1 ++ c2 /\ in_shape pre c1 /\ in_shape post c2.
Proof.
  revert c. induction pre as [|x pre IH]; intros c; cbn [app].
  - split.
    + intros H. exists [], c. cbn. auto.
    + intros [c1 [c2 [-> [H1 H2]]]]. destruct c1; [exact H2|destruct H1].
  - destruct c as [|y c].
    + split; [intros []|]. intros [[|z c1] [c2 [E [H1 H2]]]]; [destruct H1|discriminate].
    + cbn [in_shape]. rewrite IH. split.
      * intros [Hy [c1 [c2 [-> [H1 H2]]]]]. exists (y :: c1), c2. cbn. auto.
      * intros [[|z c1] [c2 [E [H1 H2]]]]; [destruct H1|]. cbn in E. injection E as <- ->. cbn in H1.
        split; [tauto|]. exists c1, c2. tauto.
Qed.

(** Where the cell that ends up at c came from. *)
Definition erased_from (d : nat) (hb he : Z) (c : list Z) : list Z :=
  zset d (if znth d c <? hb then znth d c else znth d c + (he - hb)) c.

Lemma erase_ok {E} (l : list E) shape d hb he :
  pos_shape shape -> (d < length shape)%nat -> 0 <= hb <= he -> he <= znth d shape ->
  Z.of_nat (length l) = prodZ shape ->
  exists l' shape', erase l shape d hb he = Ok (l', shape') /\
    shape' = zset d (znth d shape - (he - hb)) shape /\
    Z.of_nat (length l') = prodZ shape' /\
    (forall c, in_shape shape' c -> in_shape shape (erased_from d hb he c) /\
       nth_error l' (Z.to_nat (linear_idx c shape')) =
       nth_error l (Z.to_nat (linear_idx (erased_from d hb he c) shape))).
Proof.
  intros Hp Hd Hbe He Hl. unfold erase.
  destruct (Nat.ltb_spec d (length shape)); [|lia].
  destruct (Z.leb_spec hb he); [|lia]. destruct (Z.leb_spec he (znth d shape)); [|lia]. cbn [andb].
  pose proof (list_split_at d shape Hd) as Hsh.
  set (pre := firstn d shape) in *. set (e := znth d shape) in *. set (post := skipn (S d) shape) in *.
  assert (Hpp : pos_shape pre /\ 0 < e /\ pos_shape post).
  { unfold pos_shape in Hp. rewrite Hsh in Hp. apply Forall_app in Hp. destruct Hp as [Hp1 Hp2].
    apply Forall_cons_iff in Hp2. tauto. }
  destruct Hpp as [Hpre [He0 Hpost]]. pose proof (prodZ_pos _ Hpost) as Hpo. pose proof (prodZ_pos _ Hpre) as Hpr.
  assert (Hzs : forall v, zset d v shape = pre ++ v :: post) by (intros v; apply zset_split; assumption).
  destruct (Z.eqb_spec hb he) as [Eq|Hne].
  - exists l, shape. subst he. split; [reflexivity|]. replace (e - (hb - hb)) with e by lia.
    split; [rewrite Hzs; assumption|]. split; [assumption|]. intros c Hc.
    assert (Hc' : erased_from d hb hb c = c).
    { unfold erased_from. replace (if znth d c <? hb then _ else _) with (znth d c) by (destruct (_ <? _); lia).
      rewrite zset_split; [symmetry; apply list_split_at|]; rewrite <- (in_shape_length _ _ Hc); assumption. }
    rewrite Hc'. auto.
  - assert (Hstr : prodZ (skipn d shape) = e * prodZ post).
    { rewrite Hsh. rewrite skipn_app. unfold pre. rewrite skipn_all2 by (rewrite firstn_length; lia).
      rewrite firstn_length. replace (d - Nat.min d (length shape))%nat with O by lia.
      rewrite app_nil_l. cbn [skipn]. apply prodZ_cons. }
    rewrite Hstr.
    destruct (Z.leb_spec 0 (hb * prodZ post)); [|nia]. destruct (Z.ltb_spec 0 ((he - hb) * prodZ post)); [|nia].
    cbn [andb].
    assert (Hst0 : 0 < e * prodZ post) by nia.
    assert (Hlen : length l = (Z.to_nat (prodZ pre) * Z.to_nat (e * prodZ post))%nat).
    { rewrite Hsh, prodZ_app, prodZ_cons in Hl. nia. }
    destruct (chunks (Z.to_nat (e * prodZ post)) (Z.to_nat (prodZ pre)) l Hlen) as [bs [El [Hbl Hbf]]].
    assert (Hbf' : Forall (fun b => Z.of_nat (length b) = e * prodZ post) bs).
    { eapply Forall_impl; [|exact Hbf]. intros b Hb. cbv beta in Hb |- *. rewrite Hb. apply Z2Nat.id. lia. }
    pose proof (erase_loop_ok (hb * prodZ post) ((he - hb) * prodZ post) (e * prodZ post)
                  ltac:(assumption) ltac:(assumption) ltac:(nia) bs (length l) [] Hbf') as Hloop.
    cbn [app] in Hloop. change (Z.of_nat (length (@nil E)) + hb * prodZ post) with (hb * prodZ post) in Hloop.
    rewrite <- El in Hloop. rewrite Hloop by (rewrite Hbl, Hlen; clear - Hst0; nia). cbn [obind].
    set (C := cut (hb * prodZ post) ((he - hb) * prodZ post)) in *.
    eexists _, _. split; [reflexivity|]. split; [reflexivity|].
    assert (HCf : forall b, In b bs -> Z.of_nat (length (C b)) = (e - (he - hb)) * prodZ post).
    { intros b Hb. rewrite Forall_forall in Hbf'. unfold C. rewrite cut_length; rewrite ?(Hbf' b Hb); nia. }
    assert (Hcat : forall (X : list (list E)), concat X = flat_map (fun b => b) X).
    { induction X as [|x X IHX]; cbn; congruence. }
    assert (HC1 : forall b, In b (map C bs) -> length b = Z.to_nat ((e - (he - hb)) * prodZ post)).
    { intros b Hb. apply in_map_iff in Hb. destruct Hb as [b0 [<- Hb0]]. specialize (HCf b0 Hb0). lia. }
    assert (HB1 : forall b, In b bs -> length b = Z.to_nat (e * prodZ post)).
    { intros b Hb. rewrite Forall_forall in Hbf. auto. }
    split.
    + rewrite Hcat, (flat_map_const_length _ _ _ HC1), map_length, Hbl, Hzs, prodZ_app, prodZ_cons. nia.
    + intros c Hc. rewrite Hzs in Hc |- *. apply in_shape_app in Hc. destruct Hc as [c1 [c2 [-> [Hc1 Hc2]]]].
      destruct c2 as [|i c2]; [destruct Hc2|]. cbn in Hc2. destruct Hc2 as [Hi Hc2].
      assert (Hd1 : length c1 = d).
      { rewrite <- (in_shape_length _ _ Hc1). unfold pre. rewrite firstn_length. lia. }
      assert (Her : erased_from d hb he (c1 ++ i :: c2) = c1 ++ (if i <? hb then i else i + (he - hb)) :: c2).
      { unfold erased_from. rewrite <- Hd1, zset_app_r, znth_app_r. reflexivity. }
      rewrite Her. set (i' := if i <? hb then i else i + (he - hb)).
      assert (Hi' : 0 <= i' < e) by (unfold i'; destruct (Z.ltb_spec i hb); lia).
      split.
      * rewrite Hsh. apply in_shape_app. exists c1, (i' :: c2). cbn. auto.
      * rewrite Hsh at 1. rewrite !linear_idx_split by assumption.
        pose proof (linear_idx_range' post c2 Hc2) as Hr2.
        pose proof (linear_idx_range' pre c1 Hc1) as Hr1.
        set (n1 := linear_idx c1 pre) in *. set (n2 := linear_idx c2 post) in *.
        assert (Hm : 0 <= i * prodZ post + n2 < (e - (he - hb)) * prodZ post) by nia.
        assert (Hm' : 0 <= i' * prodZ post + n2 < e * prodZ post) by nia.
        destruct (nth_error bs (Z.to_nat n1)) as [b|] eqn:Hb.
        2:{ apply nth_error_None in Hb. lia. }
        replace (Z.to_nat (n1 * ((e - (he - hb)) * prodZ post) + i * prodZ post + n2))
          with (Z.to_nat n1 * Z.to_nat ((e - (he - hb)) * prodZ post) + Z.to_nat (i * prodZ post + n2))%nat by nia.
        replace (Z.to_nat (n1 * (e * prodZ post) + i' * prodZ post + n2))
          with (Z.to_nat n1 * Z.to_nat (e * prodZ post) + Z.to_nat (i' * prodZ post + n2))%nat by nia.
        rewrite Hcat, (nth_error_flat_map_const _ _ _ _ _ (C b) HC1); [|now apply map_nth_error|lia].
        rewrite El, Hcat, (nth_error_flat_map_const _ _ _ _ _ b HB1); [|assumption|lia].
        pose proof (nth_error_In _ _ Hb) as Hbin. rewrite Forall_forall in Hbf'. specialize (Hbf' b Hbin).
        unfold C. rewrite cut_nth by (rewrite ?Hbf'; nia). do 2 f_equal.
        unfold i'. destruct (Z.ltb_spec i hb), (Z.ltb_spec (i * prodZ post + n2) (hb * prodZ post)); nia.
Qed.

(** ** Maximum and default partition shapes *)

Lemma ceil_div_ge e k : 0 < k <= e -> k <= (e + e / k - 1) / (e / k).
Proof.
  intros H. assert (0 < e / k) by (apply Z.div_str_pos; lia).
  apply Z.div_le_lower_bound; [assumption|]. pose proof (Z.mul_div_le e k). nia.
Qed.

Definition small (e : Z) : Prop := 0 < e < 2 ^ 53.

Lemma max_loop_ok k m : 0 < k -> 0 < m ->
  forall rest j P, Forall (fun e => k <= e) rest -> Forall small rest -> 0 <= j -> k ^ j <= P ->
  (m <= j * k -> m <= k ^ j) -> m <= k ^ (j + Z.of_nat (length rest)) ->
  let ps := max_partition_loop k m (j * k) rest in
  Forall2 (fun a p => 0 < p <= a) rest ps /\
  m <= P * prodZ (shape_in_partitions rest ps).
Proof.
  intros Hk Hm. induction rest as [|e rest IH]; intros j P Hke Hsm Hj HP Hst Hfin; cbn [max_partition_loop length] in *.
  - cbn. split; [constructor|]. rewrite prodZ_nil. rewrite Z.add_0_r in Hfin. lia.
  - inversion Hke as [|? ? Hk1 Hke']; subst. inversion Hsm as [|? ? Hs1 Hsm']; subst.
    assert (Hkj : 0 < k ^ j) by (apply Z.pow_pos_nonneg; lia).
    destruct (Z.ltb_spec (j * k) m) as [Hlt|Hge].
    + replace (j * k + k) with ((j + 1) * k) by ring.
      assert (Hq : 0 < Z.quot e k <= e).
      { rewrite Z.quot_div_nonneg by (unfold small in Hs1; lia). split; [apply Z.div_str_pos; unfold small in Hs1; lia|].
        apply Z.div_le_upper_bound; unfold small in Hs1; nia. }
      assert (Hc : k <= b64_ceil (b64_div (b64_of_Z e) (b64_of_Z (Z.quot e k)))).
      { rewrite b64_ceil_div by (unfold small in Hs1; lia). rewrite Z.quot_div_nonneg by (unfold small in Hs1; lia).
        apply ceil_div_ge. unfold small in Hs1; lia. }
      set (f := b64_ceil (b64_div (b64_of_Z e) (b64_of_Z (Z.quot e k)))) in *.
      destruct (IH (j + 1) (P * f)) as [H1 H2]; try assumption; try lia.
      * rewrite Z.pow_add_r, Z.pow_1_r by lia. apply Z.mul_le_mono_nonneg; lia.
      * intros Hm1. rewrite Z.pow_add_r, Z.pow_1_r by lia.
        destruct (Z.eq_dec k 1) as [->|].
        -- rewrite Z.pow_1_l in Hfin by lia. rewrite Z.pow_1_l by lia. lia.
        -- assert (Hpow : j + 1 <= k ^ j).
           { clear - Hj Hk n. assert (H2 : 2 <= k) by lia. clear n Hk. revert j Hj. apply natlike_ind; [reflexivity|].
             intros x Hx IHx. rewrite Z.pow_succ_r by lia. nia. }
           apply Z.le_trans with ((j + 1) * k); [lia|]. apply Z.mul_le_mono_nonneg_r; lia.
      * replace (j + 1 + Z.of_nat (length rest)) with (j + Z.of_nat (S (length rest))) by lia. assumption.
      * split; [constructor; assumption|]. cbn [shape_in_partitions map2]. rewrite prodZ_cons.
        change (map2 _ rest ?x) with (shape_in_partitions rest x).
        fold f. lia.
    + destruct (IH j P) as [H1 H2]; try assumption.
      * assert (m <= k ^ j) by (apply Hst; lia). rewrite Z.pow_add_r by lia.
        assert (0 < k ^ Z.of_nat (length rest)) by (apply Z.pow_pos_nonneg; lia).
        apply Z.le_trans with (k ^ j * 1); [lia|]. apply Z.mul_le_mono_nonneg_l; lia.
      * unfold small in Hs1. split; [constructor; [lia|assumption]|]. cbn [shape_in_partitions map2]. rewrite prodZ_cons.
        change (map2 _ rest ?x) with (shape_in_partitions rest x).
        rewrite b64_ceil_div by lia. replace ((e + e - 1) / e) with 1; [lia|].
        apply Z.div_unique with (e - 1); lia.
Qed.

Lemma Forall2_fits_pos a p : Forall2 (fun a p => 0 < p <= a) a p -> pos_shape p.
Proof. induction 1; constructor; [lia|assumption]. Qed.

Lemma max_partition_shape_ok k a m : a <> [] -> Forall small a -> 0 < m -> 0 < k ->
  m <= k ^ Z.of_nat (length a) -> Forall (fun e => k <= e) a -> m <= volume a ->
  exists p, max_partition_shape k a m = Ok p /\ Forall2 (fun a p => 0 < p <= a) a p /\
    m <= prodZ (map2 (fun a p => (a + p - 1) / p) a p).
Proof.
  intros Hne Hs Hm Hk Hkm Hke Hmv. unfold max_partition_shape.
  assert (Hpa : pos_shape a) by (eapply Forall_impl; [|exact Hs]; unfold small; cbn; lia).
  rewrite nr_elements_prod by assumption. rewrite volume_prodZ in Hmv. pose proof (prodZ_pos _ Hpa) as Hpos.
  destruct (Z.ltb_spec 0 (prodZ a)); [|lia]. destruct (Z.ltb_spec 0 m); [|lia].
  destruct (Z.leb_spec m (prodZ a)); [|lia]. cbn [andb].
  destruct (max_loop_ok k m Hk Hm a 0 1) as [Hf1 Hf2]; try assumption; try lia; try (cbn; lia).
  rewrite Z.mul_0_l, Z.mul_1_l in *. set (p := max_partition_loop k m 0 a) in *.
  assert (Hpne : p <> []) by (intros E; rewrite E in Hf1; inversion Hf1; subst; congruence).
  assert (Hpp := Forall2_fits_pos _ _ Hf1). rewrite nr_elements_prod by assumption. pose proof (prodZ_pos _ Hpp) as Hpos2.
  destruct (Z.ltb_spec 0 (prodZ p)); [|lia]. cbn [andb].
  assert (Hsip : shape_in_partitions a p = map2 (fun a p => (a + p - 1) / p) a p).
  { clear - Hf1 Hs. unfold shape_in_partitions. induction Hf1 as [|x y a p Hxy Hf1 IH]; [reflexivity|]. cbn [map2].
    inversion Hs as [|? ? Hx Hs']; subst. unfold small in Hx. rewrite b64_ceil_div by lia. f_equal. auto. }
  rewrite nr_elements_prod.
  - destruct (Z.leb_spec m (prodZ (shape_in_partitions a p))); [|lia].
    exists p. rewrite <- Hsip. auto.
  - rewrite Hsip. destruct a, p; try congruence. discriminate.
Qed.

Lemma min_element_le_acc l : forall h, fold_left Z.min l h <= h /\ Forall (fun e => fold_left Z.min l h <= e) l.
Proof.
  induction l as [|x l IH]; intros h; cbn; [split; [lia|constructor]|].
  destruct (IH (Z.min h x)) as [H1 H2]. split; [lia|]. constructor; [lia|assumption].
Qed.

Lemma min_element_le l : Forall (fun e => min_element l <= e) l.
Proof. destruct l as [|h t]; cbn; [constructor|]. destruct (min_element_le_acc t h). constructor; assumption. Qed.

Lemma default_shape_fits root a n : a <> [] -> pos_shape a -> 0 < n ->
  (n = 1 \/ volume a / n < 2000 * 2000 \/ Forall (fun e => root <= e) a) ->
  exists p, default_partition_shape root a n = Ok p /\ fits a p.
Proof.
  intros Hne Hp Hn Hc. unfold default_partition_shape.
  destruct (Z.ltb_spec 0 n); [|lia].
  rewrite nr_elements_prod by assumption. rewrite volume_prodZ in Hc. pose proof (prodZ_pos _ Hp).
  destruct (Z.eqb_spec (prodZ a) 0); [lia|]. cbn [orb].
  destruct (Z.eqb_spec n 1) as [->|Hn1].
  - exists a. split; [reflexivity|]. split; [assumption|]. clear - Hp. induction Hp; constructor; [lia|assumption].
  - set (ds := if Z.quot (prodZ a) n <? 2000 * 2000 then _ else _).
    assert (Hds : 0 < ds /\ Forall (fun e => ds <= e) a).
    { unfold ds. rewrite Z.quot_div_nonneg by lia. destruct (Z.ltb_spec (prodZ a / n) (2000 * 2000)).
      - split; [lia|]. rewrite Forall_forall. intros e He. unfold pos_shape in Hp. rewrite Forall_forall in Hp. specialize (Hp e He).
        pose proof (min_element_le a) as Hm. rewrite Forall_forall in Hm. specialize (Hm e He).
        assert (Z.quot (min_element a) n <= e); [|lia].
        destruct (Z_le_gt_dec 0 (min_element a)).
        + rewrite Z.quot_div_nonneg by lia. apply Z.div_le_upper_bound; nia.
        + apply Z.le_trans with 0; [|lia]. rewrite <- (Z.opp_involutive (min_element a)), Z.quot_opp_l by lia.
          pose proof (Z.quot_pos (- min_element a) n). lia.
      - split; [lia|]. destruct Hc as [Hc|[Hc|Hc]]; try lia. rewrite Forall_forall in *. intros e He.
        specialize (Hc e He). unfold pos_shape in Hp. rewrite Forall_forall in Hp. specialize (Hp e He). lia. }
    destruct Hds as [Hd0 Hdf]. clearbody ds.
    assert (HF : Forall2 (fun a p => 0 < p <= a) a (map (fun _ => ds) a)).
    { clear - Hd0 Hdf. induction Hdf; cbn; constructor; [lia|assumption]. }
    rewrite (proj2 (is_subset_fits a (map (fun _ => ds) a) ltac:(now rewrite map_length)
      (Forall2_fits_pos _ _ HF)) HF).
    eexists. split; [reflexivity|]. split; assumption.
Qed.
