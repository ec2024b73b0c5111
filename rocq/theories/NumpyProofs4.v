From Verif Require Import Common CommonProofs CoreSpec DecompSpec ArraySpec IndexModel IndexProofs DecompModel DecompProofs ArrayModel ArrayRep ArrayProofs
  LocalProofs AggregateProofs IOModel IOSpec IOProofs NumpyModel NumpySpec NumpyProofs NumpyProofs2 NumpyProofs3.

Lemma without_c_string s : ~ In 0 (without_nulls s) -> c_string s = without_nulls s.
Proof.
  induction s as [|c s IH]; intros H; [reflexivity|]. cbn [c_string without_nulls] in *. destruct (Z.eqb_spec c 0) as [->|Hc].
  - destruct (without_nulls s) as [|x t]; [reflexivity|]. exfalso. apply H. now left.
  - destruct (without_nulls s) as [|x t] eqn:Es; [rewrite IH by (intros []); reflexivity|]. rewrite IH; [reflexivity|]. intros Hin. apply H. now right.
Qed.
Lemma without_padded s m : ~ In 0 s -> without_nulls (s ++ repeat 0 m) = s.
Proof.
  intros H. induction s as [|c s IH]; cbn [app].
  - induction m as [|m IH]; [reflexivity|]. cbn [repeat without_nulls]. rewrite IH. reflexivity.
  - cbn [without_nulls]. rewrite IH by (intros X; apply H; now right). destruct s; [|reflexivity]. destruct (Z.eqb_spec c 0) as [->|]; [|reflexivity]. exfalso. apply H. now left.
Qed.

Lemma sequence_ok {A B} (f : A -> outcome B) g l : (forall a, In a l -> f a = Ok (g a)) -> sequence (map f l) = Ok (map g l).
Proof. intros H. induction l as [|a l IH]; [reflexivity|]. cbn [map sequence]. rewrite H by now left. cbn [obind]. rewrite IH by (intros b Hb; apply H; now right). reflexivity. Qed.

Section Write.
Context (d : dataset (list Z)) (n : Z) (F : list Z -> list Z) (start stop step : option Z) (values : strings) (l : list (list Z)).
Context (Hn : 0 <= n <= SSIZE_MAX) (Hd : file_holds d [n] F) (Hstep : 0 < step_of step) (Hl : strings_hold values l).

Let m := Z.of_nat (length (chosen n start stop step)).

Lemma single_slice : exists s t er, single_hyperslab (ds_shape d) (Slice start stop step) = Ok (Selection (Hyperslab s t [m]) [m] er) /\ slab_within s t [m] [n] /\
  forall x, 0 <= x < m -> phi s t [x] = [nth (Z.to_nat x) (chosen n start stop step) 0].
Proof.
  destruct Hd as [Ed _]. rewrite Ed, single_create by discriminate.
  destruct (create_valid [n] [Slice start stop step]) as [s [t [er [E1 [W P]]]]].
  - constructor; [assumption|constructor].
  - split; [|exact I]. cbn [valid_index]. intros E0. rewrite E0 in Hstep. cbn in Hstep. lia.
  - split; [|exact I]. left. destruct step; cbn in Hstep; [assumption|exact I].
  - exists s, t, er. split; [exact E1|]. split; [exact W|]. intros x Hx. specialize (P [x]). cbn [numpy_shape expand numpy_cell] in P. apply P. cbn [in_shape]. tauto.
Qed.

Lemma chosen_le : m <= n.
Proof. destruct (slice_forward n start stop step Hn Hstep) as [s [k [c [_ [_ [Hc [_ [Ech _]]]]]]]]. unfold m. rewrite Ech, map_length, zseq_length. lia. Qed.

(** The strings in the buffer that HDF5 writes from *)
Definition first_of (unicode : bool) (i : Z) : Z := if unicode then 0 else i.
Lemma buffer_ok (unicode : bool) : m <= st_count values ->
  sequence (map (fun i =>
          let first := if unicode then 0 else i * st_width values in
          if first + st_width values <=? Z.of_nat (length (st_buffer values)) then Ok (c_string (piece first (st_width values) (st_buffer values))) else UB)
        (zseq 0 m)) = Ok (map (fun i => nth (Z.to_nat (first_of unicode i)) l []) (zseq 0 m)).
Proof.
  intros Hm. apply sequence_ok. intros i Hi. apply in_zseq in Hi. cbv zeta. destruct Hl as [Hw [Hc [Hb [Hz Hs]]]].
  assert (Hfi : 0 <= first_of unicode i < st_count values) by (unfold first_of; destruct unicode; lia).
  replace (if unicode then 0 else i * st_width values) with (first_of unicode i * st_width values) by (unfold first_of; destruct unicode; lia).
  rewrite (proj2 (Z.leb_le _ _)) by nia. f_equal. specialize (Hs _ Hfi). assert (Hin := nth_error_In _ _ Hs). rewrite (nth_error_nth _ _ _ Hs). unfold string_at, piece in *. apply without_c_string. now apply Hz.
Qed.

Lemma write_whole (buffer : list (list Z)) : write_strided (hyperslab_of_shape (ds_shape d)) (prodZ (hs_count (hyperslab_of_shape (ds_shape d)))) buffer d =
  write_strided (Hyperslab [0] [1] [n]) (volume [n]) buffer d.
Proof. destruct Hd as [Ed _]. rewrite Ed, volume_prodZ. reflexivity. Qed.

Theorem set_strings_all (unicode : bool) : m = n -> st_count values = n ->
  exists d' F', set_strings unicode d start stop step values = Ok d' /\ file_holds d' [n] F' /\
    forall i, 0 <= i < n -> F' [i] = nth (if unicode then 0%nat else Z.to_nat i) l [].
Proof.
  intros Hm Hc. destruct single_slice as [s [t [er [E1 [W P]]]]]. unfold set_strings. rewrite E1. cbn [obind se_shape]. rewrite buffer_ok by lia. cbn [obind]. cbv zeta. rewrite write_whole, Hm.
  assert (W' : slab_within [0] [1] [n] [n]) by (cbn [slab_within]; unfold SIZES, SSIZE_MAX in *; lia).
  destruct (write_strided_ok [0] [1] [n] [n] (map (fun i => nth (Z.to_nat (first_of unicode i)) l []) (zseq 0 n)) (fun x => nth (Z.to_nat (first_of unicode (hd 0 x))) l []) d F W') as [d' [F' [E2 [H2 [A2 _]]]]].
  - intros [|x [|y z]] Hx; cbn [in_shape] in Hx; try tauto. cbn [rowmaj volume hd]. rewrite Z.mul_1_r, Z.add_0_r. unfold at_z. rewrite nth_z_nonneg by tauto. rewrite nth_error_map, nth_error_zseq by lia. cbn [option_map]. do 4 f_equal. lia.
  - assumption.
  - exists d', F'. split; [exact E2|]. split; [assumption|]. intros i Hi. specialize (A2 [i]). cbn [in_shape hd] in A2. unfold phi in A2. cbn [vmul vadd] in A2. replace (0 + 1 * i) with i in A2 by lia. rewrite A2 by tauto.
    unfold first_of. destruct unicode; reflexivity.
Qed.

Theorem set_strings_less (unicode : bool) : m < n -> st_count values = m -> set_strings unicode d start stop step values = UB.
Proof.
  intros Hm Hc. destruct single_slice as [s [t [er [E1 [W P]]]]]. unfold set_strings. rewrite E1. cbn [obind se_shape]. rewrite buffer_ok by lia. cbn [obind]. cbv zeta. rewrite write_whole.
  unfold write_strided. destruct Hd as [Ed _]. rewrite Ed. rewrite (select_ok [0] [1] [n] [n]) by (cbn [slab_within]; unfold SIZES, SSIZE_MAX in *; lia). cbn [obind hs_count]. rewrite <- volume_prodZ, Z.eqb_refl.
  rewrite fold_too_small; [reflexivity|discriminate|]. exists m. assert (0 <= m) by (unfold m; lia). split; [apply in_zseq; cbn [volume]; lia|]. unfold at_z. rewrite nth_z_nonneg by assumption.
  now rewrite (proj2 (nth_error_None _ _)) by (rewrite map_length, zseq_length; lia).
Qed.
End Write.

(** ** Reading *)
Definition widest (l : list (list Z)) : Z := fold_right Z.max 0 (map strlen l).
Lemma strlen_length s : Z.of_nat (length s) <= strlen s.
Proof. induction s as [|c s IH]; [reflexivity|]. unfold strlen in *. cbn [map fold_right length]. assert (1 <= utf8_length c) by (unfold utf8_length; repeat destruct (_ <? _); lia). lia. Qed.
Lemma widest_ge l s : In s l -> Z.of_nat (length s) <= widest l.
Proof. intros H. unfold widest. induction l as [|x l IH]; [destruct H|]. cbn [map fold_right]. destruct H as [->|H]; [pose proof (strlen_length s); lia|]. specialize (IH H). lia. Qed.
Lemma widest_nonneg l : 0 <= widest l.
Proof. unfold widest. induction l; cbn; lia. Qed.

Definition pad (w : nat) (s : list Z) : list Z := s ++ repeat 0 (w - length s).
Lemma pad_length w s : (length s <= w)%nat -> length (pad w s) = w.
Proof. intros. unfold pad. rewrite app_length, repeat_length. lia. Qed.
Lemma concat_pad_length w l : (forall s, In s l -> (length s <= w)%nat) -> length (concat (map (pad w) l)) = (length l * w)%nat.
Proof. intros H. induction l as [|s l IH]; [reflexivity|]. cbn [map concat length]. rewrite app_length, pad_length by (apply H; now left). rewrite IH by (intros x Hx; apply H; now right). lia. Qed.

Lemma copy_step w pre s rest : (length s <= w)%nat -> (w <= rest)%nat ->
  copy_to (pre ++ repeat 0 rest) (Z.of_nat (length pre)) s = Ok ((pre ++ pad w s) ++ repeat 0 (rest - w)).
Proof.
  intros H1 H2. unfold copy_to. rewrite app_length, repeat_length. rewrite (proj2 (Z.leb_le _ _)) by lia. rewrite Nat2Z.id. f_equal. rewrite firstn_app, Nat.sub_diag, firstn_all, firstn_O, app_nil_r.
  rewrite <- app_assoc. f_equal. unfold pad. rewrite <- app_assoc. f_equal. rewrite skipn_app. rewrite skipn_all2 by lia. cbn [app]. replace (length pre + length s - length pre)%nat with (length s) by lia.
  rewrite <- repeat_app. replace rest with (length s + (rest - length s))%nat at 1 by lia. rewrite repeat_app, skipn_app, repeat_length, Nat.sub_diag. rewrite skipn_all2 by (rewrite repeat_length; lia). cbn [skipn app]. f_equal. lia.
Qed.

Lemma copy_all w l2 : forall l1 rest, (forall s, In s (l1 ++ l2) -> (length s <= w)%nat) -> (length l2 * w <= rest)%nat ->
  fold_left (fun acc '(i, s) => obind acc (fun buffer => if Z.of_nat (length s) <=? Z.of_nat w then copy_to buffer (i * Z.of_nat w) s else Throw))
    (combine (zseq (Z.of_nat (length l1)) (Z.of_nat (length l2))) l2) (Ok (concat (map (pad w) l1) ++ repeat 0 rest)) =
  Ok (concat (map (pad w) (l1 ++ l2)) ++ repeat 0 (rest - length l2 * w)).
Proof.
  induction l2 as [|s l2 IH]; intros l1 rest H Hr.
  - cbn [length Nat.mul combine fold_left]. unfold zseq. cbn [map seq Z.to_nat Z.of_nat combine fold_left]. rewrite app_nil_r, Nat.sub_0_r. reflexivity.
  - cbn [length] in *. rewrite zseq_cons by lia. cbn [combine fold_left obind]. assert (Hs : (length s <= w)%nat) by (apply H; apply in_or_app; right; now left).
    rewrite (proj2 (Z.leb_le _ _)) by lia. rewrite <- Nat2Z.inj_mul, <- (concat_pad_length w l1) by (intros x Hx; apply H; apply in_or_app; now left).
    rewrite (copy_step w) by lia. specialize (IH (l1 ++ [s]) (rest - w)%nat). rewrite <- app_assoc in IH. cbn [app] in IH. rewrite map_app, concat_app in IH. cbn [map concat] in IH. rewrite app_nil_r in IH.
    rewrite app_length in IH. cbn [length] in IH. replace (Z.of_nat (length l1) + 1) with (Z.of_nat (length l1 + 1)) by lia. replace (Z.of_nat (S (length l2)) - 1) with (Z.of_nat (length l2)) by lia.
    rewrite IH by (try assumption; lia). do 3 f_equal. lia.
Qed.

Lemma create_string_array_ok l : create_string_array l = Ok (Strings (widest l) (Z.of_nat (length l)) (concat (map (pad (Z.to_nat (widest l * 4))) l))).
Proof.
  unfold create_string_array. cbv zeta. fold (widest l). pose proof (widest_nonneg l) as W. set (w := Z.to_nat (widest l * 4)). replace (widest l * 4) with (Z.of_nat w) by (unfold w; lia).
  replace (Z.to_nat (Z.of_nat (length l) * Z.of_nat w)) with (length l * w)%nat by lia.
  assert (X := copy_all w l [] (length l * w)). cbn [app length Z.of_nat map concat] in X. rewrite X; [|intros s Hs; pose proof (widest_ge l s Hs); unfold w; lia|lia].
  cbn [obind]. rewrite Nat.sub_diag. cbn [repeat]. rewrite app_nil_r. reflexivity.
Qed.

Lemma skipn_skipn' {A} a b (l : list A) : skipn a (skipn b l) = skipn (a + b) l.
Proof. revert l. induction b as [|b IH]; intros l; [now rewrite Nat.add_0_r|]. rewrite Nat.add_succ_r. destruct l as [|x l]; [now rewrite !skipn_nil|]. cbn [skipn]. apply IH. Qed.
Lemma skipn_blocks w l i : (forall s, In s l -> (length s <= w)%nat) -> (i <= length l)%nat -> skipn (i * w) (concat (map (pad w) l)) = concat (map (pad w) (skipn i l)).
Proof.
  revert l. induction i as [|i IH]; intros l H Hi; [reflexivity|]. destruct l as [|s l]; [cbn in Hi; lia|]. cbn [map concat skipn]. rewrite skipn_app, pad_length by (apply H; now left).
  rewrite skipn_all2 by (rewrite pad_length by (apply H; now left); cbn; lia). cbn [app]. replace (S i * w - w)%nat with (i * w)%nat by lia. apply IH; [intros x Hx; apply H; now right|cbn in Hi; lia].
Qed.

Theorem string_read l j : (forall s, In s l -> ~ In 0 s) -> 0 <= j < Z.of_nat (length l) ->
  string_at (Strings (widest l) (Z.of_nat (length l)) (concat (map (pad (Z.to_nat (widest l * 4))) l))) j = if j mod 4 =? 0 then nth (Z.to_nat (j / 4)) l [] else [].
Proof.
  intros Hz Hj. unfold string_at. cbn [st_width st_buffer]. pose proof (widest_nonneg l) as W. set (w := Z.to_nat (widest l)). replace (Z.to_nat (widest l * 4)) with (4 * w)%nat by (unfold w; lia).
  assert (Hw : forall s, In s l -> (length s <= w)%nat) by (intros s Hs; pose proof (widest_ge l s Hs); unfold w; lia).
  assert (D := Z.div_mod j 4 ltac:(lia)). assert (B := Z.mod_pos_bound j 4 ltac:(lia)). set (q := Z.to_nat (j / 4)). set (r := Z.to_nat (j mod 4)). assert (Hq : 0 <= j / 4) by (apply Z.div_pos; lia).
  assert (Ej : Z.to_nat (j * widest l) = (r * w + q * (4 * w))%nat). { unfold r, q, w. rewrite D at 1. nia. }
  assert (Hql : (q < length l)%nat) by (unfold q; lia).
  assert (Hblock : exists s rest, nth q l [] = s /\ In s l /\ skipn (q * (4 * w)) (concat (map (pad (4 * w)) l)) = pad (4 * w) s ++ rest).
  { rewrite skipn_blocks; [|intros s Hs; specialize (Hw s Hs); lia|lia]. destruct (nth_error l q) as [s|] eqn:Es; [|apply nth_error_None in Es; lia]. exists s, (concat (map (pad (4 * w)) (skipn (S q) l))).
    split; [now apply nth_error_nth|]. split; [eapply nth_error_In; eassumption|]. generalize (4 * w)%nat as w'. clear - Es. intros w'. clearbody q. revert q Es. induction l as [|x l IH]; intros [|q] Es; try discriminate; [injection Es as ->; reflexivity|]. cbn [skipn]. apply (IH q). exact Es. }
  destruct Hblock as [s [rest [Es [Hin Ek]]]]. rewrite Ej. fold w. replace (skipn (r * w + q * (4 * w)) (concat (map (pad (4 * w)) l))) with (skipn (r * w) (pad (4 * w) s ++ rest)).
  2: { rewrite <- Ek. apply skipn_skipn'. }
  pose proof (Hw s Hin) as Hs. assert (Lp : length (pad (4 * w) s) = (4 * w)%nat) by (apply pad_length; lia). assert (Hr : (r <= 3)%nat) by (unfold r; lia).
  rewrite skipn_app, Lp. rewrite firstn_app. rewrite skipn_length, Lp. replace (w - (4 * w - r * w))%nat with 0%nat by nia. rewrite firstn_O, app_nil_r.
  unfold pad. destruct (Z.eqb_spec (j mod 4) 0) as [E0|N0].
  - replace r with 0%nat by (unfold r; lia). cbn [Nat.mul skipn]. fold q. rewrite Es. rewrite firstn_app. rewrite firstn_all2 by lia.
    replace (repeat 0 (w + (w + (w + (w + 0))) - length s)) with (repeat 0 (w - length s) ++ repeat 0 (3 * w)) by (rewrite <- repeat_app; f_equal; lia).
    rewrite firstn_app, repeat_length, Nat.sub_diag, firstn_O, app_nil_r. rewrite firstn_all2 by (rewrite repeat_length; lia). apply without_padded. now apply Hz.
  - assert (r <> 0)%nat by (unfold r; lia). rewrite skipn_app. rewrite skipn_all2 by nia. cbn [app].
    assert (X : forall a b c, without_nulls (firstn a (skipn b (repeat 0 c))) = []).
    { intros a b c. replace (firstn a (skipn b (repeat 0 c))) with (repeat 0 (Nat.min a (c - b))).
      - apply (without_padded [] _). intros [].
      - clear. revert c. induction b as [|b IHb]; intros c.
        + cbn [skipn]. rewrite Nat.sub_0_r. revert c. induction a as [|a IHa]; intros [|c]; cbn; try reflexivity. f_equal. apply IHa.
        + destruct c as [|c]; cbn [repeat skipn Nat.sub]; [rewrite Nat.min_0_r; now destruct a|]. apply IHb. }
    apply X.
Qed.

Section Read.
Context (d : dataset (list Z)) (n : Z) (F : list Z -> list Z) (start stop step : option Z).
Context (Hn : 0 <= n <= SSIZE_MAX) (Hd : file_holds d [n] F) (Hstep : 0 < step_of step).

Theorem get_strings_ok : (forall i, 0 <= i < n -> ~ In 0 (F [i])) ->
  exists a, get_strings d start stop step = Ok a /\ st_count a = Z.of_nat (length (chosen n start stop step)) /\
    forall j, 0 <= j < st_count a -> string_at a j = if j mod 4 =? 0 then F [nth (Z.to_nat (j / 4)) (chosen n start stop step) 0] else [].
Proof.
  intros Hz. destruct (single_slice d n F start stop step Hn Hd Hstep) as [s [t [er [E1 [W P]]]]]. unfold get_strings. rewrite E1. cbn [obind se_shape se_slab]. set (m := Z.of_nat (length (chosen n start stop step))) in *.
  destruct (read_strided_ok s t [m] [n] d F (repeat [] (Z.to_nat m)) W Hd) as [data [E2 [L2 H2]]]; [rewrite repeat_length; cbn [volume]; unfold m; lia|]. rewrite E2. cbn [obind]. rewrite create_string_array_ok.
  cbn [volume] in L2. rewrite Z.mul_1_r in L2. eexists. split; [reflexivity|]. cbn [st_count]. split; [assumption|]. rewrite L2. intros j Hj.
  assert (V : forall i, 0 <= i < m -> nth (Z.to_nat i) data [] = F [nth (Z.to_nat i) (chosen n start stop step) 0] /\ ~ In 0 (nth (Z.to_nat i) data [])).
  { intros i Hi. specialize (H2 [i]). cbn [in_shape rowmaj volume] in H2. rewrite Z.mul_1_r, Z.add_0_r in H2. specialize (H2 ltac:(tauto)). rewrite P in H2 by assumption. rewrite (nth_error_nth _ _ _ H2). split; [reflexivity|].
    assert (W2 := phi_in s t [m] [n] [i] W). cbn [in_shape] in W2. specialize (W2 ltac:(tauto)). rewrite P in W2 by assumption. cbn [in_shape] in W2. apply Hz. tauto. }
  assert (X : forall x, In x data -> ~ In 0 x).
  { intros x Hx. destruct (In_nth _ _ [] Hx) as [k [Hk Ek]]. subst x. destruct (V (Z.of_nat k)) as [_ V2]; [lia|]. rewrite Nat2Z.id in V2. exact V2. }
  rewrite <- L2 at 1. rewrite string_read by (try assumption; lia). destruct (j mod 4 =? 0); [|reflexivity]. apply V. split; [apply Z.div_pos; lia|]. apply Z.div_lt_upper_bound; lia.
Qed.
End Read.
