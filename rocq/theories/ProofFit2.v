(** [linear_fit_fixed] on arrays of fitting shapes, and least squares. *)
From Verif Require Import Py PyLemmas Num ModelKnots ModelCurve ModelParam ModelFit Spec SpecFit ProofNum ProofCurve2 ProofParam ProofFit.
Open Scope Z_scope.

Section Shapes.
Context {K : Num}.
(** Contribution of the kept entries. *)
Definition kdot (mask : list bool) (r P : list K) : K :=
  fold_left (fun s rp => (s + fst rp * snd rp)%num) (pick true mask (combine r P)) (0 : K)%num.

Lemma aset_col_map (R : list (list K)) (f g : list K -> list K) (h : list K -> K) j : (forall r, In r R -> aset (f r) j (h r) = Ok (g r)) ->
  aset_col (map f R) j (map h R) = Ok (map g R).
Proof.
  intros H; unfold aset_col; rewrite broadcast_same by (unfold zlen; rewrite !map_length; reflexivity); cbn [bind].
  induction R as [|r R IH]; [reflexivity|].
  cbn [map combine mapM fst snd]; rewrite H by (left; reflexivity); cbn [bind].
  rewrite IH by (intros; apply H; right; assumption); reflexivity.
Qed.
Lemma iadd_map (R : list (list K)) (f h : list K -> K) : iadd (map f R) (map h R) = Ok (map (fun r => (f r + h r)%num) R).
Proof.
  unfold iadd; rewrite broadcast_same by (unfold zlen; rewrite !map_length; reflexivity); cbn [bind]; f_equal.
  unfold vmap2; induction R as [|r R IH]; [reflexivity|]; cbn; f_equal; exact IH.
Qed.
Lemma acol_map (R : list (list K)) n j d : Forall (fun r => length r = n) R -> (0 <= j < Z.of_nat n) ->
  acol R j = Ok (map (fun r => nth (Z.to_nat j) r d) R).
Proof.
  intros HR Hj; unfold acol; apply mapM_ok; intros r Hr; rewrite Forall_forall in HR.
  rewrite (aget_nth _ _ d); [reflexivity|]; unfold zlen; rewrite HR by exact Hr; exact Hj.
Qed.
Lemma firstn_full {A} (l : list A) n : length l = n -> firstn n l = l.
Proof. intros <-; apply firstn_all. Qed.

Variables (R : list (list K)) (Q P : list K) (mask : list bool) (n : nat).
Hypothesis HR : Forall (fun r => length r = n) R.
Hypothesis HP : length P = n.
Hypothesis HM : length mask = n.
Let mk i := firstn (Z.to_nat i) mask.

Definition split_state (i : Z) : list (list K) * list (list K) * list K * Z * Z :=
  (map (fun r => free (mk i) (firstn (Z.to_nat i) r) ++ repeat (0 : K)%num (picks false mask - picks false (mk i))) R,
   map (fun r => kept (mk i) (firstn (Z.to_nat i) r) ++ repeat (0 : K)%num (picks true mask - picks true (mk i))) R,
   map (fun r => kdot (mk i) (firstn (Z.to_nat i) r) (firstn (Z.to_nat i) P)) R,
   Z.of_nat (picks true (mk i)), Z.of_nat (picks false (mk i))).

Lemma picks_le b i : (picks b (firstn i mask) <= picks b mask)%nat.
Proof.
  rewrite <- (firstn_skipn i mask) at 2; unfold picks; rewrite filter_app, app_length; lia.
Qed.
Lemma mk_step i : 0 <= i < Z.of_nat n -> mk (i + 1) = mk i ++ [nth (Z.to_nat i) mask false].
Proof. intros H; unfold mk; replace (Z.to_nat (i + 1)) with (S (Z.to_nat i)) by lia; apply firstn_snoc; lia. Qed.
Lemma row_step {A} (l : list A) d i : length l = n -> 0 <= i < Z.of_nat n ->
  firstn (Z.to_nat (i + 1)) l = firstn (Z.to_nat i) l ++ [nth (Z.to_nat i) l d].
Proof. intros Hl H; replace (Z.to_nat (i + 1)) with (S (Z.to_nat i)) by lia; apply firstn_snoc; lia. Qed.
Lemma mk_length {A} i (l : list A) : 0 <= i <= Z.of_nat n -> length l = n -> length (mk i) = length (firstn (Z.to_nat i) l).
Proof. intros H Hl; unfold mk; rewrite !firstn_length; lia. Qed.

Lemma fill_step b i (r : list K) d : 0 <= i < Z.of_nat n -> length r = n -> nth (Z.to_nat i) mask false = b ->
  aset (pick b (mk i) (firstn (Z.to_nat i) r) ++ repeat (0 : K)%num (picks b mask - picks b (mk i)))
       (Z.of_nat (picks b (mk i))) (nth (Z.to_nat i) r d)
  = Ok (pick b (mk (i + 1)) (firstn (Z.to_nat (i + 1)) r) ++ repeat (0 : K)%num (picks b mask - picks b (mk (i + 1)))).
Proof.
  intros Hi Hr Hb.
  pose proof (picks_le b (Z.to_nat (i + 1))) as HL; fold (mk (i + 1)) in HL.
  rewrite mk_step in HL |- * by exact Hi; rewrite Hb in HL |- *; rewrite picks_snoc, Bool.eqb_reflx in HL |- *.
  rewrite (row_step r d i Hr Hi), pick_snoc, Bool.eqb_reflx by (apply mk_length; [lia|exact Hr]).
  rewrite <- app_assoc; cbn [app].
  replace (picks b mask - picks b (mk i))%nat with (S (picks b mask - (picks b (mk i) + 1))) by lia.
  cbn [repeat]; apply aset_mid; unfold zlen; f_equal; symmetry; apply pick_length, mk_length; [lia|exact Hr].
Qed.
Lemma fill_skip b i (r : list K) (d : K) : 0 <= i < Z.of_nat n -> length r = n -> nth (Z.to_nat i) mask false <> b ->
  pick b (mk i) (firstn (Z.to_nat i) r) ++ repeat (0 : K)%num (picks b mask - picks b (mk i))
  = pick b (mk (i + 1)) (firstn (Z.to_nat (i + 1)) r) ++ repeat (0 : K)%num (picks b mask - picks b (mk (i + 1))).
Proof.
  intros Hi Hr Hb; assert (E : Bool.eqb (nth (Z.to_nat i) mask false) b = false) by (apply Bool.eqb_false_iff; exact Hb).
  rewrite mk_step by exact Hi; rewrite picks_snoc, (row_step r d i Hr Hi), pick_snoc by (apply mk_length; [lia|exact Hr]).
  rewrite E; replace (Bool.eqb b (nth (Z.to_nat i) mask false)) with false by (destruct b, (nth (Z.to_nat i) mask false); auto).
  rewrite Nat.add_0_r, app_nil_r; reflexivity.
Qed.
Lemma kdot_step i r (d : K) : 0 <= i < Z.of_nat n -> length r = n ->
  kdot (mk (i + 1)) (firstn (Z.to_nat (i + 1)) r) (firstn (Z.to_nat (i + 1)) P) =
  if nth (Z.to_nat i) mask false
  then (kdot (mk i) (firstn (Z.to_nat i) r) (firstn (Z.to_nat i) P) + nth (Z.to_nat i) r d * nth (Z.to_nat i) P d)%num
  else kdot (mk i) (firstn (Z.to_nat i) r) (firstn (Z.to_nat i) P).
Proof.
  intros Hi Hr; unfold kdot; rewrite <- !combine_firstn, mk_step by exact Hi.
  assert (HC : length (combine r P) = n) by (rewrite combine_length; lia).
  rewrite (row_step (combine r P) (d, d) i HC Hi), pick_snoc by (apply mk_length; [lia|exact HC]).
  rewrite combine_nth by lia.
  destruct (nth (Z.to_nat i) mask false); cbn [Bool.eqb].
  - rewrite fold_left_app; cbn [fold_left fst snd]; reflexivity.
  - rewrite app_nil_r; reflexivity.
Qed.

Lemma split_loop : for_range 0 (zlen P) (split_step R P mask) (split_state 0) = Ok (split_state (zlen P)).
Proof.
  apply (for_range_fun split_state); [unfold zlen; lia|reflexivity|].
  intros i Hi; unfold zlen in Hi; rewrite HP in Hi.
  unfold split_state, split_step.
  rewrite (aget_nth mask i false) by (unfold zlen; lia); cbn [bind].
  rewrite (acol_map R n i (0 : K)%num HR Hi); cbn [bind].
  rewrite (map_ext_in (fun r => kdot (mk (i + 1)) _ _) _ _ (fun r Hr => kdot_step i r (0 : K)%num Hi (proj1 (Forall_forall _ _) HR r Hr))).
  destruct (nth (Z.to_nat i) mask false) eqn:E.
  - rewrite (aset_col_map R _ (fun r => kept (mk (i + 1)) (firstn (Z.to_nat (i + 1)) r) ++ repeat (0 : K)%num (picks true mask - picks true (mk (i + 1))))).
    2: { intros r Hr; apply fill_step; [exact Hi|exact (proj1 (Forall_forall _ _) HR r Hr)|exact E]. }
    cbn [bind]; rewrite (aget_nth P i (0 : K)%num) by (unfold zlen; lia); cbn [bind].
    rewrite map_map, iadd_map; cbn [bind].
    assert (F : map (fun r => free (mk i) (firstn (Z.to_nat i) r) ++ repeat (0 : K)%num (picks false mask - picks false (mk i))) R
              = map (fun r => free (mk (i + 1)) (firstn (Z.to_nat (i + 1)) r) ++ repeat (0 : K)%num (picks false mask - picks false (mk (i + 1)))) R).
    { apply map_ext_in; intros r Hr; apply (fill_skip false); [exact (0 : K)%num|exact Hi|exact (proj1 (Forall_forall _ _) HR r Hr)|rewrite E; discriminate]. }
    rewrite F; do 2 f_equal.
    + f_equal; rewrite mk_step, E, picks_snoc by exact Hi; cbn [Bool.eqb]; lia.
    + rewrite mk_step, E, picks_snoc by exact Hi; cbn [Bool.eqb]; lia.
  - rewrite (aset_col_map R _ (fun r => free (mk (i + 1)) (firstn (Z.to_nat (i + 1)) r) ++ repeat (0 : K)%num (picks false mask - picks false (mk (i + 1))))).
    2: { intros r Hr; apply fill_step; [exact Hi|exact (proj1 (Forall_forall _ _) HR r Hr)|exact E]. }
    cbn [bind].
    assert (F : map (fun r => kept (mk i) (firstn (Z.to_nat i) r) ++ repeat (0 : K)%num (picks true mask - picks true (mk i))) R
              = map (fun r => kept (mk (i + 1)) (firstn (Z.to_nat (i + 1)) r) ++ repeat (0 : K)%num (picks true mask - picks true (mk (i + 1)))) R).
    { apply map_ext_in; intros r Hr; apply (fill_skip true); [exact (0 : K)%num|exact Hi|exact (proj1 (Forall_forall _ _) HR r Hr)|rewrite E; discriminate]. }
    rewrite F; do 2 f_equal.
    + f_equal; rewrite mk_step, E, picks_snoc by exact Hi; cbn [Bool.eqb]; lia.
    + rewrite mk_step, E, picks_snoc by exact Hi; cbn [Bool.eqb]; lia.
Qed.
End Shapes.

Section Eq.
Context {K : Num}.
Lemma map_const_repeat {A B} (l : list A) (v : B) : map (fun _ => v) l = repeat v (length l).
Proof. induction l as [|x l IH]; cbn; [reflexivity|]; rewrite IH; reflexivity. Qed.

Lemma linear_fit_fixed_eq sv (R : list (list K)) Q P fixed lg n :
  Forall (fun r => length r = n) R -> length R = length Q -> length P = n -> (n <= length fixed)%nat ->
  let mask := firstn n fixed in
  linear_fit_fixed sv R Q P fixed lg =
  if (picks false mask =? 0)%nat then Ok P else
  let* _ := (if 2 <=? lg
             then let* a := gram (Z.of_nat (picks false mask)) (map (free mask) R) in let* _ := sv_cond sv a in Ok tt
             else Ok tt) in
  let* y := sv_lstsq sv (Z.of_nat (picks false mask)) (map (free mask) R) (vmap2 nsub Q (map (fun r => kdot mask r P) R)) in
  if (picks false mask <=? length y)%nat then Ok (merge mask P y) else Err IndexError.
Proof.
  intros HR HQ HP HF mask.
  assert (HM : length mask = n) by (unfold mask; rewrite firstn_length; lia).
  pose proof (picks_sum mask) as HS.
  unfold linear_fit_fixed; rewrite count_fixed_eq, HP; fold mask.
  destruct (Z.leb_spec (zlen P) (zlen fixed)); [|unfold zlen in *; lia]; cbn [bind].
  destruct (Nat.eqb_spec (picks false mask) 0) as [E0|E0]; destruct (Z.eqb_spec (Z.of_nat (picks true mask)) (zlen P)) as [E1|E1];
    try (unfold zlen in E1; lia); [reflexivity|].
  replace (zlen P - Z.of_nat (picks true mask)) with (Z.of_nat (picks false mask)) by (unfold zlen; lia).
  unfold np_full2, np_full; repeat match goal with |- context [?a <? 0] => destruct (Z.ltb_spec a 0); [unfold zlen in *; lia|] end; cbn [orb bind].
  rewrite !Nat2Z.id.
  replace (Z.to_nat (zlen Q)) with (length R) by (unfold zlen; lia).
  assert (ES : for_range 0 (zlen P) (split_step R P fixed)
      (repeat (repeat (0 : K)%num (picks false mask)) (length R), repeat (repeat (0 : K)%num (picks true mask)) (length R), repeat (0 : K)%num (length R), 0, 0)
    = Ok (map (free mask) R, map (kept mask) R, map (fun r => kdot mask r P) R, Z.of_nat (picks true mask), Z.of_nat (picks false mask))).
  { transitivity (for_range 0 (zlen P) (split_step R P mask) (split_state R P mask 0)).
    - unfold for_range.
      replace (split_state R P mask 0) with (repeat (repeat (0 : K)%num (picks false mask)) (length R), repeat (repeat (0 : K)%num (picks true mask)) (length R), repeat (0 : K)%num (length R), 0, 0).
      + apply for_list_ext_in; intros i s Hi; apply in_zrange in Hi; unfold zlen in Hi; unfold split_step.
        destruct s as [[[[? ?] ?] ?] ?]; unfold mask; rewrite aget_firstn by lia; reflexivity.
      + unfold split_state, picks; cbn [Z.to_nat firstn free kept pick app filter length Z.of_nat]; rewrite !Nat.sub_0_r.
        unfold kdot; cbn [pick fold_left]; rewrite !map_const_repeat; reflexivity.
    - rewrite (split_loop R P mask n HR HP HM); unfold split_state.
      assert (EN : Z.to_nat (zlen P) = n) by (unfold zlen; lia); rewrite EN.
      rewrite (firstn_full mask n HM), (firstn_full P n HP), !Nat.sub_diag.
      rewrite (map_ext_in (fun r => free mask _ ++ _) (free mask) R)
        by (intros r Hr; rewrite firstn_full by (exact (proj1 (Forall_forall _ _) HR r Hr)); apply app_nil_r).
      rewrite (map_ext_in (fun r => kept mask _ ++ _) (kept mask) R)
        by (intros r Hr; rewrite firstn_full by (exact (proj1 (Forall_forall _ _) HR r Hr)); apply app_nil_r).
      rewrite (map_ext_in (fun r => kdot mask _ _) (fun r => kdot mask r P) R)
        by (intros r Hr; rewrite firstn_full by (exact (proj1 (Forall_forall _ _) HR r Hr)); reflexivity).
      reflexivity. }
  rewrite ES; cbn [bind].
  match goal with |- bind ?m _ = bind ?m _ => destruct m end; cbn [bind]; try reflexivity.
  unfold np_sub, np_bin; rewrite (proj2 (Z.eqb_eq (zlen Q) _)) by (unfold zlen; rewrite map_length; lia); cbn [bind].
  match goal with |- bind ?m _ = bind ?m _ => destruct m as [y| |] end; cbn [bind]; try reflexivity.
  replace (Z.to_nat (zlen P)) with (length P) by (unfold zlen; lia).
  rewrite merge_all by lia; rewrite HP; fold mask.
  destruct (_ <=? _)%nat; reflexivity.
Qed.
End Eq.
