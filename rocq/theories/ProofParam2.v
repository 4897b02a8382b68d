(** Curve inversion on straight lines; sorting; the repository's curve class. *)
From Coq Require Import Permutation Sorted.
From Verif Require Import Py PyLemmas Num ModelKnots ModelBasis ModelCurve ModelSurface ModelParam Spec SpecParam ProofNum ProofSpan ProofBasis ProofCurve ProofCurve2 ProofInit ProofParam.
Open Scope R_scope.

Lemma curve_rows_line c A B u : acts_as_line c A B -> 0 <= u <= 1 ->
  curve_rows c (Fin u : Exact) = Ok (fin (lerp A B u), fin (subR B A), fin [0; 0; 0]).
Proof.
  intros HL Hu; destruct (HL u Hu) as (_ & rest & E); unfold curve_rows; rewrite E; cbn [bind].
  set (l := [lerp A B u; subR B A; [0; 0; 0]] ++ rest).
  assert (LE : (3 <= zlen (fin2 l : list (list Exact)))%Z) by (rewrite zlen_fin2; unfold l, len; rewrite app_length; cbn [length]; lia).
  rewrite !(aget_nth _ _ ([] : list Exact)) by lia; reflexivity.
Qed.
Lemma curve_dist_line c A B P u : acts_as_line c A B -> length P = 3%nat -> 0 <= u <= 1 ->
  curve_dist c (fin P) (Fin u : Exact) = Ok (Fin (distR (lerp A B u) P) : Exact).
Proof.
  intros HL HP Hu; destruct (HL u Hu) as (E & _); unfold curve_dist; rewrite E; cbn [bind].
  rewrite E_np_sub by (rewrite HP; reflexivity); cbn [bind]; rewrite E_vnorm; reflexivity.
Qed.

Lemma line_returns_guess c A B P e1 e2 mi : acts_as_line c A B -> (1 <= cb_count c)%Z ->
  length A = 3%nat -> length B = 3%nat -> length P = 3%nat ->
  0 < dotR (subR B A) (subR B A) -> 0 <= dotR (subR P A) (subR B A) <= dotR (subR B A) (subR B A) ->
  0 <= e1 -> 0 <= e2 ->
  curve_inversion c (fin P) (Fin e1 : Exact) (Fin e2 : Exact) mi = initial_guess_curve c (fin P).
Proof.
  intros HL Hn LA LB LP HD HP He1 He2.
  set (t := dotR (subR P A) (subR B A) / dotR (subR B A) (subR B A)).
  assert (Ht : 0 <= t <= 1).
  { unfold t; split.
    - apply Rmult_le_pos; [lra|left; apply Rinv_0_lt_compat; lra].
    - apply (Rmult_le_reg_r (dotR (subR B A) (subR B A))); [lra|].
      unfold Rdiv; rewrite Rmult_assoc, Rinv_l; lra. }
  assert (EN : forall u, 0 <= u <= 1 -> curve_newton (Fin u : Exact) (fin (lerp A B u)) (fin (subR B A)) (fin [0; 0; 0]) (fin P) = Ok (Fin t : Exact)).
  { intros u Hu; unfold curve_newton.
    rewrite E_np_sub by (rewrite LP; reflexivity); cbn [bind].
    rewrite !E_dot by (rewrite !subR_length by (rewrite ?LA, ?LB, ?LP; reflexivity); rewrite ?LB; reflexivity); cbn [bind].
    rewrite E_vnorm, E_mul, E_add.
    assert (ED : dotR [0; 0; 0] (subR (lerp A B u) P) + normR (subR B A) * normR (subR B A) = dotR (subR B A) (subR B A)).
    { unfold normR at 1 2; rewrite sqrt_sqrt by lra.
      destruct P as [|p0 [|p1 [|p2 [|]]]]; try discriminate LP; unfold dotR, subR, lerp; cbn; ring. }
    rewrite ED, E_div by lra; rewrite E_sub.
    assert (EU : u - dotR (subR B A) (subR (lerp A B u) P) / dotR (subR B A) (subR B A) = t).
    { unfold t; apply (Rmult_eq_reg_r (dotR (subR B A) (subR B A))); [|lra].
      unfold Rdiv; rewrite Rmult_minus_distr_r, !Rmult_assoc, Rinv_l, !Rmult_1_r by lra.
      destruct P as [|p0 [|p1 [|p2 [|]]]]; try discriminate LP.
      destruct A as [|a0 [|a1 [|a2 [|]]]]; try discriminate LA.
      destruct B as [|b0 [|b1 [|b2 [|]]]]; try discriminate LB.
      unfold dotR, subR, lerp; cbn; ring. }
    rewrite EU, !E_ofZ, !E_ltb.
    destruct (Rltb t 0) eqn:E0; [apply Rltb_true in E0; lra|].
    destruct (Rltb 1 t) eqn:E1; [apply Rltb_true in E1; lra|reflexivity]. }
  destruct (initial_guess_spec c P (fun i => lerp A B (IZR i / IZR (2 * cb_count c - 1))) (cb_count c) eq_refl Hn)
    as (k & Hk & EG & _).
  { intros i Hi; split; [apply HL; apply samples_range; lia|rewrite LP; reflexivity]. }
  unfold curve_inversion, curve_inversion_fuel; rewrite EG; cbn [bind].
  set (u := IZR k / IZR (2 * cb_count c - 1)) in *.
  assert (Hu : 0 <= u <= 1) by (apply samples_range; lia).
  rewrite (curve_rows_line c A B) by assumption; cbn [bind].
  rewrite (curve_dist_line c A B) by assumption; cbn [bind].
  destruct (_ <=? _)%num; [reflexivity|].
  unfold curve_cos; rewrite E_np_sub by (rewrite LP; reflexivity); cbn [bind].
  rewrite E_dot by (rewrite !subR_length by (rewrite ?LA, ?LB, ?LP; reflexivity); rewrite ?LB; reflexivity); cbn [bind].
  destruct (_ <=? _)%num; [reflexivity|].
  cbn [curve_loop]; rewrite EN by assumption; cbn [bind].
  destruct (_ <=? _)%num; [reflexivity|].
  rewrite (curve_rows_line c A B) by assumption; cbn [bind].
  rewrite (curve_dist_line c A B) by assumption; cbn [bind].
  rewrite E_leb; destruct (Rleb (distR (lerp A B t) P) e1) eqn:E1; [reflexivity|apply Rleb_false in E1].
  unfold curve_cos; rewrite E_np_sub by (rewrite LP; reflexivity); cbn [bind].
  rewrite E_dot by (rewrite !subR_length by (rewrite ?LA, ?LB, ?LP; reflexivity); rewrite ?LB; reflexivity); cbn [bind].
  assert (E0 : dotR (subR B A) (subR (lerp A B t) P) = 0).
  { transitivity (t * dotR (subR B A) (subR B A) - dotR (subR P A) (subR B A)).
    - destruct P as [|p0 [|p1 [|p2 [|]]]]; try discriminate LP.
      destruct A as [|a0 [|a1 [|a2 [|]]]]; try discriminate LA.
      destruct B as [|b0 [|b1 [|b2 [|]]]]; try discriminate LB.
      unfold dotR, subR, lerp; cbn; ring.
    - unfold t; field; lra. }
  rewrite E0, E_snorm, Rabs_R0, !E_vnorm, E_mul; fold (distR (lerp A B t) P).
  rewrite E_div.
  - rewrite E_leb; unfold Rdiv; rewrite Rmult_0_l; rewrite (proj2 (Rleb_true 0 e2) He2); reflexivity.
  - apply Rmult_integral_contrapositive_currified; [|lra].
    unfold normR; apply Rgt_not_eq, sqrt_lt_R0; exact HD.
Qed.

(** The repository's curve objects cannot be differentiated, so never inverted. *)
Lemma repo_curve_never (K : Num) (c : curve_obj K) P e1 e2 mi u : curve_inversion (beh_of_curve c) P e1 e2 mi <> Ok u.
Proof.
  intros H; apply curve_result_evaluated in H; destruct H as (m & E); exact (derivatives_fail _ _ _ _ _ _ E).
Qed.

(** ** Sorting *)
Section Sorting.
Context {K : Num}.
Lemma rec_insert_perm order (r : list K) l : Permutation (rec_insert order r l) (r :: l).
Proof.
  induction l as [|x t IH]; cbn [rec_insert]; [reflexivity|].
  destruct (rec_le order r x); [reflexivity|].
  rewrite IH; apply perm_swap.
Qed.
Lemma rec_sort_perm order (l : list (list K)) : Permutation (rec_sort order l) l.
Proof.
  induction l as [|x t IH]; cbn [rec_sort]; [reflexivity|].
  rewrite rec_insert_perm, IH; reflexivity.
Qed.
Lemma seq_nth_id {A} (l : list (list A)) : map (fun i => flat_map (fun b => nth i b []) [l]) (seq 0 (length l)) = l.
Proof.
  transitivity (tab (length l) (fun i => nth (Z.to_nat i) l [])); [|symmetry; apply list_as_tab].
  unfold tab; apply map_ext; intros i; cbn [flat_map]; rewrite app_nil_r.
  rewrite Nat2Z.id; reflexivity.
Qed.
(** One record per row. *)
Lemma sort_view_rows (w : nat) order (m : list (list K)) : (1 <= w)%nat -> Forall (fun r => length r = w) m ->
  sort_view (Z.of_nat w) order (Z.of_nat w) m = Ok (rec_sort order m).
Proof.
  intros Hw HF; unfold sort_view; rewrite Z.mod_same by lia; cbn [Z.eqb negb].
  rewrite Z.div_same by lia; change (zrange 0 1) with [0%Z]; cbn [map]; f_equal.
  replace (map _ m) with m.
  - replace (length m) with (length (rec_sort order m)) by (apply Permutation_length, rec_sort_perm).
    apply seq_nth_id.
  - rewrite Forall_forall in HF; rewrite <- (map_id m) at 1; apply map_ext_in; intros r Hr.
    specialize (HF r Hr); symmetry.
    destruct r as [|x t]; [cbn in HF; lia|].
    rewrite (list_as_tab (x :: t) x), slice_tab by lia.
    rewrite HF; replace (Z.to_nat _) with w by lia; apply tab_ext; intros i Hi; f_equal; lia.
Qed.
Lemma sort_view_bad w order cols (m : list (list K)) : (cols mod w <> 0)%Z -> sort_view w order cols m = Err ValueError.
Proof. intros H; unfold sort_view; destruct (Z.eqb_spec (cols mod w) 0); [contradiction|reflexivity]. Qed.
End Sorting.

Lemma sort_lt_fin x y : sort_lt (Fin x : Exact) (Fin y : Exact) = Rltb x y.
Proof.
  unfold sort_lt; rewrite E_ltb, !E_eqb, !Reqb_refl; cbn [negb andb]; apply orb_false_r.
Qed.
Lemma nth_fin i a : nth i (fin a) (0%num : Exact) = Fin (nth i a 0).
Proof. exact (map_nth (Fin : R -> Exact) a 0 i). Qed.
Lemma rec_le_lex order a b : rec_le order (fin a) (fin b) = true <-> lex_le order a b.
Proof.
  induction order as [|i t IH]; cbn [rec_le lex_le]; [tauto|].
  rewrite !nth_fin, !sort_lt_fin.
  destruct (Rltb (nth i a 0) (nth i b 0)) eqn:E1; [apply Rltb_true in E1; split; [left; assumption|reflexivity]|apply Rltb_false in E1].
  destruct (Rltb (nth i b 0) (nth i a 0)) eqn:E2; [apply Rltb_true in E2; split; [discriminate|intros [H|[H _]]; lra]|apply Rltb_false in E2].
  rewrite IH; split; [intros H; right; split; [lra|exact H]|intros [H|[_ H]]; [lra|exact H]].
Qed.
Lemma lex_total order a b : lex_le order a b \/ lex_le order b a.
Proof.
  induction order as [|i t IH]; cbn [lex_le]; [auto|].
  destruct (Rtotal_order (nth i a 0) (nth i b 0)) as [H|[H|H]]; [auto| |auto].
  destruct IH; [left|right]; right; split; auto.
Qed.
Lemma lex_trans order a b c : lex_le order a b -> lex_le order b c -> lex_le order a c.
Proof.
  induction order as [|i t IH]; cbn [lex_le]; [auto|].
  intros [H1|[H1 H2]] [H3|[H3 H4]]; [left; lra|left; lra|left; lra|right; split; [lra|auto]].
Qed.
Fixpoint lex_insert (order : list nat) (r : list R) (l : list (list R)) : list (list R) :=
  match l with
  | [] => [r]
  | x :: t => if rec_le order (fin r) (fin x) then r :: l else x :: lex_insert order r t
  end.
Fixpoint lex_sort (order : list nat) (l : list (list R)) : list (list R) :=
  match l with [] => [] | x :: t => lex_insert order x (lex_sort order t) end.
Lemma rec_insert_fin order r l : rec_insert order (fin r) (fin2 l) = fin2 (lex_insert order r l).
Proof.
  induction l as [|x t IH]; [reflexivity|]; cbn [fin2 map rec_insert lex_insert].
  destruct (rec_le order (fin r) (fin x)); [reflexivity|]; fold (fin2 t); rewrite IH; reflexivity.
Qed.
Lemma rec_sort_fin order l : rec_sort order (fin2 l) = fin2 (lex_sort order l).
Proof.
  induction l as [|x t IH]; [reflexivity|]; cbn [fin2 map rec_sort lex_sort]; fold (fin2 t).
  rewrite IH; apply rec_insert_fin.
Qed.
Lemma lex_insert_perm order r l : Permutation (lex_insert order r l) (r :: l).
Proof.
  induction l as [|x t IH]; cbn [lex_insert]; [reflexivity|].
  destruct (rec_le order (fin r) (fin x)); [reflexivity|]; rewrite IH; apply perm_swap.
Qed.
Lemma lex_sort_perm order l : Permutation (lex_sort order l) l.
Proof.
  induction l as [|x t IH]; cbn [lex_sort]; [reflexivity|]; rewrite lex_insert_perm, IH; reflexivity.
Qed.
Lemma lex_insert_sorted order r l : StronglySorted (lex_le order) l -> StronglySorted (lex_le order) (lex_insert order r l).
Proof.
  induction 1 as [|x t HS IH HF]; cbn [lex_insert]; [repeat constructor|].
  destruct (rec_le order (fin r) (fin x)) eqn:E.
  - apply rec_le_lex in E; constructor; [constructor; assumption|]; constructor; [exact E|].
    rewrite Forall_forall in *; intros y Hy; eapply lex_trans; [exact E|apply HF; exact Hy].
  - assert (E' : lex_le order x r).
    { destruct (lex_total order x r) as [H|H]; [exact H|]; apply rec_le_lex in H; rewrite H in E; discriminate. }
    constructor; [exact IH|]; rewrite Forall_forall in *; intros y Hy.
    apply (Permutation_in _ (lex_insert_perm order r t)) in Hy; destruct Hy as [<-|Hy]; [exact E'|apply HF; exact Hy].
Qed.
Lemma lex_sort_sorted order l : StronglySorted (lex_le order) (lex_sort order l).
Proof. induction l; cbn [lex_sort]; [constructor|apply lex_insert_sorted; assumption]. Qed.

(** ** parameterize_curve *)
Lemma parameterize_curve_perm (K : Num) (c : curve_beh K) rows out : Forall (fun r => length r = 3%nat) rows ->
  parameterize_curve c (mkData 3 rows) = Ok out ->
  exists us, Forall2 (fun r u => curve_inversion c r lit_1em5 lit_1em5 100 = Ok u) rows us /\
    Permutation out (map (fun t => fst t ++ [snd t]) (combine rows us)).
Proof.
  intros HF; unfold parameterize_curve; cbn [dt_rows dt_cols].
  destruct (mapM _ rows) as [us| |] eqn:E; cbn [bind]; try discriminate.
  apply mapM_spec in E; change (3 + 1)%Z with (Z.of_nat 4); change 4%Z with (Z.of_nat 4).
  rewrite sort_view_rows; [|lia|].
  - intros H; injection H as <-; exists us; split; [exact E|apply rec_sort_perm].
  - rewrite Forall_forall in *; intros r Hr; apply in_map_iff in Hr; destruct Hr as ([a b] & <- & Hab).
    apply in_combine_l in Hab; cbn [fst snd]; rewrite app_length, (HF a Hab); reflexivity.
Qed.
Lemma parameterize_curve_bad (K : Num) (c : curve_beh K) d out : ((dt_cols d + 1) mod 4 <> 0)%Z -> parameterize_curve c d <> Ok out.
Proof.
  intros H; unfold parameterize_curve; destruct (mapM _ _); cbn [bind]; try discriminate.
  rewrite sort_view_bad by exact H; discriminate.
Qed.
(** Data and parameters as real numbers. *)
Lemma zip_fin rows us : map (fun t => fst t ++ [snd t]) (combine (fin2 rows) (fin us)) =
  fin2 (map (fun t => fst t ++ [snd t]) (combine rows us)).
Proof.
  revert us; induction rows as [|r rows IH]; intros [|u us]; try reflexivity.
  cbn [fin2 fin map combine fst snd]; fold (fin2 rows) (fin us) (fin r).
  cbn [map]; rewrite IH; cbn [fst snd]; f_equal; unfold fin; rewrite map_app; reflexivity.
Qed.
Lemma parameterize_curve_sorted (c : curve_beh Exact) rows out : Forall (fun r => length r = 3%nat) rows ->
  (forall u m, cb_ders c u = Ok m -> exists r, u = Fin r /\ 0 <= r <= 1) ->
  parameterize_curve c (mkData 3 (fin2 rows)) = Ok out ->
  exists us sorted, Forall2 (fun r u => curve_inversion c (fin r) lit_1em5 lit_1em5 100 = Ok (Fin u : Exact) /\ 0 <= u <= 1) rows us /\
    out = fin2 sorted /\ Permutation sorted (map (fun t => fst t ++ [snd t]) (combine rows us)) /\
    StronglySorted (lex_le [3%nat; 0%nat; 1%nat; 2%nat]) sorted.
Proof.
  intros HF HR; unfold parameterize_curve; cbn [dt_rows dt_cols].
  destruct (mapM _ (fin2 rows)) as [us| |] eqn:E; cbn [bind]; try discriminate.
  apply mapM_spec in E; change (3 + 1)%Z with (Z.of_nat 4); change 4%Z with (Z.of_nat 4).
  assert (EU : exists us', us = fin us' /\ Forall2 (fun r u => curve_inversion c (fin r) lit_1em5 lit_1em5 100 = Ok (Fin u : Exact) /\ 0 <= u <= 1) rows us').
  { clear HF; revert us E; induction rows as [|r rows IH]; intros us E; inversion E as [|? x ? us2 E1 E2]; subst.
    - exists []; split; [reflexivity|constructor].
    - destruct (IH _ E2) as (us' & -> & H).
      destruct (curve_result_evaluated _ _ _ _ _ _ _ E1) as (m & Em); destruct (HR _ _ Em) as (u & -> & Hu).
      exists (u :: us'); split; [reflexivity|constructor; [split; assumption|exact H]]. }
  destruct EU as (us' & -> & HU); rewrite zip_fin, sort_view_rows; [|lia|].
  - rewrite rec_sort_fin; intros H; injection H as <-.
    exists us', (lex_sort [3%nat; 0%nat; 1%nat; 2%nat] (map (fun t => fst t ++ [snd t]) (combine rows us'))).
    split; [exact HU|]; split; [reflexivity|]; split; [apply lex_sort_perm|apply lex_sort_sorted].
  - rewrite Forall_forall in *; intros r Hr; unfold fin2 in Hr; rewrite in_map_iff in Hr; destruct Hr as (r' & <- & Hr).
    apply in_map_iff in Hr; destruct Hr as ([a b] & <- & Hab).
    apply in_combine_l in Hab; unfold fin; rewrite map_length; cbn [fst snd]; rewrite app_length, (HF a Hab); reflexivity.
Qed.
