(** Lemmas about [fit_surface]. *)
From Coq Require Import Permutation Sorted.
From Verif Require Import Py PyLemmas Num ModelKnots ModelBasis ModelCurve ModelSurface ModelInit ModelParam ModelFit Spec SpecFit SpecParam ProofNum ProofCurve ProofCurve2 ProofParam2 ProofParam4 ProofFit ProofFit2 ProofFit3 ProofFit4 ProofFit5.
Open Scope Z_scope.

(** ** What the result depends on *)
Lemma fit_surface_widths (K : Num) sv (s : surf K) data (t1 t2 b1 b2 : data_array K) :
  dt_cols t1 = dt_cols t2 -> dt_cols b1 = dt_cols b2 ->
  fit_surface sv s data (Some t1) (Some b1) = fit_surface sv s data (Some t2) (Some b2).
Proof.
  intros H1 H2; unfold fit_surface, vstack, append_column; cbn [fst forallb]; rewrite H1, H2.
  destruct (parameterize_surface _ data); cbn [bind]; try reflexivity.
  destruct (_ && _); reflexivity.
Qed.
Lemma fit_surface_bad_width (K : Num) sv (s : surf K) data (t b : data_array K) rows :
  parameterize_surface (beh_of_surf s) data = Ok rows -> dt_cols t <> dt_cols data + 1 \/ dt_cols b <> dt_cols data + 1 ->
  fit_surface sv s data (Some t) (Some b) = Err ValueError.
Proof.
  intros H1 H2; unfold fit_surface, vstack, append_column; rewrite H1; cbn [bind fst forallb].
  destruct (Z.eqb_spec (dt_cols t + 1) (dt_cols data + 2)), (Z.eqb_spec (dt_cols b + 1) (dt_cols data + 2)); cbn [andb bind]; try reflexivity; lia.
Qed.
Lemma fit_surface_no_boundary (K : Num) sv (s : surf K) data t b s' : t = None \/ b = None -> fit_surface sv s data t b <> Ok s'.
Proof.
  intros [-> | ->]; unfold fit_surface; destruct (parameterize_surface _ data); cbn [bind]; try discriminate; destruct t; discriminate.
Qed.

(** ** Sorting sorted rows *)
Lemma lex_insert_first order r l : Forall (lex_le order r) l -> lex_insert order r l = r :: l.
Proof.
  destruct l as [|x t]; intros H; [reflexivity|]; cbn [lex_insert].
  rewrite (proj2 (rec_le_lex order r x) (Forall_inv H)); reflexivity.
Qed.
Lemma lex_sort_id order l : StronglySorted (lex_le order) l -> lex_sort order l = l.
Proof.
  induction 1 as [|x t HS IH HF]; [reflexivity|]; cbn [lex_sort]; rewrite IH; apply lex_insert_first; exact HF.
Qed.
Lemma sort_view_sorted w order rows : (1 <= w)%nat -> Forall (fun r => length r = w) rows -> StronglySorted (lex_le order) rows ->
  sort_view (Z.of_nat w) order (Z.of_nat w) (fin2 rows) = Ok (fin2 rows).
Proof.
  intros Hw HF HS; rewrite sort_view_rows, rec_sort_fin, (lex_sort_id _ _ HS); [reflexivity|exact Hw|].
  unfold fin2; rewrite Forall_map; revert HF; apply Forall_impl; intros r Hr; unfold fin; rewrite map_length; exact Hr.
Qed.

(** ** Objects: parameters accepted, widths *)
Lemma validate_unit (u : Exact) : validate_knot u = true -> unit_fin u.
Proof.
  destruct u as [r| | |]; unfold validate_knot.
  - intros H; apply (proj1 (validate_fin r)) in H; exists r; auto.
  - cbn; rewrite ?andb_false_r; discriminate.
  - cbn; discriminate.
  - cbn; discriminate.
Qed.
Lemma surf_point_unit (s : surf Exact) u v q : surf_point s u v = Ok q -> unit_fin u /\ unit_fin v.
Proof.
  unfold surf_point; destruct (validate_knot u) eqn:E1; [|discriminate]; destruct (validate_knot v) eqn:E2; [|discriminate].
  intros _; split; apply validate_unit; assumption.
Qed.
Lemma aset_row_width {K : Num} (m : list (list K)) i r m' : Forall (fun r => length r = 3%nat) m ->
  aset_row m i r = Ok m' -> Forall (fun r => length r = 3%nat) m'.
Proof.
  intros HF; unfold aset_row; destruct (aget m i) as [w| |] eqn:E; cbn [bind]; try discriminate.
  assert (Hw : length w = 3%nat).
  { apply (proj1 (Forall_forall _ _) HF); unfold aget in E.
    match type of E with (if ?b then _ else _) = _ => destruct b; [|discriminate] end.
    match type of E with match ?x with _ => _ end = _ => destruct x eqn:EN; [|discriminate] end.
    injection E as <-; apply nth_error_In in EN; exact EN. }
  destruct (broadcast _ _) as [v| |] eqn:EB; cbn [bind]; try discriminate.
  assert (Hv : length v = 3%nat).
  { unfold broadcast in EB; unfold zlen in EB; rewrite Hw in EB.
    repeat match type of EB with (if ?b then _ else _) = _ => destruct b eqn:?Eb end; try discriminate.
    - injection EB as <-; apply Z.eqb_eq in Eb; lia.
    - destruct r as [|x [|]]; try discriminate; injection EB as <-; reflexivity. }
  unfold aset; destruct (_ && _); [|discriminate]; intros H; injection H as <-.
  revert HF; generalize (Z.to_nat (if i <? 0 then i + zlen m else i)); clear -Hv.
  induction m as [|x m IH]; intros n HF; destruct n; cbn [upd]; try constructor; try exact Hv.
  - exact (Forall_inv_tail HF).
  - exact (Forall_inv HF).
  - apply IH; exact (Forall_inv_tail HF).
Qed.
Lemma surf_derivatives_width {K : Num} (s : surf K) u v ou ov nrm m : surf_derivatives s u v ou ov nrm = Ok m ->
  Forall (fun r => length r = 3%nat) m.
Proof.
  unfold surf_derivatives; destruct (negb _); [discriminate|]; destruct (negb _); [discriminate|]; cbv zeta; intros H.
  repeat bind_inv H; injection H as <-.
  match goal with E : np_full2 _ _ _ = Ok ?d |- _ => assert (H0 : Forall (fun r => length r = 3%nat) d) end.
  { unfold np_full2 in E4; destruct ((_ <? 0) || _)%Z; [discriminate|]; injection E4 as <-.
    apply Forall_forall; intros r Hr; apply repeat_spec in Hr; subst r; reflexivity. }
  refine (for_range_pres (fun st : Z * list (list K) => Forall (fun r => length r = 3%nat) (snd st)) _ _ _ _ _ _ E5 H0).
  intros i st1 st2 E6 HS.
  refine (for_range_pres (fun st : Z * list (list K) => Forall (fun r => length r = 3%nat) (snd st)) _ _ _ _ _ _ E6 HS).
  intros j st3 st4 E7 HS3; unfold surf_deriv_entry in E7; repeat bind_inv E7; injection E7 as <-; cbn [snd].
  eapply aset_row_width; [exact HS3|]; eassumption.
Qed.
Open Scope R_scope.

(** ** The whole fit: the interior points are projected, sorted, and the free
    part of the net is fitted to them. *)
Lemma fit_surface_exact sv p q nu nv U V P rows top bot out : least_squares sv ->
  tight (Z.of_nat p) (Z.of_nat nu) U -> tight (Z.of_nat q) (Z.of_nat nv) V ->
  kn U (Z.of_nat p) = 0 -> kn U (Z.of_nat nu) = 1 -> kn V (Z.of_nat q) = 0 -> kn V (Z.of_nat nv) = 1 ->
  length P = (nu * nv)%nat -> Forall (fun r => length r = 3%nat) P -> Forall (fun r => length r = 3%nat) rows ->
  dt_cols top = 4%Z -> dt_cols bot = 4%Z ->
  let s := mkSurf (K := Exact) (Z.of_nat p) (Z.of_nat q) (Z.of_nat nu) (Z.of_nat nv) (fin2 P) (fin U) (fin V) in
  parameterize_surface (beh_of_surf s) (mkData 3 (fin2 rows)) = Ok out ->
  exists pts P', out = fin2 pts /\
    fit_surface sv s (mkData 3 (fin2 rows)) (Some top) (Some bot)
      = Ok (mkSurf (Z.of_nat p) (Z.of_nat q) (Z.of_nat nu) (Z.of_nat nv) (fin2 P') (fin U) (fin V)) /\
    length P' = length P /\ Forall (fun r => length r = 3%nat) P' /\
    (forall i j, (i < nu)%nat -> (j < nv)%nat -> i = 0%nat \/ i = (nu - 1)%nat \/ j = 0%nat \/ j = (nv - 1)%nat ->
       nth (i * nv + j) P' [] = nth (i * nv + j) P []) /\
    forall Z, length Z = length P ->
      (forall i j, (i < nu)%nat -> (j < nv)%nat -> i = 0%nat \/ i = (nu - 1)%nat \/ j = 0%nat \/ j = (nv - 1)%nat ->
         nth (i * nv + j) Z [] = nth (i * nv + j) P []) ->
      surface_err U V p q nu nv P' pts <= surface_err U V p q nu nv Z pts.
Proof.
  intros HS HU HV U0 U1 V0 V1 HP H3 HR Ht Hb s E.
  destruct (parameterize_surface_sorted (beh_of_surf s) rows out HR) as (uvs & pts & HI & -> & HPm & HSo); [| |exact E|].
  - intros u v m0; apply surf_point_unit.
  - intros u v m0; apply surf_derivatives_width.
  - assert (HF : Forall (fun r => length r = 5%nat /\ 0 <= nth 3 r 0 <= 1 /\ 0 <= nth 4 r 0 <= 1) pts).
    { apply Forall_forall; intros r Hr; apply (Permutation_in _ HPm) in Hr; apply in_map_iff in Hr; destruct Hr as ([a b] & <- & Hab).
      cbn [fst snd].
      pose proof (proj1 (Forall_forall _ _) HR a (in_combine_l _ _ _ _ Hab)) as La; cbn beta in La.
      assert (HB : 0 <= fst b <= 1 /\ 0 <= snd b <= 1).
      { clear -HI Hab; induction HI as [|r uv rows uvs (_ & H) HI IH]; [contradiction|]; destruct Hab as [H'|H']; [injection H' as _ <-; exact H|auto]. }
      destruct a as [|a0 [|a1 [|a2 [|]]]]; try discriminate; split; [reflexivity|exact HB]. }
    assert (H5 : Forall (fun r => length r = 5%nat) pts) by (revert HF; apply Forall_impl; tauto).
    destruct (single_fit_surface_exact sv p q nu nv U V P pts HS HU HV HP H3) as (P' & E1 & HP').
    + rewrite U0, U1, V0, V1; exact HF.
    + exists pts, P'; split; [reflexivity|]; split; [|exact HP'].
      unfold fit_surface; rewrite E; unfold vstack, append_column; cbn [bind fst forallb dt_cols]; rewrite Ht, Hb.
      change (4 + 1 =? 3 + 2)%Z with true; cbn [andb bind].
      pose proof (sort_view_sorted 5 [3%nat; 4%nat; 0%nat; 1%nat; 2%nat] pts ltac:(lia) H5 HSo) as ES.
      change (Z.of_nat 5) with 5%Z in ES; change (3 + 2)%Z with 5%Z; rewrite ES; cbn [bind]; exact E1.
Qed.
