(** Parameterization on doubles: the sample parameters as a list, what the
    library's objects accept, and the order of the parameterized data. *)
From Coq Require Import Reals Lra Lia ZArith List Bool Permutation Sorted Floats.
From Flocq Require Import Core.Core IEEE754.BinarySingleNaN IEEE754.PrimFloat.
From Verif Require Import Py PyLemmas Num ModelKnots ModelBasis ModelCurve ModelSurface ModelParam Spec SpecB64
  ProofB64 ProofB64Basis ProofB64Span ProofB64Param ProofParam ProofParam2 ProofParam4 ProofCurve2 ProofParam3 ProofFit7.
Import ListNotations.
Open Scope R_scope.

Lemma spread m : (1 <= m <= 2 ^ 49)%Z -> spread64 m (sample64 m).
Proof.
  intros Hm; split; [|split; [|split]].
  - intros i Hi; split; [apply sample_unit; lia|].
    destruct (sample_ok m Hm i Hi) as (_ & _ & _ & H); exact H.
  - apply sample_0; lia.
  - apply sample_last; lia.
  - intros i j Hi Hj; apply sample_increasing; lia.
Qed.

(** ** Sorting *)
Lemma sort_lt64 (x y : Binary64) : finite64 x -> finite64 y -> sort_lt x y = Rlt_bool (value x) (value y).
Proof.
  intros Fx Fy; unfold sort_lt; change (nltb x y) with (PrimFloat.ltb x y); rewrite (ltb64 x y Fx Fy).
  change (neqb y y) with (PrimFloat.eqb y y); rewrite (eqb64 y y Fy Fy), Req_bool_true by reflexivity.
  cbn [negb]; rewrite andb_false_r, orb_false_r; reflexivity.
Qed.
Lemma nth_finite i (a : list PrimFloat.float) : Forall finite64 a -> finite64 (nth i a (0%num : Binary64)) /\
  value (nth i a (0%num : Binary64)) = nth i (values a) 0.
Proof.
  intros H; split.
  - destruct (Nat.lt_ge_cases i (length a)) as [L|L]; [exact (proj1 (Forall_forall _ _) H _ (nth_In _ _ L))|].
    rewrite nth_overflow by exact L; exact finite_0.
  - unfold values; rewrite <- value_0; symmetry; exact (map_nth value a (0%num : Binary64) i).
Qed.
Lemma rec_le64 order (a b : list PrimFloat.float) : Forall finite64 a -> Forall finite64 b ->
  (rec_le order (a : list Binary64) b = true <-> lex_le order (values a) (values b)).
Proof.
  intros Fa Fb; induction order as [|i t IH]; cbn [rec_le lex_le]; [tauto|].
  destruct (nth_finite i a Fa) as (F1 & V1); destruct (nth_finite i b Fb) as (F2 & V2).
  pose proof (sort_lt64 _ _ F1 F2) as S1; pose proof (sort_lt64 _ _ F2 F1) as S2; rewrite V1, V2 in S1, S2.
  match goal with |- context [if ?e then true else if ?f then false else _] =>
    replace e with (Rlt_bool (nth i (values a) 0) (nth i (values b) 0)) by (symmetry; exact S1);
    replace f with (Rlt_bool (nth i (values b) 0) (nth i (values a) 0)) by (symmetry; exact S2) end.
  destruct (Rlt_bool_spec (nth i (values a) 0) (nth i (values b) 0)) as [H|H]; [split; auto|].
  destruct (Rlt_bool_spec (nth i (values b) 0) (nth i (values a) 0)) as [H'|H']; [split; [discriminate|intros [G|(G & _)]; lra]|].
  rewrite IH; split; [intros G; right; split; [lra|exact G]|intros [G|(_ & G)]; [lra|exact G]].
Qed.
Definition lex64 order (a b : list PrimFloat.float) : Prop := lex_le order (values a) (values b).
Lemma insert_sorted64 order (r : list PrimFloat.float) (l : list (list PrimFloat.float)) : Forall finite64 r -> Forall (Forall finite64) l ->
  StronglySorted (lex64 order) l -> StronglySorted (lex64 order) (rec_insert order (r : list Binary64) l).
Proof.
  intros Fr Fl HS; induction HS as [|x t HS IH HF]; cbn [rec_insert]; [repeat constructor|].
  inversion Fl as [|? ? Fx Ft]; subst.
  destruct (rec_le order (r : list Binary64) x) eqn:E.
  - apply (proj1 (rec_le64 order r x Fr Fx)) in E; constructor; [constructor; assumption|]; constructor; [exact E|].
    rewrite Forall_forall in *; intros y Hy; eapply lex_trans; [exact E|apply HF; exact Hy].
  - assert (E' : lex_le order (values x) (values r)).
    { destruct (lex_total order (values x) (values r)) as [H|H]; [exact H|]; apply (proj2 (rec_le64 order r x Fr Fx)) in H.
      congruence. }
    constructor; [exact (IH Ft)|]; rewrite Forall_forall in *; intros y Hy.
    apply (Permutation_in _ (@rec_insert_perm Binary64 order r t)) in Hy; destruct Hy as [<-|Hy]; [exact E'|apply HF; exact Hy].
Qed.
Lemma sort_sorted64 order (l : list (list PrimFloat.float)) : Forall (Forall finite64) l ->
  StronglySorted (lex64 order) (rec_sort order (l : list (list Binary64))).
Proof.
  induction 1 as [|r l Hr Hl IH]; cbn [rec_sort]; [constructor|].
  apply insert_sorted64; [exact Hr| |exact IH].
  rewrite Forall_forall in *; intros x Hx; apply Hl; exact (Permutation_in _ (@rec_sort_perm Binary64 order l) Hx).
Qed.

(** ** Objects of the library *)
Lemma validate_unit64 (x : Binary64) : validate_knot x = true -> unit64 x.
Proof.
  unfold validate_knot; rewrite andb_true_iff; intros (H1 & H2).
  change (nleb (0%num : Binary64) x) with (PrimFloat.leb 0%float x) in H1; change (nleb x (1%num : Binary64)) with (PrimFloat.leb x 1%float) in H2.
  assert (F : finite64 x).
  { rewrite FloatAxioms.leb_spec in H1, H2; unfold finite64; destruct (FloatOps.Prim2SF x) as [s|s| |s m e]; auto.
    - destruct s; [discriminate H1|discriminate H2].
    - discriminate H1. }
  split; [exact F|].
  rewrite (leb64 0%float x finite_0 F) in H1; rewrite (leb64 x 1%float F finite_1) in H2.
  destruct (Rle_bool_spec (value 0%float) (value x)) as [G1|G1]; [clear H1|discriminate H1].
  destruct (Rle_bool_spec (value x) (value 1%float)) as [G2|G2]; [clear H2|discriminate H2].
  assert (V0 : value 0%float = 0) by exact value_0; assert (V1 : value 1%float = 1) by exact value_1; lra.
Qed.
Lemma curve_unit64 (c : curve_obj Binary64) u : (forall m, cb_ders (beh_of_curve3 c) u = Ok m -> unit64 u) /\
  (forall m, cb_ders (beh_of_curve c) u = Ok m -> unit64 u) /\ (forall q, single_point c u = Ok q -> unit64 u).
Proof.
  split; [|split]; intros m; cbn [beh_of_curve beh_of_curve3 cb_ders]; unfold derivatives3, derivatives, single_point;
    (destruct (validate_knot u) eqn:E; [|discriminate]); intros _; exact (validate_unit64 _ E).
Qed.
Lemma surf_unit64 (s : surf Binary64) u v q : surf_point s u v = Ok q -> unit64 u /\ unit64 v.
Proof.
  unfold surf_point; destruct (validate_knot u) eqn:E1; [|discriminate]; destruct (validate_knot v) eqn:E2; [|discriminate].
  intros _; split; apply validate_unit64; assumption.
Qed.
Lemma unit_number x : unit64 x -> number64 x.
Proof. unfold unit64, finite64, number64; destruct (FloatOps.Prim2SF x); try discriminate; intros (H & _); contradiction. Qed.

Lemma library_surface_range (s : surf Binary64) P e1 e2 mi u v : (2 * s_nu s - 1 <= 2 ^ 49)%Z -> (2 * s_nv s - 1 <= 2 ^ 49)%Z ->
  surface_inversion (beh_of_surf s) P e1 e2 mi = Ok (u, v) -> unit64 u /\ unit64 v.
Proof.
  intros Hu Hv E; refine (proj2 (surf_range64 (beh_of_surf s) P e1 e2 mi u v Hu Hv E) _ _).
  - intros a b q Ea; destruct (surf_unit64 s a b q Ea); split; apply unit_number; assumption.
  - intros a b m; apply surf_derivatives_width.
Qed.

(** ** The parameterized data *)
Lemma curve_sorted64 (c : curve_beh Binary64) (rows out : list (list PrimFloat.float)) :
  Forall (fun r => length r = 3%nat /\ Forall finite64 r) rows ->
  (forall u m, cb_ders c u = Ok m -> unit64 u) ->
  parameterize_curve c (mkData 3 (rows : list (list Binary64))) = Ok (out : list (list Binary64)) ->
  exists us : list PrimFloat.float,
    Forall2 (fun (r : list PrimFloat.float) (u : PrimFloat.float) => curve_inversion c (r : list Binary64) lit_1em5 lit_1em5 100 = Ok (u : Binary64) /\ unit64 u) rows us /\
    Permutation out (map (fun t => fst t ++ [snd t]) (combine rows us)) /\
    StronglySorted (fun a b => lex_le [3%nat; 0%nat; 1%nat; 2%nat] (values a) (values b)) out.
Proof.
  intros HF HR; unfold parameterize_curve; cbn [dt_rows dt_cols].
  match goal with |- context [mapM ?f ?l] => destruct (mapM f l) as [us| |] eqn:E end; cbn [bind]; try discriminate.
  apply mapM_spec in E; change (3 + 1)%Z with (Z.of_nat 4); change 4%Z with (Z.of_nat 4).
  assert (HU : Forall2 (fun (r : list PrimFloat.float) (u : PrimFloat.float) => curve_inversion c (r : list Binary64) lit_1em5 lit_1em5 100 = Ok (u : Binary64) /\ unit64 u) rows us).
  { clear HF; induction E as [|r u rows us E1 E2 IH]; constructor; [|exact IH]; split; [exact E1|].
    destruct (curve_result_evaluated _ _ _ _ _ _ _ E1) as (m & Em); exact (HR _ _ Em). }
  rewrite sort_view_rows; [|lia|].
  - intros H; injection H as <-; exists us; split; [exact HU|]; split; [exact (@rec_sort_perm Binary64 _ _)|].
    refine (sort_sorted64 _ _ _); apply Forall_forall; intros r Hr; apply in_map_iff in Hr; destruct Hr as ([a b] & <- & Hab).
    cbn [fst snd]; apply Forall_app; split.
    + apply in_combine_l in Hab; exact (proj2 (proj1 (Forall_forall _ _) HF _ Hab)).
    + apply in_combine_r in Hab; constructor; [|constructor].
      assert (G : Forall unit64 us) by (clear -HU; induction HU as [|? ? ? ? (_ & Hh)]; constructor; assumption).
      exact (proj1 (proj1 (Forall_forall _ _) G _ Hab)).
  - apply Forall_forall; intros r Hr; apply in_map_iff in Hr; destruct Hr as ([a b] & <- & Hab).
    apply in_combine_l in Hab; pose proof (proj1 (proj1 (Forall_forall _ _) HF _ Hab)) as L.
    destruct a as [|? [|? [|? [|? ?]]]]; try discriminate L; reflexivity.
Qed.

Lemma surface_sorted64 (s : surf_beh Binary64) (rows out : list (list PrimFloat.float)) :
  (2 * sb_nu s - 1 <= 2 ^ 49)%Z -> (2 * sb_nv s - 1 <= 2 ^ 49)%Z ->
  Forall (fun r => length r = 3%nat /\ Forall finite64 r) rows ->
  (forall u v q, sb_point s u v = Ok q -> number64 u /\ number64 v) ->
  (forall u v m, sb_ders s u v = Ok m -> Forall (fun r => length r = 3%nat) m) ->
  parameterize_surface s (mkData 3 (rows : list (list Binary64))) = Ok (out : list (list Binary64)) ->
  exists uvs : list (PrimFloat.float * PrimFloat.float),
    Forall2 (fun (r : list PrimFloat.float) (uv : PrimFloat.float * PrimFloat.float) =>
      surface_inversion s (r : list Binary64) lit_1em5 lit_1em5 100 = Ok (uv : Binary64 * Binary64) /\ unit64 (fst uv) /\ unit64 (snd uv)) rows uvs /\
    Permutation out (map (fun t => fst t ++ [fst (snd t); snd (snd t)]) (combine rows uvs)) /\
    StronglySorted (fun a b => lex_le [3%nat; 4%nat; 0%nat; 1%nat; 2%nat] (values a) (values b)) out.
Proof.
  intros Hu Hv HF HP HD; unfold parameterize_surface; cbn [dt_rows dt_cols].
  match goal with |- context [mapM ?f ?l] => destruct (mapM f l) as [us| |] eqn:E end; cbn [bind]; try discriminate.
  apply mapM_spec in E; change (3 + 2)%Z with (Z.of_nat 5); change 5%Z with (Z.of_nat 5).
  assert (HU : Forall2 (fun (r : list PrimFloat.float) (uv : PrimFloat.float * PrimFloat.float) =>
      surface_inversion s (r : list Binary64) lit_1em5 lit_1em5 100 = Ok (uv : Binary64 * Binary64) /\ unit64 (fst uv) /\ unit64 (snd uv)) rows us).
  { clear HF; induction E as [|r [u v] rows us E1 E2 IH]; constructor; [|exact IH]; split; [exact E1|].
    exact (proj2 (surf_range64 s r _ _ _ u v Hu Hv E1) HP HD). }
  rewrite sort_view_rows; [|lia|].
  - intros H; injection H as <-; exists us; split; [exact HU|]; split; [exact (@rec_sort_perm Binary64 _ _)|].
    refine (sort_sorted64 _ _ _); apply Forall_forall; intros r Hr; apply in_map_iff in Hr; destruct Hr as ([a b] & <- & Hab).
    cbn [fst snd]; apply Forall_app; split.
    + apply in_combine_l in Hab; exact (proj2 (proj1 (Forall_forall _ _) HF _ Hab)).
    + apply in_combine_r in Hab.
      assert (G : Forall (fun uv => unit64 (fst uv) /\ unit64 (snd uv)) us) by (clear -HU; induction HU as [|? ? ? ? (_ & Hh)]; constructor; assumption).
      destruct (proj1 (Forall_forall _ _) G _ Hab) as ((F1 & _) & (F2 & _)); repeat constructor; assumption.
  - apply Forall_forall; intros r Hr; apply in_map_iff in Hr; destruct Hr as ([a b] & <- & Hab).
    apply in_combine_l in Hab; pose proof (proj1 (proj1 (Forall_forall _ _) HF _ Hab)) as L.
    destruct a as [|? [|? [|? [|? ?]]]]; try discriminate L; reflexivity.
Qed.
