(** Fits do not depend on the order of the rows and commute with running
    through the parameters backwards and with exchanging them. *)
From Coq Require Import Sorted Permutation.
From Verif Require Import Py PyLemmas Num ModelKnots ModelBasis ModelCurve ModelSurface ModelInit ModelParam ModelFit Spec SpecFit SpecSmooth SpecShape
  MathCox MathKnots MathDeriv MathJoin MathSmooth MathShape ProofNum ProofSpan2 ProofCurve ProofSurface ProofFit4 ProofFit5 ProofFit6 ProofFit9 ProofParam5 ProofParam6
  ProofSmooth ProofSmooth2 ProofSmooth3 ProofSmooth9 ProofShape ProofShape2.
Open Scope R_scope.

Lemma sum_perm (f : list R -> R) rows rows' : Permutation rows rows' -> fold_right Rplus 0 (map f rows) = fold_right Rplus 0 (map f rows').
Proof. induction 1; cbn [map fold_right]; try lra. Qed.
Lemma sum_map_ext (f g : list R -> R) (h : list R -> list R) rows : Forall (fun r => f (h r) = g r) rows -> fold_right Rplus 0 (map f (map h rows)) = fold_right Rplus 0 (map g rows).
Proof. induction 1 as [|r rows E _ IH]; [reflexivity|]; cbn [map fold_right]; rewrite E, IH; reflexivity. Qed.
Lemma point_err_ext q q' r r' : (forall c, (c < 3)%nat -> nth c q 0 = nth c q' 0) -> (forall c, (c < 3)%nat -> nth c r 0 = nth c r' 0) -> point_err q r = point_err q' r'.
Proof. intros H1 H2; unfold point_err; cbn [map fold_right]; rewrite !H1, !H2 by lia; reflexivity. Qed.

Lemma last_rev {A} (P : list (list A)) : (0 < length P)%nat -> last (rev P) [] = nth 0 P [].
Proof. intros H; destruct P as [|x P]; [cbn in H; lia|]; cbn [rev nth]; apply last_last. Qed.
Lemma nth0_rev {A} (P : list (list A)) : (0 < length P)%nat -> nth 0 (rev P) [] = last P [].
Proof. intros H; rewrite <- (rev_involutive P) at 2; rewrite last_rev by (rewrite rev_length; exact H); reflexivity. Qed.

Lemma curve_xyz_nth U p P u c : (c < 3)%nat -> nth c (curve_xyz U p P u) 0 = curve_sum U p (coords c P) u.
Proof. intros Hc; unfold curve_xyz; destruct c as [|[|[|c]]]; try reflexivity; lia. Qed.
Lemma surface_xyz_nth U V p q nu nv P u v c : (c < 3)%nat -> nth c (surface_xyz U V p q nu nv P u v) 0 = surface_sum U V p q nu nv (coords c P) u v.
Proof. intros Hc; unfold surface_xyz; destruct c as [|[|[|c]]]; try reflexivity; lia. Qed.

Definition turn_row (r : list R) : list R := [nth 0 r 0; nth 1 r 0; nth 2 r 0; 1 - nth 3 r 0].
Lemma curve_err_turn p U P rows : clamped (Z.of_nat p) (len P) U -> strict (Z.of_nat p) (len P) U -> (1 <= p)%nat ->
  Forall (fun r => kn U (Z.of_nat p) <= nth 3 r 0 <= kn U (len P)) rows -> curve_err (mirror U) p (rev P) (map turn_row rows) = curve_err U p P rows.
Proof.
  intros HC HS Hp F; unfold curve_err; apply sum_map_ext; revert F; apply Forall_impl; intros r Hr; apply point_err_ext; intros c Hc.
  - rewrite !curve_xyz_nth by exact Hc; cbn [turn_row nth]; rewrite coords_rev; apply (curve_sum_mirror p (len P)); try assumption; unfold coords; rewrite map_length; reflexivity.
  - destruct c as [|[|[|c]]]; try reflexivity; lia.
Qed.

Lemma single_fit_curve_order sv sv' c c' p U P rows rows' : least_squares sv -> least_squares sv' -> clamped (Z.of_nat p) (len P) U -> strict (Z.of_nat p) (len P) U -> (1 <= p)%nat ->
  c_degree c = Some (Z.of_nat p) -> c_ctrl c = Some (fin2 P) -> c_kv c = Some (fin U) -> Forall (fun r => length r = 3%nat) P ->
  Forall (fun r => length r = 4%nat /\ kn U (Z.of_nat p) <= nth 3 r 0 <= kn U (len P)) rows ->
  plenty (S p) (Z.of_nat p) (len P) U (fun u => exists r, In r rows /\ nth 3 r 0 = u) ->
  c_degree c' = Some (Z.of_nat p) -> c_ctrl c' = Some (fin2 P) -> c_kv c' = Some (fin U) -> Permutation rows' rows ->
  exists P', single_fit_curve store_ctrl sv c (fin2 rows) = Ok (mkCurve (c_degree c) (Some (fin2 P')) (c_kv c) (c_dim c)) /\
    single_fit_curve store_ctrl sv' c' (fin2 rows') = Ok (mkCurve (c_degree c') (Some (fin2 P')) (c_kv c') (c_dim c')).
Proof.
  intros H1 H2 HC HS Hp E1 E2 E3 FP FR HPl D1 D2 D3 HR.
  assert (Hpn : (Z.of_nat p + 1 <= len P)%Z) by apply HC.
  pose proof (strict_tight _ _ _ HC HS Hpn) as HT.
  destruct (single_fit_curve_exact sv c p U P rows H1 HT E1 E2 E3 FP FR) as (P' & EF & LP' & FP' & P0 & PL & Hmin).
  assert (FR' : Forall (fun r => length r = 4%nat /\ kn U (Z.of_nat p) <= nth 3 r 0 <= kn U (len P)) rows')
    by (apply Forall_forall; intros r Hr; rewrite Forall_forall in FR; apply FR; apply (Permutation_in _ HR Hr)).
  destruct (single_fit_curve_exact sv' c' p U P rows' H2 HT D1 D2 D3 FP FR') as (Q & EQ & LQ & FQ & Q0 & QL & Qmin).
  assert (LE : len P' = len P) by (unfold len; rewrite LP'; reflexivity).
  assert (E : forall Z, curve_err U p Z rows' = curve_err U p Z rows) by (intros Z; apply sum_perm; exact HR).
  exists P'; split; [exact EF|].
  rewrite (curve_fit_unique p U P' Q rows (nth 0 P []) (last P [])); try assumption; try (rewrite LE; assumption); try congruence.
  - intros Y LY Y0 YL; apply Hmin; [congruence|assumption|assumption].
  - rewrite <- !E; apply Qmin; assumption.
Qed.

Lemma single_fit_curve_turned sv sv' c c' p U P rows rows' : least_squares sv -> least_squares sv' -> clamped (Z.of_nat p) (len P) U -> strict (Z.of_nat p) (len P) U -> (1 <= p)%nat ->
  c_degree c = Some (Z.of_nat p) -> c_ctrl c = Some (fin2 P) -> c_kv c = Some (fin U) -> Forall (fun r => length r = 3%nat) P ->
  Forall (fun r => length r = 4%nat /\ kn U (Z.of_nat p) <= nth 3 r 0 <= kn U (len P)) rows ->
  plenty (S p) (Z.of_nat p) (len P) U (fun u => exists r, In r rows /\ nth 3 r 0 = u) ->
  c_degree c' = Some (Z.of_nat p) -> c_ctrl c' = Some (fin2 (rev P)) -> c_kv c' = Some (fin (mirror U)) ->
  Permutation rows' (map (fun r => [nth 0 r 0; nth 1 r 0; nth 2 r 0; 1 - nth 3 r 0]) rows) ->
  exists P', single_fit_curve store_ctrl sv c (fin2 rows) = Ok (mkCurve (c_degree c) (Some (fin2 P')) (c_kv c) (c_dim c)) /\
    single_fit_curve store_ctrl sv' c' (fin2 rows') = Ok (mkCurve (c_degree c') (Some (fin2 (rev P'))) (c_kv c') (c_dim c')).
Proof.
  intros H1 H2 HC HS Hp E1 E2 E3 FP FR HPl D1 D2 D3 HR.
  assert (Hpn : (Z.of_nat p + 1 <= len P)%Z) by apply HC.
  destruct (single_fit_curve_exact sv c p U P rows H1 (strict_tight _ _ _ HC HS Hpn) E1 E2 E3 FP FR) as (P' & EF & LP' & FP' & P0 & PL & Hmin).
  assert (LR : len (rev P) = len P) by (unfold len; rewrite rev_length; reflexivity).
  assert (MC : clamped (Z.of_nat p) (len P) (mirror U)) by (apply mirror_clamped; exact HC).
  assert (MS : strict (Z.of_nat p) (len P) (mirror U)) by (apply mirror_strict; assumption).
  assert (Kp : kn (mirror U) (Z.of_nat p) = 1 - kn U (len P)) by (rewrite (mirror_at (Z.of_nat p) (len P)) by (try exact HC; unfold len; lia); do 2 f_equal; lia).
  assert (Kn : kn (mirror U) (len P) = 1 - kn U (Z.of_nat p)) by (rewrite (mirror_at (Z.of_nat p) (len P)) by (try exact HC; unfold len; lia); do 2 f_equal; lia).
  assert (FR' : Forall (fun r => length r = 4%nat /\ kn (mirror U) (Z.of_nat p) <= nth 3 r 0 <= kn (mirror U) (len (rev P))) rows').
  { apply Forall_forall; intros r Hr; apply (Permutation_in _ HR), in_map_iff in Hr; destruct Hr as (r0 & <- & Hr); rewrite Forall_forall in FR; specialize (FR _ Hr).
    split; [reflexivity|]; rewrite LR, Kp, Kn; cbn [nth]; lra. }
  destruct (single_fit_curve_exact sv' c' p (mirror U) (rev P) rows' H2 ltac:(rewrite LR; exact (strict_tight _ _ _ MC MS Hpn)) D1 D2 D3 ltac:(apply Forall_rev; exact FP) FR')
    as (Q & EQ & LQ & FQ & Q0 & QL & Qmin).
  assert (Hl : (0 < length P)%nat) by (unfold len in Hpn; lia).
  rewrite rev_length in LQ; rewrite nth0_rev in Q0 by exact Hl; rewrite last_rev in QL by exact Hl.
  assert (LE : len P' = len P) by (unfold len; rewrite LP'; reflexivity).
  assert (E : forall Z, length Z = length P -> curve_err (mirror U) p (rev Z) rows' = curve_err U p Z rows).
  { intros Z LZ; assert (LZ' : len Z = len P) by (unfold len; rewrite LZ; reflexivity).
    rewrite <- (curve_err_turn p U Z rows); rewrite ?LZ'; try assumption; [apply sum_perm; exact HR|].
    revert FR; apply Forall_impl; intros r Hr; apply Hr. }
  exists P'; split; [exact EF|].
  rewrite (curve_fit_unique p U P' (rev Q) rows (nth 0 P []) (last P [])); try assumption; try (rewrite LE; assumption); try congruence.
  - rewrite rev_involutive; exact EQ.
  - rewrite rev_length; congruence.
  - apply Forall_rev; exact FQ.
  - rewrite nth0_rev by congruence; exact QL.
  - rewrite last_rev by congruence; exact Q0.
  - intros Y LY Y0 YL; apply Hmin; [congruence|assumption|assumption].
  - rewrite <- (E (rev Q)), <- (E P') by (rewrite ?rev_length; congruence); rewrite rev_involutive; apply Qmin.
    + rewrite !rev_length; exact LP'.
    + rewrite !nth0_rev by congruence; exact PL.
    + rewrite !last_rev by congruence; exact P0.
Qed.

(** ** Surfaces: a change [T] of the net undone by [T']. *)
Definition on_rim (nu nv i j : nat) : Prop := i = 0%nat \/ i = (nu - 1)%nat \/ j = 0%nat \/ j = (nv - 1)%nat.
Lemma net_ext {A} nu nv (P Q : list (list A)) : length P = (nu * nv)%nat -> length Q = (nu * nv)%nat ->
  (forall i j, (i < nu)%nat -> (j < nv)%nat -> nth (i * nv + j) P [] = nth (i * nv + j) Q []) -> P = Q.
Proof.
  intros LP LQ H; apply (nth_ext _ _ [] []); [congruence|]; intros k Hk; rewrite LP in Hk.
  assert (nv <> 0)%nat by nia; pose proof (Nat.div_mod k nv ltac:(assumption)) as D; pose proof (Nat.mod_upper_bound k nv ltac:(assumption)).
  replace k with (k / nv * nv + k mod nv)%nat by lia; apply H; [|assumption]; apply Nat.div_lt_upper_bound; [assumption|lia].
Qed.

Section Changed.
Variables (p q nu nv p2 q2 nu2 nv2 : nat) (U V U2 V2 : list R) (P rows rows2 : list (list R)) (T T' : list (list R) -> list (list R)).
Hypothesis CU : clamped (Z.of_nat p) (Z.of_nat nu) U.
Hypothesis SU : strict (Z.of_nat p) (Z.of_nat nu) U.
Hypothesis Hp : (1 <= p)%nat.
Hypothesis CV : clamped (Z.of_nat q) (Z.of_nat nv) V.
Hypothesis SV : strict (Z.of_nat q) (Z.of_nat nv) V.
Hypothesis Hq : (1 <= q)%nat.
Hypothesis CU2 : clamped (Z.of_nat p2) (Z.of_nat nu2) U2.
Hypothesis SU2 : strict (Z.of_nat p2) (Z.of_nat nu2) U2.
Hypothesis CV2 : clamped (Z.of_nat q2) (Z.of_nat nv2) V2.
Hypothesis SV2 : strict (Z.of_nat q2) (Z.of_nat nv2) V2.
Hypothesis LP : length P = (nu * nv)%nat.
Hypothesis FP : Forall (fun r => length r = 3%nat) P.
Hypothesis FR : Forall (fun r => length r = 5%nat /\ kn U (Z.of_nat p) <= nth 3 r 0 <= kn U (Z.of_nat nu) /\ kn V (Z.of_nat q) <= nth 4 r 0 <= kn V (Z.of_nat nv)) rows.
Hypothesis FR2 : Forall (fun r => length r = 5%nat /\ kn U2 (Z.of_nat p2) <= nth 3 r 0 <= kn U2 (Z.of_nat nu2) /\ kn V2 (Z.of_nat q2) <= nth 4 r 0 <= kn V2 (Z.of_nat nv2)) rows2.
Hypothesis HPl : plenty (S q) (Z.of_nat q) (Z.of_nat nv) V (fun v => plenty (S p) (Z.of_nat p) (Z.of_nat nu) U (fun u => exists r, In r rows /\ nth 3 r 0 = u /\ nth 4 r 0 = v)).
Hypothesis TL : forall Z, length Z = (nu * nv)%nat -> length (T Z) = (nu2 * nv2)%nat.
Hypothesis TL' : forall Z, length Z = (nu2 * nv2)%nat -> length (T' Z) = (nu * nv)%nat.
Hypothesis TF : forall Z, length Z = (nu * nv)%nat -> Forall (fun r : list R => length r = 3%nat) Z -> Forall (fun r => length r = 3%nat) (T Z).
Hypothesis TF' : forall Z, length Z = (nu2 * nv2)%nat -> Forall (fun r : list R => length r = 3%nat) Z -> Forall (fun r => length r = 3%nat) (T' Z).
Hypothesis TT : forall Z, length Z = (nu2 * nv2)%nat -> T (T' Z) = Z.
Hypothesis TR : forall Z Y, length Z = (nu * nv)%nat -> length Y = (nu * nv)%nat ->
  (forall i j, (i < nu)%nat -> (j < nv)%nat -> on_rim nu nv i j -> nth (i * nv + j) Z [] = nth (i * nv + j) Y []) ->
  forall i j, (i < nu2)%nat -> (j < nv2)%nat -> on_rim nu2 nv2 i j -> nth (i * nv2 + j) (T Z) [] = nth (i * nv2 + j) (T Y) [].
Hypothesis TR' : forall Z Y, length Z = (nu2 * nv2)%nat -> length Y = (nu * nv)%nat ->
  (forall i j, (i < nu2)%nat -> (j < nv2)%nat -> on_rim nu2 nv2 i j -> nth (i * nv2 + j) Z [] = nth (i * nv2 + j) (T Y) []) ->
  forall i j, (i < nu)%nat -> (j < nv)%nat -> on_rim nu nv i j -> nth (i * nv + j) (T' Z) [] = nth (i * nv + j) Y [].
Hypothesis TE : forall Z, length Z = (nu * nv)%nat -> surface_err U2 V2 p2 q2 nu2 nv2 (T Z) rows2 = surface_err U V p q nu nv Z rows.
Lemma single_fit_surface_changed sv sv' : least_squares sv -> least_squares sv' ->
  exists P', length P' = length P /\ single_fit_surface sv (mkSurf (K := Exact) (Z.of_nat p) (Z.of_nat q) (Z.of_nat nu) (Z.of_nat nv) (fin2 P) (fin U) (fin V)) (fin2 rows)
      = Ok (mkSurf (K := Exact) (Z.of_nat p) (Z.of_nat q) (Z.of_nat nu) (Z.of_nat nv) (fin2 P') (fin U) (fin V)) /\
    single_fit_surface sv' (mkSurf (K := Exact) (Z.of_nat p2) (Z.of_nat q2) (Z.of_nat nu2) (Z.of_nat nv2) (fin2 (T P)) (fin U2) (fin V2)) (fin2 rows2)
      = Ok (mkSurf (K := Exact) (Z.of_nat p2) (Z.of_nat q2) (Z.of_nat nu2) (Z.of_nat nv2) (fin2 (T P')) (fin U2) (fin V2)).
Proof.
  intros H1 H2.
  assert (TU : tight (Z.of_nat p) (Z.of_nat nu) U) by (apply strict_tight; [exact CU|exact SU|apply CU]).
  assert (TV : tight (Z.of_nat q) (Z.of_nat nv) V) by (apply strict_tight; [exact CV|exact SV|apply CV]).
  assert (TU2 : tight (Z.of_nat p2) (Z.of_nat nu2) U2) by (apply strict_tight; [exact CU2|exact SU2|apply CU2]).
  assert (TV2 : tight (Z.of_nat q2) (Z.of_nat nv2) V2) by (apply strict_tight; [exact CV2|exact SV2|apply CV2]).
  destruct (single_fit_surface_exact sv p q nu nv U V P rows H1 TU TV LP FP FR) as (P' & EF & LP' & FP' & PB & Hmin).
  destruct (single_fit_surface_exact sv' p2 q2 nu2 nv2 U2 V2 (T P) rows2 H2 TU2 TV2 (TL P LP) (TF P LP FP) FR2) as (Q & EQ & LQ & FQ & QB & Qmin).
  assert (L1 : length P' = (nu * nv)%nat) by congruence.
  assert (L2 : length Q = (nu2 * nv2)%nat) by (rewrite LQ; apply TL; exact LP).
  exists P'; split; [exact LP'|]; split; [exact EF|].
  rewrite (surface_fit_unique p q nu nv U V P' (T' Q) rows (rim nu nv) (fun k => nth k P [])); try assumption.
  - rewrite TT by exact L2; exact EQ.
  - rewrite TL' by exact L2; congruence.
  - apply TF'; assumption.
  - apply rim_iff; exact PB.
  - apply rim_iff; apply TR'; [exact L2|exact LP|exact QB].
  - intros Y LY YB; apply Hmin; [congruence|apply rim_iff; exact YB].
  - rewrite <- (TE (T' Q)), <- (TE P') by (rewrite ?TL'; assumption || reflexivity); rewrite TT by exact L2; apply Qmin.
    + rewrite (TL P' L1), (TL P LP); reflexivity.
    + apply TR; [exact L1|exact LP|exact PB].
Qed.
End Changed.

Lemma swap_swap {A} nu nv (P : list (list A)) : length P = (nu * nv)%nat -> net_swap nv nu (net_swap nu nv P) = P.
Proof.
  intros L; apply (net_ext nu nv); [apply swap_len|exact L|]; intros i j Hi Hj; rewrite (swap_nth nv nu) by assumption; apply swap_nth; assumption.
Qed.
Lemma rev_u_rev_u {A} nu nv (P : list (list A)) : length P = (nu * nv)%nat -> net_rev_u nu nv (net_rev_u nu nv P) = P.
Proof.
  intros L; apply (net_ext nu nv); [apply rev_u_len|exact L|]; intros i j Hi Hj; rewrite !rev_u_nth by lia; do 3 f_equal; lia.
Qed.
Lemma rev_v_rev_v {A} nu nv (P : list (list A)) : length P = (nu * nv)%nat -> net_rev_v nu nv (net_rev_v nu nv P) = P.
Proof.
  intros L; apply (net_ext nu nv); [apply rev_v_len|exact L|]; intros i j Hi Hj; rewrite !rev_v_nth by lia; do 3 f_equal; lia.
Qed.

Section Instances.
Variables (p q nu nv : nat) (U V : list R) (P rows : list (list R)).
Hypothesis CU : clamped (Z.of_nat p) (Z.of_nat nu) U.
Hypothesis SU : strict (Z.of_nat p) (Z.of_nat nu) U.
Hypothesis Hp : (1 <= p)%nat.
Hypothesis CV : clamped (Z.of_nat q) (Z.of_nat nv) V.
Hypothesis SV : strict (Z.of_nat q) (Z.of_nat nv) V.
Hypothesis Hq : (1 <= q)%nat.
Hypothesis LP : length P = (nu * nv)%nat.
Hypothesis FP : Forall (fun r => length r = 3%nat) P.
Hypothesis FR : Forall (fun r => length r = 5%nat /\ kn U (Z.of_nat p) <= nth 3 r 0 <= kn U (Z.of_nat nu) /\ kn V (Z.of_nat q) <= nth 4 r 0 <= kn V (Z.of_nat nv)) rows.
Hypothesis HPl : plenty (S q) (Z.of_nat q) (Z.of_nat nv) V (fun v => plenty (S p) (Z.of_nat p) (Z.of_nat nu) U (fun u => exists r, In r rows /\ nth 3 r 0 = u /\ nth 4 r 0 = v)).
Let s Z := mkSurf (K := Exact) (Z.of_nat p) (Z.of_nat q) (Z.of_nat nu) (Z.of_nat nv) (fin2 Z) (fin U) (fin V).

Lemma rows_perm (Q : list R -> Prop) f rows2 : Permutation rows2 (map f rows) -> (forall r, In r rows -> Q (f r)) -> Forall Q rows2.
Proof. intros H HQ; apply Forall_forall; intros r Hr; apply (Permutation_in _ H), in_map_iff in Hr; destruct Hr as (r0 & <- & Hr); apply HQ; exact Hr. Qed.

Lemma single_fit_surface_order sv sv' rows2 : least_squares sv -> least_squares sv' -> Permutation rows2 rows ->
  exists P', single_fit_surface sv (s P) (fin2 rows) = Ok (s P') /\ single_fit_surface sv' (s P) (fin2 rows2) = Ok (s P').
Proof.
  intros H1 H2 HR; destruct (single_fit_surface_changed p q nu nv p q nu nv U V U V P rows rows2 (fun Z => Z) (fun Z => Z)) with (sv := sv) (sv' := sv') as (P' & _ & E1 & E2);
    try assumption; try (intros; assumption); try (intros; reflexivity).
  - rewrite <- (map_id rows) in HR; apply (rows_perm _ _ _ HR); intros r Hr; rewrite Forall_forall in FR; apply FR; exact Hr.
  - intros Z Y _ _ H; exact H.
  - intros Z Y _ _ H; exact H.
  - intros Z _; apply sum_perm; exact HR.
  - exists P'; split; assumption.
Qed.

Lemma single_fit_surface_swapped sv sv' rows2 : least_squares sv -> least_squares sv' ->
  Permutation rows2 (map (fun r => [nth 0 r 0; nth 1 r 0; nth 2 r 0; nth 4 r 0; nth 3 r 0]) rows) ->
  exists P', single_fit_surface sv (s P) (fin2 rows) = Ok (s P') /\
    single_fit_surface sv' (mkSurf (K := Exact) (Z.of_nat q) (Z.of_nat p) (Z.of_nat nv) (Z.of_nat nu) (fin2 (net_swap nu nv P)) (fin V) (fin U)) (fin2 rows2) =
      Ok (mkSurf (K := Exact) (Z.of_nat q) (Z.of_nat p) (Z.of_nat nv) (Z.of_nat nu) (fin2 (net_swap nu nv P')) (fin V) (fin U)).
Proof.
  intros H1 H2 HR; destruct (single_fit_surface_changed p q nu nv q p nv nu U V V U P rows rows2 (net_swap nu nv) (net_swap nv nu)) with (sv := sv) (sv' := sv') as (P' & _ & E1 & E2);
    try assumption.
  - apply (rows_perm _ _ _ HR); intros r Hr; rewrite Forall_forall in FR; destruct (FR r Hr) as (_ & Hu & Hv); split; [reflexivity|split; assumption].
  - intros; apply swap_len.
  - intros; apply swap_len.
  - intros; apply swap_3; assumption.
  - intros; apply swap_3; assumption.
  - intros; apply swap_swap; assumption.
  - unfold on_rim; intros Z Y LZ LY H i j Hi Hj HR'; rewrite !(swap_nth nu nv) by assumption; apply H; [exact Hj|exact Hi|tauto].
  - unfold on_rim; intros Z Y LZ LY H i j Hi Hj HR'; rewrite (swap_nth nv nu) by assumption; rewrite H by (assumption || tauto); apply swap_nth; assumption.
  - intros Z LZ; unfold surface_err; rewrite (sum_perm _ _ _ HR); apply sum_map_ext, Forall_forall; intros r Hr; apply point_err_ext; intros c Hc.
    + rewrite !surface_xyz_nth by exact Hc; cbn [nth]; apply surface_sum_swap; exact LZ.
    + destruct c as [|[|[|c]]]; try reflexivity; lia.
  - exists P'; split; assumption.
Qed.

Lemma single_fit_surface_turned_u sv sv' rows2 : least_squares sv -> least_squares sv' ->
  Permutation rows2 (map (fun r => [nth 0 r 0; nth 1 r 0; nth 2 r 0; 1 - nth 3 r 0; nth 4 r 0]) rows) ->
  exists P', single_fit_surface sv (s P) (fin2 rows) = Ok (s P') /\
    single_fit_surface sv' (mkSurf (K := Exact) (Z.of_nat p) (Z.of_nat q) (Z.of_nat nu) (Z.of_nat nv) (fin2 (net_rev_u nu nv P)) (fin (mirror U)) (fin V)) (fin2 rows2) =
      Ok (mkSurf (K := Exact) (Z.of_nat p) (Z.of_nat q) (Z.of_nat nu) (Z.of_nat nv) (fin2 (net_rev_u nu nv P')) (fin (mirror U)) (fin V)).
Proof.
  intros H1 H2 HR; destruct (single_fit_surface_changed p q nu nv p q nu nv U V (mirror U) V P rows rows2 (net_rev_u nu nv) (net_rev_u nu nv)) with (sv := sv) (sv' := sv') as (P' & _ & E1 & E2);
    try assumption.
  - apply mirror_clamped; exact CU.
  - apply mirror_strict; assumption.
  - apply (rows_perm _ _ _ HR); intros r Hr; rewrite Forall_forall in FR; destruct (FR r Hr) as (_ & Hu & Hv); split; [reflexivity|split; [|exact Hv]].
    rewrite !(mirror_at (Z.of_nat p) (Z.of_nat nu)) by (try exact CU; lia); cbn [nth].
    replace (Z.of_nat nu + Z.of_nat p - Z.of_nat p)%Z with (Z.of_nat nu) by lia; replace (Z.of_nat nu + Z.of_nat p - Z.of_nat nu)%Z with (Z.of_nat p) by lia; lra.
  - intros; apply rev_u_len.
  - intros; apply rev_u_len.
  - intros; apply rev_u_3; assumption.
  - intros; apply rev_u_3; assumption.
  - intros; apply rev_u_rev_u; assumption.
  - unfold on_rim; intros Z Y LZ LY H i j Hi Hj HR'; rewrite !(rev_u_nth nu nv) by assumption; apply H; lia.
  - unfold on_rim; intros Z Y LZ LY H i j Hi Hj HR'; rewrite (rev_u_nth nu nv) by assumption; rewrite H by lia; rewrite rev_u_nth by lia; do 3 f_equal; lia.
  - intros Z LZ; unfold surface_err; rewrite (sum_perm _ _ _ HR); apply sum_map_ext, Forall_forall; intros r Hr; apply point_err_ext; intros c Hc.
    + rewrite !surface_xyz_nth by exact Hc; cbn [nth]; apply surface_sum_rev_u; try assumption; rewrite Forall_forall in FR; apply FR; exact Hr.
    + destruct c as [|[|[|c]]]; try reflexivity; lia.
  - exists P'; split; assumption.
Qed.

Lemma single_fit_surface_turned_v sv sv' rows2 : least_squares sv -> least_squares sv' ->
  Permutation rows2 (map (fun r => [nth 0 r 0; nth 1 r 0; nth 2 r 0; nth 3 r 0; 1 - nth 4 r 0]) rows) ->
  exists P', single_fit_surface sv (s P) (fin2 rows) = Ok (s P') /\
    single_fit_surface sv' (mkSurf (K := Exact) (Z.of_nat p) (Z.of_nat q) (Z.of_nat nu) (Z.of_nat nv) (fin2 (net_rev_v nu nv P)) (fin U) (fin (mirror V))) (fin2 rows2) =
      Ok (mkSurf (K := Exact) (Z.of_nat p) (Z.of_nat q) (Z.of_nat nu) (Z.of_nat nv) (fin2 (net_rev_v nu nv P')) (fin U) (fin (mirror V))).
Proof.
  intros H1 H2 HR; destruct (single_fit_surface_changed p q nu nv p q nu nv U V U (mirror V) P rows rows2 (net_rev_v nu nv) (net_rev_v nu nv)) with (sv := sv) (sv' := sv') as (P' & _ & E1 & E2);
    try assumption.
  - apply mirror_clamped; exact CV.
  - apply mirror_strict; assumption.
  - apply (rows_perm _ _ _ HR); intros r Hr; rewrite Forall_forall in FR; destruct (FR r Hr) as (_ & Hu & Hv); split; [reflexivity|split; [exact Hu|]].
    rewrite !(mirror_at (Z.of_nat q) (Z.of_nat nv)) by (try exact CV; lia); cbn [nth].
    replace (Z.of_nat nv + Z.of_nat q - Z.of_nat q)%Z with (Z.of_nat nv) by lia; replace (Z.of_nat nv + Z.of_nat q - Z.of_nat nv)%Z with (Z.of_nat q) by lia; lra.
  - intros; apply rev_v_len.
  - intros; apply rev_v_len.
  - intros; apply rev_v_3; assumption.
  - intros; apply rev_v_3; assumption.
  - intros; apply rev_v_rev_v; assumption.
  - unfold on_rim; intros Z Y LZ LY H i j Hi Hj HR'; rewrite !(rev_v_nth nu nv) by assumption; apply H; lia.
  - unfold on_rim; intros Z Y LZ LY H i j Hi Hj HR'; rewrite (rev_v_nth nu nv) by assumption; rewrite H by lia; rewrite rev_v_nth by lia; f_equal; lia.
  - intros Z LZ; unfold surface_err; rewrite (sum_perm _ _ _ HR); apply sum_map_ext, Forall_forall; intros r Hr; apply point_err_ext; intros c Hc.
    + rewrite !surface_xyz_nth by exact Hc; cbn [nth]; apply surface_sum_rev_v; try assumption; rewrite Forall_forall in FR; apply FR; exact Hr.
    + destruct c as [|[|[|c]]]; try reflexivity; lia.
  - exists P'; split; assumption.
Qed.
End Instances.
