(** Derivatives of curves and surfaces run through backwards or with
    exchanged parameters. *)
From Coq Require Import Sorted.
From Verif Require Import Py PyLemmas Num ModelKnots ModelBasis ModelCurve ModelSurface ModelParam Spec SpecParam SpecSmooth SpecShape
  MathCox MathKnots MathDeriv MathJoin MathSmooth MathShape ProofNum ProofSpan2 ProofCurve ProofCurve2 ProofSurface ProofSurface2 ProofParam5 ProofParam6
  ProofSmooth ProofSmooth2 ProofSmooth3 ProofSmooth4 ProofSmooth9 ProofShape ProofShape2 ProofShape4.
Open Scope R_scope.

Lemma curve_ders_0 U s p c u : (Z.of_nat p <= s < len c)%Z -> curve_ders U s p 0 c u = span_sum U s p c u.
Proof.
  intros Hs; rewrite <- curve_ders_window by exact Hs; unfold span_sum; symmetry.
  rewrite <- (Z.add_0_l (s - Z.of_nat p)) at 1; rewrite zsum_shift.
  apply zsum_ext; intros i Hi; rewrite (Z.add_comm (s - Z.of_nat p) i); reflexivity.
Qed.
Lemma curve_ders_mirror p n U c s : clamped (Z.of_nat p) n U -> len c = n -> (Z.of_nat p <= s < n)%Z ->
  forall k u, curve_ders (mirror U) (n + Z.of_nat p - 1 - s) p k (rev c) (1 - u) = (-1) ^ k * curve_ders U s p k c u.
Proof.
  intros HC Hn Hs; assert (HU : nondecreasing U) by apply HC; assert (HM : nondecreasing (mirror U)) by apply (mirror_clamped _ _ _ HC).
  assert (LR : len (rev c) = n) by (unfold len in *; rewrite rev_length; exact Hn).
  induction k as [|k IH]; intros u.
  - rewrite !curve_ders_0 by lia; cbn [pow]; rewrite Rmult_1_l; apply (span_mirror p n); assumption.
  - pose proof (curve_ders_derivable (mirror U) (n + Z.of_nat p - 1 - s) p k (rev c) (1 - u) HM) as D1.
    assert (D0 : derivable_pt_lim (fun x => 1 - x) u (0 - 1)) by (apply derivable_pt_lim_minus; [apply derivable_pt_lim_const|apply derivable_pt_lim_id]).
    pose proof (derivable_pt_lim_comp _ _ u _ _ D0 D1) as D2.
    pose proof (derivable_pt_lim_scal _ ((-1) ^ k) u _ (curve_ders_derivable U s p k c u HU)) as D3.
    assert (E : curve_ders (mirror U) (n + Z.of_nat p - 1 - s) p (S k) (rev c) (1 - u) * (0 - 1) = (-1) ^ k * curve_ders U s p (S k) c u).
    { apply (uniqueness_limite _ u _ _ D2); eapply derivable_pt_lim_ext; [|exact D3]; intros x; unfold comp, mult_real_fct; symmetry; apply IH. }
    cbn [pow]; lra.
Qed.

Section Mirrored.
Variables (p : nat) (n : Z) (U : list R).
Hypothesis HC : clamped (Z.of_nat p) n U.
Hypothesis HS : strict (Z.of_nat p) n U.
Hypothesis H0 : kn U (Z.of_nat p) = 0.
Hypothesis H1 : kn U n = 1.
Hypothesis HW : wide_end n U.
Hypothesis HM : 1/500000 <= kn U (Z.of_nat p + 1).
Lemma row_at_mirror k c u : len c = n -> 0 <= u <= 1 -> (k < p)%nat \/ (forall i, (Z.of_nat p < i < n)%Z -> kn U i <> u) ->
  row_at p n (mirror U) k (rev c) (1 - u) = (-1) ^ k * row_at p n U k c u.
Proof.
  intros Hn Hu Hk; pose proof (mirror_clamped _ _ _ HC) as MC; pose proof (mirror_strict _ _ _ HC HS) as MS.
  pose proof (mirror_start (Z.of_nat p) n U HC H1) as M0; pose proof (mirror_stop (Z.of_nat p) n U HC H0) as M1; pose proof (mirror_wide (Z.of_nat p) n U HC HM) as MW.
  destruct (span_closed p n U HC HS H0 H1 HW u Hu) as (Is & Cs); set (s := span_of n (Z.of_nat p) U u) in *.
  destruct (span_closed p n (mirror U) MC MS M0 M1 MW (1 - u) ltac:(lra)) as (It & Ct); set (t := span_of n (Z.of_nat p) (mirror U) (1 - u)) in *.
  assert (Cs' : kn (mirror U) (n + Z.of_nat p - 1 - s) <= 1 - u <= kn (mirror U) (n + Z.of_nat p - 1 - s + 1)).
  { rewrite !(mirror_at (Z.of_nat p) n U HC) by lia; replace (n + Z.of_nat p - (n + Z.of_nat p - 1 - s))%Z with (s + 1)%Z by lia;
      replace (n + Z.of_nat p - (n + Z.of_nat p - 1 - s + 1))%Z with s by lia; lra. }
  change (row_at p n U k c u) with (curve_ders U s p k c u); rewrite <- (curve_ders_mirror p n U c s HC Hn Is k u).
  change (row_at p n (mirror U) k (rev c) (1 - u)) with (curve_ders (mirror U) t p k (rev c) (1 - u)).
  destruct Hk as [Hk|Hk].
  - apply (spans_agree p n (mirror U)); try assumption; lia.
  - f_equal; set (s' := (n + Z.of_nat p - 1 - s)%Z) in *.
    assert (Is' : (Z.of_nat p <= s' < n)%Z) by (unfold s'; lia); clearbody s' t; clear s Is Cs.
    assert (HV : nondecreasing (mirror U)) by apply MC.
    assert (K : forall i, (Z.of_nat p < i < n)%Z -> kn (mirror U) i <> 1 - u).
    { intros i Hi E; apply (Hk (n + Z.of_nat p - i)%Z ltac:(lia)); rewrite (mirror_at (Z.of_nat p) n U HC) in E by lia; lra. }
    destruct (Z.lt_trichotomy t s') as [h|[h|h]]; [|exact h|].
    + exfalso; pose proof (kn_mono _ HV (t + 1) s' ltac:(lia)); apply (K (t + 1)%Z ltac:(lia)); lra.
    + exfalso; pose proof (kn_mono _ HV (s' + 1) t ltac:(lia)); apply (K (s' + 1)%Z ltac:(lia)); lra.
Qed.
End Mirrored.

Lemma derivatives_reversed p U P d d' u o : clamped (Z.of_nat p) (len P) U -> strict (Z.of_nat p) (len P) U ->
  kn U (Z.of_nat p) = 0 -> kn U (len P) = 1 -> wide_end (len P) U -> 1/500000 <= kn U (Z.of_nat p + 1) -> Forall (fun row => length row = 3%nat) P -> 0 <= u <= 1 -> (2 <= o)%nat ->
  exists m m', derivatives3 (curve_of (Z.of_nat p) U P d) (Fin u : Exact) (Z.of_nat o) = Ok (fin2 m) /\
    derivatives3 (curve_of (Z.of_nat p) (mirror U) (rev P) d') (Fin (1 - u) : Exact) (Z.of_nat o) = Ok (fin2 m') /\ length m = S (Nat.min o p) /\ length m' = S (Nat.min o p) /\
    forall k, (k <= Nat.min o p)%nat -> (k < p)%nat \/ (forall i, (Z.of_nat p < i < len P)%Z -> kn U i <> u) -> nth k m' [] = map (fun x => (-1) ^ k * x) (nth k m []).
Proof.
  intros HC HS H0 H1 HW HM HF Hu Ho.
  pose proof (mirror_clamped _ _ _ HC) as MC; pose proof (mirror_strict _ _ _ HC HS) as MS.
  pose proof (mirror_start (Z.of_nat p) (len P) U HC H1) as M0; pose proof (mirror_stop (Z.of_nat p) (len P) U HC H0) as M1.
  assert (LR : len (rev P) = len P) by (unfold len; rewrite rev_length; reflexivity).
  destruct (span_of_ok _ _ U u HC HS H0 H1 Hu) as (E & Hs & Hlt).
  destruct (span_of_ok _ _ (mirror U) (1 - u) MC MS M0 M1 ltac:(lra)) as (E' & Hs' & Hlt').
  eexists; eexists; split; [apply derivatives3_ok; try eassumption; apply HC|].
  split; [apply derivatives3_ok; rewrite ?LR; try eassumption; [apply MC|apply Forall_rev; exact HF|lra]|].
  split; [apply tab_length|]; split; [apply tab_length|]; intros k Hk HK; rewrite !nth_tab by lia; unfold ders_row; rewrite map_map; apply map_ext; intros c.
  rewrite Nat2Z.id, coords_rev; apply (row_at_mirror p (len P) U HC HS H0 H1 HW HM); try assumption; unfold coords, len; rewrite map_length; reflexivity.
Qed.

(** ** Surfaces *)
Lemma surface_ders_swap U V s t p q nu nv P a b c u v : length P = (nu * nv)%nat ->
  surface_ders V U t s q p nv nu b a (coords c (net_swap nu nv P)) v u = surface_ders U V s t p q nu nv a b (coords c P) u v.
Proof.
  intros L; unfold surface_ders; rewrite zsum_swap; apply zsum_ext; intros i Hi; apply zsum_ext; intros j Hj.
  replace (Z.to_nat (j * Z.of_nat nu + i)) with (Z.to_nat j * nu + Z.to_nat i)%nat by nia; replace (Z.to_nat (i * Z.of_nat nv + j)) with (Z.to_nat i * nv + Z.to_nat j)%nat by nia.
  rewrite !coords_nth by (rewrite ?swap_len; nia); rewrite swap_nth by lia; ring.
Qed.
Lemma surf_row_swap p q nu nv U V P a b u v : length P = (nu * nv)%nat -> surf_row q p nv nu V U (net_swap nu nv P) b a v u = surf_row p q nu nv U V P a b u v.
Proof. intros L; unfold surf_row; apply map_ext; intros c; apply surface_ders_swap; exact L. Qed.
Lemma surf_row_rev_u p q nu nv U V P a b u v : clamped (Z.of_nat p) (Z.of_nat nu) U -> strict (Z.of_nat p) (Z.of_nat nu) U -> kn U (Z.of_nat p) = 0 -> kn U (Z.of_nat nu) = 1 ->
  wide_end (Z.of_nat nu) U -> 1/500000 <= kn U (Z.of_nat p + 1) -> length P = (nu * nv)%nat -> 0 <= u <= 1 -> (a < p)%nat \/ (forall i, (Z.of_nat p < i < Z.of_nat nu)%Z -> kn U i <> u) ->
  surf_row p q nu nv (mirror U) V (net_rev_u nu nv P) a b (1 - u) v = map (fun x => (-1) ^ a * x) (surf_row p q nu nv U V P a b u v).
Proof.
  intros HC HS H0 H1 HW HM L Hu Ha; unfold surf_row; rewrite map_map; apply map_ext; intros c; rewrite !surface_ders_rows.
  match goal with |- _ = _ * curve_ders U _ p a ?l u => pose proof (row_at_mirror p (Z.of_nat nu) U HC HS H0 H1 HW HM a l u ltac:(unfold len; rewrite map_length, seq_length; reflexivity) Hu Ha) as E end.
  unfold row_at in E; rewrite <- E; f_equal.
  apply nth_ext with (d := 0) (d' := 0); [rewrite rev_length, !map_length; reflexivity|].
  intros i Hi; rewrite map_length, seq_length in Hi; rewrite nth_map_seq0 by exact Hi; rewrite rev_nth by (rewrite map_length, seq_length; exact Hi); rewrite map_length, seq_length, nth_map_seq0 by lia.
  f_equal; apply map_ext_in; intros j Hj; apply in_seq in Hj; rewrite !coords_nth by (rewrite ?rev_u_len; nia); rewrite rev_u_nth by lia; do 3 f_equal; nia.
Qed.
Lemma surf_row_rev_v p q nu nv U V P a b u v : clamped (Z.of_nat q) (Z.of_nat nv) V -> strict (Z.of_nat q) (Z.of_nat nv) V -> kn V (Z.of_nat q) = 0 -> kn V (Z.of_nat nv) = 1 ->
  wide_end (Z.of_nat nv) V -> 1/500000 <= kn V (Z.of_nat q + 1) -> length P = (nu * nv)%nat -> 0 <= v <= 1 -> (b < q)%nat \/ (forall j, (Z.of_nat q < j < Z.of_nat nv)%Z -> kn V j <> v) ->
  surf_row p q nu nv U (mirror V) (net_rev_v nu nv P) a b u (1 - v) = map (fun x => (-1) ^ b * x) (surf_row p q nu nv U V P a b u v).
Proof.
  intros HC HS H0 H1 HW HM L Hu Ha; unfold surf_row; rewrite map_map; apply map_ext; intros c; rewrite !surface_ders_cols.
  match goal with |- _ = _ * curve_ders V _ q b ?l v => pose proof (row_at_mirror q (Z.of_nat nv) V HC HS H0 H1 HW HM b l v ltac:(unfold len; rewrite map_length, seq_length; reflexivity) Hu Ha) as E end.
  unfold row_at in E; rewrite <- E; f_equal.
  apply nth_ext with (d := 0) (d' := 0); [rewrite rev_length, !map_length; reflexivity|].
  intros i Hi; rewrite map_length, seq_length in Hi; rewrite nth_map_seq0 by exact Hi; rewrite rev_nth by (rewrite map_length, seq_length; exact Hi); rewrite map_length, seq_length, nth_map_seq0 by lia.
  f_equal; apply map_ext_in; intros j Hj; apply in_seq in Hj; rewrite !coords_nth by (rewrite ?rev_v_len; nia); rewrite rev_v_nth by lia; do 3 f_equal; nia.
Qed.

Lemma sign_sq k : (-1) ^ k * (-1) ^ k = 1.
Proof. rewrite <- Rpow_mult_distr; replace (-1 * -1) with 1 by ring; apply pow1. Qed.
Lemma finish_sign nrm i i' k r : length r = 3%nat -> ((i =? 0)%Z = (i' =? 0)%Z) -> finish nrm i (map (fun x => (-1) ^ k * x) r) = map (fun x => (-1) ^ k * x) (finish nrm i' r).
Proof.
  intros Lr Hi; destruct r as [|x [|y [|z [|]]]]; try discriminate Lr.
  assert (N : norm3 (map (fun x => (-1) ^ k * x) [x; y; z]) = norm3 [x; y; z]).
  { unfold norm3; cbn [map nth]; f_equal; transitivity (((-1) ^ k * (-1) ^ k) * (x * x + y * y + z * z)); [ring|]; rewrite sign_sq; ring. }
  unfold finish; rewrite N, Hi; destruct nrm; [|reflexivity]; destruct (Rle_dec _ _); [reflexivity|]; destruct (i' =? 0)%Z; [reflexivity|].
  unfold unitise; rewrite N; rewrite !map_map; cbn [map]; unfold Rdiv; repeat (f_equal; try ring).
Qed.
Lemma finish_index nrm i i' r : ((i =? 0)%Z = (i' =? 0)%Z) -> finish nrm i r = finish nrm i' r.
Proof. intros H; unfold finish; rewrite H; reflexivity. Qed.

Lemma surf_rows_nrm p q nu nv U V P u v ou ov nrm : clamped (Z.of_nat p) (Z.of_nat nu) U -> strict (Z.of_nat p) (Z.of_nat nu) U -> kn U (Z.of_nat p) = 0 -> kn U (Z.of_nat nu) = 1 ->
  clamped (Z.of_nat q) (Z.of_nat nv) V -> strict (Z.of_nat q) (Z.of_nat nv) V -> kn V (Z.of_nat q) = 0 -> kn V (Z.of_nat nv) = 1 ->
  Forall (fun row => length row = 3%nat) P -> length P = (nu * nv)%nat -> 0 <= u <= 1 -> 0 <= v <= 1 ->
  exists m, surf_derivatives (surf_of p q nu nv U V P) (Fin u : Exact) (Fin v : Exact) (Z.of_nat ou) (Z.of_nat ov) nrm = Ok (fin2 m) /\
    length m = ((Nat.min ou p + 1) * (Nat.min ov q + 1))%nat /\
    forall a b, (a <= Nat.min ou p)%nat -> (b <= Nat.min ov q)%nat ->
      nth (a * (Nat.min ov q + 1) + b) m [] = finish nrm (Z.of_nat (a * (Nat.min ov q + 1) + b)) (surf_row p q nu nv U V P a b u v).
Proof.
  intros CU SU U0 U1 CV SV V0 V1 HF HL Hu Hv.
  destruct (span_of_ok _ _ U u CU SU U0 U1 Hu) as (FU & Hs & Hlu), (span_of_ok _ _ V v CV SV V0 V1 Hv) as (FV & Ht & Hlv).
  eexists; split; [apply (surf_derivatives_ok p q nu nv U V P u v (span_of (Z.of_nat nu) (Z.of_nat p) U u) (span_of (Z.of_nat nv) (Z.of_nat q) V v) (Nat.min ou p) (Nat.min ov q) nrm);
      try assumption; try lia; [apply CU|apply CV]|].
  split; [apply tab_length|]; intros a b Ha Hb; rewrite nth_finish_row by lia; reflexivity.
Qed.

Lemma derivatives_exchanged p q nu nv U V P u v ou ov nrm : clamped (Z.of_nat p) (Z.of_nat nu) U -> strict (Z.of_nat p) (Z.of_nat nu) U -> kn U (Z.of_nat p) = 0 -> kn U (Z.of_nat nu) = 1 ->
  clamped (Z.of_nat q) (Z.of_nat nv) V -> strict (Z.of_nat q) (Z.of_nat nv) V -> kn V (Z.of_nat q) = 0 -> kn V (Z.of_nat nv) = 1 ->
  Forall (fun row => length row = 3%nat) P -> length P = (nu * nv)%nat -> 0 <= u <= 1 -> 0 <= v <= 1 ->
  exists m m', surf_derivatives (surf_of p q nu nv U V P) (Fin u : Exact) (Fin v : Exact) (Z.of_nat ou) (Z.of_nat ov) nrm = Ok (fin2 m) /\
    surf_derivatives (surf_of q p nv nu V U (net_swap nu nv P)) (Fin v : Exact) (Fin u : Exact) (Z.of_nat ov) (Z.of_nat ou) nrm = Ok (fin2 m') /\
    length m = ((Nat.min ou p + 1) * (Nat.min ov q + 1))%nat /\ length m' = length m /\
    forall a b, (a <= Nat.min ou p)%nat -> (b <= Nat.min ov q)%nat -> nth (b * (Nat.min ou p + 1) + a) m' [] = nth (a * (Nat.min ov q + 1) + b) m [].
Proof.
  intros CU SU U0 U1 CV SV V0 V1 HF HL Hu Hv.
  destruct (surf_rows_nrm p q nu nv U V P u v ou ov nrm CU SU U0 U1 CV SV V0 V1 HF HL Hu Hv) as (m & E & L & R).
  destruct (surf_rows_nrm q p nv nu V U (net_swap nu nv P) v u ov ou nrm CV SV V0 V1 CU SU U0 U1 (swap_3 _ nu nv P HL HF) (swap_len nu nv P) Hv Hu) as (m' & E' & L' & R').
  exists m, m'; split; [exact E|]; split; [exact E'|]; split; [exact L|]; split; [rewrite L, L'; ring|]; intros a b Ha Hb.
  rewrite R by assumption; rewrite R' by assumption; rewrite surf_row_swap by exact HL; apply finish_index.
  destruct (Z.eqb_spec (Z.of_nat (b * (Nat.min ou p + 1) + a)) 0), (Z.eqb_spec (Z.of_nat (a * (Nat.min ov q + 1) + b)) 0); try reflexivity; exfalso; nia.
Qed.
Lemma surf_row_3 p q nu nv U V P a b u v : length (surf_row p q nu nv U V P a b u v) = 3%nat.
Proof. reflexivity. Qed.
Lemma derivatives_turned_u p q nu nv U V P u v ou ov nrm : clamped (Z.of_nat p) (Z.of_nat nu) U -> strict (Z.of_nat p) (Z.of_nat nu) U -> kn U (Z.of_nat p) = 0 -> kn U (Z.of_nat nu) = 1 ->
  wide_end (Z.of_nat nu) U -> 1/500000 <= kn U (Z.of_nat p + 1) ->
  clamped (Z.of_nat q) (Z.of_nat nv) V -> strict (Z.of_nat q) (Z.of_nat nv) V -> kn V (Z.of_nat q) = 0 -> kn V (Z.of_nat nv) = 1 ->
  Forall (fun row => length row = 3%nat) P -> length P = (nu * nv)%nat -> 0 <= u <= 1 -> 0 <= v <= 1 ->
  exists m m', surf_derivatives (surf_of p q nu nv U V P) (Fin u : Exact) (Fin v : Exact) (Z.of_nat ou) (Z.of_nat ov) nrm = Ok (fin2 m) /\
    surf_derivatives (surf_of p q nu nv (mirror U) V (net_rev_u nu nv P)) (Fin (1 - u) : Exact) (Fin v : Exact) (Z.of_nat ou) (Z.of_nat ov) nrm = Ok (fin2 m') /\
    length m = ((Nat.min ou p + 1) * (Nat.min ov q + 1))%nat /\ length m' = length m /\
    forall a b, (a <= Nat.min ou p)%nat -> (b <= Nat.min ov q)%nat -> (a < p)%nat \/ (forall i, (Z.of_nat p < i < Z.of_nat nu)%Z -> kn U i <> u) ->
      nth (a * (Nat.min ov q + 1) + b) m' [] = map (fun x => (-1) ^ a * x) (nth (a * (Nat.min ov q + 1) + b) m []).
Proof.
  intros CU SU U0 U1 WU MU CV SV V0 V1 HF HL Hu Hv.
  destruct (surf_rows_nrm p q nu nv U V P u v ou ov nrm CU SU U0 U1 CV SV V0 V1 HF HL Hu Hv) as (m & E & L & R).
  destruct (surf_rows_nrm p q nu nv (mirror U) V (net_rev_u nu nv P) (1 - u) v ou ov nrm (mirror_clamped _ _ _ CU) (mirror_strict _ _ _ CU SU)
    (mirror_start (Z.of_nat p) (Z.of_nat nu) U CU U1) (mirror_stop (Z.of_nat p) (Z.of_nat nu) U CU U0) CV SV V0 V1 (rev_u_3 _ nu nv P HL HF) (rev_u_len nu nv P) ltac:(lra) Hv) as (m' & E' & L' & R').
  exists m, m'; split; [exact E|]; split; [exact E'|]; split; [exact L|]; split; [congruence|]; intros a b Ha Hb HK.
  rewrite R, R' by assumption; rewrite surf_row_rev_u by assumption; apply finish_sign; [apply surf_row_3|reflexivity].
Qed.
Lemma derivatives_turned_v p q nu nv U V P u v ou ov nrm : clamped (Z.of_nat p) (Z.of_nat nu) U -> strict (Z.of_nat p) (Z.of_nat nu) U -> kn U (Z.of_nat p) = 0 -> kn U (Z.of_nat nu) = 1 ->
  clamped (Z.of_nat q) (Z.of_nat nv) V -> strict (Z.of_nat q) (Z.of_nat nv) V -> kn V (Z.of_nat q) = 0 -> kn V (Z.of_nat nv) = 1 ->
  wide_end (Z.of_nat nv) V -> 1/500000 <= kn V (Z.of_nat q + 1) ->
  Forall (fun row => length row = 3%nat) P -> length P = (nu * nv)%nat -> 0 <= u <= 1 -> 0 <= v <= 1 ->
  exists m m', surf_derivatives (surf_of p q nu nv U V P) (Fin u : Exact) (Fin v : Exact) (Z.of_nat ou) (Z.of_nat ov) nrm = Ok (fin2 m) /\
    surf_derivatives (surf_of p q nu nv U (mirror V) (net_rev_v nu nv P)) (Fin u : Exact) (Fin (1 - v) : Exact) (Z.of_nat ou) (Z.of_nat ov) nrm = Ok (fin2 m') /\
    length m = ((Nat.min ou p + 1) * (Nat.min ov q + 1))%nat /\ length m' = length m /\
    forall a b, (a <= Nat.min ou p)%nat -> (b <= Nat.min ov q)%nat -> (b < q)%nat \/ (forall j, (Z.of_nat q < j < Z.of_nat nv)%Z -> kn V j <> v) ->
      nth (a * (Nat.min ov q + 1) + b) m' [] = map (fun x => (-1) ^ b * x) (nth (a * (Nat.min ov q + 1) + b) m []).
Proof.
  intros CU SU U0 U1 CV SV V0 V1 WV MV HF HL Hu Hv.
  destruct (surf_rows_nrm p q nu nv U V P u v ou ov nrm CU SU U0 U1 CV SV V0 V1 HF HL Hu Hv) as (m & E & L & R).
  destruct (surf_rows_nrm p q nu nv U (mirror V) (net_rev_v nu nv P) u (1 - v) ou ov nrm CU SU U0 U1 (mirror_clamped _ _ _ CV) (mirror_strict _ _ _ CV SV)
    (mirror_start (Z.of_nat q) (Z.of_nat nv) V CV V1) (mirror_stop (Z.of_nat q) (Z.of_nat nv) V CV V0) (rev_v_3 _ nu nv P HL HF) (rev_v_len nu nv P) Hu ltac:(lra)) as (m' & E' & L' & R').
  exists m, m'; split; [exact E|]; split; [exact E'|]; split; [exact L|]; split; [congruence|]; intros a b Ha Hb HK.
  rewrite R, R' by assumption; rewrite surf_row_rev_v by assumption; apply finish_sign; [apply surf_row_3|reflexivity].
Qed.
