(** C104-C111: smoothness, speed limits, uniqueness, and behaviour under maps of
    space. *)
From Coq Require Import Floats Permutation Sorted.
From Verif Require Import Py Num ModelKnots ModelBasis ModelCurve ModelSurface ModelInit ModelParam ModelFit Spec SpecParam SpecFit SpecSmooth MathKnots MathCox MathDeriv
  ProofNum ProofSpan2 ProofFit3 ProofCurve ProofSurface ProofSurface2 ProofSmooth ProofSmooth2 ProofSmooth3 ProofSmooth4 ProofSmooth5 ProofSmooth6 ProofSmooth7 ProofSmooth8 ProofSmooth9 ProofParam6 Examples PropSurface PropData PropParam.
Open Scope R_scope.

(** Example: degree 2 over [bU] (four control points) and over [gV] (three). *)
Definition gV : list R := [0; 0; 0; 1; 1; 1].
Definition gS : list (list R) := flat_map (fun x => map (fun y => [x; y; x * y]) [0; 1/2; 1]) [0; 1/4; 3/4; 1].
Lemma bU_clamped : clamped (Z.of_nat 2) (Z.of_nat 4) bU.
Proof. unfold bU; solve_clamped. Qed.
Lemma bU_strict : strict (Z.of_nat 2) (Z.of_nat 4) bU.
Proof. intros i Hi; assert (i = 2 \/ i = 3)%Z as [->| ->] by lia; unfold bU; kn_eval; lra. Qed.
Lemma bU_wide : wide_end (Z.of_nat 4) bU.
Proof. unfold wide_end, bU; kn_eval; lra. Qed.
Lemma gV_clamped : clamped (Z.of_nat 2) (Z.of_nat 3) gV.
Proof. unfold gV; solve_clamped. Qed.
Lemma gV_strict : strict (Z.of_nat 2) (Z.of_nat 3) gV.
Proof. intros i Hi; assert (i = 2)%Z as -> by lia; unfold gV; kn_eval; lra. Qed.
Lemma gV_wide : wide_end (Z.of_nat 3) gV.
Proof. unfold wide_end, gV; kn_eval; lra. Qed.
Lemma gS_3 : Forall (fun row => length row = 3%nat) gS.
Proof. repeat constructor. Qed.

(** ** C104: smoothness *)
(** The tables of basis functions from two neighbouring spans agree at the knot
    between them, up to order p minus its multiplicity. *)
Theorem C104_tables : forall U s m t p nd, nondecreasing U -> kn U s < t -> (forall j, (s < j <= s + Z.of_nat m)%Z -> kn U j = t) -> t < kn U (s + Z.of_nat m + 1) ->
  (1 <= m)%nat -> (Z.of_nat p - 1 <= s)%Z -> (s + Z.of_nat m + Z.of_nat p < len U)%Z ->
  exists a b, basis_function_ders s (Fin t : Exact) (Z.of_nat p) (fin U) (Z.of_nat nd) = Ok (fin2 a) /\
    basis_function_ders (s + Z.of_nat m) (Fin t : Exact) (Z.of_nat p) (fin U) (Z.of_nat nd) = Ok (fin2 b) /\
    forall i k, (k <= nd)%nat -> (k + m <= p)%nat -> entry p a (i - (s - Z.of_nat p)) k = entry p b (i - (s + Z.of_nat m - Z.of_nat p)) k.
Proof. exact ders_join. Qed.
Print Assumptions C104_tables.

Example C104_tables_example : nondecreasing bU /\ kn bU 2 < 1/2 /\ (forall j, (2 < j <= 2 + Z.of_nat 1)%Z -> kn bU j = 1/2) /\ 1/2 < kn bU (2 + Z.of_nat 1 + 1) /\
  (Z.of_nat 2 - 1 <= 2)%Z /\ (2 + Z.of_nat 1 + Z.of_nat 2 < len bU)%Z.
Proof.
  split; [apply bU_clamped|]; split; [unfold bU; kn_eval; lra|]; split; [intros j Hj; assert (j = 3)%Z as -> by lia; unfold bU; kn_eval; lra|].
  split; [unfold bU; kn_eval; lra|]; split; [lia|reflexivity].
Qed.
(** One order more, and they differ. *)
Theorem C104_next_order_refuted : exists U s m t p k a b, (k + m = p + 1)%nat /\ nondecreasing U /\ kn U s < t /\ (forall j, (s < j <= s + Z.of_nat m)%Z -> kn U j = t) /\ t < kn U (s + Z.of_nat m + 1) /\
  basis_function_ders s (Fin t : Exact) (Z.of_nat p) (fin U) (Z.of_nat k) = Ok (fin2 a) /\
  basis_function_ders (s + Z.of_nat m) (Fin t : Exact) (Z.of_nat p) (fin U) (Z.of_nat k) = Ok (fin2 b) /\
  exists i, entry p a (i - (s - Z.of_nat p)) k <> entry p b (i - (s + Z.of_nat m - Z.of_nat p)) k.
Proof. exists bU, 2%Z, 1%nat, (1/2), 2%nat, 2%nat; exact next_order_jumps. Qed.
Print Assumptions C104_next_order_refuted.
(** Curves over knots without repetition. *)

Theorem C104_smooth : forall p U P d, clamped (Z.of_nat p) (len P) U -> strict (Z.of_nat p) (len P) U -> kn U (Z.of_nat p) = 0 -> kn U (len P) = 1 -> wide_end (len P) U ->
  Forall (fun row => length row = 3%nat) P ->
  exists D : nat -> R -> list R,
    (forall u, 0 <= u <= 1 -> single_point (curve_of (Z.of_nat p) U P d) (Fin u : Exact) = Ok (fin (D 0%nat u))) /\
    (forall u o, 0 <= u <= 1 -> (2 <= o)%nat -> exists m, derivatives3 (curve_of (Z.of_nat p) U P d) (Fin u : Exact) (Z.of_nat o) = Ok (fin2 m) /\
       length m = S (Nat.min o p) /\ forall k, (k <= Nat.min o p)%nat -> nth k m [] = D k u) /\
    (forall k c u, (S k < p)%nat -> (c < 3)%nat -> 0 < u < 1 -> derivable_pt_lim (fun x => nth c (D k x) 0) u (nth c (D (S k) u) 0)) /\
    (forall k c u, (k < p)%nat -> (c < 3)%nat -> 0 < u < 1 -> continuity_pt (fun x => nth c (D k x) 0) u).
Proof. exact smooth_curve. Qed.
Print Assumptions C104_smooth.

Example C104_smooth_example : clamped (Z.of_nat 2) (len bB) bU /\ strict (Z.of_nat 2) (len bB) bU /\ kn bU (Z.of_nat 2) = 0 /\ kn bU (len bB) = 1 /\ wide_end (len bB) bU /\
  Forall (fun row => length row = 3%nat) bB.
Proof.
  split; [apply bU_clamped|]; split; [apply bU_strict|]; split; [reflexivity|]; split; [reflexivity|]; split; [apply bU_wide|repeat constructor].
Qed.

(** ** C105: speed limits *)

Theorem C105_curve : forall p U P d L u v, clamped (Z.of_nat p) (len P) U -> (1 <= p)%nat -> strict (Z.of_nat p) (len P) U ->
  kn U (Z.of_nat p) = 0 -> kn U (len P) = 1 -> wide_end (len P) U -> Forall (fun row => length row = 3%nat) P ->
  (forall c, (c < 3)%nat -> slopes p U (coords c P) (L c)) -> 0 <= u <= 1 -> 0 <= v <= 1 ->
  exists a b, single_point (curve_of (Z.of_nat p) U P d) (Fin u : Exact) = Ok (fin a) /\ single_point (curve_of (Z.of_nat p) U P d) (Fin v : Exact) = Ok (fin b) /\
    length a = 3%nat /\ length b = 3%nat /\ distR a b <= sqrt (L 0%nat * L 0%nat + L 1%nat * L 1%nat + L 2%nat * L 2%nat) * Rabs (u - v).
Proof. exact single_point_lipschitz. Qed.
Print Assumptions C105_curve.

Theorem C105_surface : forall p q nu nv U V P A B u v u' v', clamped (Z.of_nat p) (Z.of_nat nu) U -> (1 <= p)%nat -> strict (Z.of_nat p) (Z.of_nat nu) U ->
  kn U (Z.of_nat p) = 0 -> kn U (Z.of_nat nu) = 1 -> wide_end (Z.of_nat nu) U ->
  clamped (Z.of_nat q) (Z.of_nat nv) V -> (1 <= q)%nat -> strict (Z.of_nat q) (Z.of_nat nv) V -> kn V (Z.of_nat q) = 0 -> kn V (Z.of_nat nv) = 1 -> wide_end (Z.of_nat nv) V ->
  Forall (fun row => length row = 3%nat) P -> length P = (nu * nv)%nat ->
  (forall c j, (c < 3)%nat -> (j < nv)%nat -> slopes p U (coords c (net_col nu nv P j)) (A c)) ->
  (forall c i, (c < 3)%nat -> (i < nu)%nat -> slopes q V (coords c (net_row nv P i)) (B c)) ->
  0 <= u <= 1 -> 0 <= v <= 1 -> 0 <= u' <= 1 -> 0 <= v' <= 1 ->
  exists a b, surf_point (surf_of p q nu nv U V P) (Fin u : Exact) (Fin v : Exact) = Ok (fin a) /\ surf_point (surf_of p q nu nv U V P) (Fin u' : Exact) (Fin v' : Exact) = Ok (fin b) /\
    length a = 3%nat /\ length b = 3%nat /\
    distR a b <= sqrt (A 0%nat * A 0%nat + A 1%nat * A 1%nat + A 2%nat * A 2%nat) * Rabs (u - u') + sqrt (B 0%nat * B 0%nat + B 1%nat * B 1%nat + B 2%nat * B 2%nat) * Rabs (v - v').
Proof. exact surf_point_lipschitz. Qed.
Print Assumptions C105_surface.

Ltac nat_eval := repeat match goal with |- context [Z.to_nat ?z] => let v := eval vm_compute in (Z.to_nat z) in change (Z.to_nat z) with v end.
Example C105_example : (forall c, (c < 3)%nat -> slopes 2 bU (coords c bB) 4) /\
  (forall c j, (c < 3)%nat -> (j < 3)%nat -> slopes 2 bU (coords c (net_col 4 3 gS j)) 1) /\
  (forall c i, (c < 3)%nat -> (i < 4)%nat -> slopes 2 gV (coords c (net_row 3 gS i)) 1) /\ length gS = (4 * 3)%nat.
Proof.
  split; [|split; [|split; [|reflexivity]]].
  - intros c Hc i Hi; assert (i = 1 \/ i = 2 \/ i = 3)%Z as [->|[->| ->]] by (change (len (coords c bB)) with 4%Z in Hi; lia);
      destruct c as [|[|[|]]]; try lia; unfold coords, bB, bU; kn_eval; nat_eval; cbn -[Rabs]; unfold Rabs; repeat destruct Rcase_abs; lra.
  - intros c j Hc Hj i Hi; assert (i = 1 \/ i = 2 \/ i = 3)%Z as [->|[->| ->]] by (change (len (coords c (net_col 4 3 gS j))) with 4%Z in Hi; lia);
      destruct c as [|[|[|]]]; try lia; destruct j as [|[|[|]]]; try lia; unfold coords, net_col, gS, bU; kn_eval; nat_eval; cbn -[Rabs]; unfold Rabs; repeat destruct Rcase_abs; lra.
  - intros c j Hc Hj i Hi; assert (i = 1 \/ i = 2)%Z as [->| ->] by (change (len (coords c (net_row 3 gS j))) with 3%Z in Hi; lia);
      destruct c as [|[|[|]]]; try lia; destruct j as [|[|[|[|]]]]; try lia; unfold coords, net_row, gS, gV; kn_eval; nat_eval; cbn -[Rabs]; unfold Rabs; repeat destruct Rcase_abs; lra.
Qed.

(** ** C106: the first guess is near the closest point *)

Theorem C106_curve : forall p U P d Q L, clamped (Z.of_nat p) (len P) U -> (1 <= p)%nat -> strict (Z.of_nat p) (len P) U -> kn U (Z.of_nat p) = 0 -> kn U (len P) = 1 ->
  wide_end (len P) U -> Forall (fun row => length row = 3%nat) P -> length Q = 3%nat -> (forall c, (c < 3)%nat -> slopes p U (coords c P) (L c)) ->
  let c := curve_of (Z.of_nat p) U P d in
  let gap := sqrt (L 0%nat * L 0%nat + L 1%nat * L 1%nat + L 2%nat * L 2%nat) / (2 * IZR (2 * len P - 1)) in
  exists g x, 0 <= g <= 1 /\ initial_guess_curve (beh_of_curve3 c) (fin Q) = Ok (Fin g : Exact) /\ single_point c (Fin g : Exact) = Ok (fin x) /\
    forall u y, single_point c (Fin u : Exact) = Ok (fin y) -> distR Q y + gap < 1000000 -> distR Q x <= distR Q y + gap.
Proof. exact single_point_near. Qed.
Print Assumptions C106_curve.

Theorem C106_surface : forall p q nu nv U V P Q A B, clamped (Z.of_nat p) (Z.of_nat nu) U -> (1 <= p)%nat -> strict (Z.of_nat p) (Z.of_nat nu) U ->
  kn U (Z.of_nat p) = 0 -> kn U (Z.of_nat nu) = 1 -> wide_end (Z.of_nat nu) U ->
  clamped (Z.of_nat q) (Z.of_nat nv) V -> (1 <= q)%nat -> strict (Z.of_nat q) (Z.of_nat nv) V -> kn V (Z.of_nat q) = 0 -> kn V (Z.of_nat nv) = 1 -> wide_end (Z.of_nat nv) V ->
  Forall (fun row => length row = 3%nat) P -> length P = (nu * nv)%nat -> length Q = 3%nat ->
  (forall c j, (c < 3)%nat -> (j < nv)%nat -> slopes p U (coords c (net_col nu nv P j)) (A c)) ->
  (forall c i, (c < 3)%nat -> (i < nu)%nat -> slopes q V (coords c (net_row nv P i)) (B c)) ->
  let s := surf_of p q nu nv U V P in
  let gap := sqrt (A 0%nat * A 0%nat + A 1%nat * A 1%nat + A 2%nat * A 2%nat) / (2 * IZR (2 * Z.of_nat nu - 1)) + sqrt (B 0%nat * B 0%nat + B 1%nat * B 1%nat + B 2%nat * B 2%nat) / (2 * IZR (2 * Z.of_nat nv - 1)) in
  exists g h x, 0 <= g <= 1 /\ 0 <= h <= 1 /\ initial_guess_surf (beh_of_surf s) (fin Q) = Ok (Fin g : Exact, Fin h : Exact) /\ surf_point s (Fin g : Exact) (Fin h : Exact) = Ok (fin x) /\
    forall u v y, surf_point s (Fin u : Exact) (Fin v : Exact) = Ok (fin y) -> distR Q y + gap < 1000000 -> distR Q x <= distR Q y + gap.
Proof. exact surf_point_near. Qed.
Print Assumptions C106_surface.

Example C106_example : distR [1; 1; 0] (nth 1 bB []) + sqrt (4 * 4 + 4 * 4 + 4 * 4) / (2 * IZR (2 * len bB - 1)) < 1000000.
Proof.
  assert (A : sqrt (4 * 4 + 4 * 4 + 4 * 4) <= 16) by (rewrite <- (sqrt_square 16) by lra; apply sqrt_le_1_alt; lra).
  assert (B : distR [1; 1; 0] (nth 1 bB []) <= 4).
  { unfold distR, normR; rewrite <- (sqrt_square 4) by lra; apply sqrt_le_1_alt; unfold dotR, subR, bB; cbn; lra. }
  change (2 * IZR (2 * len bB - 1)) with (2 * 7); lra.
Qed.

(** ** C107: different control points, different curves *)

Theorem C107_curve : forall p U P Q d d', clamped (Z.of_nat p) (len P) U -> (1 <= p)%nat -> strict (Z.of_nat p) (len P) U -> kn U (Z.of_nat p) = 0 -> kn U (len P) = 1 -> wide_end (len P) U ->
  length Q = length P -> Forall (fun r => length r = 3%nat) P -> Forall (fun r => length r = 3%nat) Q ->
  plenty (S p) (Z.of_nat p) (len P) U (fun u => single_point (curve_of (Z.of_nat p) U P d) (Fin u : Exact) = single_point (curve_of (Z.of_nat p) U Q d') (Fin u : Exact)) -> P = Q.
Proof. exact single_point_unique. Qed.
Print Assumptions C107_curve.

Theorem C107_surface : forall p q nu nv U V P Q, clamped (Z.of_nat p) (Z.of_nat nu) U -> (1 <= p)%nat -> strict (Z.of_nat p) (Z.of_nat nu) U ->
  kn U (Z.of_nat p) = 0 -> kn U (Z.of_nat nu) = 1 -> wide_end (Z.of_nat nu) U ->
  clamped (Z.of_nat q) (Z.of_nat nv) V -> (1 <= q)%nat -> strict (Z.of_nat q) (Z.of_nat nv) V -> kn V (Z.of_nat q) = 0 -> kn V (Z.of_nat nv) = 1 -> wide_end (Z.of_nat nv) V ->
  length P = (nu * nv)%nat -> length Q = (nu * nv)%nat -> Forall (fun r => length r = 3%nat) P -> Forall (fun r => length r = 3%nat) Q ->
  plenty (S q) (Z.of_nat q) (Z.of_nat nv) V (fun v => plenty (S p) (Z.of_nat p) (Z.of_nat nu) U (fun u =>
    surf_point (surf_of p q nu nv U V P) (Fin u : Exact) (Fin v : Exact) = surf_point (surf_of p q nu nv U V Q) (Fin u : Exact) (Fin v : Exact))) -> P = Q.
Proof. exact surf_point_unique. Qed.
Print Assumptions C107_surface.

Lemma bU_plenty (A : R -> Prop) : A 0 -> A (1/4) -> A (1/2) -> A (3/4) -> A 1 -> plenty 3 (Z.of_nat 2) (Z.of_nat 4) bU A.
Proof.
  intros A0 A1 A2 A3 A4 s Hs; assert (s = 2 \/ s = 3)%Z as [->| ->] by lia; [exists [0; 1/4; 1/2]|exists [1/2; 3/4; 1]]; (split; [reflexivity|]);
    (split; [repeat constructor; lra|]); repeat constructor; try assumption; unfold bU; kn_eval; lra.
Qed.
Lemma gV_plenty (A : R -> Prop) : A 0 -> A (1/2) -> A 1 -> plenty 3 (Z.of_nat 2) (Z.of_nat 3) gV A.
Proof.
  intros A0 A1 A2 s Hs; assert (s = 2)%Z as -> by lia; exists [0; 1/2; 1]; split; [reflexivity|];
    split; [repeat constructor; lra|]; repeat constructor; try assumption; unfold gV; kn_eval; lra.
Qed.
Example C107_example : plenty 3 (Z.of_nat 2) (Z.of_nat 4) bU (fun _ => True) /\ plenty 3 (Z.of_nat 2) (Z.of_nat 3) gV (fun _ => plenty 3 (Z.of_nat 2) (Z.of_nat 4) bU (fun _ => True)).
Proof. split; [apply bU_plenty; exact I|apply gV_plenty; apply bU_plenty; exact I]. Qed.
(** p parameters in each span are not enough. *)
Theorem C107_fewer_refuted : exists p U P Q, clamped (Z.of_nat p) (len P) U /\ strict (Z.of_nat p) (len P) U /\ kn U (Z.of_nat p) = 0 /\ kn U (len P) = 1 /\ wide_end (len P) U /\
  length Q = length P /\ plenty p (Z.of_nat p) (len P) U (fun u => single_point (curve_of (Z.of_nat p) U P 3) (Fin u : Exact) = single_point (curve_of (Z.of_nat p) U Q 3) (Fin u : Exact)) /\ P <> Q.
Proof.
  exists 1%nat, [0; 0; 1; 1], [[0; 0; 0]; [1; 0; 0]], [[0; 0; 0]; [2; 0; 0]].
  assert (C : clamped (Z.of_nat 1) 2 [0; 0; 1; 1]) by solve_clamped.
  assert (S : strict (Z.of_nat 1) 2 [0; 0; 1; 1]) by (intros i Hi; assert (i = 1)%Z as -> by lia; kn_eval; lra).
  assert (W : wide_end 2 [0; 0; 1; 1]) by (unfold wide_end; kn_eval; lra).
  split; [exact C|]; split; [exact S|]; split; [reflexivity|]; split; [reflexivity|]; split; [exact W|]; split; [reflexivity|]; split.
  - intros s Hs; change (len [[0; 0; 0]; [1; 0; 0]]) with 2%Z in Hs; assert (s = 1)%Z as -> by lia; exists [0]; split; [reflexivity|]; split; [repeat constructor|].
    constructor; [split; [kn_eval; lra|]|constructor].
    assert (T : tight (Z.of_nat 1) 2 [0; 0; 1; 1]) by (apply strict_tight; [exact C|exact S|lia]).
    rewrite (proj1 (single_point_ends 1 [0; 0; 1; 1] [[0; 0; 0]; [1; 0; 0]] 3 T ltac:(repeat constructor) eq_refl eq_refl)), (proj1 (single_point_ends 1 [0; 0; 1; 1] [[0; 0; 0]; [2; 0; 0]] 3 T ltac:(repeat constructor) eq_refl eq_refl)); reflexivity.
  - intros E; injection E as E; lra.
Qed.
Print Assumptions C107_fewer_refuted.

(** ** C108: the fit is determined by the data *)

Theorem C108_curve_unique : forall sv sv' c p U P rows, least_squares sv -> least_squares sv' -> clamped (Z.of_nat p) (len P) U -> strict (Z.of_nat p) (len P) U -> (1 <= p)%nat ->
  c_degree c = Some (Z.of_nat p) -> c_ctrl c = Some (fin2 P) -> c_kv c = Some (fin U) -> Forall (fun r => length r = 3%nat) P ->
  Forall (fun r => length r = 4%nat /\ kn U (Z.of_nat p) <= nth 3 r 0 <= kn U (len P)) rows ->
  plenty (S p) (Z.of_nat p) (len P) U (fun u => exists r, In r rows /\ nth 3 r 0 = u) ->
  exists P', single_fit_curve store_ctrl sv c (fin2 rows) = Ok (mkCurve (c_degree c) (Some (fin2 P')) (c_kv c) (c_dim c)) /\
    single_fit_curve store_ctrl sv' c (fin2 rows) = Ok (mkCurve (c_degree c) (Some (fin2 P')) (c_kv c) (c_dim c)) /\
    forall Z, length Z = length P -> Forall (fun r => length r = 3%nat) Z -> nth 0 Z [] = nth 0 P [] -> last Z [] = last P [] -> Z <> P' -> curve_err U p P' rows < curve_err U p Z rows.
Proof. exact single_fit_curve_unique. Qed.
Print Assumptions C108_curve_unique.

Theorem C108_curve_recovers : forall sv c p U P Z rows, least_squares sv -> clamped (Z.of_nat p) (len P) U -> strict (Z.of_nat p) (len P) U -> (1 <= p)%nat ->
  c_degree c = Some (Z.of_nat p) -> c_ctrl c = Some (fin2 P) -> c_kv c = Some (fin U) ->
  Forall (fun r => length r = 3%nat) P -> length Z = length P -> Forall (fun r => length r = 3%nat) Z -> nth 0 Z [] = nth 0 P [] -> last Z [] = last P [] ->
  Forall (fun r => length r = 4%nat /\ kn U (Z.of_nat p) <= nth 3 r 0 <= kn U (len P)) rows ->
  (forall r, In r rows -> forall c, (c < 3)%nat -> nth c (curve_xyz U p Z (nth 3 r 0)) 0 = nth c r 0) ->
  exists P', single_fit_curve store_ctrl sv c (fin2 rows) = Ok (mkCurve (c_degree c) (Some (fin2 P')) (c_kv c) (c_dim c)) /\
    (forall r, In r rows -> forall c, (c < 3)%nat -> nth c (curve_xyz U p P' (nth 3 r 0)) 0 = nth c r 0) /\
    (plenty (S p) (Z.of_nat p) (len P) U (fun u => exists r, In r rows /\ nth 3 r 0 = u) -> P' = Z).
Proof. exact single_fit_curve_recovers. Qed.
Print Assumptions C108_curve_recovers.

Theorem C108_surface_unique : forall sv sv' p q nu nv U V P rows, least_squares sv -> least_squares sv' ->
  clamped (Z.of_nat p) (Z.of_nat nu) U -> strict (Z.of_nat p) (Z.of_nat nu) U -> (1 <= p)%nat -> clamped (Z.of_nat q) (Z.of_nat nv) V -> strict (Z.of_nat q) (Z.of_nat nv) V -> (1 <= q)%nat ->
  length P = (nu * nv)%nat -> Forall (fun r => length r = 3%nat) P ->
  Forall (fun r => length r = 5%nat /\ kn U (Z.of_nat p) <= nth 3 r 0 <= kn U (Z.of_nat nu) /\ kn V (Z.of_nat q) <= nth 4 r 0 <= kn V (Z.of_nat nv)) rows ->
  plenty (S q) (Z.of_nat q) (Z.of_nat nv) V (fun v => plenty (S p) (Z.of_nat p) (Z.of_nat nu) U (fun u => exists r, In r rows /\ nth 3 r 0 = u /\ nth 4 r 0 = v)) ->
  let s P := mkSurf (K := Exact) (Z.of_nat p) (Z.of_nat q) (Z.of_nat nu) (Z.of_nat nv) (fin2 P) (fin U) (fin V) in
  exists P', single_fit_surface sv (s P) (fin2 rows) = Ok (s P') /\ single_fit_surface sv' (s P) (fin2 rows) = Ok (s P') /\
    forall Z, length Z = length P -> Forall (fun r => length r = 3%nat) Z ->
      (forall i j, (i < nu)%nat -> (j < nv)%nat -> i = 0%nat \/ i = (nu - 1)%nat \/ j = 0%nat \/ j = (nv - 1)%nat -> nth (i * nv + j) Z [] = nth (i * nv + j) P []) ->
      Z <> P' -> surface_err U V p q nu nv P' rows < surface_err U V p q nu nv Z rows.
Proof. exact single_fit_surface_unique. Qed.
Print Assumptions C108_surface_unique.

Theorem C108_surface_recovers : forall sv p q nu nv U V P Z rows, least_squares sv ->
  clamped (Z.of_nat p) (Z.of_nat nu) U -> strict (Z.of_nat p) (Z.of_nat nu) U -> (1 <= p)%nat -> clamped (Z.of_nat q) (Z.of_nat nv) V -> strict (Z.of_nat q) (Z.of_nat nv) V -> (1 <= q)%nat ->
  length P = (nu * nv)%nat -> Forall (fun r => length r = 3%nat) P -> length Z = length P -> Forall (fun r => length r = 3%nat) Z ->
  (forall i j, (i < nu)%nat -> (j < nv)%nat -> i = 0%nat \/ i = (nu - 1)%nat \/ j = 0%nat \/ j = (nv - 1)%nat -> nth (i * nv + j) Z [] = nth (i * nv + j) P []) ->
  Forall (fun r => length r = 5%nat /\ kn U (Z.of_nat p) <= nth 3 r 0 <= kn U (Z.of_nat nu) /\ kn V (Z.of_nat q) <= nth 4 r 0 <= kn V (Z.of_nat nv)) rows ->
  (forall r, In r rows -> forall c, (c < 3)%nat -> nth c (surface_xyz U V p q nu nv Z (nth 3 r 0) (nth 4 r 0)) 0 = nth c r 0) ->
  let s P := mkSurf (K := Exact) (Z.of_nat p) (Z.of_nat q) (Z.of_nat nu) (Z.of_nat nv) (fin2 P) (fin U) (fin V) in
  exists P', single_fit_surface sv (s P) (fin2 rows) = Ok (s P') /\
    (forall r, In r rows -> forall c, (c < 3)%nat -> nth c (surface_xyz U V p q nu nv P' (nth 3 r 0) (nth 4 r 0)) 0 = nth c r 0) /\
    (plenty (S q) (Z.of_nat q) (Z.of_nat nv) V (fun v => plenty (S p) (Z.of_nat p) (Z.of_nat nu) U (fun u => exists r, In r rows /\ nth 3 r 0 = u /\ nth 4 r 0 = v)) -> P' = Z).
Proof. exact single_fit_surface_recovers. Qed.
Print Assumptions C108_surface_recovers.

Definition gR : list (list R) := [[0; 1; 0; 0]; [1; 2; 0; 1/4]; [2; 0; 0; 1/2]; [3; 1; 1; 3/4]; [4; 0; 0; 1]].
Definition gD : list (list R) := flat_map (fun u => map (fun v => [u; v; u * v; u; v]) [0; 1/2; 1]) [0; 1/4; 1/2; 3/4; 1].
Example C108_example : least_squares (gs_solver Exact) /\
  Forall (fun r => length r = 4%nat /\ kn bU (Z.of_nat 2) <= nth 3 r 0 <= kn bU (Z.of_nat 4)) gR /\ plenty 3 (Z.of_nat 2) (Z.of_nat 4) bU (fun u => exists r, In r gR /\ nth 3 r 0 = u) /\
  Forall (fun r => length r = 5%nat /\ kn bU (Z.of_nat 2) <= nth 3 r 0 <= kn bU (Z.of_nat 4) /\ kn gV (Z.of_nat 2) <= nth 4 r 0 <= kn gV (Z.of_nat 3)) gD /\
  plenty 3 (Z.of_nat 2) (Z.of_nat 3) gV (fun v => plenty 3 (Z.of_nat 2) (Z.of_nat 4) bU (fun u => exists r, In r gD /\ nth 3 r 0 = u /\ nth 4 r 0 = v)).
Proof.
  split; [apply gs_solver_least_squares|]; split; [|split; [|split]].
  - unfold gR; repeat constructor; unfold bU; kn_eval; cbn [nth]; lra.
  - apply bU_plenty; [exists [0; 1; 0; 0]|exists [1; 2; 0; 1/4]|exists [2; 0; 0; 1/2]|exists [3; 1; 1; 3/4]|exists [4; 0; 0; 1]]; (split; [|reflexivity]); unfold gR; cbn [In]; auto 6.
  - apply Forall_forall; intros r Hr; unfold gD in Hr; apply in_flat_map in Hr; destruct Hr as (u & Hu & Hr); apply in_map_iff in Hr; destruct Hr as (v & <- & Hv).
    split; [reflexivity|]; cbn [nth]; unfold bU, gV; kn_eval; cbn [In] in Hu, Hv; intuition (subst; lra).
  - assert (M : forall u v, In u [0; 1/4; 1/2; 3/4; 1] -> In v [0; 1/2; 1] -> exists r, In r gD /\ nth 3 r 0 = u /\ nth 4 r 0 = v).
    { intros u v Hu Hv; exists [u; v; u * v; u; v]; split; [|split; reflexivity]; unfold gD; apply in_flat_map; exists u; split; [exact Hu|]; apply in_map_iff; exists v; split; [reflexivity|exact Hv]. }
    apply gV_plenty; apply bU_plenty; apply M; cbn [In]; auto 6.
Qed.

(** Samples of a curve and of a surface, and start values that differ from them. *)
Definition gC : list (list R) := map (fun u => curve_xyz bU 2 bB u ++ [u]) [0; 1/4; 1/2; 3/4; 1].
Example C108_curve_samples : let P := [[0; 0; 0]; [7; 7; 7]; [8; 8; 8]; [3; 0; 0]] in length bB = length P /\ nth 0 bB [] = nth 0 P [] /\ last bB [] = last P [] /\
  (forall r, In r gC -> forall c, (c < 3)%nat -> nth c (curve_xyz bU 2 bB (nth 3 r 0)) 0 = nth c r 0) /\ plenty 3 (Z.of_nat 2) (Z.of_nat 4) bU (fun u => exists r, In r gC /\ nth 3 r 0 = u).
Proof.
  split; [reflexivity|]; split; [reflexivity|]; split; [reflexivity|]; split.
  - intros r Hr; unfold gC in Hr; apply in_map_iff in Hr; destruct Hr as (u & <- & Hu); intros [|[|[|]]] Hc; try lia; reflexivity.
  - assert (M : forall u, In u [0; 1/4; 1/2; 3/4; 1] -> exists r, In r gC /\ nth 3 r 0 = u).
    { intros u Hu; exists (curve_xyz bU 2 bB u ++ [u]); split; [|reflexivity]; unfold gC; apply in_map_iff; exists u; split; [reflexivity|exact Hu]. }
    apply bU_plenty; apply M; cbn [In]; auto 6.
Qed.

(** ** C109: bilinear nets *)

Theorem C109_bilinear : forall p q nu nv U V P A D E F u v ou ov, clamped (Z.of_nat p) (Z.of_nat nu) U -> clamped (Z.of_nat q) (Z.of_nat nv) V ->
  strict (Z.of_nat p) (Z.of_nat nu) U -> strict (Z.of_nat q) (Z.of_nat nv) V ->
  kn U (Z.of_nat p) = 0 -> kn U (Z.of_nat nu) = 1 -> kn V (Z.of_nat q) = 0 -> kn V (Z.of_nat nv) = 1 -> (1 <= p)%nat -> (1 <= q)%nat ->
  Forall (fun row => length row = 3%nat) P -> length P = (nu * nv)%nat -> 0 <= u <= 1 -> 0 <= v <= 1 ->
  (forall i j c, (i < nu)%nat -> (j < nv)%nat -> (c < 3)%nat ->
     nth c (nth (i * nv + j) P []) 0 = nth c A 0 + average p U i * nth c D 0 + average q V j * nth c E 0 + average p U i * average q V j * nth c F 0) ->
  let at_ a b := map (fun c => bilinear_row a b (nth c A 0) (nth c D 0) (nth c E 0) (nth c F 0) u v) [0%nat; 1%nat; 2%nat] in
  surf_point (surf_of p q nu nv U V P) (Fin u : Exact) (Fin v : Exact) = Ok (fin (at_ 0%nat 0%nat)) /\
  exists m, surf_derivatives (surf_of p q nu nv U V P) (Fin u : Exact) (Fin v : Exact) (Z.of_nat ou) (Z.of_nat ov) false = Ok (fin2 m) /\
    length m = ((Nat.min ou p + 1) * (Nat.min ov q + 1))%nat /\
    forall a b, (a <= Nat.min ou p)%nat -> (b <= Nat.min ov q)%nat -> nth (a * (Nat.min ov q + 1) + b) m [] = at_ a b.
Proof. exact bilinear_surface. Qed.
Print Assumptions C109_bilinear.

Example C109_example : forall i j c, (i < 4)%nat -> (j < 3)%nat -> (c < 3)%nat ->
  nth c (nth (i * 3 + j) gS []) 0 = nth c [0; 0; 0] 0 + average 2 bU i * nth c [1; 0; 0] 0 + average 2 gV j * nth c [0; 1; 0] 0 + average 2 bU i * average 2 gV j * nth c [0; 0; 1] 0.
Proof.
  intros i j c Hi Hj Hc.
  assert (AU : forall i, (i < 4)%nat -> average 2 bU i = nth i [0; 1/4; 3/4; 1] 0).
  { intros k Hk; destruct k as [|[|[|[|]]]]; try lia; unfold average, zsum, bU; kn_eval; cbn [nth INR]; lra. }
  assert (AV : forall j, (j < 3)%nat -> average 2 gV j = nth j [0; 1/2; 1] 0).
  { intros k Hk; destruct k as [|[|[|]]]; try lia; unfold average, zsum, gV; kn_eval; cbn [nth INR]; lra. }
  rewrite (AU i Hi), (AV j Hj); destruct i as [|[|[|[|]]]]; try lia; destruct j as [|[|[|]]]; try lia; destruct c as [|[|[|]]]; try lia; cbn; lra.
Qed.
(** The samples [gD] lie on the surface [gS]; start values with the same edges. *)
Example C108_surface_samples : let P := firstn 4 gS ++ [[7; 7; 7]] ++ firstn 2 (skipn 5 gS) ++ [[8; 8; 8]] ++ skipn 8 gS in length gS = length P /\ Forall (fun r => length r = 3%nat) P /\
  (forall i j, (i < 4)%nat -> (j < 3)%nat -> i = 0%nat \/ i = (4 - 1)%nat \/ j = 0%nat \/ j = (3 - 1)%nat -> nth (i * 3 + j) gS [] = nth (i * 3 + j) P []) /\
  (forall r, In r gD -> forall c, (c < 3)%nat -> nth c (surface_xyz bU gV 2 2 4 3 gS (nth 3 r 0) (nth 4 r 0)) 0 = nth c r 0).
Proof.
  split; [reflexivity|]; split; [repeat constructor|]; split.
  - intros [|[|[|[|]]]] [|[|[|]]] Hi Hj H; try lia; reflexivity.
  - intros r Hr c Hc; unfold gD in Hr; apply in_flat_map in Hr; destruct Hr as (u & Hu & Hr); apply in_map_iff in Hr; destruct Hr as (v & <- & Hv); cbn [nth].
    assert (Ru : 0 <= u <= 1) by (cbn [In] in Hu; intuition (subst; lra)); assert (Rv : 0 <= v <= 1) by (cbn [In] in Hv; intuition (subst; lra)).
    destruct (bilinear_surface 2 2 4 3 bU gV gS [0; 0; 0] [1; 0; 0] [0; 1; 0] [0; 0; 1] u v 0 0 bU_clamped gV_clamped bU_strict gV_strict eq_refl eq_refl eq_refl eq_refl ltac:(lia) ltac:(lia) gS_3 eq_refl Ru Rv C109_example) as [E _].
    rewrite (surf_point_wide 2 2 4 3 bU gV gS u v bU_clamped ltac:(lia) bU_strict eq_refl eq_refl bU_wide gV_clamped ltac:(lia) gV_strict eq_refl eq_refl gV_wide gS_3 eq_refl Ru Rv) in E.
    apply ok_inj, fin_inj in E; rewrite E; destruct c as [|[|[|]]]; try lia; cbn [map nth bilinear_row]; ring.
Qed.

(** ** C110: projection of moved points onto moved curves and surfaces *)

Theorem C110_curve : forall p U P d Q e1 e2 mi M b, clamped (Z.of_nat p) (len P) U -> strict (Z.of_nat p) (len P) U -> kn U (Z.of_nat p) = 0 -> kn U (len P) = 1 -> (2 <= p)%nat ->
  Forall (fun row => length row = 3%nat) P -> length Q = 3%nat -> orthogonal M ->
  curve_inversion (beh_of_curve3 (curve_of (Z.of_nat p) U (map (affine M b) P) d)) (fin (affine M b Q)) e1 e2 mi
  = curve_inversion (beh_of_curve3 (curve_of (Z.of_nat p) U P d)) (fin Q) e1 e2 mi.
Proof. exact curve_inversion_moved. Qed.
Print Assumptions C110_curve.

Theorem C110_surface : forall p q nu nv U V P Q e1 e2 mi M b, clamped (Z.of_nat p) (Z.of_nat nu) U -> clamped (Z.of_nat q) (Z.of_nat nv) V ->
  strict (Z.of_nat p) (Z.of_nat nu) U -> strict (Z.of_nat q) (Z.of_nat nv) V ->
  kn U (Z.of_nat p) = 0 -> kn U (Z.of_nat nu) = 1 -> kn V (Z.of_nat q) = 0 -> kn V (Z.of_nat nv) = 1 -> (2 <= p)%nat -> (2 <= q)%nat ->
  Forall (fun row => length row = 3%nat) P -> length P = (nu * nv)%nat -> length Q = 3%nat -> orthogonal M ->
  surface_inversion (beh_of_surf (surf_of p q nu nv U V (map (affine M b) P))) (fin (affine M b Q)) e1 e2 mi
  = surface_inversion (beh_of_surf (surf_of p q nu nv U V P)) (fin Q) e1 e2 mi.
Proof. exact surface_inversion_moved. Qed.
Print Assumptions C110_surface.

Theorem C110_parameterize_curve : forall p U P d rows M b, clamped (Z.of_nat p) (len P) U -> strict (Z.of_nat p) (len P) U -> kn U (Z.of_nat p) = 0 -> kn U (len P) = 1 -> (2 <= p)%nat ->
  Forall (fun row => length row = 3%nat) P -> Forall (fun r => length r = 3%nat) rows -> orthogonal M ->
  let run := parameterize_curve (beh_of_curve3 (curve_of (Z.of_nat p) U P d)) (mkData 3 (fin2 rows)) in
  let run' := parameterize_curve (beh_of_curve3 (curve_of (Z.of_nat p) U (map (affine M b) P) d)) (mkData 3 (fin2 (map (affine M b) rows))) in
  (forall e, run = Err e -> run' = Err e) /\
  (forall out, run = Ok out -> exists x x', out = fin2 x /\ run' = Ok (fin2 x') /\ Permutation x' (map (moved M b) x)).
Proof. exact parameterize_curve_moved. Qed.
Print Assumptions C110_parameterize_curve.

Theorem C110_parameterize_surface : forall p q nu nv U V P rows M b, clamped (Z.of_nat p) (Z.of_nat nu) U -> clamped (Z.of_nat q) (Z.of_nat nv) V ->
  strict (Z.of_nat p) (Z.of_nat nu) U -> strict (Z.of_nat q) (Z.of_nat nv) V ->
  kn U (Z.of_nat p) = 0 -> kn U (Z.of_nat nu) = 1 -> kn V (Z.of_nat q) = 0 -> kn V (Z.of_nat nv) = 1 -> (2 <= p)%nat -> (2 <= q)%nat ->
  Forall (fun row => length row = 3%nat) P -> length P = (nu * nv)%nat -> Forall (fun r => length r = 3%nat) rows -> orthogonal M ->
  let run := parameterize_surface (beh_of_surf (surf_of p q nu nv U V P)) (mkData 3 (fin2 rows)) in
  let run' := parameterize_surface (beh_of_surf (surf_of p q nu nv U V (map (affine M b) P))) (mkData 3 (fin2 (map (affine M b) rows))) in
  (forall e, run = Err e -> run' = Err e) /\
  (forall out, run = Ok out -> exists x x', out = fin2 x /\ run' = Ok (fin2 x') /\ Permutation x' (map (moved M b) x)).
Proof. exact parameterize_surface_moved. Qed.
Print Assumptions C110_parameterize_surface.

Definition turn (i j : nat) : R := nth j (nth i [[3/5; -4/5; 0]; [4/5; 3/5; 0]; [0; 0; 1]] []) 0.
Example C110_example : orthogonal turn /\ (affine turn (fun _ => 1) [1; 2; 0] = [0; 3; 1]) /\ (2 <= 2)%nat /\
  clamped (Z.of_nat 2) (Z.of_nat 4) bU /\ clamped (Z.of_nat 2) (Z.of_nat 3) gV /\ strict (Z.of_nat 2) (Z.of_nat 4) bU /\ strict (Z.of_nat 2) (Z.of_nat 3) gV.
Proof.
  split; [|split; [|split; [lia|]]].
  - split; intros [|[|[|]]] [|[|[|]]] Hi Hj; try lia; unfold turn; cbn; lra.
  - unfold affine, turn; cbn; repeat (f_equal; try lra).
  - split; [apply bU_clamped|]; split; [apply gV_clamped|]; split; [apply bU_strict|apply gV_strict].
Qed.
(** The tolerances are lengths: a smaller copy of the same problem (scaled by a
    power of two, so without any rounding) gives another parameter. *)
Theorem C110_scaling_refuted : exists (c c' : curve_obj Binary64) P Q (u v : Binary64),
  c_kv c' = c_kv c /\ c_degree c' = c_degree c /\
  c_ctrl c' = option_map (map (map (fun x => (x * 0x1p-20)%float))) (c_ctrl c) /\ Q = map (fun x => (x * 0x1p-20)%float) P /\
  curve_inversion (beh_of_curve3 c) P lit_1em5 lit_1em5 100 = Ok u /\ curve_inversion (beh_of_curve3 c') Q lit_1em5 lit_1em5 100 = Ok v /\ (u <? v)%float = true.
Proof.
  exists bowl, (mkCurve (K := Binary64) (c_degree bowl) (option_map (map (map (fun x => (x * 0x1p-20)%float))) (c_ctrl bowl)) (c_kv bowl) (c_dim bowl)), [0.25; 1; 0]%float, (map (fun x => (x * 0x1p-20)%float) [0.25; 1; 0]%float).
  exists (match curve_inversion (beh_of_curve3 bowl) [0.25; 1; 0]%float lit_1em5 lit_1em5 100 with Ok u => u | _ => 0%float end : Binary64).
  exists (match curve_inversion (beh_of_curve3 (mkCurve (K := Binary64) (c_degree bowl) (option_map (map (map (fun x => (x * 0x1p-20)%float))) (c_ctrl bowl)) (c_kv bowl) (c_dim bowl))) (map (fun x => (x * 0x1p-20)%float) [0.25; 1; 0]%float) lit_1em5 lit_1em5 100 with Ok u => u | _ => 0%float end : Binary64).
  split; [reflexivity|]; split; [reflexivity|]; split; [reflexivity|]; split; [reflexivity|]; split; [vm_compute; reflexivity|]; split; vm_compute; reflexivity.
Qed.
Print Assumptions C110_scaling_refuted.

(** ** C111: fits to mapped data *)

Theorem C111_curve : forall sv sv' c c' p U P rows M b, least_squares sv -> least_squares sv' -> clamped (Z.of_nat p) (len P) U -> strict (Z.of_nat p) (len P) U -> (1 <= p)%nat ->
  c_degree c = Some (Z.of_nat p) -> c_ctrl c = Some (fin2 P) -> c_kv c = Some (fin U) -> Forall (fun r => length r = 3%nat) P ->
  c_degree c' = c_degree c -> c_ctrl c' = Some (fin2 (map (affine M b) P)) -> c_kv c' = c_kv c ->
  Forall (fun r => length r = 4%nat /\ kn U (Z.of_nat p) <= nth 3 r 0 <= kn U (len P)) rows ->
  plenty (S p) (Z.of_nat p) (len P) U (fun u => exists r, In r rows /\ nth 3 r 0 = u) ->
  exists P', single_fit_curve store_ctrl sv c (fin2 rows) = Ok (mkCurve (c_degree c) (Some (fin2 P')) (c_kv c) (c_dim c)) /\
    single_fit_curve store_ctrl sv' c' (fin2 (map (moved M b) rows)) = Ok (mkCurve (c_degree c') (Some (fin2 (map (affine M b) P'))) (c_kv c') (c_dim c')).
Proof. exact single_fit_curve_affine. Qed.
Print Assumptions C111_curve.

Theorem C111_surface : forall sv sv' p q nu nv U V P rows M b, least_squares sv -> least_squares sv' ->
  clamped (Z.of_nat p) (Z.of_nat nu) U -> strict (Z.of_nat p) (Z.of_nat nu) U -> (1 <= p)%nat -> clamped (Z.of_nat q) (Z.of_nat nv) V -> strict (Z.of_nat q) (Z.of_nat nv) V -> (1 <= q)%nat ->
  length P = (nu * nv)%nat -> Forall (fun r => length r = 3%nat) P ->
  Forall (fun r => length r = 5%nat /\ kn U (Z.of_nat p) <= nth 3 r 0 <= kn U (Z.of_nat nu) /\ kn V (Z.of_nat q) <= nth 4 r 0 <= kn V (Z.of_nat nv)) rows ->
  plenty (S q) (Z.of_nat q) (Z.of_nat nv) V (fun v => plenty (S p) (Z.of_nat p) (Z.of_nat nu) U (fun u => exists r, In r rows /\ nth 3 r 0 = u /\ nth 4 r 0 = v)) ->
  let s P := mkSurf (K := Exact) (Z.of_nat p) (Z.of_nat q) (Z.of_nat nu) (Z.of_nat nv) (fin2 P) (fin U) (fin V) in
  exists P', single_fit_surface sv (s P) (fin2 rows) = Ok (s P') /\
    single_fit_surface sv' (s (map (affine M b) P)) (fin2 (map (moved M b) rows)) = Ok (s (map (affine M b) P')).
Proof. exact single_fit_surface_affine. Qed.
Print Assumptions C111_surface.

(** Any map will do, also a degenerate one: here the projection to a plane. *)
Example C111_example : let M i j := if (i =? j)%nat then if (i =? 2)%nat then 0 else 1 else 0 in
  map (moved M (fun _ => 0)) [[1; 2; 3; 1/4]; [0; 1; 5; 1/2; 3/4]] = [[1; 2; 0; 1/4]; [0; 1; 0; 1/2; 3/4]].
Proof. unfold moved, affine; cbn; repeat (f_equal; try lra). Qed.
