(** With enough parameters in every span a fit is determined by its data. *)
From Coq Require Import Sorted.
From Verif Require Import Py PyLemmas Num ModelKnots ModelBasis ModelCurve ModelSurface ModelInit ModelParam ModelFit Spec SpecFit SpecSmooth MathCox MathKnots
  ProofNum ProofCurve ProofCurve2 ProofSurface ProofFit4 ProofFit5 ProofFit6 ProofFit9 ProofSmooth2.
Open Scope R_scope.

(** ** Midpoints *)
Definition mid (P Q : list (list R)) : list (list R) :=
  map (fun xy => map (fun c => (nth c (fst xy) 0 + nth c (snd xy) 0) / 2) [0%nat; 1%nat; 2%nat]) (combine P Q).
Lemma mid_length P Q : length Q = length P -> length (mid P Q) = length P.
Proof. intros H; unfold mid; rewrite map_length, combine_length; lia. Qed.
Lemma mid_nth P Q i c : length Q = length P -> (i < length P)%nat -> (c < 3)%nat -> nth c (nth i (mid P Q) []) 0 = (nth c (nth i P []) 0 + nth c (nth i Q []) 0) / 2.
Proof.
  intros H Hi Hc; unfold mid; set (f := fun xy : list R * list R => map (fun c => (nth c (fst xy) 0 + nth c (snd xy) 0) / 2) [0%nat; 1%nat; 2%nat]).
  rewrite (nth_indep _ [] (f ([], []))) by (rewrite map_length, combine_length; lia).
  rewrite map_nth, combine_nth by lia; unfold f; rewrite nth_map3 by exact Hc; reflexivity.
Qed.
Lemma mid_3 P Q : Forall (fun r => length r = 3%nat) (mid P Q).
Proof. unfold mid; apply Forall_forall; intros r Hr; apply in_map_iff in Hr; destruct Hr as (xy & <- & _); reflexivity. Qed.
Lemma mid_same P Q i : length Q = length P -> (i < length P)%nat -> Forall (fun r => length r = 3%nat) P -> nth i Q [] = nth i P [] -> nth i (mid P Q) [] = nth i P [].
Proof.
  intros H Hi F E; apply row3_ext.
  - apply (proj1 (Forall_forall _ _) (mid_3 P Q)), nth_In; rewrite mid_length by exact H; exact Hi.
  - apply (proj1 (Forall_forall _ _) F), nth_In; exact Hi.
  - intros c Hc; rewrite mid_nth, E by assumption; field.
Qed.
Lemma mid_last P Q : length Q = length P -> Forall (fun r => length r = 3%nat) P -> last Q [] = last P [] -> last (mid P Q) [] = last P [].
Proof.
  intros H F E; destruct P as [|x P]; [destruct Q; [reflexivity|discriminate H]|].
  rewrite !last_nth in *; rewrite mid_length, H in * by exact H; apply mid_same; try assumption; cbn; lia.
Qed.
Lemma curve_mid U p P Q u : length Q = length P ->
  forall c, (c < 3)%nat -> nth c (curve_xyz U p (mid P Q) u) 0 = (nth c (curve_xyz U p P u) 0 + nth c (curve_xyz U p Q u) 0) / 2.
Proof.
  intros H c Hc; unfold curve_xyz; rewrite !nth_map3 by exact Hc; unfold curve_sum, coords; rewrite !map_length, mid_length, H by exact H.
  unfold Rdiv; rewrite <- zsum_plus, <- zsum_scal_r; apply zsum_ext; intros i Hi.
  fold (coords c (mid P Q)) (coords c P) (coords c Q); rewrite !nth_coords, mid_nth by (try assumption; lia); field.
Qed.
Lemma surface_mid U V p q nu nv P Q u v : length P = (nu * nv)%nat -> length Q = length P ->
  forall c, (c < 3)%nat -> nth c (surface_xyz U V p q nu nv (mid P Q) u v) 0 = (nth c (surface_xyz U V p q nu nv P u v) 0 + nth c (surface_xyz U V p q nu nv Q u v) 0) / 2.
Proof.
  intros HP H c Hc; unfold surface_xyz; rewrite !nth_map3 by exact Hc; unfold surface_sum.
  unfold Rdiv; rewrite <- zsum_plus, <- zsum_scal_r; apply zsum_ext; intros i Hi.
  rewrite <- zsum_plus, <- zsum_scal_r; apply zsum_ext; intros j Hj.
  rewrite !nth_coords, mid_nth by (try assumption; nia); field.
Qed.
Lemma point_err_mid m a b r : (forall c, (c < 3)%nat -> nth c m 0 = (nth c a 0 + nth c b 0) / 2) ->
  point_err m r = (point_err a r + point_err b r) / 2 - point_err a b / 4.
Proof. intros H; unfold point_err; cbn; rewrite !H by lia; field. Qed.
Lemma errors_mid {A} (m a b t : A -> list R) rows : (forall r c, In r rows -> (c < 3)%nat -> nth c (m r) 0 = (nth c (a r) 0 + nth c (b r) 0) / 2) ->
  let S f := fold_right Rplus 0 (map f rows) in
  S (fun r => point_err (m r) (t r)) = (S (fun r => point_err (a r) (t r)) + S (fun r => point_err (b r) (t r))) / 2 - S (fun r => point_err (a r) (b r)) / 4.
Proof.
  cbv zeta; induction rows as [|r rows IH]; intros H; cbn [map fold_right]; [field|].
  rewrite IH by (intros; apply H; [right|]; assumption); rewrite (point_err_mid (m r) (a r) (b r) (t r)) by (intros; apply H; [left; reflexivity|assumption]); lra.
Qed.
(** Two minimisers, and their midpoint which is not better, agree on the data. *)
Lemma minimisers_agree {A} (m a b t : A -> list R) rows : (forall r c, In r rows -> (c < 3)%nat -> nth c (m r) 0 = (nth c (a r) 0 + nth c (b r) 0) / 2) ->
  let S f := fold_right Rplus 0 (map f rows) in
  S (fun r => point_err (a r) (t r)) <= S (fun r => point_err (m r) (t r)) -> S (fun r => point_err (b r) (t r)) <= S (fun r => point_err (a r) (t r)) ->
  forall r c, In r rows -> (c < 3)%nat -> nth c (a r) 0 = nth c (b r) 0.
Proof.
  intros Hm S H1 H2 r c Hr Hc; unfold S in *; rewrite (errors_mid m a b t rows Hm) in H1; cbv beta zeta in *.
  assert (Z : Forall (fun x => x = 0) (map (fun r => point_err (a r) (b r)) rows)).
  { apply sum_zero; [|lra]; apply Forall_forall; intros x Hx; apply in_map_iff in Hx; destruct Hx as (y & <- & _); apply point_err_nonneg. }
  rewrite Forall_forall in Z; apply (point_err_zero 2); [lia|apply Z, in_map_iff; exists r; auto|exact Hc].
Qed.

Lemma errs_nonneg {A} (a b : A -> list R) rows : 0 <= fold_right Rplus 0 (map (fun r => point_err (a r) (b r)) rows).
Proof. induction rows as [|r rows IH]; cbn [map fold_right]; [lra|]; pose proof (point_err_nonneg (a r) (b r)); lra. Qed.

(** ** Curves *)
Lemma curve_fit_unique p U P Z rows e e' : clamped (Z.of_nat p) (len P) U -> strict (Z.of_nat p) (len P) U -> (1 <= p)%nat -> length Z = length P ->
  Forall (fun r => length r = 3%nat) P -> Forall (fun r => length r = 3%nat) Z ->
  nth 0 P [] = e -> last P [] = e' -> nth 0 Z [] = e -> last Z [] = e' ->
  (forall Y, length Y = length P -> nth 0 Y [] = e -> last Y [] = e' -> curve_err U p P rows <= curve_err U p Y rows) -> curve_err U p Z rows <= curve_err U p P rows ->
  plenty (S p) (Z.of_nat p) (len P) U (fun u => exists r, In r rows /\ nth 3 r 0 = u) -> P = Z.
Proof.
  intros HC HS Hp HL FP FZ E1 E2 E3 E4 Hmin HZ HPl.
  assert (Hl : (0 < length P)%nat) by (destruct HC as ((_ & H & _) & _); unfold len in H; lia).
  pose proof (minimisers_agree (fun r => curve_xyz U p (mid P Z) (nth 3 r 0)) (fun r => curve_xyz U p P (nth 3 r 0)) (fun r => curve_xyz U p Z (nth 3 r 0)) (fun r => r) rows
    (fun r c _ Hc => curve_mid U p P Z (nth 3 r 0) HL c Hc)) as A; cbv zeta in A; fold (curve_err U p P rows) (curve_err U p Z rows) (curve_err U p (mid P Z) rows) in A.
  specialize (A (Hmin (mid P Z) (mid_length P Z HL) ltac:(rewrite mid_same by (try assumption; congruence); exact E1) ltac:(rewrite mid_last by (try assumption; congruence); exact E2)) HZ).
  apply (curve_unique p U P Z); try assumption.
  intros s Hs; destruct (HPl s Hs) as (xs & LX & SX & FX); exists xs; split; [exact LX|]; split; [exact SX|].
  eapply Forall_impl; [|exact FX]; intros u [Hu (r & Hr & <-)]; split; [exact Hu|].
  apply row3_ext; try reflexivity; intros c Hc; apply (A r c Hr Hc).
Qed.
Lemma curve_err_zero U p P rows : (forall r, In r rows -> forall c, (c < 3)%nat -> nth c (curve_xyz U p P (nth 3 r 0)) 0 = nth c r 0) -> curve_err U p P rows = 0.
Proof.
  unfold curve_err; induction rows as [|r rows IH]; intros H; [reflexivity|]; cbn [map fold_right]; rewrite IH by (intros; apply H; [right|]; assumption).
  unfold point_err; cbn [map fold_right]; rewrite !(H r (or_introl eq_refl)) by lia; ring.
Qed.
Lemma curve_err_pass U p P rows : curve_err U p P rows <= 0 -> forall r, In r rows -> forall c, (c < 3)%nat -> nth c (curve_xyz U p P (nth 3 r 0)) 0 = nth c r 0.
Proof.
  intros H r Hr c Hc; unfold curve_err in H.
  assert (Z : Forall (fun x => x = 0) (map (fun r => point_err (curve_xyz U p P (nth 3 r 0)) r) rows)).
  { apply sum_zero; [|exact H]; apply Forall_forall; intros x Hx; apply in_map_iff in Hx; destruct Hx as (y & <- & _); apply point_err_nonneg. }
  rewrite Forall_forall in Z; apply (point_err_zero 2); [lia|apply Z, in_map_iff; exists r; auto|exact Hc].
Qed.

(** ** Surfaces *)
Lemma nth_map_seq0 {A} (f : nat -> A) n i d : (i < n)%nat -> nth i (map f (seq 0 n)) d = f i.
Proof. intros H; rewrite (nth_indep _ d (f 0%nat)) by (rewrite map_length, seq_length; exact H); rewrite map_nth, seq_nth by exact H; reflexivity. Qed.
Lemma surface_rows U V p q nu nv c u v : surface_sum U V p q nu nv c u v
  = curve_sum U p (map (fun i => curve_sum V q (map (fun j => nth (i * nv + j) c 0) (seq 0 nv)) v) (seq 0 nu)) u.
Proof.
  unfold surface_sum, curve_sum at 1; rewrite map_length, seq_length; apply zsum_ext; intros i Hi.
  rewrite nth_map_seq0 by lia; unfold curve_sum; rewrite map_length, seq_length, <- zsum_scal; apply zsum_ext; intros j Hj.
  rewrite nth_map_seq0 by lia; replace (Z.to_nat (i * Z.of_nat nv + j)) with (Z.to_nat i * nv + Z.to_nat j)%nat by nia; ring.
Qed.
Lemma net_unique p q nu nv U V c c' : clamped (Z.of_nat p) (Z.of_nat nu) U -> strict (Z.of_nat p) (Z.of_nat nu) U -> (1 <= p)%nat ->
  clamped (Z.of_nat q) (Z.of_nat nv) V -> strict (Z.of_nat q) (Z.of_nat nv) V -> (1 <= q)%nat -> length c = (nu * nv)%nat -> length c' = (nu * nv)%nat ->
  plenty (S q) (Z.of_nat q) (Z.of_nat nv) V (fun v => plenty (S p) (Z.of_nat p) (Z.of_nat nu) U (fun u => surface_sum U V p q nu nv c u v = surface_sum U V p q nu nv c' u v)) -> c = c'.
Proof.
  intros CU SU Hp CV SV Hq Lc Lc' HP.
  set (row := fun (c : list R) i => map (fun j => nth (i * nv + j) c 0) (seq 0 nv)).
  assert (R : forall i, (i < nu)%nat -> row c i = row c' i).
  { intros i Hi; apply (sum_unique q (Z.of_nat nv) V); try assumption; try (unfold row; rewrite ?map_length, ?seq_length; reflexivity).
    intros t Ht; destruct (HP t Ht) as (ys & LY & SY & FY); exists ys; split; [exact LY|]; split; [exact SY|].
    eapply Forall_impl; [|exact FY]; intros v [Hv HX]; split; [exact Hv|].
    assert (E : map (fun i => curve_sum V q (row c i) v) (seq 0 nu) = map (fun i => curve_sum V q (row c' i) v) (seq 0 nu)).
    { apply (sum_unique p (Z.of_nat nu) U); try assumption; try (rewrite ?map_length, ?seq_length; reflexivity).
      intros s Hs; destruct (HX s Hs) as (xs & LX & SX & FX); exists xs; split; [exact LX|]; split; [exact SX|].
      eapply Forall_impl; [|exact FX]; intros u [Hu E]; split; [exact Hu|]; rewrite !surface_rows in E; exact E. }
    pose proof (f_equal (fun l => nth i l 0) E) as Ei; cbn beta in Ei; rewrite !nth_map_seq0 in Ei by exact Hi; exact Ei. }
  apply (nth_ext _ _ 0 0); [lia|]; intros k Hk; rewrite Lc in Hk.
  assert (Hv : (nv <> 0)%nat) by (intros ->; rewrite Nat.mul_0_r in Hk; lia).
  assert (Ek : k = (k / nv * nv + k mod nv)%nat) by (rewrite (Nat.div_mod k nv Hv) at 1; lia).
  pose proof (R (k / nv)%nat ltac:(apply Nat.div_lt_upper_bound; [exact Hv|lia])) as E.
  pose proof (Nat.mod_upper_bound k nv Hv) as Hm.
  pose proof (f_equal (fun l => nth (k mod nv) l 0) E) as Ej; cbn beta in Ej; unfold row in Ej; rewrite !nth_map_seq0 in Ej by exact Hm.
  rewrite <- Ek in Ej; exact Ej.
Qed.
Lemma surface_unique p q nu nv U V P Q : clamped (Z.of_nat p) (Z.of_nat nu) U -> strict (Z.of_nat p) (Z.of_nat nu) U -> (1 <= p)%nat ->
  clamped (Z.of_nat q) (Z.of_nat nv) V -> strict (Z.of_nat q) (Z.of_nat nv) V -> (1 <= q)%nat -> length P = (nu * nv)%nat -> length Q = (nu * nv)%nat ->
  Forall (fun r => length r = 3%nat) P -> Forall (fun r => length r = 3%nat) Q ->
  plenty (S q) (Z.of_nat q) (Z.of_nat nv) V (fun v => plenty (S p) (Z.of_nat p) (Z.of_nat nu) U (fun u => surface_xyz U V p q nu nv P u v = surface_xyz U V p q nu nv Q u v)) -> P = Q.
Proof.
  intros CU SU Hp CV SV Hq LP LQ FP FQ HP; apply coords_ext; try assumption; [lia|]; intros c Hc.
  apply (net_unique p q nu nv U V); try assumption; try (unfold coords; rewrite map_length; assumption).
  intros t Ht; destruct (HP t Ht) as (ys & LY & SY & FY); exists ys; split; [exact LY|]; split; [exact SY|].
  eapply Forall_impl; [|exact FY]; intros v [Hv HX]; split; [exact Hv|].
  intros s Hs; destruct (HX s Hs) as (xs & LX & SX & FX); exists xs; split; [exact LX|]; split; [exact SX|].
  eapply Forall_impl; [|exact FX]; intros u [Hu E]; split; [exact Hu|].
  pose proof (f_equal (fun l => nth c l 0) E) as Ec; cbn beta in Ec; unfold surface_xyz in Ec; rewrite !nth_map3 in Ec by exact Hc; exact Ec.
Qed.
Lemma surface_fit_unique p q nu nv U V P Z rows (edge : nat -> bool) e : clamped (Z.of_nat p) (Z.of_nat nu) U -> strict (Z.of_nat p) (Z.of_nat nu) U -> (1 <= p)%nat ->
  clamped (Z.of_nat q) (Z.of_nat nv) V -> strict (Z.of_nat q) (Z.of_nat nv) V -> (1 <= q)%nat -> length P = (nu * nv)%nat -> length Z = length P ->
  Forall (fun r => length r = 3%nat) P -> Forall (fun r => length r = 3%nat) Z ->
  (forall k, (k < nu * nv)%nat -> edge k = true -> nth k P [] = e k) -> (forall k, (k < nu * nv)%nat -> edge k = true -> nth k Z [] = e k) ->
  (forall Y, length Y = length P -> (forall k, (k < nu * nv)%nat -> edge k = true -> nth k Y [] = e k) -> surface_err U V p q nu nv P rows <= surface_err U V p q nu nv Y rows) ->
  surface_err U V p q nu nv Z rows <= surface_err U V p q nu nv P rows ->
  plenty (S q) (Z.of_nat q) (Z.of_nat nv) V (fun v => plenty (S p) (Z.of_nat p) (Z.of_nat nu) U (fun u => exists r, In r rows /\ nth 3 r 0 = u /\ nth 4 r 0 = v)) -> P = Z.
Proof.
  intros CU SU Hp CV SV Hq LP LZ FP FZ EP EZ Hmin HZ HPl.
  pose proof (minimisers_agree (fun r => surface_xyz U V p q nu nv (mid P Z) (nth 3 r 0) (nth 4 r 0)) (fun r => surface_xyz U V p q nu nv P (nth 3 r 0) (nth 4 r 0))
    (fun r => surface_xyz U V p q nu nv Z (nth 3 r 0) (nth 4 r 0)) (fun r => r) rows
    (fun r c _ Hc => surface_mid U V p q nu nv P Z (nth 3 r 0) (nth 4 r 0) LP LZ c Hc)) as A; cbv zeta in A.
  fold (surface_err U V p q nu nv P rows) (surface_err U V p q nu nv Z rows) (surface_err U V p q nu nv (mid P Z) rows) in A.
  assert (A1 : surface_err U V p q nu nv P rows <= surface_err U V p q nu nv (mid P Z) rows).
  { apply Hmin; [apply mid_length; exact LZ|]; intros k Hk Ek; rewrite mid_same; [apply EP; assumption|exact LZ|lia|exact FP|rewrite (EP k Hk Ek), (EZ k Hk Ek); reflexivity]. }
  specialize (A A1 HZ); apply (surface_unique p q nu nv U V P Z); try assumption; [lia|].
  intros t Ht; destruct (HPl t Ht) as (ys & LY & SY & FY); exists ys; split; [exact LY|]; split; [exact SY|].
  eapply Forall_impl; [|exact FY]; intros v [Hv HX]; split; [exact Hv|].
  intros s Hs; destruct (HX s Hs) as (xs & LX & SX & FX); exists xs; split; [exact LX|]; split; [exact SX|].
  eapply Forall_impl; [|exact FX]; intros u [Hu (r & Hr & <- & <-)]; split; [exact Hu|].
  apply row3_ext; try reflexivity; intros c Hc; apply (A r c Hr Hc).
Qed.

(** ** The repository's fits *)
Lemma strict_tight p n U : clamped p n U -> strict p n U -> (p + 1 <= n)%Z -> tight p n U.
Proof. intros HC HS Hn; split; [exact HC|]; split; [apply HS; lia|]; replace n with (n - 1 + 1)%Z at 2 by lia; apply HS; lia. Qed.
Lemma single_fit_curve_recovers sv c p U P Z rows : least_squares sv -> clamped (Z.of_nat p) (len P) U -> strict (Z.of_nat p) (len P) U -> (1 <= p)%nat ->
  c_degree c = Some (Z.of_nat p) -> c_ctrl c = Some (fin2 P) -> c_kv c = Some (fin U) ->
  Forall (fun r => length r = 3%nat) P -> length Z = length P -> Forall (fun r => length r = 3%nat) Z -> nth 0 Z [] = nth 0 P [] -> last Z [] = last P [] ->
  Forall (fun r => length r = 4%nat /\ kn U (Z.of_nat p) <= nth 3 r 0 <= kn U (len P)) rows ->
  (forall r, In r rows -> forall c, (c < 3)%nat -> nth c (curve_xyz U p Z (nth 3 r 0)) 0 = nth c r 0) ->
  exists P', single_fit_curve store_ctrl sv c (fin2 rows) = Ok (mkCurve (c_degree c) (Some (fin2 P')) (c_kv c) (c_dim c)) /\
    (forall r, In r rows -> forall c, (c < 3)%nat -> nth c (curve_xyz U p P' (nth 3 r 0)) 0 = nth c r 0) /\
    (plenty (S p) (Z.of_nat p) (len P) U (fun u => exists r, In r rows /\ nth 3 r 0 = u) -> P' = Z).
Proof.
  intros HSV HC HS Hp E1 E2 E3 FP LZ FZ Z0 ZL FR HD.
  assert (Hpn : (Z.of_nat p + 1 <= len P)%Z) by apply HC.
  destruct (single_fit_curve_exact sv c p U P rows HSV (strict_tight _ _ _ HC HS Hpn) E1 E2 E3 FP FR) as (P' & EF & LP' & FP' & P0 & PL & Hmin).
  exists P'; split; [exact EF|].
  assert (HZ : curve_err U p Z rows = 0) by (apply curve_err_zero; exact HD).
  assert (HP' : curve_err U p P' rows <= 0) by (rewrite <- HZ; apply Hmin; assumption).
  split; [apply curve_err_pass; exact HP'|]; intros HPl.
  assert (LE : len P' = len P) by (unfold len; rewrite LP'; reflexivity).
  apply (curve_fit_unique p U P' Z rows (nth 0 P []) (last P [])); try assumption; try (rewrite LE; assumption); try congruence.
  - intros Y LY Y0 YL; apply Hmin; [congruence|assumption|assumption].
  - rewrite HZ; unfold curve_err; apply (errs_nonneg _ (fun r => r)).
Qed.
Lemma single_fit_curve_unique sv sv' c p U P rows : least_squares sv -> least_squares sv' -> clamped (Z.of_nat p) (len P) U -> strict (Z.of_nat p) (len P) U -> (1 <= p)%nat ->
  c_degree c = Some (Z.of_nat p) -> c_ctrl c = Some (fin2 P) -> c_kv c = Some (fin U) -> Forall (fun r => length r = 3%nat) P ->
  Forall (fun r => length r = 4%nat /\ kn U (Z.of_nat p) <= nth 3 r 0 <= kn U (len P)) rows ->
  plenty (S p) (Z.of_nat p) (len P) U (fun u => exists r, In r rows /\ nth 3 r 0 = u) ->
  exists P', single_fit_curve store_ctrl sv c (fin2 rows) = Ok (mkCurve (c_degree c) (Some (fin2 P')) (c_kv c) (c_dim c)) /\
    single_fit_curve store_ctrl sv' c (fin2 rows) = Ok (mkCurve (c_degree c) (Some (fin2 P')) (c_kv c) (c_dim c)) /\
    forall Z, length Z = length P -> Forall (fun r => length r = 3%nat) Z -> nth 0 Z [] = nth 0 P [] -> last Z [] = last P [] -> Z <> P' -> curve_err U p P' rows < curve_err U p Z rows.
Proof.
  intros H1 H2 HC HS Hp E1 E2 E3 FP FR HPl.
  assert (Hpn : (Z.of_nat p + 1 <= len P)%Z) by apply HC.
  destruct (single_fit_curve_exact sv c p U P rows H1 (strict_tight _ _ _ HC HS Hpn) E1 E2 E3 FP FR) as (P' & EF & LP' & FP' & P0 & PL & Hmin).
  destruct (single_fit_curve_exact sv' c p U P rows H2 (strict_tight _ _ _ HC HS Hpn) E1 E2 E3 FP FR) as (Q & EQ & LQ & FQ & Q0 & QL & Qmin).
  assert (LE : len P' = len P) by (unfold len; rewrite LP'; reflexivity).
  assert (U1 : forall Z, length Z = length P -> Forall (fun r => length r = 3%nat) Z -> nth 0 Z [] = nth 0 P [] -> last Z [] = last P [] -> curve_err U p Z rows <= curve_err U p P' rows -> P' = Z).
  { intros Z LZ FZ Z0 ZL HZ; apply (curve_fit_unique p U P' Z rows (nth 0 P []) (last P [])); try assumption; try (rewrite LE; assumption); try congruence.
    intros Y LY Y0 YL; apply Hmin; [congruence|assumption|assumption]. }
  exists P'; split; [exact EF|]; split.
  - rewrite (U1 Q LQ FQ Q0 QL ltac:(apply Qmin; assumption)); exact EQ.
  - intros Z LZ FZ Z0 ZL HN; destruct (Rlt_le_dec (curve_err U p P' rows) (curve_err U p Z rows)) as [h|h]; [exact h|]; destruct HN; symmetry; apply U1; assumption.
Qed.
Lemma surface_err_zero U V p q nu nv P rows : (forall r, In r rows -> forall c, (c < 3)%nat -> nth c (surface_xyz U V p q nu nv P (nth 3 r 0) (nth 4 r 0)) 0 = nth c r 0) -> surface_err U V p q nu nv P rows = 0.
Proof.
  unfold surface_err; induction rows as [|r rows IH]; intros H; [reflexivity|]; cbn [map fold_right]; rewrite IH by (intros; apply H; [right|]; assumption).
  unfold point_err; cbn [map fold_right]; rewrite !(H r (or_introl eq_refl)) by lia; ring.
Qed.
Lemma surface_err_pass U V p q nu nv P rows : surface_err U V p q nu nv P rows <= 0 ->
  forall r, In r rows -> forall c, (c < 3)%nat -> nth c (surface_xyz U V p q nu nv P (nth 3 r 0) (nth 4 r 0)) 0 = nth c r 0.
Proof.
  intros H r Hr c Hc; unfold surface_err in H.
  assert (Z : Forall (fun x => x = 0) (map (fun r => point_err (surface_xyz U V p q nu nv P (nth 3 r 0) (nth 4 r 0)) r) rows)).
  { apply sum_zero; [|exact H]; apply Forall_forall; intros x Hx; apply in_map_iff in Hx; destruct Hx as (y & <- & _); apply point_err_nonneg. }
  rewrite Forall_forall in Z; apply (point_err_zero 2); [lia|apply Z, in_map_iff; exists r; auto|exact Hc].
Qed.
(** The rows and columns at the border of a net, by position in the list. *)
Definition rim (nu nv k : nat) : bool :=
  ((k / nv =? 0) || (k / nv =? nu - 1) || (k mod nv =? 0) || (k mod nv =? nv - 1))%nat.
Lemma rim_iff nu nv (P Q : list (list R)) : (forall i j, (i < nu)%nat -> (j < nv)%nat -> i = 0%nat \/ i = (nu - 1)%nat \/ j = 0%nat \/ j = (nv - 1)%nat -> nth (i * nv + j) Q [] = nth (i * nv + j) P []) <->
  (forall k, (k < nu * nv)%nat -> rim nu nv k = true -> nth k Q [] = nth k P []).
Proof.
  split; intros H.
  - intros k Hk Hr; assert (Hv : (nv <> 0)%nat) by (intros ->; rewrite Nat.mul_0_r in Hk; lia).
    assert (Ek : k = (k / nv * nv + k mod nv)%nat) by (rewrite (Nat.div_mod k nv Hv) at 1; lia).
    rewrite Ek; apply H; [apply Nat.div_lt_upper_bound; [exact Hv|lia]|apply Nat.mod_upper_bound; exact Hv|].
    unfold rim in Hr; rewrite !orb_true_iff, !Nat.eqb_eq in Hr; tauto.
  - intros i j Hi Hj Hb; apply H; [nia|]; unfold rim; rewrite !orb_true_iff, !Nat.eqb_eq.
    assert (Hv : (nv <> 0)%nat) by lia.
    replace ((i * nv + j) / nv)%nat with i by (rewrite Nat.div_add_l, Nat.div_small by lia; lia).
    replace ((i * nv + j) mod nv)%nat with j by (rewrite Nat.add_comm, Nat.mod_add, Nat.mod_small by lia; lia); tauto.
Qed.
Lemma single_fit_surface_unique sv sv' p q nu nv U V P rows : least_squares sv -> least_squares sv' ->
  clamped (Z.of_nat p) (Z.of_nat nu) U -> strict (Z.of_nat p) (Z.of_nat nu) U -> (1 <= p)%nat -> clamped (Z.of_nat q) (Z.of_nat nv) V -> strict (Z.of_nat q) (Z.of_nat nv) V -> (1 <= q)%nat ->
  length P = (nu * nv)%nat -> Forall (fun r => length r = 3%nat) P ->
  Forall (fun r => length r = 5%nat /\ kn U (Z.of_nat p) <= nth 3 r 0 <= kn U (Z.of_nat nu) /\ kn V (Z.of_nat q) <= nth 4 r 0 <= kn V (Z.of_nat nv)) rows ->
  plenty (S q) (Z.of_nat q) (Z.of_nat nv) V (fun v => plenty (S p) (Z.of_nat p) (Z.of_nat nu) U (fun u => exists r, In r rows /\ nth 3 r 0 = u /\ nth 4 r 0 = v)) ->
  let s P := mkSurf (K := Exact) (Z.of_nat p) (Z.of_nat q) (Z.of_nat nu) (Z.of_nat nv) (fin2 P) (fin U) (fin V) in
  exists P', single_fit_surface sv (s P) (fin2 rows) = Ok (s P') /\ single_fit_surface sv' (s P) (fin2 rows) = Ok (s P') /\
    forall Z, length Z = length P -> Forall (fun r => length r = 3%nat) Z ->
      (forall i j, (i < nu)%nat -> (j < nv)%nat -> i = 0%nat \/ i = (nu - 1)%nat \/ j = 0%nat \/ j = (nv - 1)%nat -> nth (i * nv + j) Z [] = nth (i * nv + j) P []) ->
      Z <> P' -> surface_err U V p q nu nv P' rows < surface_err U V p q nu nv Z rows.
Proof.
  intros H1 H2 CU SU Hp CV SV Hq LP FP FR HPl s; unfold s.
  assert (TU : tight (Z.of_nat p) (Z.of_nat nu) U) by (apply strict_tight; [exact CU|exact SU|apply CU]).
  assert (TV : tight (Z.of_nat q) (Z.of_nat nv) V) by (apply strict_tight; [exact CV|exact SV|apply CV]).
  destruct (single_fit_surface_exact sv p q nu nv U V P rows H1 TU TV LP FP FR) as (P' & EF & LP' & FP' & PB & Hmin).
  destruct (single_fit_surface_exact sv' p q nu nv U V P rows H2 TU TV LP FP FR) as (Q & EQ & LQ & FQ & QB & Qmin).
  assert (U1 : forall Z, length Z = length P -> Forall (fun r => length r = 3%nat) Z ->
    (forall i j, (i < nu)%nat -> (j < nv)%nat -> i = 0%nat \/ i = (nu - 1)%nat \/ j = 0%nat \/ j = (nv - 1)%nat -> nth (i * nv + j) Z [] = nth (i * nv + j) P []) ->
    surface_err U V p q nu nv Z rows <= surface_err U V p q nu nv P' rows -> P' = Z).
  { intros Z LZ FZ ZB HZ; apply (surface_fit_unique p q nu nv U V P' Z rows (rim nu nv) (fun k => nth k P [])); try assumption; try congruence.
    - apply rim_iff; exact PB.
    - apply rim_iff; exact ZB.
    - intros Y LY YB; apply Hmin; [congruence|apply rim_iff; exact YB]. }
  exists P'; split; [exact EF|]; split.
  - rewrite (U1 Q LQ FQ QB ltac:(apply Qmin; assumption)); exact EQ.
  - intros Z LZ FZ ZB HN; destruct (Rlt_le_dec (surface_err U V p q nu nv P' rows) (surface_err U V p q nu nv Z rows)) as [h|h]; [exact h|]; destruct HN; symmetry; apply U1; assumption.
Qed.
Lemma single_fit_surface_recovers sv p q nu nv U V P Z rows : least_squares sv ->
  clamped (Z.of_nat p) (Z.of_nat nu) U -> strict (Z.of_nat p) (Z.of_nat nu) U -> (1 <= p)%nat -> clamped (Z.of_nat q) (Z.of_nat nv) V -> strict (Z.of_nat q) (Z.of_nat nv) V -> (1 <= q)%nat ->
  length P = (nu * nv)%nat -> Forall (fun r => length r = 3%nat) P -> length Z = length P -> Forall (fun r => length r = 3%nat) Z ->
  (forall i j, (i < nu)%nat -> (j < nv)%nat -> i = 0%nat \/ i = (nu - 1)%nat \/ j = 0%nat \/ j = (nv - 1)%nat -> nth (i * nv + j) Z [] = nth (i * nv + j) P []) ->
  Forall (fun r => length r = 5%nat /\ kn U (Z.of_nat p) <= nth 3 r 0 <= kn U (Z.of_nat nu) /\ kn V (Z.of_nat q) <= nth 4 r 0 <= kn V (Z.of_nat nv)) rows ->
  (forall r, In r rows -> forall c, (c < 3)%nat -> nth c (surface_xyz U V p q nu nv Z (nth 3 r 0) (nth 4 r 0)) 0 = nth c r 0) ->
  let s P := mkSurf (K := Exact) (Z.of_nat p) (Z.of_nat q) (Z.of_nat nu) (Z.of_nat nv) (fin2 P) (fin U) (fin V) in
  exists P', single_fit_surface sv (s P) (fin2 rows) = Ok (s P') /\
    (forall r, In r rows -> forall c, (c < 3)%nat -> nth c (surface_xyz U V p q nu nv P' (nth 3 r 0) (nth 4 r 0)) 0 = nth c r 0) /\
    (plenty (S q) (Z.of_nat q) (Z.of_nat nv) V (fun v => plenty (S p) (Z.of_nat p) (Z.of_nat nu) U (fun u => exists r, In r rows /\ nth 3 r 0 = u /\ nth 4 r 0 = v)) -> P' = Z).
Proof.
  intros HSV CU SU Hp CV SV Hq LP FP LZ FZ ZB FR HD s; unfold s.
  assert (TU : tight (Z.of_nat p) (Z.of_nat nu) U) by (apply strict_tight; [exact CU|exact SU|apply CU]).
  assert (TV : tight (Z.of_nat q) (Z.of_nat nv) V) by (apply strict_tight; [exact CV|exact SV|apply CV]).
  destruct (single_fit_surface_exact sv p q nu nv U V P rows HSV TU TV LP FP FR) as (P' & EF & LP' & FP' & PB & Hmin).
  exists P'; split; [exact EF|].
  assert (HZ : surface_err U V p q nu nv Z rows = 0) by (apply surface_err_zero; exact HD).
  assert (HP' : surface_err U V p q nu nv P' rows <= 0) by (rewrite <- HZ; apply Hmin; assumption).
  split; [apply surface_err_pass; exact HP'|]; intros HPl.
  apply (surface_fit_unique p q nu nv U V P' Z rows (rim nu nv) (fun k => nth k P [])); try assumption; try congruence.
  - apply rim_iff; exact PB.
  - apply rim_iff; exact ZB.
  - intros Y LY YB; apply Hmin; [congruence|apply rim_iff; exact YB].
  - rewrite HZ; unfold surface_err; apply (errs_nonneg _ (fun r => r)).
Qed.
