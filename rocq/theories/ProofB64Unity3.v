(** The partition-of-unity check of fitting.py (model: ModelFit.v) on binary64
    numbers: the surface. *)
From Coq Require Import Reals Lra Lia ZArith List Floats Permutation Bool.
From Flocq Require Import Core.Core.
From Verif Require Import Py PyLemmas Num ModelBasis ModelCurve ModelSurface ModelFit ModelInit Spec SpecFit SpecB64 MathCox MathKnots
  ProofFit2 ProofFit4 ProofFit5 ProofB64 ProofB64Basis ProofB64Span ProofB64One ProofB64One3 ProofB64Unity ProofB64Unity2.
Import ListNotations.
Open Scope R_scope.

Lemma entry_mul bu bv tu tv x y a b : 0 <= bu <= / 1000 -> 0 <= bv <= / 1000 -> 0 <= tu <= / 2 ^ 500 -> 0 <= tv <= / 2 ^ 500 ->
  entry64 bu tu x a -> entry64 bv tv y b ->
  entry64 (bu + bv + bu * bv + 2 * ulp64) (/ 2 ^ 490) (x * y)%float (a * b).
Proof.
  intros Hbu Hbv Htu Htv (Fx & Vx & Ba & Za & Ea) (Fy & Vy & Bb & Zb & Eb).
  pose proof ulp64_small as Hu; destruct small500 as (S1 & S2 & S3 & S4).
  assert (K : forall be t z c, 0 <= be <= / 1000 -> 0 <= t <= / 2 ^ 500 -> 0 <= c <= 1 -> Rabs (z - c) <= be * c + t -> z <= 2).
  { clear - S2 S3 S4; intros be t z c Hbe Ht Hc E; apply Rabs_le_inv in E.
    assert (be * c <= / 1000 * 1) by (apply Rmult_le_compat; lra); lra. }
  pose proof (K _ _ _ _ Hbu Htu Ba Ea) as Ux; pose proof (K _ _ _ _ Hbv Htv Bb Eb) as Uy; clear K.
  assert (P : 0 <= value x * value y <= 4) by (split; [apply Rmult_le_pos; lra|replace 4 with (2 * 2) by ring; apply Rmult_le_compat; lra]).
  destruct (mul64 x y Fx Fy) as (F & V).
  { apply rnd_safe with 2%Z; [lia|]; change (bpow radix2 2) with 4; rewrite Rabs_right; lra. }
  split; [exact F|]; rewrite V; split; [apply rnd_nonneg; lra|].
  split; [split; [apply Rmult_le_pos; lra|rewrite <- (Rmult_1_r 1); apply Rmult_le_compat; lra]|].
  split.
  { intros H0; apply Rmult_integral in H0; destruct H0 as [H0|H0]; [rewrite (Za H0), Rmult_0_l|rewrite (Zb H0), Rmult_0_r]; apply rnd_0. }
  destruct (rnd_err (value x * value y)) as (e & h & He & Hh & ->).
  assert (Hh' : Rabs h <= / 2 ^ 500).
  { apply Rle_trans with (1 := Hh); unfold eta64; rewrite pow_bpow; apply bpow_le; lia. }
  set (X := value x) in *; set (Y := value y) in *; set (t := / 2 ^ 500) in *.
  assert (D : Rabs (X * Y - a * b) <= (bu + bv + bu * bv) * (a * b) + 4 * t).
  { replace (X * Y - a * b) with ((X - a) * (Y - b) + (X - a) * b + a * (Y - b)) by ring.
    pose proof (Rabs_triang ((X - a) * (Y - b) + (X - a) * b) (a * (Y - b))) as T1.
    pose proof (Rabs_triang ((X - a) * (Y - b)) ((X - a) * b)) as T2.
    rewrite (Rabs_mult a), (Rabs_right a) in T1 by lra; rewrite (Rabs_mult _ b), (Rabs_right b), (Rabs_mult (X - a)) in T2 by lra.
    assert (A1 : Rabs (X - a) * b <= (bu * a + tu) * b) by (apply Rmult_le_compat_r; lra).
    assert (A2 : a * Rabs (Y - b) <= a * (bv * b + tv)) by (apply Rmult_le_compat_l; lra).
    assert (A3 : Rabs (X - a) * Rabs (Y - b) <= (bu * a + tu) * (bv * b + tv)) by (apply Rmult_le_compat; try apply Rabs_pos; assumption).
    assert (B1 : tu * b <= t * 1) by (apply Rmult_le_compat; lra).
    assert (B2 : a * tv <= 1 * t) by (apply Rmult_le_compat; lra).
    assert (B3 : bu * a * tv <= 1 * t) by (apply Rmult_le_compat; try lra; [apply Rmult_le_pos; lra|rewrite <- (Rmult_1_r 1); apply Rmult_le_compat; lra]).
    assert (B4 : tu * (bv * b + tv) <= t * 1).
    { apply Rmult_le_compat; try lra; [assert (0 <= bv * b) by (apply Rmult_le_pos; lra); lra|].
      assert (bv * b <= / 1000 * 1) by (apply Rmult_le_compat; lra); lra. }
    replace ((bu * a + tu) * (bv * b + tv)) with (bu * bv * (a * b) + bu * a * tv + tu * (bv * b + tv)) in A3 by ring.
    replace ((bu * a + tu) * b) with (bu * (a * b) + tu * b) in A1 by ring.
    replace (a * (bv * b + tv)) with (bv * (a * b) + a * tv) in A2 by ring.
    rewrite !Rmult_plus_distr_r; lra. }
  replace (X * Y * (1 + e) + h - a * b) with ((X * Y - a * b) * (1 + e) + e * (a * b) + h) by ring.
  set (B := bu + bv + bu * bv) in *.
  assert (HB : 0 <= B <= 3/1000).
  { unfold B; assert (0 <= bu * bv <= / 1000 * 1) by (split; [apply Rmult_le_pos; lra|apply Rmult_le_compat; lra]); lra. }
  assert (Hab : 0 <= a * b) by (apply Rmult_le_pos; lra).
  pose proof (Rabs_triang ((X * Y - a * b) * (1 + e) + e * (a * b)) h) as T1.
  pose proof (Rabs_triang ((X * Y - a * b) * (1 + e)) (e * (a * b))) as T2.
  rewrite !Rabs_mult in T2.
  replace (Rabs a * Rabs b) with (a * b) in T2 by (rewrite !Rabs_right by lra; reflexivity).
  assert (A1 : Rabs e * (a * b) <= ulp64 * (a * b)) by (apply Rmult_le_compat_r; lra).
  assert (A2 : Rabs (X * Y - a * b) * Rabs (1 + e) <= (B * (a * b) + 4 * t) * (1 + ulp64)).
  { apply Rmult_le_compat; try apply Rabs_pos; [exact D|]; pose proof (Rabs_triang 1 e) as T; rewrite Rabs_R1 in T; lra. }
  replace ((B * (a * b) + 4 * t) * (1 + ulp64)) with (B * (a * b) + B * (ulp64 * (a * b)) + 4 * t + ulp64 * (4 * t)) in A2 by ring.
  assert (Hab' : 0 <= ulp64 * (a * b)) by (apply Rmult_le_pos; lra).
  assert (B * (ulp64 * (a * b)) <= 1 * (ulp64 * (a * b))) by (apply Rmult_le_compat_r; lra).
  assert (ulp64 * (4 * t) <= / 4 * (4 * t)) by (apply Rmult_le_compat_r; lra).
  assert (G : 8 * t <= / 2 ^ 490) by exact S3.
  rewrite Rmult_plus_distr_r; rewrite (Rmult_assoc 2).
  set (Q := Rabs ((X * Y - a * b) * (1 + e) + e * (a * b) + h)) in *.
  clear S1 S2 S3; set (w := / 2 ^ 490) in *; lra.
Qed.

Section Surface.
Variables (U V : list Binary64) (p q nu nv : nat).
Hypothesis HWu : within 0 1 U.
Hypothesis HWv : within 0 1 V.
Hypothesis HTu : tight (Z.of_nat p) (Z.of_nat nu) (values U).
Hypothesis HTv : tight (Z.of_nat q) (Z.of_nat nv) (values V).
Hypothesis Hgu : forall j, kn (values U) j < kn (values U) (j + 1) -> / 2 ^ 500 <= kn (values U) (j + 1) - kn (values U) j.
Hypothesis Hgv : forall j, kn (values V) j < kn (values V) (j + 1) -> / 2 ^ 500 <= kn (values V) (j + 1) - kn (values V) j.
Hypothesis Hn : INR (nu * nv) <= 2 ^ 30.
Variables (rows : list (list PrimFloat.float)).

Lemma sizes : (p < nu)%nat /\ (q < nv)%nat /\ INR nu <= 2 ^ 30 /\ INR nv <= 2 ^ 30 /\ INR p + INR q + 1 <= 2 ^ 30.
Proof.
  pose proof (p_lt_n U p nu HTu) as H1; pose proof (p_lt_n V q nv HTv) as H2.
  split; [exact H1|split; [exact H2|]].
  split; [apply Rle_trans with (2 := Hn), le_INR; nia|split; [apply Rle_trans with (2 := Hn), le_INR; nia|]].
  apply Rle_trans with (2 := Hn); rewrite <- plus_INR, <- S_INR; apply le_INR; nia.
Qed.
Definition be2 : R := be1 p + be1 q + be1 p * be1 q + 2 * ulp64.
Lemma be1_small : 0 <= be1 p <= / 1000 /\ 0 <= be1 q <= / 1000 /\ 0 <= be2 <= 8 * 2 ^ 30 * ulp64.
Proof.
  destruct sizes as (_ & _ & H1 & H2 & H3); pose proof ulp64_23 as U23; pose proof ulp64_small as Hu.
  pose proof (be1_ok U p nu HTu H1) as B1; pose proof (be1_ok V q nv HTv H2) as B2.
  assert (E7 : 7 * 2 ^ 30 * ulp64 = 7 * / 2 ^ 23) by (rewrite <- U23; ring).
  rewrite E7 in B1, B2; split; [lra|split; [lra|]].
  assert (0 <= be1 p * be1 q <= be1 p * (7 * / 2 ^ 23)) by (split; [apply Rmult_le_pos; lra|apply Rmult_le_compat_l; lra]).
  unfold be2; split; [lra|].
  assert (be1 p + be1 q + 7 * ulp64 <= 7 * / 2 ^ 23).
  { unfold be1; rewrite <- U23; replace (7 * INR p * ulp64 + 7 * INR q * ulp64 + 7 * ulp64) with (7 * ((INR p + INR q + 1) * ulp64)) by ring.
    apply Rmult_le_compat_l; [lra|]; apply Rmult_le_compat_r; lra. }
  replace (8 * 2 ^ 30 * ulp64) with (8 * / 2 ^ 23) by (rewrite <- U23; ring); lra.
Qed.
Definition sN : list (list Binary64) := map (fun r => tab (nu * nv) (fun b =>
  (basis64 U p (b / Z.of_nat nv) (nth 3 r 0%float) * basis64 V q (b mod Z.of_nat nv) (nth 4 r 0%float))%num)) rows.
Definition sfl : list bool := map (fun r => stray64 (kn (values U) (Z.of_nat p)) (kn (values U) (Z.of_nat nu)) (nth 3 r 0%float) ||
  stray64 (kn (values V) (Z.of_nat q)) (kn (values V) (Z.of_nat nv)) (nth 4 r 0%float)) rows.
Lemma sN_rows : Forall2 (row_ok be2 (/ 2 ^ 490) (nu * nv)) sN sfl.
Proof.
  destruct sizes as (Hp & Hq & H1 & H2 & _); destruct be1_small as (B1 & B2 & _).
  pose proof (t1_ok U p nu HTu H1) as T1; pose proof (t1_ok V q nv HTv H2) as T2.
  unfold sN, sfl; induction rows as [|r l IH]; [constructor|]; cbn [map]; constructor; [|exact IH]; clear IH.
  set (x := nth 3 r 0%float); set (y := nth 4 r 0%float).
  split; [apply tab_length|].
  exists (tab (nu * nv) (fun b => bval (values U) p (b / Z.of_nat nv) x * bval (values V) q (b mod Z.of_nat nv) y)); split.
  - apply Forall2_tab; intros b Hb.
    assert (0 <= b / Z.of_nat nv < Z.of_nat nu)%Z by (split; [apply Z.div_pos; lia|apply Z.div_lt_upper_bound; lia]).
    assert (0 <= b mod Z.of_nat nv < Z.of_nat nv)%Z by (apply Z.mod_pos_bound; lia).
    apply (entry_mul (be1 p) (be1 q) (t1 p) (t1 q)); auto;
      [apply (basis_entry U p nu)|apply (basis_entry V q nv)]; assumption.
  - destruct (basis_sum U p nu HTu x) as (S1 & Z1); destruct (basis_sum V q nv HTv y) as (S2 & Z2).
    destruct (stray64 _ _ x).
    { cbn [orb]; unfold tab; rewrite Forall_map; apply Forall_forall; intros; rewrite Z1 by reflexivity; ring. }
    destruct (stray64 _ _ y); cbn [orb].
    { unfold tab; rewrite Forall_map; apply Forall_forall; intros; rewrite Z2 by reflexivity; ring. }
    rewrite lsum_tab, zsum_flat.
    transitivity (zsum 0 nu (fun i => bval (values U) p i x * zsum 0 nv (fun j => bval (values V) q j y))).
    + apply zsum_ext; intros i Hi; rewrite <- zsum_scal; apply zsum_ext; intros j Hj.
      destruct (net_index i j (Z.of_nat nv) ltac:(lia)) as [-> ->]; reflexivity.
    + rewrite S2; rewrite (zsum_ext _ _ _ (fun i => bval (values U) p i x)) by (intros; ring); exact S1.
Qed.
Lemma surf_sums Rs T : Forall2 added64 sN Rs -> added64 Rs T -> INR (length rows) <= 2 ^ 30 ->
  let s := INR (surf_strays64 (kn (values U) (Z.of_nat p)) (kn (values U) (Z.of_nat nu)) (kn (values V) (Z.of_nat q)) (kn (values V) (Z.of_nat nv)) rows) in
  (s <= 8/1000000 * INR (length rows) -> isclose (T : Binary64) (ofZ (Z.of_nat (length rows)) : Binary64) = true) /\
  (12/1000000 * INR (length rows) < s -> isclose (T : Binary64) (ofZ (Z.of_nat (length rows)) : Binary64) = false).
Proof.
  intros HA HTt Hm s; destruct be1_small as (_ & _ & B); destruct small500 as (S1 & S2 & S3 & S4).
  assert (S5 : 0 < / 2 ^ 490) by (apply Rinv_0_lt_compat, pow_lt; lra).
  assert (HR : Forall2 rowsum64 Rs sfl).
  { apply (rows_decided be2 (/ 2 ^ 490) (nu * nv) sN); auto; [lra| |apply sN_rows].
    apply Rle_trans with (2 := S1); apply Rmult_le_compat_r; [lra|exact Hn]. }
  assert (L : length Rs = length rows).
  { clear - HA; apply Forall2_len in HA; unfold sN in HA; rewrite map_length in HA; auto. }
  destruct (unity_decided Rs sfl T HR HTt) as (C1 & C2); [rewrite L; exact Hm|].
  unfold sfl in C1, C2; rewrite strays_map, L in C1, C2; split; [exact C1|exact C2].
Qed.
Lemma sN_shape : Forall (fun r => length r = (nu * nv)%nat) sN /\ length sN = length rows.
Proof. split; [unfold sN; rewrite Forall_map; apply Forall_forall; intros; apply tab_length|apply map_length]. Qed.
Lemma surf_matrix_b64 (P : list (list Binary64)) : length P = (nu * nv)%nat ->
  surf_matrix (mkSurf (K := Binary64) (Z.of_nat p) (Z.of_nat q) (Z.of_nat nu) (Z.of_nat nv) P U V)
    (map (fun r => nth 3 r 0%float) rows) (map (fun r => nth 4 r 0%float) rows) (Z.of_nat (length rows)) = Ok sN.
Proof.
  intros HP; destruct sizes as (_ & _ & H1 & H2 & _).
  assert (AG : forall c i (e : Binary64), (0 <= i < Z.of_nat (length rows))%Z -> aget (map (fun r => nth c r 0%float) rows : list Binary64) i = Ok e ->
     e = nth c (nth (Z.to_nat i) rows []) 0%float).
  { intros c i e Hi He.
    rewrite (aget_nth _ _ (nth c [] 0%float : Binary64)) in He by (unfold zlen; rewrite map_length; exact Hi).
    injection He as <-; exact (map_nth (fun r => nth c r 0%float) rows [] (Z.to_nat i)). }
  rewrite (surf_matrix_tab _ _ _ (length rows) nu nv (fun i j => basis64 U p j (nth 3 (nth (Z.to_nat i) rows []) 0%float)) (fun i j => basis64 V q j (nth 4 (nth (Z.to_nat i) rows []) 0%float)));
    cbn [s_nu s_nv s_ctrl s_pu s_pv s_ku s_kv].
  - unfold sN; rewrite (map_as_tab _ rows []); reflexivity.
  - unfold zlen; rewrite map_length; reflexivity.
  - unfold zlen; rewrite map_length; reflexivity.
  - reflexivity.
  - reflexivity.
  - unfold zlen; rewrite HP; reflexivity.
  - intros i j e Hi Hj He; rewrite (AG 3%nat i e Hi He); exact (proj1 (basis_entry U p nu HWu HTu Hgu H1 j _ Hj)).
  - intros i j e Hi Hj He; rewrite (AG 4%nat i e Hi He); exact (proj1 (basis_entry V q nv HWv HTv Hgv H2 j _ Hj)).
Qed.
End Surface.

Lemma single_fit_surface_b64 sv p q nu nv (U V : list PrimFloat.float) (P rows : list (list PrimFloat.float)) :
  within 0 1 U -> within 0 1 V -> tight (Z.of_nat p) (Z.of_nat nu) (values U) -> tight (Z.of_nat q) (Z.of_nat nv) (values V) ->
  (forall j, kn (values U) j < kn (values U) (j + 1) -> / 2 ^ 500 <= kn (values U) (j + 1) - kn (values U) j) ->
  (forall j, kn (values V) j < kn (values V) (j + 1) -> / 2 ^ 500 <= kn (values V) (j + 1) - kn (values V) j) ->
  length P = (nu * nv)%nat -> INR (length P) <= 2 ^ 30 -> INR (length rows) <= 2 ^ 30 ->
  Forall (fun r => length r = 3%nat) P -> Forall (fun r => length r = 5%nat) rows ->
  let strays := INR (surf_strays64 (kn (values U) (Z.of_nat p)) (kn (values U) (Z.of_nat nu)) (kn (values V) (Z.of_nat q)) (kn (values V) (Z.of_nat nv)) rows) in
  let run := single_fit_surface sv (mkSurf (K := Binary64) (Z.of_nat p) (Z.of_nat q) (Z.of_nat nu) (Z.of_nat nv) P U V) rows in
  (12/1000000 * INR (length rows) < strays -> run = Err ValueError) /\
  (strays <= 8/1000000 * INR (length rows) ->
    (forall e, (forall M, sv_cond sv M = Err e) -> run = Err e) /\
    ((forall M, exists x, sv_cond sv M = Ok x) -> (forall n A b, exists y, sv_lstsq sv (Z.of_nat n) A b = Ok y /\ length y = n) ->
     exists P', run = Ok (mkSurf (K := Binary64) (Z.of_nat p) (Z.of_nat q) (Z.of_nat nu) (Z.of_nat nv) P' U V) /\
       length P' = length P /\ Forall (fun r => length r = 3%nat) P' /\
       forall i j, (i < nu)%nat -> (j < nv)%nat -> i = 0%nat \/ i = (nu - 1)%nat \/ j = 0%nat \/ j = (nv - 1)%nat ->
         nth (i * nv + j) P' [] = nth (i * nv + j) P [])).
Proof.
  intros HWu HWv HTu HTv Hgu Hgv HP Hn Hm H3 H5 strays run; rewrite HP in Hn.
  pose proof (sizes U V p q nu nv HTu HTv Hn) as (Hp & Hq & _).
  set (N := sN U V p q nu nv rows).
  destruct (sN_shape U V p q nu nv rows) as (HN & LN); fold N in HN, LN.
  destruct (check_unity_eq sv (nu * nv) N (Z.of_nat (length rows)) HN) as (G & EG).
  destruct (surf_mask_tab nu nv ltac:(lia) ltac:(lia)) as (mask & EMk & LM & HM).
  assert (EM : run =
     let* _ := (if isclose (nsum (map nsum N)) (ofZ (Z.of_nat (length rows)) : Binary64) then let* _ := sv_cond sv G in Ok tt else Err ValueError) in
     let* new := fit_coordinates sv N (rows : list (list Binary64)) P mask in
     Ok (mkSurf (K := Binary64) (Z.of_nat p) (Z.of_nat q) (Z.of_nat nu) (Z.of_nat nv) new U V)).
  { rewrite <- EG; unfold run.
    rewrite (single_fit_surface_steps sv _ rows N (0%float : Binary64) H5)
      by exact (surf_matrix_b64 U V p q nu nv HWu HWv HTu HTv Hgu Hgv Hn rows P HP).
    cbn [s_nu s_nv s_ctrl s_pu s_pv s_ku s_kv].
    assert (EL : zlen P = Z.of_nat (nu * nv)) by (unfold zlen; rewrite HP; reflexivity).
    change (@zlen (list (carrier Binary64)) P) with (@zlen (list PrimFloat.float) P).
    rewrite EL, EMk; reflexivity. }
  destruct (surf_sums U V p q nu nv HWu HWv HTu HTv Hgu Hgv Hn rows (map nsum N) (nsum (map nsum N)) (nsum_rows N) (nsum_added _) Hm) as (C1 & C2).
  split; [intros H; rewrite EM, (C2 H); reflexivity|].
  intros H; split; [intros e He; rewrite EM, (C1 H), He; reflexivity|].
  intros HS1 HS2; destruct (HS1 G) as (cd & ECd).
  destruct (fit_total sv N (rows : list (list Binary64)) P mask (nu * nv) 5 (conj HS1 HS2) HN LN HP LM H5 ltac:(lia) H3) as (Q & EQ).
  destruct (fit_coordinates_any sv N rows P Q mask (eq_trans LM (eq_sym HP)) H3 EQ) as (LQ & Q3 & KQ).
  exists Q; split; [rewrite EM, (C1 H), ECd; cbn [bind]; rewrite EQ; reflexivity|].
  split; [exact LQ|split; [exact Q3|]]; intros i j Hi Hj Hij; apply KQ, HM; assumption.
Qed.
