(** The partition-of-unity check of fitting.py (model: ModelFit.v) on binary64
    numbers: the matrix of a curve or of a surface, and the outcome of the fit. *)
From Coq Require Import Reals Lra Lia ZArith List Floats Permutation Bool.
From Flocq Require Import Core.Core.
From Verif Require Import Py PyLemmas Num ModelBasis ModelCurve ModelSurface ModelFit ModelInit Spec SpecFit SpecB64 MathCox MathKnots
  ProofFit2 ProofFit4 ProofFit5 ProofB64 ProofB64Basis ProofB64Span ProofB64One ProofB64One3 ProofB64Unity.
Import ListNotations.
Open Scope R_scope.

(** ** Any number type: the fit succeeds when the solver does *)
Section Total.
Context {K : Num}.
Definition solves (sv : @solver K) : Prop :=
  (forall M, exists c, sv_cond sv M = Ok c) /\
  (forall n A b, exists y, sv_lstsq sv (Z.of_nat n) A b = Ok y /\ length y = n).
Lemma gram_total n (M : list (list K)) : Forall (fun r => length r = n) M -> exists G, gram (Z.of_nat n) M = Ok G.
Proof.
  intros HM; unfold gram.
  rewrite (mapM_ok _ (fun j => map (fun r => nth (Z.to_nat j) r (0 : K)%num) M)); [eexists; reflexivity|].
  intros j Hj; apply in_zrange in Hj; apply (acol_map M n); [exact HM|lia].
Qed.
Lemma linear_fit_total sv (N : list (list K)) Q P mask n : solves sv ->
  Forall (fun r => length r = n) N -> length N = length Q -> length P = n -> length mask = n ->
  exists x, linear_fit_fixed sv N Q P mask 1 = Ok x.
Proof.
  intros (_ & HS) HN HQ HP HM; rewrite (linear_fit_fixed_eq sv N Q P mask 1 n HN HQ HP) by lia.
  destruct (_ =? 0)%nat; [eexists; reflexivity|]; cbn [Z.leb Z.compare bind Pos.compare Pos.compare_cont].
  match goal with |- context [sv_lstsq sv (Z.of_nat ?k) ?A ?b] => destruct (HS k A b) as (y & -> & Hy) end.
  cbn [bind]; rewrite Hy, Nat.leb_refl; eexists; reflexivity.
Qed.
Lemma fit_total sv (N rows P : list (list K)) mask n w : solves sv ->
  Forall (fun r => length r = n) N -> length N = length rows -> length P = n -> length mask = n ->
  Forall (fun r => length r = w) rows -> (3 <= w)%nat -> Forall (fun r => length r = 3%nat) P ->
  exists Q, fit_coordinates sv N rows P mask = Ok Q.
Proof.
  intros HS HN HL HP HM HR Hw H3; unfold fit_coordinates.
  assert (AR : forall j, (0 <= j < 3)%Z -> exists q, acol rows j = Ok q /\ length q = length rows).
  { intros j Hj; rewrite (acol_map rows w j (0 : K)%num HR) by lia; eexists; split; [reflexivity|apply map_length]. }
  assert (AP : forall j, (0 <= j < 3)%Z -> exists q, acol P j = Ok q /\ length q = length P).
  { intros j Hj; rewrite (acol_map P 3 j (0 : K)%num H3) by lia; eexists; split; [reflexivity|apply map_length]. }
  destruct (AR 0%Z ltac:(lia)) as (q0 & -> & L0); destruct (AP 0%Z ltac:(lia)) as (p0 & -> & M0).
  destruct (AR 1%Z ltac:(lia)) as (q1 & -> & L1); destruct (AP 1%Z ltac:(lia)) as (p1 & -> & M1).
  destruct (AR 2%Z ltac:(lia)) as (q2 & -> & L2); destruct (AP 2%Z ltac:(lia)) as (p2 & -> & M2).
  cbn [bind].
  destruct (linear_fit_total sv N q0 p0 mask n HS HN ltac:(congruence) ltac:(congruence) HM) as (x & ->).
  destruct (linear_fit_total sv N q1 p1 mask n HS HN ltac:(congruence) ltac:(congruence) HM) as (y & ->).
  destruct (linear_fit_total sv N q2 p2 mask n HS HN ltac:(congruence) ltac:(congruence) HM) as (z & ->).
  eexists; reflexivity.
Qed.
Lemma acol_last_any (rows : list (list K)) d : Forall (fun r => length r = 4%nat) rows -> acol rows (-1) = Ok (map (fun r => nth 3 r d) rows).
Proof.
  intros HR; unfold acol; apply mapM_ok; intros r Hr; rewrite Forall_forall in HR; specialize (HR r Hr).
  destruct r as [|a [|b [|c [|e [|]]]]]; try discriminate; reflexivity.
Qed.
Lemma check_unity_eq sv n (N : list (list K)) m : Forall (fun r => length r = n) N -> exists G,
  check_unity sv (Z.of_nat n) N m =
  if isclose (nsum (map nsum N)) (ofZ m) then let* _ := sv_cond sv G in Ok tt else Err ValueError.
Proof.
  intros HN; destruct (gram_total n N HN) as (G & EG); exists G; unfold check_unity; rewrite EG.
  destruct (isclose _ _); reflexivity.
Qed.
Lemma single_fit_curve_steps set sv (c : curve_obj K) rows p P U N d : Forall (fun r => length r = 4%nat) rows ->
  c_degree c = Some p -> c_ctrl c = Some P -> c_kv c = Some U ->
  curve_matrix p P U (map (fun r => nth 3 r d) rows) (zlen rows) = Ok N ->
  single_fit_curve set sv c rows =
  let* _ := check_unity sv (zlen P) N (zlen rows) in let* mask := curve_mask (zlen P) in let* new := fit_coordinates sv N rows P mask in set c new.
Proof.
  intros H4 Hd Hc Hk HN; unfold single_fit_curve; rewrite (acol_last_any rows d H4); cbn [bind].
  unfold curve_fields; rewrite Hd, Hc, Hk; cbn [bind]; rewrite HN; reflexivity.
Qed.
Lemma single_fit_surface_steps sv (s : surf K) rows N d : Forall (fun r => length r = 5%nat) rows ->
  surf_matrix s (map (fun r => nth 3 r d) rows) (map (fun r => nth 4 r d) rows) (zlen rows) = Ok N ->
  single_fit_surface sv s rows =
  let* _ := check_unity sv (zlen (s_ctrl s)) N (zlen rows) in let* mask := surf_mask (zlen (s_ctrl s)) (s_nu s) (s_nv s) in
  let* new := fit_coordinates sv N rows (s_ctrl s) mask in
  Ok (mkSurf (s_pu s) (s_pv s) (s_nu s) (s_nv s) new (s_ku s) (s_kv s)).
Proof.
  intros H5 HN; unfold single_fit_surface.
  rewrite (acol_map rows 5 3 d H5), (acol_map rows 5 4 d H5) by lia; cbn [bind].
  change (Z.to_nat 3) with 3%nat; change (Z.to_nat 4) with 4%nat; rewrite HN; reflexivity.
Qed.
End Total.

Lemma Forall2_tab {A B} (R : A -> B -> Prop) n f g : (forall i, (0 <= i < Z.of_nat n)%Z -> R (f i) (g i)) -> Forall2 R (tab n f) (tab n g).
Proof.
  induction n as [|n IH]; intros H; [constructor|].
  rewrite !tab_S; apply Forall2_app; [apply IH; intros; apply H; lia|constructor; [apply H; lia|constructor]].
Qed.
Lemma lsum_app l x : lsum (l ++ [x]) = lsum l + x.
Proof. unfold lsum; induction l as [|a l IH]; cbn [fold_right app]; [ring|rewrite IH; ring]. Qed.
Lemma lsum_tab n f : lsum (tab n f) = zsum 0 n f.
Proof. induction n as [|n IH]; [reflexivity|]; rewrite tab_S, lsum_app, IH; cbn [zsum]; rewrite Z.add_0_l; reflexivity. Qed.

Lemma Forall2_len {A B} (R : A -> B -> Prop) l l' : Forall2 R l l' -> length l = length l'.
Proof. induction 1; cbn [length]; congruence. Qed.

(** ** From rows to the decision *)
Definition row_ok (be t : R) n (ys : list PrimFloat.float) (f : bool) : Prop :=
  length ys = n /\ exists bs, Forall2 (entry64 be t) ys bs /\ if f then Forall (fun b => b = 0) bs else lsum bs = 1.
Lemma rows_decided be t n N fl Rs : INR n <= 2 ^ 30 -> 0 <= be <= 8 * 2 ^ 30 * ulp64 -> 0 <= t -> INR n * t <= / 2 ^ 60 -> t <= / 2 ->
  Forall2 (row_ok be t n) N fl -> Forall2 added64 N Rs -> Forall2 rowsum64 Rs fl.
Proof.
  intros Hn Hbe Ht Hnt Ht2 HF; revert Rs; induction HF as [|ys f N fl (Hl & bs & HE & Hf) HF IH]; intros Rs HA.
  - inversion HA; constructor.
  - inversion HA as [|? a ? Rs' H1 H2]; subst; constructor; [|apply IH; assumption].
    destruct (row_total be t ys bs a) as (F & V & H & H0); auto.
    split; [exact F|split; [exact V|]]; destruct f; auto.
Qed.
Lemma nsum_rows (N : list (list Binary64)) : Forall2 added64 N (map nsum N).
Proof. induction N as [|r N IH]; constructor; [apply nsum_added|exact IH]. Qed.
Lemma strays_map {A} (f : A -> bool) l : strays (map f l) = length (filter f l).
Proof. unfold strays; induction l as [|x l IH]; [reflexivity|]; cbn [map filter]; destruct (f x); cbn [length]; rewrite IH; reflexivity. Qed.

(** ** One basis value *)
Definition finb (x : PrimFloat.float) : bool :=
  match FloatOps.Prim2SF x with SpecFloat.S754_zero _ | SpecFloat.S754_finite _ _ _ => true | _ => false end.
Lemma finb_finite x : if finb x then finite64 x else ~ finite64 x.
Proof. unfold finb, finite64; destruct (FloatOps.Prim2SF x); auto. Qed.
Definition bval (U : list R) p j (x : PrimFloat.float) : R := if finb x then bspline U p j (value x) else 0.

Section Entry.
Variables (U : list Binary64) (p n : nat).
Hypothesis HW : within 0 1 U.
Hypothesis HT : tight (Z.of_nat p) (Z.of_nat n) (values U).
Hypothesis Hgap : forall j, kn (values U) j < kn (values U) (j + 1) -> / 2 ^ 500 <= kn (values U) (j + 1) - kn (values U) j.
Hypothesis Hn : INR n <= 2 ^ 30.
Definition be1 : R := 7 * INR p * ulp64.
Definition t1 : R := INR p * (INR p + 1) / 2 ^ 572.
Definition basis64 j (x : Binary64) : Binary64 := match one_basis_function (Z.of_nat p) U j x with Ok y => y | _ => 0%num end.

Lemma p_lt_n : (p < n)%nat.
Proof. destruct HT as (HC & _); destruct (clamped_facts _ _ _ HC) as (_ & H & _); lia. Qed.
Lemma p_INR : 0 <= INR p /\ INR p + 1 <= INR n.
Proof. split; [apply pos_INR|]; rewrite <- S_INR; apply le_INR; pose proof p_lt_n; lia. Qed.
Lemma bspline_01 j x : (0 <= j < Z.of_nat n)%Z -> 0 <= bspline (values U) p j x <= 1.
Proof.
  intros Hj; destruct HT as (HC & _); pose proof (bspline_row_sum p n (values U) x HC) as HS.
  destruct (clamped_facts _ _ _ HC) as (_ & _ & _ & HU & _).
  split; [apply bspline_nonneg; exact HU|].
  pose proof (zsum_term p n (fun i => bspline (values U) p i x) j Hj (fun i => bspline_nonneg _ p i x HU)) as H; cbn beta in H.
  rewrite HS in H; destruct (outsideb _ _ _); lra.
Qed.
Lemma basis_entry j (x : Binary64) : (0 <= j < Z.of_nat n)%Z ->
  one_basis_function (Z.of_nat p) U j x = Ok (basis64 j x) /\ entry64 be1 t1 (basis64 j x) (bval (values U) p j x).
Proof.
  intros Hj; unfold basis64, bval; pose proof (finb_finite x) as HF.
  pose proof p_INR as (P0 & P1).
  assert (Hp : INR p <= 2 ^ 40) by lra.
  destruct (finb x).
  - destruct (one_basis_b64 U p (Z.of_nat n) HW HT Hgap Hp j x Hj HF) as (y & -> & F & V & Z & _ & E).
    split; [reflexivity|]; split; [exact F|split; [exact V|split; [apply bspline_01; exact Hj|split; [exact Z|exact E]]]].
  - rewrite (one_basis_special U p (Z.of_nat n) HW HT j x Hj HF).
    assert (T : 0 <= t1).
    { unfold t1; apply Rmult_le_pos; [apply Rmult_le_pos; lra|]; apply Rlt_le, Rinv_0_lt_compat, pow_lt; lra. }
    split; [reflexivity|]; split; [exact finite_0|]; rewrite value_0.
    split; [lra|split; [lra|split; [reflexivity|]]]; rewrite Rminus_0_r, Rabs_R0, Rmult_0_r; lra.
Qed.
Lemma basis_sum (x : PrimFloat.float) : let f := stray64 (kn (values U) (Z.of_nat p)) (kn (values U) (Z.of_nat n)) x in
  zsum 0 n (fun j => bval (values U) p j x) = (if f then 0 else 1) /\
  (f = true -> forall j, bval (values U) p j x = 0).
Proof.
  intros f; destruct HT as (HC & Hf & Hl).
  destruct (clamped_facts _ _ _ HC) as (_ & _ & _ & HU & _ & _ & HE & H0 & _).
  assert (Hs : f = if finb x then outsideb (kn (values U) (Z.of_nat p)) (kn (values U) (Z.of_nat n)) (value x) else true).
  { unfold f, stray64, finb, outsideb; destruct (FloatOps.Prim2SF x); reflexivity. }
  unfold bval; destruct (finb x).
  - split; [rewrite bspline_row_sum, Hs by exact HC; reflexivity|].
    intros Ht j; rewrite Hs in Ht; unfold outsideb in Ht; apply bspline_outside_domain; [exact HU|].
    destruct (Rlt_dec _ _); [left; lra|]; destruct (Rlt_dec _ _); [right; lra|discriminate].
  - rewrite Hs; split; [|intros; reflexivity].
    clear; induction n as [|m IH]; cbn [zsum]; [reflexivity|rewrite IH; ring].
Qed.
Lemma be1_ok : 0 <= be1 <= 7 * 2 ^ 30 * ulp64.
Proof.
  pose proof p_INR; pose proof ulp64_small; unfold be1; split; [apply Rmult_le_pos; lra|apply Rmult_le_compat_r; lra].
Qed.
Lemma t1_ok : 0 <= t1 <= / 2 ^ 500.
Proof.
  pose proof p_INR; unfold t1; assert (0 < / 2 ^ 572) by (apply Rinv_0_lt_compat, pow_lt; lra).
  assert (E : 2 ^ 72 * / 2 ^ 572 = / 2 ^ 500).
  { replace (2 ^ 572) with (2 ^ 72 * 2 ^ 500) by (rewrite <- pow_add; f_equal); field; split; apply pow_nonzero; lra. }
  split; [apply Rmult_le_pos; [apply Rmult_le_pos; lra|lra]|].
  rewrite <- E; apply Rmult_le_compat_r; [lra|].
  apply Rle_trans with (2 ^ 30 * 2 ^ 31); [apply Rmult_le_compat; lra|]; lra.
Qed.
End Entry.

(** ** The curve *)
Lemma small500 : 2 ^ 30 * / 2 ^ 490 <= / 2 ^ 60 /\ / 2 ^ 490 <= / 2 /\ 8 * / 2 ^ 500 <= / 2 ^ 490 /\ 0 < / 2 ^ 500.
Proof.
  assert (E1 : / 2 ^ 490 = / 2 ^ 60 * / 2 ^ 430) by (rewrite <- Rinv_mult, <- pow_add; reflexivity).
  assert (E2 : / 2 ^ 500 = / 2 ^ 490 * / 2 ^ 10) by (rewrite <- Rinv_mult, <- pow_add; reflexivity).
  assert (H430 : 0 < / 2 ^ 430 <= / 2 ^ 30).
  { split; [apply Rinv_0_lt_compat, pow_lt; lra|apply Rinv_le_contravar; [apply pow_lt; lra|apply Rle_pow; [lra|lia]]]. }
  assert (H490 : 0 < / 2 ^ 490) by (apply Rinv_0_lt_compat, pow_lt; lra).
  assert (H60 : 0 < / 2 ^ 60) by (apply Rinv_0_lt_compat, pow_lt; lra).
  split; [|split; [|split]].
  - rewrite E1; replace (2 ^ 30 * (/ 2 ^ 60 * / 2 ^ 430)) with (/ 2 ^ 60 * (2 ^ 30 * / 2 ^ 430)) by ring.
    rewrite <- (Rmult_1_r (/ 2 ^ 60)) at 2; apply Rmult_le_compat_l; [lra|].
    apply Rle_trans with (2 ^ 30 * / 2 ^ 30); [apply Rmult_le_compat_l; lra|]; lra.
  - apply Rinv_le_contravar; [lra|]; rewrite <- (pow_1 2) at 1; apply Rle_pow; [lra|lia].
  - rewrite E2; clear E1 E2 H430 H60; generalize dependent (/ 2 ^ 490); intros; lra.
  - apply Rinv_0_lt_compat, pow_lt; lra.
Qed.
Section Curve.
Variables (U : list Binary64) (p n : nat).
Hypothesis HW : within 0 1 U.
Hypothesis HT : tight (Z.of_nat p) (Z.of_nat n) (values U).
Hypothesis Hgap : forall j, kn (values U) j < kn (values U) (j + 1) -> / 2 ^ 500 <= kn (values U) (j + 1) - kn (values U) j.
Hypothesis Hn : INR n <= 2 ^ 30.
Variables (rows : list (list PrimFloat.float)).
Definition cN : list (list Binary64) := map (fun r => tab n (fun j => basis64 U p j (nth 3 r 0%float))) rows.
Definition cfl : list bool := map (fun r => stray64 (kn (values U) (Z.of_nat p)) (kn (values U) (Z.of_nat n)) (nth 3 r 0%float)) rows.
Lemma cN_rows : Forall2 (row_ok (be1 p) (t1 p) n) cN cfl.
Proof.
  unfold cN, cfl; induction rows as [|r l IH]; [constructor|]; cbn [map]; constructor; [|exact IH].
  split; [apply tab_length|]; exists (tab n (fun j => bval (values U) p j (nth 3 r 0%float))); split.
  - apply Forall2_tab; intros j Hj; apply (basis_entry U p n); assumption.
  - destruct (basis_sum U p n HT (nth 3 r 0%float)) as (S1 & S0).
    destruct (stray64 _ _ _).
    + unfold tab; rewrite Forall_map; apply Forall_forall; intros; apply S0; reflexivity.
    + rewrite lsum_tab; exact S1.
Qed.
Lemma curve_sums Rs T : Forall2 added64 cN Rs -> added64 Rs T -> INR (length rows) <= 2 ^ 30 ->
  let s := INR (curve_strays64 (kn (values U) (Z.of_nat p)) (kn (values U) (Z.of_nat n)) rows) in
  (s <= 8/1000000 * INR (length rows) -> isclose (T : Binary64) (ofZ (Z.of_nat (length rows)) : Binary64) = true) /\
  (12/1000000 * INR (length rows) < s -> isclose (T : Binary64) (ofZ (Z.of_nat (length rows)) : Binary64) = false).
Proof.
  intros HA HTt Hm s.
  pose proof (be1_ok U p n HT Hn) as B; pose proof (t1_ok U p n HT Hn) as T1; destruct small500 as (S1 & S2 & S3 & S4).
  assert (HR : Forall2 rowsum64 Rs cfl).
  { apply (rows_decided (be1 p) (t1 p) n cN); auto; try lra.
    - pose proof (pos_INR n); apply Rle_trans with (2 ^ 30 * / 2 ^ 490); [apply Rmult_le_compat; lra|exact S1].
    - apply cN_rows. }
  assert (L : length Rs = length rows).
  { clear - HA; apply Forall2_len in HA; unfold cN in HA; rewrite map_length in HA; auto. }
  destruct (unity_decided Rs cfl T HR HTt) as (C1 & C2); [rewrite L; exact Hm|].
  unfold cfl in C1, C2; rewrite strays_map, L in C1, C2; split; [exact C1|exact C2].
Qed.
End Curve.

Lemma curve_matrix_b64 (U : list Binary64) p (P rows : list (list Binary64)) :
  within 0 1 U -> tight (Z.of_nat p) (len P) (values U) ->
  (forall j, kn (values U) j < kn (values U) (j + 1) -> / 2 ^ 500 <= kn (values U) (j + 1) - kn (values U) j) ->
  INR (length P) <= 2 ^ 30 ->
  curve_matrix (Z.of_nat p) P U (map (fun r => nth 3 r 0%float) rows) (Z.of_nat (length rows)) = Ok (cN U p (length P) rows).
Proof.
  intros HW HT Hgap HP; set (n := length P).
  rewrite (curve_matrix_tab (Z.of_nat p) P U _ (length rows) n (fun i j => basis64 U p j (nth 3 (nth (Z.to_nat i) rows []) 0%float))).
  - unfold cN; rewrite (map_as_tab _ rows []); reflexivity.
  - unfold zlen; rewrite map_length; reflexivity.
  - reflexivity.
  - intros i j e Hi Hj He.
    rewrite (aget_nth _ _ (0%num : Binary64)) in He by (unfold zlen; rewrite map_length; exact Hi).
    injection He as <-.
    match goal with |- one_basis_function _ _ _ ?x = _ =>
      replace x with (nth 3 (nth (Z.to_nat i) rows []) 0%float : Binary64)
        by (symmetry; exact (map_nth (fun r => nth 3 r 0%float) rows [] (Z.to_nat i))) end.
    exact (proj1 (basis_entry U p n HW HT Hgap HP j _ Hj)).
Qed.
Lemma cN_shape U p n rows : Forall (fun r => length r = n) (cN U p n rows) /\ length (cN U p n rows) = length rows.
Proof. split; [unfold cN; rewrite Forall_map; apply Forall_forall; intros; apply tab_length|apply map_length]. Qed.

Lemma single_fit_curve_b64 sv (c : curve_obj Binary64) p (U : list PrimFloat.float) (P rows : list (list PrimFloat.float)) :
  within 0 1 U -> tight (Z.of_nat p) (len P) (values U) ->
  (forall j, kn (values U) j < kn (values U) (j + 1) -> / 2 ^ 500 <= kn (values U) (j + 1) - kn (values U) j) ->
  INR (length P) <= 2 ^ 30 -> INR (length rows) <= 2 ^ 30 ->
  c_degree c = Some (Z.of_nat p) -> c_ctrl c = Some P -> c_kv c = Some U ->
  Forall (fun r => length r = 3%nat) P -> Forall (fun r => length r = 4%nat) rows ->
  let strays := INR (curve_strays64 (kn (values U) (Z.of_nat p)) (kn (values U) (len P)) rows) in
  (12/1000000 * INR (length rows) < strays -> forall set, single_fit_curve set sv c rows = Err ValueError) /\
  (strays <= 8/1000000 * INR (length rows) ->
    (forall set e, (forall M, sv_cond sv M = Err e) -> single_fit_curve set sv c rows = Err e) /\
    ((forall M, exists x, sv_cond sv M = Ok x) -> (forall n A b, exists y, sv_lstsq sv (Z.of_nat n) A b = Ok y /\ length y = n) ->
     exists P', single_fit_curve store_ctrl sv c rows = Ok (mkCurve (c_degree c) (Some P') (c_kv c) (c_dim c)) /\
       length P' = length P /\ Forall (fun r => length r = 3%nat) P' /\ nth 0 P' [] = nth 0 P [] /\ last P' [] = last P [])).
Proof.
  intros HW HT Hgap Hn Hm Hd Hc Hk H3 H4 strays.
  assert (Hn1 : (1 <= length P)%nat).
  { destruct HT as (((? & ? & _) & _) & _); unfold len in *; lia. }
  set (n := length P) in *; set (N := cN U p n rows).
  destruct (cN_shape U p n rows) as (HN & LN); fold N in HN, LN.
  destruct (check_unity_eq sv n N (Z.of_nat (length rows)) HN) as (G & EG).
  assert (EM : forall set, single_fit_curve set sv c rows =
     let* _ := (if isclose (nsum (map nsum N)) (ofZ (Z.of_nat (length rows)) : Binary64) then let* _ := sv_cond sv G in Ok tt else Err ValueError) in
     let* mask := curve_mask (Z.of_nat n) in
     let* new := fit_coordinates sv N (rows : list (list Binary64)) P mask in set c new).
  { intros set; rewrite <- EG.
    exact (single_fit_curve_steps set sv c rows (Z.of_nat p) P U N (0%float : Binary64) H4 Hd Hc Hk (curve_matrix_b64 U p P rows HW HT Hgap Hn)). }
  destruct (curve_sums U p n HW HT Hgap Hn rows (map nsum N) (nsum (map nsum N)) (nsum_rows N) (nsum_added _) Hm) as (C1 & C2).
  split; [intros H set; rewrite EM, (C2 H); reflexivity|].
  intros H; split; [intros set e He; rewrite EM, (C1 H), He; reflexivity|].
  intros HS1 HS2.
  destruct (HS1 G) as (cd & ECd).
  destruct (fit_total sv N (rows : list (list Binary64)) P (tab n (fun i => (i =? 0)%Z || (i =? Z.of_nat n - 1)%Z)) n 4 (conj HS1 HS2) HN LN eq_refl (tab_length _ _) H4 ltac:(lia) H3) as (Q & EQ).
  assert (EC : single_fit_curve store_ctrl sv c rows = store_ctrl c Q).
  { rewrite EM, (C1 H), ECd; cbn [bind]; rewrite (curve_mask_tab n Hn1); cbn [bind]; rewrite EQ; reflexivity. }
  assert (ES : store_ctrl c Q = Ok (mkCurve (c_degree c) (Some Q) (c_kv c) (c_dim c))) by reflexivity.
  rewrite ES in EC; destruct (single_fit_curve_any sv c _ rows P Hc H3 EC) as (Q' & EQ' & R1 & R2 & R3 & R4).
  injection EQ' as <-; exists Q; auto.
Qed.

Lemma curve_any_order p (U : list PrimFloat.float) (P rows : list (list PrimFloat.float)) :
  within 0 1 U -> tight (Z.of_nat p) (len P) (values U) ->
  (forall j, kn (values U) j < kn (values U) (j + 1) -> / 2 ^ 500 <= kn (values U) (j + 1) - kn (values U) j) ->
  INR (length P) <= 2 ^ 30 -> INR (length rows) <= 2 ^ 30 ->
  let strays := INR (curve_strays64 (kn (values U) (Z.of_nat p)) (kn (values U) (len P)) rows) in
  exists N, curve_matrix (K := Binary64) (Z.of_nat p) P U (map (fun r => nth 3 r 0%float) rows) (len rows) = Ok N /\
  forall sums total, Forall2 added64 N sums -> added64 sums total ->
  (strays <= 8/1000000 * INR (length rows) -> isclose (total : Binary64) (ofZ (len rows)) = true) /\
  (12/1000000 * INR (length rows) < strays -> isclose (total : Binary64) (ofZ (len rows)) = false).
Proof.
  intros HW HT Hgap Hn Hm strays; exists (cN U p (length P) rows).
  split; [exact (curve_matrix_b64 U p P rows HW HT Hgap Hn)|].
  intros sums total H1 H2; exact (curve_sums U p (length P) HW HT Hgap Hn rows sums total H1 H2 Hm).
Qed.
