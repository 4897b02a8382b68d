(** Fits with open arithmetic (model: ModelDotFit.v) on binary64 numbers. *)
From Coq Require Import Reals Lra Lia ZArith List Floats Permutation.
From Flocq Require Import Core.Core IEEE754.BinarySingleNaN IEEE754.PrimFloat.
From Verif Require Import Py PyLemmas Num ModelKnots ModelBasis ModelCurve ModelInit ModelParam ModelFit ModelDot ModelDotParam ModelDotFit Spec SpecB64 MathCox MathKnots ProofNum ProofBasis ProofKnots ProofSpan ProofSpan2
  ProofInsert ProofInsert2 ProofFit4 ProofFit5 ProofFit6 ProofCurve2 ProofFit8 ProofB64 ProofB64Basis ProofB64Span ProofB64Curve ProofB64Knots ProofB64Surface ProofB64Insert ProofInit ModelSurface SpecFit ProofFit2 ProofFit7 ProofB64Unity ProofB64Unity2 ProofB64Unity3 ProofB64Adapt ProofDotFit SpecParam SpecDot ProofB64Param ProofDotParam3 ProofDotParam4.
Import ListNotations.
Open Scope R_scope.

Lemma insertion_loop_dot64 dot sum prod beh sv data p num : (1 <= p)%Z -> (num <= p + 65536)%Z ->
  forall (fuel k : nat) (call : Z) (U : list PrimFloat.float) (P : list (list PrimFloat.float)) (c : curve_obj Binary64), Forall finite64 U -> values U = uniform p (p + 2 ^ Z.of_nat k) ->
  len P = (p + 2 ^ Z.of_nat k)%Z -> Forall (fun r => length r = 3%nat) P ->
  (k = 0%nat \/ (p + 2 ^ Z.of_nat (k - 1) < num)%Z) ->
  insertion_loop_dot dot sum prod beh fuel call working_class sv data num (mkCurve (K := Binary64) (Some p) (Some P) (Some U) 0) = Ok c ->
  exists k' (T : list PrimFloat.float) (Q : list (list PrimFloat.float)), c = mkCurve (K := Binary64) (Some p) (Some Q) (Some T) 0 /\
    Forall finite64 T /\ values T = uniform p (p + 2 ^ Z.of_nat k') /\
    len Q = (p + 2 ^ Z.of_nat k')%Z /\ (num <= len Q)%Z /\ (k' = 0%nat \/ (p + 2 ^ Z.of_nat (k' - 1) < num)%Z) /\
    Forall (fun r => length r = 3%nat) Q /\ nth 0 Q [] = nth 0 P [] /\ last Q [] = last P [].
Proof.
  intros Hp Hnum; induction fuel as [|fuel IH]; intros k call U P c FU EU HP H3 Hk H; [discriminate|].
  cbn [insertion_loop_dot] in H; bind_inv H; bind_inv H.
  change (cl_set_ctrl working_class) with (@store_ctrl Binary64) in E0.
  change (cl_insert working_class) with (@insert_knot_working Binary64) in H.
  destruct (single_dot_any (K := Binary64) sum prod call sv (mkCurve (K := Binary64) (Some p) (Some P) (Some U) 0) _ _ P eq_refl H3 E0) as (Q & -> & L1 & F1 & N1 & M1).
  cbn [c_degree c_ctrl c_kv c_dim] in H.
  assert (LQ : @len (list PrimFloat.float) Q = len P) by exact (f_equal Z.of_nat L1).
  change (@zlen (list Binary64) Q) with (@len (list PrimFloat.float) Q) in H; destruct (Z.leb_spec num (@len (list PrimFloat.float) Q)) as [HL|HL].
  - injection H as <-; exists k, U, Q; split; [reflexivity|]; split; [exact FU|]; split; [exact EU|].
    split; [exact (eq_trans LQ HP)|]; split; [exact HL|]; split; [exact Hk|]; auto.
  - unfold curve_fields in H; cbn [c_ctrl c_kv c_degree bind] in H.
    assert (Hk16 : (k <= 15)%nat).
    { destruct (Nat.le_gt_cases k 15) as [|G]; [assumption|]; exfalso.
      pose proof (Z.pow_le_mono_r 2 16 (Z.of_nat k) ltac:(lia) ltac:(lia)) as HX; change (2 ^ 16)%Z with 65536%Z in HX; lia. }
    destruct (midpoints64 p k Hp Hk16 U FU EU) as (m & Em & Hm).
    rewrite Em in H; cbn [bind] in H; pose proof (N_pos k Hk16); rewrite zlen_tab, Z2Nat.id in H by lia.
    destruct (insert_all64 p k Hp Hk16 U Q m 0 FU EU Hm (eq_trans LQ HP) F1) as (T & Q2 & E2 & FT & VT & L2 & F2 & N2' & M2).
    match type of H with bind ?x _ = _ => replace x with (Ok (mkCurve (K := Binary64) (Some p) (Some Q2) (Some T) 0)) in H by (symmetry; exact E2) end.
    cbn [bind] in H; rewrite (N2 k Hk16) in VT, L2.
    destruct (IH (S k) (call + 1)%Z T Q2 c FT VT L2 F2 ltac:(right; replace (S k - 1)%nat with k by lia; lia) H) as (k' & T' & Q' & -> & R1 & R2 & R3 & R4 & R5 & R6 & R7 & R8).
    exists k', T', Q'; split; [reflexivity|]; split; [exact R1|]; split; [exact R2|]; split; [exact R3|]; split; [exact R4|]; split; [exact R5|]; split; [exact R6|].
    split; [exact (eq_trans R7 (eq_trans N2' N1))|exact (eq_trans R8 (eq_trans M2 M1))].
Qed.
Lemma adaptive_fit_dot64 dot sum prod beh sv data p num (c c' : curve_obj Binary64) (U : list PrimFloat.float) (P : list (list PrimFloat.float)) : (1 <= p)%nat -> (num <= Z.of_nat p + 65536)%Z ->
  Forall (fun r => length r = 3%nat) P -> length P = S p -> Forall finite64 U -> values U = repeat 0 (S p) ++ repeat 1 (S p) ->
  c_degree c = Some (Z.of_nat p) -> c_ctrl c = Some P -> c_kv c = Some U ->
  fit_curve_knot_insertion_dot dot sum prod beh working_class sv c data num = Ok c' ->
  exists k (T : list PrimFloat.float) (Q : list (list PrimFloat.float)),
    c' = mkCurve (K := Binary64) (Some (Z.of_nat p)) (Some Q) (Some T) 0 /\
    (len Q = Z.of_nat p + 2 ^ Z.of_nat k)%Z /\ (num <= len Q)%Z /\ (k = 0%nat \/ (Z.of_nat p + 2 ^ Z.of_nat (k - 1) < num)%Z) /\
    nth 0 Q [] = nth 0 P [] /\ last Q [] = last P [] /\ Forall (fun r => length r = 3%nat) Q /\
    Forall finite64 T /\ (len T = len Q + Z.of_nat p + 1)%Z /\
    (forall i, (0 <= i < len T)%Z ->
       kn (values T) i = if (i <=? Z.of_nat p)%Z then 0 else if (len Q <=? i)%Z then 1 else IZR (i - Z.of_nat p) / IZR (2 ^ Z.of_nat k)).
Proof.
  intros Hp Hnum H3 HP FU EU Hd Hc Hk H; rewrite (repeat_uniform p Hp) in EU.
  unfold fit_curve_knot_insertion_dot, fit_curve_knot_insertion_fuel_dot in H.
  assert (LP : len P = (Z.of_nat p + 1)%Z) by (unfold len; lia).
  assert (EC : copy_curve working_class c = Ok (mkCurve (K := Binary64) (Some (Z.of_nat p)) (Some P) (Some U) 0)).
  { unfold copy_curve; rewrite Hd, Hc, Hk; unfold set_degree; destruct (Z.ltb_spec (Z.of_nat p) 1); [lia|]; cbn [bind].
    change (cl_set_ctrl working_class) with (@store_ctrl Binary64); unfold store_ctrl; cbn [bind].
    unfold set_knot_vector; cbn [c_degree c_ctrl c_kv c_dim].
    assert (CK : check_knot_vector (Z.of_nat p) (NdArray (U : list Binary64)) (zlen P) = Ok true).
    { assert (CL : clamped (Z.of_nat p) (Z.of_nat p + 1) (values U)) by (rewrite EU; apply uniform_clamped; lia).
      assert (EN : (Z.of_nat p + 2 ^ Z.of_nat 0 = Z.of_nat p + 1)%Z) by (cbn; lia).
      assert (P1000 : 1 <= 2 ^ 1000) by (apply pow_R1_Rle; lra).
      rewrite <- EN, <- half_start in EU by lia.
      apply (check_clamped_b64 (Z.of_nat p) (len P) U FU); [rewrite LP; exact CL| |].
      - pose proof (half_within (Z.of_nat p) 0 ltac:(lia) 0 U ltac:(lia) FU EU) as WT; eapply Forall_impl; [|exact WT]; intros y (_ & B); rewrite Rabs_right; lra.
      - rewrite EU, LP; change (2 ^ Z.of_nat 0)%Z with 1%Z; replace (Z.of_nat p + 1)%Z with (1 + Z.of_nat p + 0)%Z by lia; rewrite half_kn_end by lia.
        rewrite half_kn by lia; unfold gz; destruct (Z.leb_spec 0 (Z.of_nat p)); [|lia]; rewrite frac_0.
        assert (/ 2 ^ 1000 <= / 1) by (apply Rinv_le_contravar; lra); lra. }
    match goal with |- bind ?m _ = _ => replace m with (Ok true : res bool) by (symmetry; exact CK) end; reflexivity. }
  rewrite EC in H; cbn [bind] in H.
  destruct (insertion_loop_dot64 dot sum prod beh sv data (Z.of_nat p) num ltac:(lia) Hnum _ 0 0%Z U P c' FU EU LP H3 (or_introl eq_refl) H)
    as (k & T & Q & -> & FT & VT & L & G1 & G2 & F & A & B).
  exists k, T, Q; split; [reflexivity|]; split; [exact L|]; split; [exact G1|]; split; [exact G2|]; split; [exact A|]; split; [exact B|]; split; [exact F|].
  split; [exact FT|].
  assert (0 < 2 ^ Z.of_nat k)%Z by (apply Z.pow_pos_nonneg; lia).
  assert (LU : (len T = len Q + Z.of_nat p + 1)%Z).
  { rewrite <- len_values, VT; unfold uniform, len at 1; rewrite tab_length; lia. }
  split; [exact LU|]; intros i Hi; rewrite LU in Hi; rewrite VT, uniform_eq, kn_tab by lia; rewrite L.
  replace (Z.of_nat p + 2 ^ Z.of_nat k - Z.of_nat p)%Z with (2 ^ Z.of_nat k)%Z by lia; reflexivity.
Qed.

(** ** The partition-of-unity check *)
Lemma row_sums sum call : (forall site l, added64 l (sum site l)) -> forall (N : list (list PrimFloat.float)) zs, length zs = length N ->
  Forall2 added64 N (map (fun ir : Z * list PrimFloat.float => sum [call; fst ir]%Z (snd ir)) (combine zs N)).
Proof.
  intros HS; induction N as [|r N IH]; intros [|z zs] H; cbn [length combine map] in *; try discriminate; [constructor|].
  injection H as H; constructor; [apply HS|exact (IH zs H)].
Qed.
Lemma check_dot_eq sum prod call sv n (N : list (list Binary64)) m : Forall (fun r => length r = n) N -> exists G,
  check_unity_dot sum prod call sv (Z.of_nat n) N m =
  if isclose (sum [call]%Z (map (fun ir => sum [call; fst ir]%Z (snd ir)) (combine (zrange 0 (zlen N)) N))) (ofZ m) then let* _ := sv_cond sv G in Ok tt else Err ValueError.
Proof.
  intros HN.
  assert (EG : exists G, gram_dot prod call (Z.of_nat n) N = Ok G).
  { unfold gram_dot; rewrite (mapM_ok _ (fun j => map (fun r => nth (Z.to_nat j) r (0%num : Binary64)) N)); [eexists; reflexivity|].
    intros j Hj; apply in_zrange in Hj; apply (acol_map N n); [exact HN|lia]. }
  destruct EG as (G & EG); exists G; unfold check_unity_dot; rewrite EG; destruct (isclose _ _); reflexivity.
Qed.
Lemma single_dot_steps sum prod call set sv (c : curve_obj Binary64) rows p P U N d : Forall (fun r => length r = 4%nat) rows ->
  c_degree c = Some p -> c_ctrl c = Some P -> c_kv c = Some U ->
  curve_matrix p P U (map (fun r => nth 3 r d) rows) (zlen rows) = Ok N ->
  single_fit_curve_dot (K := Binary64) sum prod call set sv c rows =
  let* _ := check_unity_dot sum prod call sv (zlen P) N (zlen rows) in let* mask := curve_mask (zlen P) in let* new := fit_coordinates sv N rows P mask in set c new.
Proof.
  intros H4 Hd Hc Hk HN; unfold single_fit_curve_dot; rewrite (acol_last_any rows d H4); cbn [bind].
  unfold curve_fields; rewrite Hd, Hc, Hk; cbn [bind]; rewrite HN; reflexivity.
Qed.
Lemma single_surface_dot_steps sum prod call sv (s : surf Binary64) rows N d : Forall (fun r => length r = 5%nat) rows ->
  surf_matrix s (map (fun r => nth 3 r d) rows) (map (fun r => nth 4 r d) rows) (zlen rows) = Ok N ->
  single_fit_surface_dot (K := Binary64) sum prod call sv s rows =
  let* _ := check_unity_dot sum prod call sv (zlen (s_ctrl s)) N (zlen rows) in let* mask := surf_mask (zlen (s_ctrl s)) (s_nu s) (s_nv s) in
  let* new := fit_coordinates sv N rows (s_ctrl s) mask in
  Ok (mkSurf (s_pu s) (s_pv s) (s_nu s) (s_nv s) new (s_ku s) (s_kv s)).
Proof.
  intros H5 HN; unfold single_fit_surface_dot.
  rewrite (acol_map rows 5 3 d H5), (acol_map rows 5 4 d H5) by lia; cbn [bind].
  change (Z.to_nat 3) with 3%nat; change (Z.to_nat 4) with 4%nat; rewrite HN; reflexivity.
Qed.
Lemma single_dot_b64 sum prod call sv (c : curve_obj Binary64) p (U : list PrimFloat.float) (P rows : list (list PrimFloat.float)) :
  (forall site l, added64 l (sum site l)) ->
  within 0 1 U -> tight (Z.of_nat p) (len P) (values U) ->
  (forall j, kn (values U) j < kn (values U) (j + 1) -> / 2 ^ 500 <= kn (values U) (j + 1) - kn (values U) j) ->
  INR (length P) <= 2 ^ 30 -> INR (length rows) <= 2 ^ 30 ->
  c_degree c = Some (Z.of_nat p) -> c_ctrl c = Some P -> c_kv c = Some U ->
  Forall (fun r => length r = 3%nat) P -> Forall (fun r => length r = 4%nat) rows ->
  let strays := INR (curve_strays64 (kn (values U) (Z.of_nat p)) (kn (values U) (len P)) rows) in
  (12/1000000 * INR (length rows) < strays -> forall set, single_fit_curve_dot (K := Binary64) sum prod call set sv c rows = Err ValueError) /\
  (strays <= 8/1000000 * INR (length rows) ->
    (forall set e, (forall M, sv_cond sv M = Err e) -> single_fit_curve_dot (K := Binary64) sum prod call set sv c rows = Err e) /\
    ((forall M, exists x, sv_cond sv M = Ok x) -> (forall n A b, exists y, sv_lstsq sv (Z.of_nat n) A b = Ok y /\ length y = n) ->
     exists P', single_fit_curve_dot (K := Binary64) sum prod call store_ctrl sv c rows = Ok (mkCurve (c_degree c) (Some P') (c_kv c) (c_dim c)) /\
       length P' = length P /\ Forall (fun r => length r = 3%nat) P' /\ nth 0 P' [] = nth 0 P [] /\ last P' [] = last P [])).
Proof.
  intros HA HW HT Hgap Hn Hm Hd Hc Hk H3 H4 strays.
  assert (Hn1 : (1 <= length P)%nat).
  { destruct HT as (((? & ? & _) & _) & _); unfold len in *; lia. }
  set (n := length P) in *; set (N := cN U p n rows).
  destruct (cN_shape U p n rows) as (HN & LN); fold N in HN, LN.
  destruct (check_dot_eq sum prod call sv n N (Z.of_nat (length rows)) HN) as (G & EG).
  set (Rs := map (fun ir : Z * list Binary64 => (sum [call; fst ir]%Z (snd ir) : Binary64)) (combine (zrange 0 (zlen N)) N)) in *.
  assert (EM : forall set, single_fit_curve_dot (K := Binary64) sum prod call set sv c rows =
     let* _ := (if isclose (sum [call]%Z Rs : Binary64) (ofZ (Z.of_nat (length rows))) then let* _ := sv_cond sv G in Ok tt else Err ValueError) in
     let* mask := curve_mask (Z.of_nat n) in
     let* new := fit_coordinates sv N (rows : list (list Binary64)) P mask in set c new).
  { intros set; rewrite <- EG.
    exact (single_dot_steps sum prod call set sv c rows (Z.of_nat p) P U N (0%float : Binary64) H4 Hd Hc Hk (curve_matrix_b64 U p P rows HW HT Hgap Hn)). }
  destruct (curve_sums U p n HW HT Hgap Hn rows Rs (sum [call]%Z Rs)) as (C1 & C2); [apply (row_sums sum call HA); rewrite range_length; exact (Nat2Z.id _)|apply HA|exact Hm|].
  split; [intros H set; rewrite EM, (C2 H); reflexivity|].
  intros H; split; [intros set e He; rewrite EM, (C1 H), He; reflexivity|].
  intros HS1 HS2.
  destruct (HS1 G) as (cd & ECd).
  destruct (fit_total sv N (rows : list (list Binary64)) P (tab n (fun i => (i =? 0)%Z || (i =? Z.of_nat n - 1)%Z)%bool) n 4 (conj HS1 HS2) HN LN eq_refl (tab_length _ _) H4 ltac:(lia) H3) as (Q & EQ).
  assert (EC : single_fit_curve_dot (K := Binary64) sum prod call store_ctrl sv c rows = store_ctrl c Q).
  { rewrite EM, (C1 H), ECd; cbn [bind]; rewrite (curve_mask_tab n Hn1); cbn [bind]; rewrite EQ; reflexivity. }
  assert (ES : store_ctrl c Q = Ok (mkCurve (c_degree c) (Some Q) (c_kv c) (c_dim c))) by reflexivity.
  rewrite ES in EC; destruct (single_dot_any (K := Binary64) sum prod call sv c _ rows P Hc H3 EC) as (Q' & EQ' & R1 & R2 & R3 & R4).
  injection EQ' as <-; exists Q; auto.
Qed.
Lemma single_surface_dot_b64 sum prod call sv p q nu nv (U V : list PrimFloat.float) (P rows : list (list PrimFloat.float)) :
  (forall site l, added64 l (sum site l)) ->
  within 0 1 U -> within 0 1 V -> tight (Z.of_nat p) (Z.of_nat nu) (values U) -> tight (Z.of_nat q) (Z.of_nat nv) (values V) ->
  (forall j, kn (values U) j < kn (values U) (j + 1) -> / 2 ^ 500 <= kn (values U) (j + 1) - kn (values U) j) ->
  (forall j, kn (values V) j < kn (values V) (j + 1) -> / 2 ^ 500 <= kn (values V) (j + 1) - kn (values V) j) ->
  length P = (nu * nv)%nat -> INR (length P) <= 2 ^ 30 -> INR (length rows) <= 2 ^ 30 ->
  Forall (fun r => length r = 3%nat) P -> Forall (fun r => length r = 5%nat) rows ->
  let strays := INR (surf_strays64 (kn (values U) (Z.of_nat p)) (kn (values U) (Z.of_nat nu)) (kn (values V) (Z.of_nat q)) (kn (values V) (Z.of_nat nv)) rows) in
  let run := single_fit_surface_dot (K := Binary64) sum prod call sv (mkSurf (K := Binary64) (Z.of_nat p) (Z.of_nat q) (Z.of_nat nu) (Z.of_nat nv) P U V) rows in
  (12/1000000 * INR (length rows) < strays -> run = Err ValueError) /\
  (strays <= 8/1000000 * INR (length rows) ->
    (forall e, (forall M, sv_cond sv M = Err e) -> run = Err e) /\
    ((forall M, exists x, sv_cond sv M = Ok x) -> (forall n A b, exists y, sv_lstsq sv (Z.of_nat n) A b = Ok y /\ length y = n) ->
     exists P', run = Ok (mkSurf (K := Binary64) (Z.of_nat p) (Z.of_nat q) (Z.of_nat nu) (Z.of_nat nv) P' U V) /\
       length P' = length P /\ Forall (fun r => length r = 3%nat) P' /\
       forall i j, (i < nu)%nat -> (j < nv)%nat -> i = 0%nat \/ i = (nu - 1)%nat \/ j = 0%nat \/ j = (nv - 1)%nat ->
         nth (i * nv + j) P' [] = nth (i * nv + j) P [])).
Proof.
  intros HA HWu HWv HTu HTv Hgu Hgv HP Hn Hm H3 H5 strays run; rewrite HP in Hn.
  pose proof (sizes U V p q nu nv HTu HTv Hn) as (Hp & Hq & _).
  set (N := sN U V p q nu nv rows).
  destruct (sN_shape U V p q nu nv rows) as (HN & LN); fold N in HN, LN.
  destruct (check_dot_eq sum prod call sv (nu * nv) N (Z.of_nat (length rows)) HN) as (G & EG).
  destruct (surf_mask_tab nu nv ltac:(lia) ltac:(lia)) as (mask & EMk & LM & HM).
  set (Rs := map (fun ir : Z * list Binary64 => (sum [call; fst ir]%Z (snd ir) : Binary64)) (combine (zrange 0 (zlen N)) N)) in *.
  assert (EM : run =
     let* _ := (if isclose (sum [call]%Z Rs : Binary64) (ofZ (Z.of_nat (length rows))) then let* _ := sv_cond sv G in Ok tt else Err ValueError) in
     let* new := fit_coordinates sv N (rows : list (list Binary64)) P mask in
     Ok (mkSurf (K := Binary64) (Z.of_nat p) (Z.of_nat q) (Z.of_nat nu) (Z.of_nat nv) new U V)).
  { rewrite <- EG; unfold run.
    rewrite (single_surface_dot_steps sum prod call sv _ rows N (0%float : Binary64) H5)
      by exact (surf_matrix_b64 U V p q nu nv HWu HWv HTu HTv Hgu Hgv Hn rows P HP).
    cbn [s_nu s_nv s_ctrl s_pu s_pv s_ku s_kv].
    assert (EL : zlen P = Z.of_nat (nu * nv)) by (unfold zlen; rewrite HP; reflexivity).
    change (@zlen (list (carrier Binary64)) P) with (@zlen (list PrimFloat.float) P).
    rewrite EL, EMk; reflexivity. }
  destruct (surf_sums U V p q nu nv HWu HWv HTu HTv Hgu Hgv Hn rows Rs (sum [call]%Z Rs)) as (C1 & C2); [apply (row_sums sum call HA); rewrite range_length; exact (Nat2Z.id _)|apply HA|exact Hm|].
  split; [intros H; rewrite EM, (C2 H); reflexivity|].
  intros H; split; [intros e He; rewrite EM, (C1 H), He; reflexivity|].
  intros HS1 HS2; destruct (HS1 G) as (cd & ECd).
  destruct (fit_total sv N (rows : list (list Binary64)) P mask (nu * nv) 5 (conj HS1 HS2) HN LN HP LM H5 ltac:(lia) H3) as (Q & EQ).
  destruct (fit_coordinates_any sv N rows P Q mask (eq_trans LM (eq_sym HP)) H3 EQ) as (LQ & Q3 & KQ).
  exists Q; split; [rewrite EM, (C1 H), ECd; cbn [bind]; rewrite EQ; reflexivity|].
  split; [exact LQ|split; [exact Q3|]]; intros i j Hi Hj Hij; apply KQ, HM; assumption.
Qed.

(** ** One round of a fit *)
Lemma unit_no_stray x : unit64 x -> stray64 0 1 x = false.
Proof.
  unfold unit64, finite64, stray64; intros (F & H); destruct (FloatOps.Prim2SF x); try contradiction; (destruct (Rlt_dec _ _); [lra|]; destruct (Rlt_dec _ _); [lra|reflexivity]).
Qed.
Lemma round_dot64 dot sum prod beh pd dd call sv (c : curve_obj Binary64) p (U : list PrimFloat.float) (P data rows : list (list PrimFloat.float)) :
  (forall site l, added64 l (sum site l)) ->
  within 0 1 U -> tight (Z.of_nat p) (len P) (values U) -> kn (values U) (Z.of_nat p) = 0 -> kn (values U) (len P) = 1 ->
  (forall j, kn (values U) j < kn (values U) (j + 1) -> / 2 ^ 500 <= kn (values U) (j + 1) - kn (values U) j) ->
  INR (length P) <= 2 ^ 30 -> INR (length data) <= 2 ^ 30 ->
  c_degree c = Some (Z.of_nat p) -> c_ctrl c = Some P -> c_kv c = Some U ->
  Forall (fun r => length r = 3%nat) P -> Forall (fun r => length r = 3%nat /\ Forall finite64 r) data ->
  beh call c = beh_of_curve_dot pd dd c ->
  project (K := Binary64) dot beh call c (mkData (K := Binary64) 3 data) = Ok rows ->
  (forall M, exists x, sv_cond sv M = Ok x) -> (forall n A b, exists y, sv_lstsq sv (Z.of_nat n) A b = Ok y /\ length y = n) ->
  exists P', single_fit_curve_dot (K := Binary64) sum prod call store_ctrl sv c rows = Ok (mkCurve (c_degree c) (Some P') (c_kv c) (c_dim c)) /\
    length P' = length P /\ Forall (fun r => length r = 3%nat) P' /\ nth 0 P' [] = nth 0 P [] /\ last P' [] = last P [].
Proof.
  intros HA HW HT K0 K1 Hgap Hn Hm Hd Hc Hk H3 HD HB HP HS1 HS2; unfold project in HP; rewrite HB in HP.
  destruct (curve_sorted64_dot _ (beh_of_curve_dot pd dd c) data rows HD (fun u m E => curve_unit64_dot pd dd c u m E) HP) as (us & F & PM & _).
  assert (R4 : Forall (fun r => length r = 4%nat /\ unit64 (nth 3 r 0%float)) rows).
  { eapply Permutation_Forall; [apply Permutation_sym; exact PM|]; clear - F HD; induction F as [|r u data us (_ & Hu) F IH]; cbn [combine map]; [constructor|].
    inversion HD as [|? ? (L & _) HD']; subst; constructor; [|exact (IH HD')]; cbn [fst snd].
    destruct r as [|a [|b [|e [|]]]]; try discriminate; split; [reflexivity|exact Hu]. }
  assert (LR : length rows = length data).
  { rewrite (Permutation_length PM), map_length, combine_length; pose proof (Forall2_len _ _ _ F); lia. }
  assert (E0 : curve_strays64 0 1 rows = 0%nat).
  { unfold curve_strays64; clear - R4; induction R4 as [|r rows (_ & H) R IH]; [reflexivity|]; cbn [filter]; rewrite (unit_no_stray _ H); exact IH. }
  destruct (single_dot_b64 sum prod call sv c p U P rows HA HW HT Hgap Hn ltac:(rewrite LR; exact Hm) Hd Hc Hk H3 ltac:(eapply Forall_impl; [|exact R4]; intros ? []; assumption)) as (_ & G).
  rewrite K0, K1, E0 in G; apply G; [|exact HS1|exact HS2]; cbn [INR]; pose proof (pos_INR (length rows)); lra.
Qed.
