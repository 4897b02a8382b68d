(** Ends of curves and corners of surfaces (model: ModelDot.v) with dot products in
    any order. *)
From Coq Require Import Reals Lra Lia ZArith List Floats Permutation.
From Verif Require Import Py PyLemmas Num ModelKnots ModelBasis ModelCurve ModelSurface ModelDot Spec SpecB64 SpecDot MathCox MathKnots MathJoin
  ProofNum ProofBasis ProofSpan ProofSurface ProofB64 ProofB64Basis ProofB64Span ProofB64Curve ProofB64Surface ProofB64Ends ProofB64Edges ProofDot ProofDot2.
Import ListNotations.
Open Scope R_scope.

(** ** Weights 0 and at most one weight 1 *)
Definition unit_pair (xy : PrimFloat.float * PrimFloat.float) : Prop :=
  (exactly 0 (fst xy) \/ exactly 1 (fst xy)) /\ finite64 (snd xy) /\ Rabs (value (snd xy)) <= 2 ^ 1023.
Definition wsum (l : list (PrimFloat.float * PrimFloat.float)) : R := fold_right Rplus 0 (map (fun xy => value (fst xy)) l).
Lemma wsum_app l m : wsum (l ++ m) = wsum l + wsum m.
Proof. unfold wsum; rewrite map_app; apply foldR_app. Qed.
Lemma wsum_perm l m : Permutation l m -> wsum l = wsum m.
Proof. intros H; apply foldR_perm, Permutation_map; exact H. Qed.
Lemma wsum_cases l : Forall unit_pair l -> wsum l = 0 /\ psum l = 0 \/ 1 <= wsum l.
Proof.
  induction 1 as [|(x, y) l ([(_ & V)|(_ & V)] & _) _ IH]; [left; split; reflexivity| |]; cbn [fst] in V;
    unfold wsum, psum in *; cbn [map fold_right fst snd]; rewrite V.
  - destruct IH as [(A & B)|A]; [left; split; [|rewrite B]; lra|right; lra].
  - right; destruct IH as [(A & _)|A]; lra.
Qed.
Lemma dotted_pick l r : dotted64 l r -> Forall unit_pair l -> wsum l <= 1 -> exactly (psum l) r /\ Rabs (psum l) <= 2 ^ 1023.
Proof.
  assert (H23 : 0 <= 2 ^ 1023) by (apply pow_le; lra).
  induction 1 as [|x y|l1 l2 a b D1 IH1 D2 IH2|l x y a r D IH HF|l l' a HP D IH]; intros HU HS.
  - split; [split; [exact finite_0|exact value_0]|unfold psum; cbn; rewrite Rabs_R0; exact H23].
  - apply Forall_inv in HU; destruct HU as (HX & Fy & By); cbn [fst snd] in *; unfold psum; cbn [map fold_right fst snd]; rewrite Rplus_0_r.
    destruct HX as [HX|HX]; pose proof (proj2 HX) as VX; rewrite VX.
    + rewrite Rmult_0_l, Rabs_R0; split; [apply mul_0_l; assumption|exact H23].
    + rewrite Rmult_1_l; split; [apply mul_1_l; [exact HX|split; [exact Fy|reflexivity]]|exact By].
  - apply Forall_app in HU; destruct HU as (U1 & U2); rewrite wsum_app in HS; rewrite psum_app.
    destruct (wsum_cases l1 U1) as [(A1 & B1)|A1]; destruct (wsum_cases l2 U2) as [(A2 & B2)|A2].
    + rewrite B1, B2 in *; destruct (IH1 U1 ltac:(lra)) as (E1 & C1); destruct (IH2 U2 ltac:(lra)) as (E2 & C2).
      rewrite Rplus_0_l; split; [apply add_0_l; assumption|exact C2].
    + rewrite B1 in *; destruct (IH1 U1 ltac:(lra)) as (E1 & C1); destruct (IH2 U2 ltac:(lra)) as (E2 & C2).
      rewrite Rplus_0_l; split; [apply add_0_l; assumption|exact C2].
    + rewrite B2 in *; destruct (IH1 U1 ltac:(lra)) as (E1 & C1); destruct (IH2 U2 ltac:(lra)) as (E2 & C2).
      rewrite Rplus_0_r; split; [apply add_0_r; assumption|exact C1].
    + exfalso; lra.
  - pose proof (Forall_inv HU) as (HX & Fy & By); apply Forall_inv_tail in HU; cbn [fst snd] in *.
    assert (EW : wsum ((x, y) :: l) = value x + wsum l) by reflexivity; rewrite EW in HS; clear EW.
    assert (EP : psum ((x, y) :: l) = value x * value y + psum l) by reflexivity; rewrite EP; clear EP.
    assert (NN : 0 <= wsum l) by (destruct (wsum_cases l HU) as [(A & _)|A]; lra).
    assert (Fx : finite64 x) by (destruct HX as [(F & _)|(F & _)]; exact F).
    destruct IH as ((Fa & Va) & Ca); [exact HU|destruct HX as [(_ & V)|(_ & V)]; lra|].
    assert (G : exists z, finite64 z /\ value z = value x * value y + psum l).
    { destruct HX as [(_ & V)|(_ & V)]; rewrite V in *.
      - exists a; split; [exact Fa|lra].
      - exists y; split; [exact Fy|]; destruct (wsum_cases l HU) as [(_ & B)|A]; [rewrite B; lra|lra]. }
    assert (GB : Rabs (value x * value y + psum l) <= 2 ^ 1023).
    { destruct HX as [(_ & V)|(_ & V)]; rewrite V in *.
      - rewrite Rmult_0_l, Rplus_0_l; exact Ca.
      - destruct (wsum_cases l HU) as [(_ & B)|A]; [rewrite B, Rmult_1_l, Rplus_0_r; exact By|lra]. }
    unfold fused64 in HF; rewrite Va in HF; destruct (HF Fx Fy Fa GB) as (Fr & N).
    destruct G as (z & Fz & Vz); specialize (N z Fz); rewrite Vz in N; unfold Rminus in N at 2; rewrite Rplus_opp_r, Rabs_R0 in N.
    split; [split; [exact Fr|]|exact GB].
    pose proof (Rabs_pos (value r - (value x * value y + psum l))) as Q.
    destruct (Req_dec (value r - (value x * value y + psum l)) 0) as [E|E]; [lra|apply Rabs_pos_lt in E; lra].
  - rewrite <- (psum_perm _ _ HP); rewrite <- (wsum_perm _ _ HP) in HS.
    apply IH; [eapply Permutation_Forall; [apply Permutation_sym, HP|exact HU]|exact HS].
Qed.

Lemma picked_sums n (f g : Z -> Binary64) m : (0 <= m < Z.of_nat n)%Z ->
  (forall i, (0 <= i < Z.of_nat n)%Z -> value (f i : PrimFloat.float) = if (i =? m)%Z then 1 else 0) ->
  wsum (combine (tab n f) (tab n g)) = 1 /\ psum (combine (tab n f) (tab n g)) = value (g m : PrimFloat.float).
Proof.
  revert f g m; induction n as [|n IH]; intros f g m Hm Hf; [lia|]; rewrite !tab_cons; cbn [combine].
  assert (EW : forall x y l, wsum ((x, y) :: l) = value x + wsum l) by reflexivity.
  assert (EP : forall x y l, psum ((x, y) :: l) = value x * value y + psum l) by reflexivity.
  rewrite EW, EP; destruct (Z.eq_dec m 0) as [->|Hn].
  - assert (Z0 : forall n' (f' g' : Z -> Binary64), (forall i, (0 <= i < Z.of_nat n')%Z -> value (f' i : PrimFloat.float) = 0) ->
      wsum (combine (tab n' f') (tab n' g')) = 0 /\ psum (combine (tab n' f') (tab n' g')) = 0).
    { clear; induction n' as [|n' IH]; intros f' g' H; [split; reflexivity|]; rewrite !tab_cons; cbn [combine].
      destruct (IH (fun i => f' (i + 1)%Z) (fun i => g' (i + 1)%Z)) as (A & B); [intros i Hi; apply H; lia|].
      unfold wsum, psum in *; cbn [map fold_right fst snd]; rewrite A, B, H by lia; split; lra. }
    destruct (Z0 n (fun i => f (i + 1)%Z) (fun i => g (i + 1)%Z)) as (A & B).
    { intros i Hi; rewrite Hf by lia; destruct (Z.eqb_spec (i + 1) 0); [lia|reflexivity]. }
    rewrite A, B, Hf by lia; cbn [Z.eqb]; split; lra.
  - destruct (IH (fun i => f (i + 1)%Z) (fun i => g (i + 1)%Z) (m - 1)%Z ltac:(lia)) as (A & B).
    { intros i Hi; rewrite Hf by lia; destruct (Z.eqb_spec (i + 1) m), (Z.eqb_spec i (m - 1)); try lia; reflexivity. }
    rewrite A, B, Hf by lia; destruct (Z.eqb_spec 0 m); [lia|]; replace (m - 1 + 1)%Z with m by lia; split; lra.
Qed.

Section Any.
Variable dot : list Z -> list PrimFloat.float -> list PrimFloat.float -> PrimFloat.float.
Hypothesis HD : dots64 dot.
Definition small (x : PrimFloat.float) : Prop := finite64 x /\ Rabs (value x) <= 2 ^ 1023.

Lemma pick_any n (f g : Z -> Binary64) m r : dotted64 (combine (tab n f) (tab n g)) r -> (0 <= m < Z.of_nat n)%Z ->
  (forall i, (0 <= i < Z.of_nat n)%Z -> exactly (if (i =? m)%Z then 1 else 0) (f i)) ->
  (forall i, (0 <= i < Z.of_nat n)%Z -> small (g i)) -> exactly (value (g m : PrimFloat.float)) r.
Proof.
  intros D Hm Hf Hg; destruct (picked_sums n f g m Hm) as (A & B); [intros i Hi; exact (proj2 (Hf i Hi))|].
  rewrite <- B; apply (dotted_pick _ _ D); [|lra].
  apply Forall_forall; intros (x, y) H; pose proof (in_combine_l _ _ _ _ H) as H1; pose proof (in_combine_r _ _ _ _ H) as H2.
  unfold tab in H1, H2; apply in_map_iff in H1, H2; destruct H1 as (i & Ei & Hi); destruct H2 as (j & Ej & Hj).
  apply in_seq in Hi, Hj; subst x y; split; cbn [fst snd].
  - specialize (Hf (Z.of_nat i) ltac:(lia)); destruct (Z.of_nat i =? m)%Z; auto.
  - exact (Hg (Z.of_nat j) ltac:(lia)).
Qed.

Lemma picked_point_dot p (U : list PrimFloat.float) (P : list (list PrimFloat.float)) (x : Binary64) i d : picks p (len P) U x i ->
  Forall (fun r => length r = 3%nat /\ Forall small r) P ->
  exists y : list PrimFloat.float, single_point_dot (K := Binary64) dot (mkCurve (K := Binary64) (Some (Z.of_nat p)) (Some P) (Some U) d) x = Ok y /\
    Forall finite64 y /\ values y = values (nth (Z.to_nat i) P []).
Proof.
  intros (Fx & Bx & s & f & m & E & Hs & EB & Hm & Ei & Hf) HP.
  assert (H3 : Forall (fun row => length row = 3%nat) P) by (eapply Forall_impl; [|exact HP]; intros r (L & _); exact L).
  assert (HR : forall k, (0 <= k < len P)%Z -> length (nth (Z.to_nat k) P []) = 3%nat /\ Forall small (nth (Z.to_nat k) P [])).
  { intros k Hk; rewrite Forall_forall in HP; apply HP, nth_In; unfold len in Hk; lia. }
  eexists; split; [apply (single_point_dot_any (K := Binary64) dot p U P d x s (tab (S p) f)); try assumption; [apply validate64; assumption|apply tab_length]|].
  assert (G : forall c, (c < 3)%nat ->
    exactly (value (nth c (nth (Z.to_nat i) P []) 0%float))
     (dot [Z.of_nat c] (tab (S p) f) (tab (S p) (fun k => nth c (nth (Z.to_nat (s - Z.of_nat p + k)) P []) 0%float)))).
  { intros c Hc; rewrite <- Ei.
    apply (pick_any (S p) f (fun k => nth c (nth (Z.to_nat (s - Z.of_nat p + k)) P []) 0%float) m);
      [apply HD; rewrite !tab_length; reflexivity|lia|intros k Hk; apply Hf; lia|].
    intros k Hk; destruct (HR (s - Z.of_nat p + k)%Z ltac:(lia)) as (L & F); rewrite Forall_forall in F; apply F, nth_In; rewrite L; exact Hc. }
  destruct (HR i ltac:(lia)) as (L & _).
  split; cbn [map].
  - repeat (apply Forall_cons; [apply G; lia|]); apply Forall_nil.
  - pose proof (proj2 (G 0%nat ltac:(lia))) as X; pose proof (proj2 (G 1%nat ltac:(lia))) as Y; pose proof (proj2 (G 2%nat ltac:(lia))) as Z.
    destruct (nth (Z.to_nat i) P []) as [|a [|b [|c [|]]]]; try discriminate L; cbn [nth] in X, Y, Z.
    unfold values; cbn [map]; f_equal; [exact X|]; f_equal; [exact Y|]; f_equal; exact Z.
Qed.

Lemma picked_surf_dot p q nu nv (U V : list PrimFloat.float) (P : list (list PrimFloat.float)) (x y : Binary64) i j :
  picks p (Z.of_nat nu) U x (Z.of_nat i) -> (i < nu)%nat -> picks q (Z.of_nat nv) V y (Z.of_nat j) -> (j < nv)%nat ->
  length P = (nu * nv)%nat -> Forall (fun r => length r = 3%nat /\ Forall small r) P ->
  exists z : list PrimFloat.float, surf_point_dot (K := Binary64) dot (mkSurf (K := Binary64) (Z.of_nat p) (Z.of_nat q) (Z.of_nat nu) (Z.of_nat nv) P U V) x y = Ok z /\
    Forall finite64 z /\ values z = values (nth (i * nv + j) P []).
Proof.
  intros (Fx & Bx & s & f & m & Es & Hs & Eu & Hm & Ei & Hf) Hi (Fy & By & t & g & k & Et & Ht & Ev & Hk & Ej & Hg) Hj HL HP.
  assert (H3 : Forall (fun row => length row = 3%nat) P) by (eapply Forall_impl; [|exact HP]; intros r (L & _); exact L).
  assert (HR : forall c a, (c < 3)%nat -> (0 <= a < len P)%Z -> small (entry P c a)).
  { intros c a Hc Ha; unfold entry; rewrite Forall_forall in HP; destruct (HP (nth (Z.to_nat a) P [])) as (L & F); [apply nth_In; unfold len in Ha; lia|].
    rewrite Forall_forall in F; apply F, nth_In; rewrite L; exact Hc. }
  assert (HI : forall a b, (0 <= a < Z.of_nat (S p))%Z -> (0 <= b < Z.of_nat (S q))%Z ->
    (0 <= (s - Z.of_nat p + a) * Z.of_nat nv + (t - Z.of_nat q + b) < len P)%Z).
  { intros a b Ha Hb; unfold len; rewrite HL, Nat2Z.inj_mul; nia. }
  eexists; split; [apply (surf_point_dot_any (K := Binary64) dot p q nu nv U V P x y s t (tab (S p) f) (tab (S q) g)); try assumption;
    try (apply validate64; assumption); apply tab_length|].
  assert (G : forall c, (c < 3)%nat ->
    exactly (value (nth c (nth (i * nv + j) P []) 0%float))
     (dot2_dot (K := Binary64) dot [Z.of_nat c] (tab (S p) f) (tab (S q) g) p q nv s t (coordsK (0%num : Binary64) c P))).
  { intros c Hc; unfold dot2_dot.
    set (h := fun b => dot ([Z.of_nat c] ++ [b]) (tab (S p) f) (tab (S p) (fun a => netK (0%num : Binary64) nv (coordsK (0%num : Binary64) c P) (s - Z.of_nat p + a) (t - Z.of_nat q + b)))).
    assert (Hh : forall b, (0 <= b < Z.of_nat (S q))%Z -> exactly (value (entry P c ((s - Z.of_nat p + m) * Z.of_nat nv + (t - Z.of_nat q + b)))) (h b)).
    { intros b Hb; change (0%num : Binary64) with (0%float : Binary64) in *.
      rewrite <- (coords_entry P c nv (s - Z.of_nat p + m) (t - Z.of_nat q + b) H3 Hc (HI m b ltac:(lia) Hb)).
      apply (pick_any (S p) f (fun a => netK (0%float : Binary64) nv (coordsK (0%float : Binary64) c P) (s - Z.of_nat p + a) (t - Z.of_nat q + b)) m);
        [apply HD; rewrite !tab_length; reflexivity|lia|intros a Ha; apply Hf; lia|].
      intros a Ha; rewrite (coords_entry P c nv _ _ H3 Hc (HI a b Ha Hb)); apply HR; [exact Hc|apply HI; assumption]. }
    assert (EN : nth c (nth (i * nv + j) P []) 0%float = entry P c ((s - Z.of_nat p + m) * Z.of_nat nv + (t - Z.of_nat q + k))).
    { unfold entry; do 2 f_equal; rewrite Ei, Ej; nia. }
    rewrite EN, <- (proj2 (Hh k ltac:(lia))).
    apply (pick_any (S q) g h k); [apply (dot_swap dot HD); rewrite !tab_length; reflexivity|lia|intros a Ha; apply Hg; lia|].
    intros b Hb; destruct (Hh b Hb) as (F & E); split; [exact F|rewrite E]; apply HR; [exact Hc|apply HI; [lia|exact Hb]]. }
  assert (L : length (nth (i * nv + j) P []) = 3%nat) by (rewrite Forall_forall in H3; apply H3, nth_In; nia).
  split; cbn [map].
  - repeat (apply Forall_cons; [apply G; lia|]); apply Forall_nil.
  - pose proof (proj2 (G 0%nat ltac:(lia))) as X; pose proof (proj2 (G 1%nat ltac:(lia))) as Y; pose proof (proj2 (G 2%nat ltac:(lia))) as Z.
    destruct (nth (i * nv + j) P []) as [|a [|b [|c [|]]]]; try discriminate L; cbn [nth] in X, Y, Z.
    unfold values; cbn [map]; f_equal; [exact X|]; f_equal; [exact Y|]; f_equal; exact Z.
Qed.
End Any.

Lemma within_small P : Forall (fun row => length row = 3%nat /\ within (- 2 ^ 1023) (2 ^ 1023) row) P ->
  Forall (fun r => length r = 3%nat /\ Forall small r) P.
Proof.
  apply Forall_impl; intros r (L & W); split; [exact L|]; eapply Forall_impl; [|exact W]; intros x (F & B); split; [exact F|apply Rabs_le; exact B].
Qed.
Lemma curve_ends_dot : forall dot, dots64 dot -> forall p (U : list PrimFloat.float) (P : list (list PrimFloat.float)) d,
  within 0 1 U -> clamped (Z.of_nat p) (len P) (values U) -> (1 <= p)%nat ->
  kn (values U) (Z.of_nat p) = 0 -> kn (values U) (len P) = 1 ->
  Forall (fun row => length row = 3%nat /\ within (- 2 ^ 1023) (2 ^ 1023) row) P ->
  let c := mkCurve (K := Binary64) (Some (Z.of_nat p)) (Some P) (Some U) d in
  (undoes64 (nth (S p) U 0%float) -> exists y : list PrimFloat.float, single_point_dot (K := Binary64) dot c 0%float = Ok y /\
    Forall finite64 y /\ values y = values (nth 0 P [])) /\
  (undoes64 (1 - nth (length P - 1) U 0)%float -> exists y : list PrimFloat.float, single_point_dot (K := Binary64) dot c 1%float = Ok y /\
    Forall finite64 y /\ values y = values (last P [])).
Proof.
  intros dot HD p U P d HW HC Hp K0 K1 HP; cbv zeta; apply within_small in HP; split; intros (Hw & Ew).
  - exact (picked_point_dot dot HD p U P 0%float 0 d (start_picks_w p (len P) U HW HC Hp K0 K1 Hw Ew) HP).
  - pose proof (end_picks_w p (len P) U HW HC Hp K0 K1) as G; cbv zeta in G.
    replace (Z.to_nat (len P - 1)) with (length P - 1)%nat in G by (unfold len; lia).
    destruct (picked_point_dot dot HD p U P 1%float _ d (G Hw Ew) HP) as (y & E & F & V).
    exists y; split; [exact E|]; split; [exact F|]; rewrite V, last_nth; do 2 f_equal; unfold len; lia.
Qed.
Lemma surface_corners_dot : forall dot, dots64 dot -> forall p q nu nv (U V : list PrimFloat.float) (P : list (list PrimFloat.float)),
  within 0 1 U -> within 0 1 V -> clamped (Z.of_nat p) (Z.of_nat nu) (values U) -> clamped (Z.of_nat q) (Z.of_nat nv) (values V) ->
  (1 <= p)%nat -> (1 <= q)%nat -> kn (values U) (Z.of_nat p) = 0 -> kn (values U) (Z.of_nat nu) = 1 ->
  kn (values V) (Z.of_nat q) = 0 -> kn (values V) (Z.of_nat nv) = 1 -> length P = (nu * nv)%nat ->
  Forall (fun row => length row = 3%nat /\ within (- 2 ^ 1023) (2 ^ 1023) row) P ->
  let S64 := mkSurf (K := Binary64) (Z.of_nat p) (Z.of_nat q) (Z.of_nat nu) (Z.of_nat nv) P U V in
  let at_corner x y i := exists z : list PrimFloat.float, surf_point_dot (K := Binary64) dot S64 x y = Ok z /\
    Forall finite64 z /\ values z = values (nth i P []) in
  let u0 := nth (S p) U 0%float in let u1 := (1 - nth (nu - 1) U 0)%float in
  let v0 := nth (S q) V 0%float in let v1 := (1 - nth (nv - 1) V 0)%float in
  (undoes64 u0 -> undoes64 v0 -> at_corner 0%float 0%float 0%nat) /\
  (undoes64 u0 -> undoes64 v1 -> at_corner 0%float 1%float (nv - 1)%nat) /\
  (undoes64 u1 -> undoes64 v0 -> at_corner 1%float 0%float ((nu - 1) * nv)%nat) /\
  (undoes64 u1 -> undoes64 v1 -> at_corner 1%float 1%float (nu * nv - 1)%nat).
Proof.
  intros dot HD p q nu nv U V P WU WV CU CV Hp Hq U0 U1 V0 V1 HL HP; cbv zeta; apply within_small in HP.
  assert (Bnu : (1 <= nu)%nat) by (destruct (clamped_facts _ _ _ CU) as (_ & H & _); lia).
  assert (Bnv : (1 <= nv)%nat) by (destruct (clamped_facts _ _ _ CV) as (_ & H & _); lia).
  assert (PU0 : undoes64 (nth (S p) U 0%float) -> picks p (Z.of_nat nu) U 0%float (Z.of_nat 0)).
  { intros (A & B); exact (start_picks_w p (Z.of_nat nu) U WU CU Hp U0 U1 A B). }
  assert (PV0 : undoes64 (nth (S q) V 0%float) -> picks q (Z.of_nat nv) V 0%float (Z.of_nat 0)).
  { intros (A & B); exact (start_picks_w q (Z.of_nat nv) V WV CV Hq V0 V1 A B). }
  assert (PU1 : undoes64 (1 - nth (nu - 1) U 0)%float -> picks p (Z.of_nat nu) U 1%float (Z.of_nat (nu - 1))).
  { intros (A & B); pose proof (end_picks_w p (Z.of_nat nu) U WU CU Hp U0 U1) as G; cbv zeta in G.
    replace (Z.to_nat (Z.of_nat nu - 1)) with (nu - 1)%nat in G by lia.
    replace (Z.of_nat (nu - 1)) with (Z.of_nat nu - 1)%Z by lia; exact (G A B). }
  assert (PV1 : undoes64 (1 - nth (nv - 1) V 0)%float -> picks q (Z.of_nat nv) V 1%float (Z.of_nat (nv - 1))).
  { intros (A & B); pose proof (end_picks_w q (Z.of_nat nv) V WV CV Hq V0 V1) as G; cbv zeta in G.
    replace (Z.to_nat (Z.of_nat nv - 1)) with (nv - 1)%nat in G by lia.
    replace (Z.of_nat (nv - 1)) with (Z.of_nat nv - 1)%Z by lia; exact (G A B). }
  assert (G : forall x y i j k, picks p (Z.of_nat nu) U x (Z.of_nat i) -> picks q (Z.of_nat nv) V y (Z.of_nat j) ->
    (i < nu)%nat -> (j < nv)%nat -> k = (i * nv + j)%nat ->
    exists z : list PrimFloat.float, surf_point_dot (K := Binary64) dot (mkSurf (K := Binary64) (Z.of_nat p) (Z.of_nat q) (Z.of_nat nu) (Z.of_nat nv) P U V) x y = Ok z /\
      Forall finite64 z /\ values z = values (nth k P [])).
  { intros x y i j k Px Py Hi Hj ->; exact (picked_surf_dot dot HD p q nu nv U V P x y i j Px Hi Py Hj HL HP). }
  split; [|split; [|split]]; intros A B.
  - apply (G _ _ 0%nat 0%nat); auto.
  - apply (G _ _ 0%nat (nv - 1)%nat); auto; lia.
  - apply (G _ _ (nu - 1)%nat 0%nat); auto; lia.
  - apply (G _ _ (nu - 1)%nat (nv - 1)%nat); auto; nia.
Qed.
