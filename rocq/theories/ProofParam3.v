(** Surface inversion (model: ModelParam.v). *)
From Coq Require Import Permutation Sorted.
From Verif Require Import Py PyLemmas Num ModelKnots ModelBasis ModelCurve ModelSurface ModelParam Spec SpecParam ProofNum ProofSpan ProofBasis ProofCurve ProofCurve2 ProofInit ProofParam ProofParam2.
Open Scope R_scope.

(** ** The initial guess *)
Definition before (a b i j : Z) : Prop := (a < i \/ (a = i /\ b < j))%Z.
Lemma initial_guess_surf_spec (s : surf_beh Exact) P q nu nv : sb_nu s = nu -> sb_nv s = nv -> (1 <= nu)%Z -> (1 <= nv)%Z ->
  (forall i j, (0 <= i < 2 * nu)%Z -> (0 <= j < 2 * nv)%Z ->
     sb_point s (Fin (IZR i / IZR (2 * nu - 1))) (Fin (IZR j / IZR (2 * nv - 1))) = Ok (fin (q i j)) /\ length (q i j) = length P) ->
  exists k l, (0 <= k < 2 * nu)%Z /\ (0 <= l < 2 * nv)%Z /\
    initial_guess_surf s (fin P) = Ok (Fin (IZR k / IZR (2 * nu - 1)) : Exact, Fin (IZR l / IZR (2 * nv - 1)) : Exact) /\
    ((exists i j, (0 <= i < 2 * nu)%Z /\ (0 <= j < 2 * nv)%Z /\ distR P (q i j) < 1000000) ->
       (forall i j, (0 <= i < 2 * nu)%Z -> (0 <= j < 2 * nv)%Z -> distR P (q k l) <= distR P (q i j)) /\
       (forall i j, (0 <= i < 2 * nu)%Z -> (0 <= j < 2 * nv)%Z -> (i < k \/ (i = k /\ j < l))%Z -> distR P (q k l) < distR P (q i j))) /\
    ((forall i j, (0 <= i < 2 * nu)%Z -> (0 <= j < 2 * nv)%Z -> 1000000 <= distR P (q i j)) -> k = 0%Z /\ l = 0%Z).
Proof.
  intros Eu Ev Hnu Hnv Hq; unfold initial_guess_surf; rewrite Eu, Ev; cbv zeta; rewrite !samples_exact by assumption.
  set (N := (2 * nu)%Z) in *; set (M := (2 * nv)%Z) in *.
  assert (HN : (2 <= N)%Z) by (unfold N; lia); assert (HM : (2 <= M)%Z) by (unfold M; lia).
  set (t := fun i : Z => IZR i / IZR (N - 1)) in *; set (t' := fun i : Z => IZR i / IZR (M - 1)) in *.
  change (fun i : Z => IZR i / IZR (N - 1)) with t; change (fun i : Z => IZR i / IZR (M - 1)) with t'.
  rewrite !fin_tab_fun; rewrite !aget_tab by lia; cbn [bind].
  set (I := fun (i j : Z) (st : Exact * Exact * Exact) => exists k l m,
      st = (Fin m : Exact, Fin (t k) : Exact, Fin (t' l) : Exact) /\ (0 <= k < N)%Z /\ (0 <= l < M)%Z /\ m <= 1000000 /\
      (forall a b, (0 <= a < N)%Z -> (0 <= b < M)%Z -> before a b i j -> m <= distR P (q a b)) /\
      ((m = 1000000 /\ k = 0%Z /\ l = 0%Z) \/ (before k l i j /\ m < 1000000 /\ m = distR P (q k l) /\
         forall a b, (0 <= a < N)%Z -> (0 <= b < M)%Z -> before a b k l -> m < distR P (q a b)))).
  match goal with |- context [for_range 0 N ?body ?s0] => destruct (for_range_inv (fun i st => I i 0%Z st) 0%Z N body s0) as (st & E & HI) end.
  - lia.
  - exists 0%Z, 0%Z, 1000000; split; [reflexivity|]; split; [lia|]; split; [lia|]; split; [lra|]; split; [unfold before; intros; lia|left; auto].
  - intros i st0 Hi HI0.
    match goal with |- exists s', for_range 0 M ?body _ = _ /\ _ => destruct (for_range_inv (fun j st => I i j st) 0%Z M body st0) as (st1 & E1 & HI1) end.
    + lia.
    + exact HI0.
    + intros j st Hj (k & l & m & -> & Hk & Hl & Hm1 & Hm & Hc); unfold guess_step2.
      rewrite !aget_tab by lia; cbn [bind].
      destruct (Hq i j Hi Hj) as [Eq Lq].
      change (IZR i / IZR (N - 1)) with (t i) in Eq; change (IZR j / IZR (M - 1)) with (t' j) in Eq; rewrite Eq.
      cbn [bind]; rewrite E_np_sub by (symmetry; exact Lq); cbn [bind fst].
      rewrite E_vnorm, E_ltb; fold (distR P (q i j)).
      destruct (Rltb (distR P (q i j)) m) eqn:EL.
      * apply Rltb_true in EL; eexists; split; [reflexivity|]; exists i, j, (distR P (q i j)).
        split; [reflexivity|]; split; [lia|]; split; [lia|]; split; [lra|]; split.
        -- intros a b Ha Hb Hab; destruct (Z.eq_dec a i) as [->|]; [destruct (Z.eq_dec b j) as [->|]; [lra|]|];
             (assert (m <= distR P (q _ _)) by (apply (Hm _ _ Ha Hb); unfold before in *; lia); lra).
        -- right; split; [unfold before; lia|]; split; [|split; [reflexivity|]].
           ++ destruct Hc as [[-> _]|(_ & H & _)]; lra.
           ++ intros a b Ha Hb Hab; assert (m <= distR P (q a b)) by (apply (Hm _ _ Ha Hb); exact Hab); lra.
      * apply Rltb_false in EL; eexists; split; [reflexivity|]; exists k, l, m.
        split; [reflexivity|]; split; [exact Hk|]; split; [exact Hl|]; split; [exact Hm1|]; split.
        -- intros a b Ha Hb Hab; destruct (Z.eq_dec a i) as [->|]; [destruct (Z.eq_dec b j) as [->|]; [lra|]|];
             (apply (Hm _ _ Ha Hb); unfold before in *; lia).
        -- destruct Hc as [H|(H1 & H2)]; [left; exact H|right; split; [unfold before in *; lia|exact H2]].
    + exists st1; split; [exact E1|].
      destruct HI1 as (k & l & m & -> & Hk & Hl & Hm1 & Hm & Hc); exists k, l, m.
      split; [reflexivity|]; split; [exact Hk|]; split; [exact Hl|]; split; [exact Hm1|]; split.
      * intros a b Ha Hb Hab; apply (Hm _ _ Ha Hb); unfold before in *; lia.
      * destruct Hc as [H|(H1 & H2)]; [left; exact H|right; split; [unfold before in *; lia|exact H2]].
  - destruct HI as (k & l & m & -> & Hk & Hl & Hm1 & Hm & Hc); exists k, l; split; [exact Hk|]; split; [exact Hl|].
    split; [rewrite E; reflexivity|]; split.
    + intros (i & j & Hi & Hj & HL); destruct Hc as [[-> [-> ->]]|(H1 & H2 & -> & H4)].
      * specialize (Hm i j Hi Hj ltac:(unfold before; lia)); lra.
      * split; [intros a b Ha Hb; apply (Hm _ _ Ha Hb); unfold before; lia|exact H4].
    + intros H; destruct Hc as [[_ [-> ->]]|(H1 & H2 & -> & H4)]; [auto|].
      specialize (H k l Hk Hl); lra.
Qed.
Lemma initial_guess_surf_empty (K : Num) (s : surf_beh K) P : (sb_nu s <= 0 \/ sb_nv s <= 0)%Z -> initial_guess_surf s P = Err IndexError.
Proof.
  intros H; unfold initial_guess_surf; cbv zeta; rewrite !samples_eq.
  destruct (Z_le_dec (sb_nu s) 0); [rewrite (zrange_nil 0 (2 * sb_nu s)) by lia; reflexivity|].
  assert (Hv : (sb_nv s <= 0)%Z) by lia; rewrite (zrange_nil 0 (2 * sb_nv s)) by lia.
  rewrite (zrange_cons 0 (2 * sb_nu s)) by lia; reflexivity.
Qed.

(** ** Number of steps *)
Lemma surf_loop_fuel (K : Num) (s : surf_beh K) P e1 e2 mi : forall f f' n ui vi d,
  (1 <= Z.of_nat f)%Z -> (mi + 1 - n <= Z.of_nat f)%Z -> (1 <= Z.of_nat f')%Z -> (mi + 1 - n <= Z.of_nat f')%Z ->
  surf_loop f s P e1 e2 mi n ui vi d = surf_loop f' s P e1 e2 mi n ui vi d.
Proof.
  induction f as [|f IH]; intros f' n ui vi d H1 H2 H3 H4; [lia|]; destruct f' as [|f']; [lia|].
  cbn [surf_loop].
  destruct (surf_newton s P ui vi d) as [[u1 v1]| |]; cbn [bind]; try reflexivity.
  destruct (np_bin _ _ _); cbn [bind]; try reflexivity.
  destruct (_ <=? e1)%num; [reflexivity|].
  destruct (get_surf_rows s ui vi) as [d'| |]; cbn [bind]; try reflexivity.
  destruct (surf_res s P u1 v1); cbn [bind]; try reflexivity.
  destruct (_ <=? e1)%num; [reflexivity|].
  destruct (surf_cos (sr_u d') _); cbn [bind]; try reflexivity.
  destruct (surf_cos (sr_v d') _); cbn [bind]; try reflexivity.
  destruct (_ && _); [reflexivity|].
  destruct (Z.leb_spec mi n); [reflexivity|].
  apply IH; lia.
Qed.
Lemma nd_inv2 {K : Num} (a b c d : K) : inv2 a b c d <> Diverge.
Proof.
  unfold inv2; destruct (nabs a <? nabs c)%num; cbv zeta iota beta; (destruct (_ =? _)%num; [discriminate|]);
    (destruct (_ =? _)%num; discriminate).
Qed.
Lemma nd_surf_res {K : Num} (s : surf_beh K) P u v : (forall u v, sb_point s u v <> Diverge) -> surf_res s P u v <> Diverge.
Proof. intros H; unfold surf_res, np_sub; nd. Qed.
Lemma nd_surf_rows {K : Num} (s : surf_beh K) u v : (forall u v, sb_ders s u v <> Diverge) -> get_surf_rows s u v <> Diverge.
Proof. intros H; unfold get_surf_rows; nd. Qed.
Lemma nd_surf_cos {K : Num} (a b : list K) : surf_cos a b <> Diverge.
Proof. unfold surf_cos; nd. Qed.
Lemma nd_surf_newton {K : Num} (s : surf_beh K) P u v d : (forall u v, sb_point s u v <> Diverge) -> surf_newton s P u v d <> Diverge.
Proof.
  intros H; unfold surf_newton; apply nd_bind; [apply nd_surf_res; exact H|intros r].
  do 6 (apply nd_bind; [apply nd_matmul11|intros ?]); cbv zeta.
  apply nd_bind; [apply nd_inv2|intros [[[? ?] ?] ?]; discriminate].
Qed.
Lemma nd_surf_guess {K : Num} (s : surf_beh K) P : (forall u v, sb_point s u v <> Diverge) -> initial_guess_surf s P <> Diverge.
Proof.
  intros H; unfold initial_guess_surf; cbv zeta; apply nd_bind; [apply nd_aget|intros u0]; apply nd_bind; [apply nd_aget|intros v0].
  apply nd_bind; [|discriminate]; apply nd_for_range; intros i st; apply nd_for_range; intros j st'; unfold guess_step2, np_sub; nd.
Qed.
Lemma nd_surf_loop (K : Num) (s : surf_beh K) P e1 e2 mi :
  (forall u v, sb_point s u v <> Diverge) -> (forall u v, sb_ders s u v <> Diverge) -> forall f n ui vi d,
  (1 <= Z.of_nat f)%Z -> (mi + 1 - n <= Z.of_nat f)%Z -> surf_loop f s P e1 e2 mi n ui vi d <> Diverge.
Proof.
  intros Hp Hd; induction f as [|f IH]; intros n ui vi d H1 H2; [lia|]; cbn [surf_loop].
  apply nd_bind; [apply nd_surf_newton; exact Hp|intros [u1 v1]].
  apply nd_bind; [apply nd_np_bin|intros st].
  destruct (_ <=? e1)%num; [discriminate|].
  apply nd_bind; [apply nd_surf_rows; exact Hd|intros d'].
  apply nd_bind; [apply nd_surf_res; exact Hp|intros r].
  destruct (_ <=? e1)%num; [discriminate|].
  do 2 (apply nd_bind; [apply nd_surf_cos|intros ?]).
  destruct (_ && _); [discriminate|].
  destruct (Z.leb_spec mi n); [discriminate|]; apply IH; lia.
Qed.
Lemma surf_steps (K : Num) (s : surf_beh K) P e1 e2 mi fuel : (0 <= mi)%Z -> (mi + 1 <= Z.of_nat fuel)%Z ->
  surface_inversion_fuel fuel s P e1 e2 mi = surface_inversion s P e1 e2 mi /\
  ((forall u v, sb_point s u v <> Diverge) -> (forall u v, sb_ders s u v <> Diverge) ->
   surface_inversion s P e1 e2 mi <> Diverge).
Proof.
  intros Hm Hf; unfold surface_inversion, surface_inversion_fuel; split.
  - destruct (initial_guess_surf s P) as [[u v]| |]; cbn [bind]; try reflexivity.
    destruct (get_surf_rows s u v) as [d| |]; cbn [bind]; try reflexivity.
    destruct (surf_res s P u v); cbn [bind]; try reflexivity.
    destruct (_ <=? e1)%num; [reflexivity|].
    destruct (surf_cos (sr_u d) _); cbn [bind]; try reflexivity.
    destruct (surf_cos (sr_v d) _); cbn [bind]; try reflexivity.
    destruct (_ && _); [reflexivity|].
    apply surf_loop_fuel; lia.
  - intros Hp Hd; apply nd_bind; [apply nd_surf_guess; exact Hp|intros [u v]].
    apply nd_bind; [apply nd_surf_rows; exact Hd|intros d].
    apply nd_bind; [apply nd_surf_res; exact Hp|intros r].
    destruct (_ <=? e1)%num; [discriminate|].
    do 2 (apply nd_bind; [apply nd_surf_cos|intros ?]).
    destruct (_ && _); [discriminate|].
    apply nd_surf_loop; try assumption; lia.
Qed.

(** ** Range *)
Definition unit_or_nan (x : Exact) : Prop := x = NaN \/ exists r, x = Fin r /\ 0 <= r <= 1.
Lemma surf_newton_clamped (s : surf_beh Exact) P u v d u1 v1 : surf_newton s P u v d = Ok (u1, v1) -> unit_or_nan u1 /\ unit_or_nan v1.
Proof.
  unfold surf_newton; intros H.
  destruct (surf_res s P u v) as [r| |]; cbn [bind] in H; try discriminate.
  repeat match type of H with (let* _ := matmul11 ?a ?b in _) = _ => destruct (matmul11 a b); cbn [bind] in H; try discriminate end.
  cbv zeta in H; destruct (inv2 _ _ _ _) as [[[[i00 i01] i10] i11]| |]; cbn [bind] in H; try discriminate.
  injection H as <- <-; split; apply clamp_exact.
Qed.
Lemma surf_sample (s : surf_beh Exact) P u v : initial_guess_surf s P = Ok (u, v) -> unit_fin u /\ unit_fin v.
Proof.
  assert (SA : forall n x i, aget (samples (K := Exact) (2 * n)) i = Ok x -> unit_fin x).
  { intros n x i E.
    assert (HI : In x (samples (K := Exact) (2 * n))).
    { revert E; unfold aget; destruct (_ && _); [|discriminate].
      destruct (nth_error _ _) eqn:E; [|discriminate]; intros H'; injection H' as <-; eapply nth_error_In; exact E. }
    destruct (Z_le_dec n 0); [rewrite samples_eq, zrange_nil in HI by lia; destruct HI|].
    rewrite samples_exact in HI by lia; unfold fin in HI; apply in_map_iff in HI; destruct HI as (r & <- & Hr).
    exists r; split; [reflexivity|].
    unfold tab in Hr; apply in_map_iff in Hr; destruct Hr as (k & <- & Hk); apply in_seq in Hk; apply samples_range; lia. }
  unfold initial_guess_surf; cbv zeta; intros H.
  destruct (aget (samples (2 * sb_nu s)) 0) as [u0| |] eqn:E0; cbn [bind] in H; try discriminate.
  destruct (aget (samples (2 * sb_nv s)) 0) as [v0| |] eqn:E1; cbn [bind] in H; try discriminate.
  match type of H with (let* _ := ?X in _) = _ => destruct X as [st| |] eqn:E end; cbn [bind] in H; try discriminate.
  injection H as <- <-.
  refine (for_range_pres (fun st : Exact * Exact * Exact => unit_fin (snd (fst st)) /\ unit_fin (snd st)) _ _ _ _ _ _ E _).
  - intros i st1 st2 E2 HS.
    refine (for_range_pres (fun st : Exact * Exact * Exact => unit_fin (snd (fst st)) /\ unit_fin (snd st)) _ _ _ _ _ _ E2 HS).
    intros j st3 st4 E3 HS3; unfold guess_step2 in E3.
    destruct (aget _ i) as [eu| |] eqn:Eu; cbn [bind] in E3; try discriminate.
    destruct (aget _ j) as [ev| |] eqn:Ev; cbn [bind] in E3; try discriminate.
    destruct (sb_point s eu ev) as [a| |]; cbn [bind] in E3; try discriminate.
    destruct (np_sub P a); cbn [bind] in E3; try discriminate.
    injection E3 as <-; match goal with |- context [if ?b then _ else _] => destruct b end; [|exact HS3]; cbn [fst snd]; split; eapply SA; eassumption.
  - cbn [fst snd]; split; eapply SA; eassumption.
Qed.
Lemma vnorm_nan_head (l : list Exact) : vnorm ((NaN : Exact) :: l) = NaN.
Proof.
  unfold vnorm, vdot, vmap2, nsum; cbn [combine map fold_left fst snd].
  change (nadd (ofZ 0) (nmul (NaN : Exact) NaN)) with (NaN : Exact).
  generalize (map (fun xy : Exact * Exact => nmul (fst xy) (snd xy)) (combine l l)); intros m.
  assert (E : fold_left nadd m (NaN : Exact) = NaN).
  { induction m as [|y m IH]; [reflexivity|]; cbn [fold_left]; replace (nadd (NaN : Exact) y) with (NaN : Exact) by (destruct y; reflexivity); exact IH. }
  rewrite E; reflexivity.
Qed.
Lemma vnorm_nan_leb (x : Exact) l e : x = NaN -> (vnorm (x :: l) <=? e)%num = false.
Proof. intros ->; rewrite vnorm_nan_head; reflexivity. Qed.
Lemma nan_step (du dv : Exact) (a b st : list Exact) e1 : length a = 3%nat -> length b = 3%nat -> du = NaN \/ dv = NaN ->
  np_bin nadd (vscale du a) (vscale dv b) = Ok st -> (vnorm st <=? e1)%num = false.
Proof.
  intros La Lb Hn E; destruct a as [|a0 a]; [discriminate|]; destruct b as [|b0 b]; [discriminate|].
  unfold np_bin, vscale in E; cbn [map] in E.
  assert (EL : zlen (nmul du a0 :: map (nmul du) a) = zlen (nmul dv b0 :: map (nmul dv) b)).
  { unfold zlen; cbn [length] in *; rewrite !map_length; lia. }
  rewrite EL, Z.eqb_refl in E; injection E as <-; unfold vmap2; cbn [combine map fst snd].
  apply vnorm_nan_leb.
  assert (N1 : forall x : Exact, nmul (NaN : Exact) x = NaN) by (intros []; reflexivity).
  assert (N2 : forall x : Exact, nadd (NaN : Exact) x = NaN) by (intros []; reflexivity).
  assert (N3 : forall x : Exact, nadd x (NaN : Exact) = NaN) by (intros []; reflexivity).
  change (nadd (nmul du a0) (nmul dv b0) = NaN).
  destruct Hn as [-> | ->]; rewrite N1; [apply N2|apply N3].
Qed.
Lemma surf_rows_3 (s : surf_beh Exact) u v d :
  (forall u v m, sb_ders s u v = Ok m -> Forall (fun r => length r = 3%nat) m) ->
  get_surf_rows s u v = Ok d -> length (sr_u d) = 3%nat /\ length (sr_v d) = 3%nat.
Proof.
  intros HD; unfold get_surf_rows; destruct (sb_ders s u v) as [m| |] eqn:E; cbn [bind]; try discriminate.
  specialize (HD _ _ _ E); rewrite Forall_forall in HD.
  assert (A : forall i x, aget m i = Ok x -> length x = 3%nat).
  { intros i x H; apply HD; revert H; unfold aget; destruct (_ && _); [|discriminate].
    destruct (nth_error _ _) eqn:E'; [|discriminate]; intros H'; injection H' as <-; eapply nth_error_In; exact E'. }
  destruct (aget m 3) eqn:E3; cbn [bind]; try discriminate.
  destruct (aget m 1) eqn:E1; cbn [bind]; try discriminate.
  destruct (aget m 6); cbn [bind]; try discriminate.
  destruct (aget m 2); cbn [bind]; try discriminate.
  destruct (aget m 4); cbn [bind]; try discriminate.
  intros H; injection H as <-; cbn [sr_u sr_v]; split; eapply A; eassumption.
Qed.
Lemma surf_result_range (s : surf_beh Exact) P e1 e2 mi u v :
  (forall u v q, sb_point s u v = Ok q -> unit_fin u /\ unit_fin v) ->
  (forall u v m, sb_ders s u v = Ok m -> Forall (fun r => length r = 3%nat) m) ->
  surface_inversion s P e1 e2 mi = Ok (u, v) -> unit_fin u /\ unit_fin v.
Proof.
  intros HP HD; unfold surface_inversion, surface_inversion_fuel.
  destruct (initial_guess_surf s P) as [[u0 v0]| |] eqn:E0; cbn [bind]; try discriminate.
  apply surf_sample in E0.
  destruct (get_surf_rows s u0 v0) as [d0| |] eqn:E1; cbn [bind]; try discriminate.
  apply surf_rows_3 in E1; [|exact HD].
  destruct (surf_res s P u0 v0); cbn [bind]; try discriminate.
  destruct (_ <=? e1)%num; [intros H; injection H as <- <-; exact E0|].
  destruct (surf_cos (sr_u d0) _); cbn [bind]; try discriminate.
  destruct (surf_cos (sr_v d0) _); cbn [bind]; try discriminate.
  destruct (_ && _); [intros H; injection H as <- <-; exact E0|].
  generalize (S (Z.to_nat (mi + 1))), 0%Z; intros f; revert u0 v0 d0 E0 E1.
  induction f as [|f IH]; intros ui vi d (Hu & Hv) (L1 & L2) n; cbn [surf_loop]; [discriminate|].
  destruct (surf_newton s P ui vi d) as [[u1 v1]| |] eqn:EN; cbn [bind]; try discriminate.
  apply surf_newton_clamped in EN; destruct EN as [Nu Nv].
  destruct (np_bin nadd _ _) as [st| |] eqn:ES; cbn [bind]; try discriminate.
  destruct (vnorm st <=? e1)%num eqn:EC.
  { intros H; injection H as <- <-; split.
    - destruct Nu as [->|Nu]; [|exact Nu]; exfalso.
      rewrite (nan_step _ _ _ _ _ e1 L1 L2 (or_introl eq_refl) ES) in EC; discriminate.
    - destruct Nv as [->|Nv]; [|exact Nv]; exfalso.
      rewrite (nan_step _ _ _ _ _ e1 L1 L2 (or_intror eq_refl) ES) in EC; discriminate. }
  destruct (get_surf_rows s ui vi) as [d'| |] eqn:ED; cbn [bind]; try discriminate.
  apply surf_rows_3 in ED; [|exact HD].
  destruct (surf_res s P u1 v1) eqn:ER; cbn [bind]; try discriminate.
  assert (U : unit_fin u1 /\ unit_fin v1).
  { unfold surf_res in ER; destruct (sb_point s u1 v1) eqn:EP; cbn [bind] in ER; try discriminate; eapply HP; exact EP. }
  match goal with |- (if ?b then _ else _) = _ -> _ => destruct b end; [intros H; injection H as <- <-; exact U|].
  destruct (surf_cos (sr_u d') _); cbn [bind]; try discriminate.
  destruct (surf_cos (sr_v d') _); cbn [bind]; try discriminate.
  destruct (_ && _); [intros H; injection H as <- <-; exact U|].
  destruct (mi <=? n)%Z; [intros H; injection H as <- <-; exact U|].
  apply IH; assumption.
Qed.
