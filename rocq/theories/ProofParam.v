(** Parameterisation (model: ModelParam.v). *)
From Coq Require Import Permutation Sorted.
From Verif Require Import Py PyLemmas Num ModelKnots ModelBasis ModelCurve ModelSurface ModelParam Spec ProofNum ProofSpan ProofBasis ProofCurve ProofCurve2 ProofInit.
Open Scope R_scope.

(** ** Vector operations in exact arithmetic *)
Lemma E_dot a b : length a = length b -> matmul11 (fin a) (fin b) = Ok (Fin (dotR a b) : Exact).
Proof. apply E_matmul. Qed.
Lemma dotR_self_nonneg a : 0 <= dotR a a.
Proof.
  unfold dotR; induction a as [|x t IH]; cbn; [lra|]; fold (combine t t) in *.
  pose proof (Rle_0_sqr x); unfold Rsqr in *; lra.
Qed.
Lemma E_vnorm a : vnorm (fin a) = (Fin (normR a) : Exact).
Proof. unfold vnorm; rewrite E_vdot, E_sqrt by apply dotR_self_nonneg; reflexivity. Qed.
Lemma normR_nonneg a : 0 <= normR a. Proof. apply sqrt_pos. Qed.
Lemma E_snorm x : snorm (Fin x : Exact) = Fin (Rabs x).
Proof.
  unfold snorm; change [Fin x] with (fin [x]); rewrite E_vnorm; f_equal; unfold normR, dotR; cbn.
  rewrite Rplus_0_r; apply sqrt_Rsqr_abs.
Qed.
Lemma E_np_bin (f : Exact -> Exact -> Exact) g a b : (forall x y, f (Fin x : Exact) (Fin y : Exact) = Fin (g x y)) ->
  length a = length b -> np_bin f (fin a) (fin b) = Ok (fin (map (fun xy => g (fst xy) (snd xy)) (combine a b))).
Proof.
  intros Hf Hl; unfold np_bin; rewrite !zlen_fin; unfold len; rewrite Hl, Z.eqb_refl.
  f_equal; rewrite (E_vmap2 f g) by exact Hf; reflexivity.
Qed.
Lemma E_np_sub a b : length a = length b -> np_sub (fin a) (fin b) = Ok (fin (subR a b) : list Exact).
Proof. apply E_np_bin; reflexivity. Qed.
Lemma subR_length a b : length a = length b -> length (subR a b) = length a.
Proof. intros H; unfold subR; rewrite map_length, combine_length; lia. Qed.

(** ** Samples *)
Lemma samples_eq (K : Num) N : samples (K := K) N = map (fun i => ((1 / ofZ (N - 1)) * ofZ i)%num) (zrange 0 N).
Proof. reflexivity. Qed.
Lemma samples_exact n : (1 <= n)%Z ->
  samples (K := Exact) (2 * n) = fin (tab (Z.to_nat (2 * n)) (fun i => IZR i / IZR (2 * n - 1))).
Proof.
  intros Hn; assert (0 < IZR (2 * n - 1)) by (apply IZR_lt; lia).
  rewrite samples_eq, fin_tab_fun.
  replace (zrange 0 (2 * n)) with (tab (Z.to_nat (2 * n)) (fun i => i)) by (rewrite <- zrange_tab; f_equal; lia).
  rewrite map_tab; apply tab_ext; intros i Hi.
  rewrite !E_ofZ, E_div by lra; rewrite E_mul; f_equal; field; lra.
Qed.
Lemma samples_range n i : (1 <= n)%Z -> (0 <= i < 2 * n)%Z -> 0 <= IZR i / IZR (2 * n - 1) <= 1.
Proof.
  intros Hn Hi; assert (0 < IZR (2 * n - 1)) by (apply IZR_lt; lia).
  assert (0 <= IZR i <= IZR (2 * n - 1)) by (split; apply IZR_le; lia).
  split.
  - apply Rmult_le_pos; [lra|left; apply Rinv_0_lt_compat; lra].
  - apply (Rmult_le_reg_r (IZR (2 * n - 1))); [lra|].
    unfold Rdiv; rewrite Rmult_assoc, Rinv_l, Rmult_1_r, Rmult_1_l by lra; lra.
Qed.

(** ** The initial guess on a curve *)
Lemma initial_guess_spec (c : curve_beh Exact) P q n : cb_count c = n -> (1 <= n)%Z ->
  (forall i, (0 <= i < 2 * n)%Z -> cb_point c (Fin (IZR i / IZR (2 * n - 1))) = Ok (fin (q i)) /\ length (q i) = length P) ->
  exists k, (0 <= k < 2 * n)%Z /\
    initial_guess_curve c (fin P) = Ok (Fin (IZR k / IZR (2 * n - 1)) : Exact) /\
    ((exists i, (0 <= i < 2 * n)%Z /\ distR P (q i) < 1000000) ->
       (forall i, (0 <= i < 2 * n)%Z -> distR P (q k) <= distR P (q i)) /\
       (forall i, (0 <= i < k)%Z -> distR P (q k) < distR P (q i))) /\
    ((forall i, (0 <= i < 2 * n)%Z -> 1000000 <= distR P (q i)) -> k = 0%Z).
Proof.
  intros Ec Hn Hq; unfold initial_guess_curve; rewrite Ec; cbv zeta; rewrite samples_exact by exact Hn.
  set (N := (2 * n)%Z) in *; set (t := fun i : Z => IZR i / IZR (N - 1)) in *.
  change (fun i : Z => IZR i / IZR (N - 1)) with t.
  rewrite fin_tab_fun; rewrite aget_tab by (unfold N; lia); cbn [bind].
  destruct (for_range_inv (fun i st => exists k m, st = (Fin m : Exact, Fin (t k) : Exact) /\ (0 <= k < N)%Z /\ m <= 1000000 /\
      (forall j, (0 <= j < i)%Z -> m <= distR P (q j)) /\
      ((m = 1000000 /\ k = 0%Z) \/ ((k < i)%Z /\ m < 1000000 /\ m = distR P (q k) /\ forall j, (0 <= j < k)%Z -> m < distR P (q j))))
    0%Z N (guess_step c (fin P) (tab (Z.to_nat N) (fun i => Fin (t i) : Exact))) (lit_1e6, Fin (t 0%Z) : Exact)) as (st & E & HI).
  - unfold N; lia.
  - exists 0%Z, 1000000; split; [reflexivity|]; split; [unfold N; lia|]; split; [lra|]; split; [intros; lia|left; auto].
  - intros i st Hi (k & m & -> & Hk & Hm1 & Hm & Hc); unfold guess_step.
    rewrite aget_tab by lia; cbn [bind].
    destruct (Hq i Hi) as [Eq Lq]; change (IZR i / IZR (N - 1)) with (t i) in Eq; rewrite Eq; cbn [bind]; rewrite E_np_sub by (symmetry; exact Lq); cbn [bind fst].
    rewrite E_vnorm, E_ltb; fold (distR P (q i)).
    destruct (Rltb (distR P (q i)) m) eqn:EL.
    + apply Rltb_true in EL; eexists; split; [reflexivity|]; exists i, (distR P (q i)).
      split; [reflexivity|]; split; [lia|]; split; [lra|]; split.
      * intros j Hj; destruct (Z.eq_dec j i) as [->|]; [lra|]; specialize (Hm j ltac:(lia)); lra.
      * right; split; [lia|]; split; [|split; [reflexivity|]].
        -- destruct Hc as [[-> _]|(_ & H & _)]; lra.
        -- intros j Hj; specialize (Hm j ltac:(lia)); lra.
    + apply Rltb_false in EL; eexists; split; [reflexivity|]; exists k, m.
      split; [reflexivity|]; split; [exact Hk|]; split; [exact Hm1|]; split.
      * intros j Hj; destruct (Z.eq_dec j i) as [->|]; [lra|]; apply Hm; lia.
      * destruct Hc as [H|(H1 & H2)]; [left; exact H|right; split; [lia|exact H2]].
  - destruct HI as (k & m & -> & Hk & Hm1 & Hm & Hc); exists k; split; [exact Hk|].
    split; [rewrite E; reflexivity|]; split.
    + intros (i & Hi & HL); destruct Hc as [[-> ->]|(H1 & H2 & -> & H4)]; [specialize (Hm i Hi); lra|].
      split; assumption.
    + intros H; destruct Hc as [[_ ->]|(H1 & H2 & -> & H4)]; [reflexivity|].
      specialize (H k Hk); lra.
Qed.
(** No control points. *)
Lemma initial_guess_empty (K : Num) (c : curve_beh K) P : (cb_count c <= 0)%Z -> initial_guess_curve c P = Err IndexError.
Proof.
  intros H; unfold initial_guess_curve; cbv zeta; rewrite samples_eq, zrange_nil by lia; reflexivity.
Qed.

Lemma for_range_ext {S} a b (f g : Z -> S -> res S) s : (forall i s, (a <= i < b)%Z -> f i s = g i s) ->
  for_range a b f s = for_range a b g s.
Proof.
  intros H; unfold for_range.
  assert (G : forall l s, (forall i, In i l -> (a <= i < b)%Z) -> for_list l f s = for_list l g s).
  { induction l as [|x t IH]; intros s' Hl; [reflexivity|]; cbn [for_list].
    rewrite H by (apply Hl; left; reflexivity); destruct (g x s'); cbn; auto.
    apply IH; intros; apply Hl; right; assumption. }
  apply G; intros i Hi; apply in_zrange; exact Hi.
Qed.

(** The guess is one of the samples, whatever the object does. *)
Lemma initial_guess_sample (K : Num) (c : curve_beh K) P u : initial_guess_curve c P = Ok u -> In u (samples (2 * cb_count c)).
Proof.
  unfold initial_guess_curve; cbv zeta; intros H.
  assert (A : forall (l : list K) i x, aget l i = Ok x -> In x l).
  { intros l i x; unfold aget; destruct (_ && _); [|discriminate].
    destruct (nth_error l _) eqn:E; [|discriminate]; intros H'; injection H' as <-; eapply nth_error_In; exact E. }
  destruct (aget (samples (2 * cb_count c)) 0) as [u0| |] eqn:E0; cbn [bind] in H; try discriminate.
  match type of H with (let* _ := ?X in _) = _ => destruct X as [st| |] eqn:E end; cbn [bind] in H; try discriminate.
  injection H as <-.
  refine (for_range_pres (fun st : K * K => In (snd st) (samples (2 * cb_count c))) _ _ _ _ _ _ E _).
  - intros i s s' E' Hs; unfold guess_step in E'.
    destruct (aget _ i) as [e| |] eqn:Ee; cbn [bind] in E'; try discriminate.
    destruct (cb_point c e); cbn [bind] in E'; try discriminate.
    destruct (np_sub P a); cbn [bind] in E'; try discriminate.
    injection E' as <-; destruct (_ <? _)%num; [cbn [snd]; eapply A; exact Ee|assumption].
  - cbn [snd]; eapply A; exact E0.
Qed.

(** ** Number of Newton steps *)
Lemma curve_loop_fuel (K : Num) (c : curve_beh K) P e1 e2 mi : forall f f' j ui pt d1 d2,
  (1 <= Z.of_nat f)%Z -> (mi + 2 - j <= Z.of_nat f)%Z -> (1 <= Z.of_nat f')%Z -> (mi + 2 - j <= Z.of_nat f')%Z ->
  curve_loop f c P e1 e2 mi j ui pt d1 d2 = curve_loop f' c P e1 e2 mi j ui pt d1 d2.
Proof.
  induction f as [|f IH]; intros f' j ui pt d1 d2 H1 H2 H3 H4; [lia|]; destruct f' as [|f']; [lia|].
  cbn [curve_loop].
  destruct (curve_newton ui pt d1 d2 P) as [u1| |]; cbn [bind]; try reflexivity.
  destruct (_ <=? e1)%num; [reflexivity|].
  destruct (curve_rows c u1) as [[[pt' d1'] d2']| |]; cbn [bind]; try reflexivity.
  destruct (curve_dist c P u1); cbn [bind]; try reflexivity.
  destruct (_ <=? e1)%num; [reflexivity|].
  destruct (curve_cos pt' d1' P); cbn [bind]; try reflexivity.
  destruct (_ <=? e2)%num; [reflexivity|].
  destruct (Z.ltb_spec mi j); [reflexivity|].
  apply IH; lia.
Qed.
Definition never_diverges {A B} (f : A -> res B) : Prop := forall a, f a <> Diverge.
Lemma nd_bind {A B} (m : res A) (k : A -> res B) : m <> Diverge -> (forall a, k a <> Diverge) -> bind m k <> Diverge.
Proof. destruct m; cbn; intros H1 H2; auto; discriminate. Qed.
Lemma nd_aget {A} (l : list A) i : aget l i <> Diverge.
Proof. unfold aget; destruct (_ && _); [destruct (nth_error _ _)|]; discriminate. Qed.
Lemma nd_matmul11 {K : Num} (a b : list K) : matmul11 a b <> Diverge.
Proof. unfold matmul11; destruct (_ =? _)%Z; discriminate. Qed.
Lemma nd_np_bin {K : Num} f (a b : list K) : np_bin f a b <> Diverge.
Proof.
  unfold np_bin; destruct (_ =? _)%Z; [discriminate|]; destruct a as [|x [|y a]]; destruct b as [|z [|w b]]; discriminate.
Qed.
Lemma nd_for_range {S} a b (f : Z -> S -> res S) s : (forall i s, f i s <> Diverge) -> for_range a b f s <> Diverge.
Proof.
  intros H; unfold for_range; revert s; induction (zrange a b) as [|x t IH]; intros s; cbn [for_list]; [discriminate|].
  apply nd_bind; auto.
Qed.
Ltac nd := repeat first
  [ apply nd_aget | apply nd_matmul11 | apply nd_np_bin | discriminate | assumption
  | match goal with H : forall _, _ <> Diverge |- _ => apply H | H : forall _ _, _ <> Diverge |- _ => apply H end
  | apply nd_bind; [|intros] ].

Lemma nd_curve_rows {K : Num} (c : curve_beh K) u : (forall u, cb_ders c u <> Diverge) -> curve_rows c u <> Diverge.
Proof. intros H; unfold curve_rows; nd. Qed.
Lemma nd_curve_dist {K : Num} (c : curve_beh K) P u : (forall u, cb_point c u <> Diverge) -> curve_dist c P u <> Diverge.
Proof. intros H; unfold curve_dist, np_sub; nd. Qed.
Lemma nd_curve_cos {K : Num} (a b P : list K) : curve_cos a b P <> Diverge.
Proof. unfold curve_cos, np_sub; nd. Qed.
Lemma nd_curve_newton {K : Num} u (a b d P : list K) : curve_newton u a b d P <> Diverge.
Proof. unfold curve_newton, np_sub; nd. Qed.
Lemma nd_guess {K : Num} (c : curve_beh K) P : (forall u, cb_point c u <> Diverge) -> initial_guess_curve c P <> Diverge.
Proof.
  intros H; unfold initial_guess_curve; cbv zeta; apply nd_bind; [apply nd_aget|intros u0].
  apply nd_bind; [|discriminate]; apply nd_for_range; intros i s; unfold guess_step, np_sub; nd.
Qed.
Lemma nd_curve_loop (K : Num) (c : curve_beh K) P e1 e2 mi :
  (forall u, cb_point c u <> Diverge) -> (forall u, cb_ders c u <> Diverge) -> forall f j ui pt d1 d2,
  (1 <= Z.of_nat f)%Z -> (mi + 2 - j <= Z.of_nat f)%Z ->
  curve_loop f c P e1 e2 mi j ui pt d1 d2 <> Diverge.
Proof.
  intros Hp Hd; induction f as [|f IH]; intros j ui pt d1 d2 H1 H2; [lia|]; cbn [curve_loop].
  apply nd_bind; [apply nd_curve_newton|intros u1].
  destruct (_ <=? e1)%num; [discriminate|].
  apply nd_bind; [apply nd_curve_rows; exact Hd|intros [[pt' d1'] d2']].
  apply nd_bind; [apply nd_curve_dist; exact Hp|intros x].
  destruct (_ <=? e1)%num; [discriminate|].
  apply nd_bind; [apply nd_curve_cos|intros y].
  destruct (_ <=? e2)%num; [discriminate|].
  destruct (Z.ltb_spec mi j); [discriminate|]; apply IH; lia.
Qed.
Lemma curve_steps (K : Num) (c : curve_beh K) P e1 e2 mi fuel : (0 <= mi)%Z -> (mi + 2 <= Z.of_nat fuel)%Z ->
  curve_inversion_fuel fuel c P e1 e2 mi = curve_inversion c P e1 e2 mi /\
  ((forall u, cb_point c u <> Diverge) -> (forall u, cb_ders c u <> Diverge) ->
   curve_inversion c P e1 e2 mi <> Diverge).
Proof.
  intros Hm Hf; unfold curve_inversion, curve_inversion_fuel; split.
  - destruct (initial_guess_curve c P) as [u| |]; cbn [bind]; try reflexivity.
    destruct (curve_rows c u) as [[[pt d1] d2]| |]; cbn [bind]; try reflexivity.
    destruct (curve_dist c P u); cbn [bind]; try reflexivity.
    destruct (_ <=? e1)%num; [reflexivity|].
    destruct (curve_cos pt d1 P); cbn [bind]; try reflexivity.
    destruct (_ <=? e2)%num; [reflexivity|].
    apply curve_loop_fuel; lia.
  - intros Hp Hd; apply nd_bind; [apply nd_guess; exact Hp|intros u].
    apply nd_bind; [apply nd_curve_rows; exact Hd|intros [[pt d1] d2]].
    apply nd_bind; [apply nd_curve_dist; exact Hp|intros x].
    destruct (_ <=? e1)%num; [discriminate|].
    apply nd_bind; [apply nd_curve_cos|intros y].
    destruct (_ <=? e2)%num; [discriminate|].
    apply nd_curve_loop; try assumption; lia.
Qed.

(** ** Range of the result *)
(** [Q] holds of the parameters at which derivatives are available, or of the
    clamped iterates. *)
Lemma curve_loop_keeps (K : Num) (Q : K -> Prop) (c : curve_beh K) P e1 e2 mi :
  (forall ui pt d1 d2 u x, curve_newton ui pt d1 d2 P = Ok u -> cb_ders c u = Ok x -> Q u) ->
  forall f j ui pt d1 d2 u, Q ui -> curve_loop f c P e1 e2 mi j ui pt d1 d2 = Ok u -> Q u.
Proof.
  intros HN; induction f as [|f IH]; intros j ui pt d1 d2 u HQ; cbn [curve_loop]; [discriminate|].
  destruct (curve_newton ui pt d1 d2 P) as [u1| |] eqn:E1; cbn [bind]; try discriminate.
  destruct (_ <=? e1)%num; [intros H; injection H as <-; exact HQ|].
  destruct (curve_rows c u1) as [[[pt' d1'] d2']| |] eqn:E2; cbn [bind]; try discriminate.
  assert (Q1 : Q u1).
  { unfold curve_rows in E2; destruct (cb_ders c u1) eqn:E3; cbn [bind] in E2; try discriminate; eapply HN; eassumption. }
  destruct (curve_dist c P u1); cbn [bind]; try discriminate.
  destruct (_ <=? e1)%num; [intros H; injection H as <-; exact HQ|].
  destruct (curve_cos pt' d1' P); cbn [bind]; try discriminate.
  destruct (_ <=? e2)%num; [intros H; injection H as <-; exact HQ|].
  destruct (mi <? j)%Z; [intros H; injection H as <-; exact Q1|]; apply IH; exact Q1.
Qed.
Lemma curve_inversion_keeps (K : Num) (Q : K -> Prop) (c : curve_beh K) P e1 e2 mi u :
  (forall ui pt d1 d2 u x, curve_newton ui pt d1 d2 P = Ok u -> cb_ders c u = Ok x -> Q u) ->
  (forall u x, initial_guess_curve c P = Ok u -> cb_ders c u = Ok x -> Q u) ->
  curve_inversion c P e1 e2 mi = Ok u -> Q u.
Proof.
  intros HN HG; unfold curve_inversion, curve_inversion_fuel.
  destruct (initial_guess_curve c P) as [u0| |] eqn:E0; cbn [bind]; try discriminate.
  destruct (curve_rows c u0) as [[[pt d1] d2]| |] eqn:E2; cbn [bind]; try discriminate.
  assert (Q0 : Q u0).
  { unfold curve_rows in E2; destruct (cb_ders c u0) eqn:E3; cbn [bind] in E2; try discriminate; eapply HG; eauto. }
  destruct (curve_dist c P u0); cbn [bind]; try discriminate.
  destruct (_ <=? e1)%num; [intros H; injection H as <-; exact Q0|].
  destruct (curve_cos pt d1 P); cbn [bind]; try discriminate.
  destruct (_ <=? e2)%num; [intros H; injection H as <-; exact Q0|].
  apply curve_loop_keeps; assumption.
Qed.
(** The result is a parameter at which the curve could be differentiated. *)
Lemma curve_result_evaluated (K : Num) (c : curve_beh K) P e1 e2 mi u :
  curve_inversion c P e1 e2 mi = Ok u -> exists m, cb_ders c u = Ok m.
Proof.
  apply (curve_inversion_keeps K (fun u => exists m, cb_ders c u = Ok m)); intros; eexists; eassumption.
Qed.
(** Whatever the object does: in [0,1], or NaN. *)
Lemma clamp_exact (x : Exact) : let y := (if (x <? 0)%num then 0%num else if (1 <? x)%num then 1%num else x) : Exact in
  y = NaN \/ exists r, y = Fin r /\ 0 <= r <= 1.
Proof.
  cbv zeta; destruct x as [r| | |]; cbn [nltb Exact xltb ofZ].
  - destruct (Rltb r 0) eqn:E; [right; exists 0; split; [reflexivity|lra]|apply Rltb_false in E].
    destruct (Rltb 1 r) eqn:E'; [right; exists 1; split; [reflexivity|lra]|apply Rltb_false in E'].
    right; exists r; auto.
  - right; exists 1; split; [reflexivity|lra].
  - right; exists 0; split; [reflexivity|lra].
  - left; reflexivity.
Qed.
Lemma curve_result_range (c : curve_beh Exact) P e1 e2 mi u :
  curve_inversion c P e1 e2 mi = Ok u -> u = NaN \/ exists r, u = Fin r /\ 0 <= r <= 1.
Proof.
  apply (curve_inversion_keeps Exact (fun u => u = NaN \/ exists r, u = Fin r /\ 0 <= r <= 1)).
  - intros ui pt d1 d2 w x E _; unfold curve_newton in E.
    destruct (np_sub pt P) as [r| |]; cbn [bind] in E; try discriminate.
    destruct (matmul11 d1 r); cbn [bind] in E; try discriminate.
    destruct (matmul11 d2 r); cbn [bind] in E; try discriminate.
    injection E as <-; apply clamp_exact.
  - intros w x E _; apply initial_guess_sample in E.
    destruct (Z_le_dec (cb_count c) 0).
    + rewrite samples_eq, zrange_nil in E by lia; destruct E.
    + rewrite samples_exact in E by lia; unfold fin in E; apply in_map_iff in E; destruct E as (r & <- & Hr).
      right; exists r; split; [reflexivity|].
      unfold tab in Hr; apply in_map_iff in Hr; destruct Hr as (k & <- & Hk); apply in_seq in Hk.
      apply samples_range; lia.
Qed.
