(** Inversion with the arithmetic of numpy left open (model: ModelDotParam.v): the
    model of ModelParam.v is the case of sums from left to right; what holds whatever
    the arithmetic. *)
From Coq Require Import Reals Lra Lia ZArith List Floats.
From Verif Require Import Py PyLemmas Num ModelKnots ModelBasis ModelCurve ModelSurface ModelParam ModelDot ModelDotParam
  ProofNum ProofBasis ProofCurve ProofCurve2 ProofParam ProofParam3.
Import ListNotations.
Open Scope R_scope.

(** ** Sums from left to right *)
Section Left.
Context {K : Num}.
Notation left := (fun _ : list Z => vdot (K := K)).
Lemma initial_guess_left (c : curve_beh K) P : initial_guess_curve_dot left c P = initial_guess_curve c P.
Proof. reflexivity. Qed.
Lemma curve_inversion_left (c : curve_beh K) P e1 e2 mi : curve_inversion_dot left c P e1 e2 mi = curve_inversion c P e1 e2 mi.
Proof. reflexivity. Qed.
Lemma mapM_eq {A B} (f g : A -> res B) l : (forall x, f x = g x) -> mapM f l = mapM g l.
Proof. intros H; induction l as [|x l IH]; cbn [mapM]; [reflexivity|]; rewrite H, IH; reflexivity. Qed.
Lemma parameterize_curve_left (c : curve_beh K) d : parameterize_curve_dot left c d = parameterize_curve c d.
Proof. reflexivity. Qed.
Lemma surf_newton_left n (s : surf_beh K) P u v d : surf_newton_dot left solve_lu n s P u v d = surf_newton s P u v d.
Proof.
  unfold surf_newton_dot, surf_newton, solve_lu.
  destruct (surf_res s P u v) as [r| |]; cbn [bind]; try reflexivity.
  change (mm left) with (fun _ : list Z => matmul11 (K := K)); cbv beta.
  repeat match goal with |- bind (matmul11 ?a ?b) _ = _ => destruct (matmul11 a b); cbn [bind]; try reflexivity end.
  cbv zeta; unfold norm; change (vdot (sr_u d) (sr_u d)) with (vdot (sr_u d) (sr_u d)).
  fold (vnorm (sr_u d)); fold (vnorm (sr_v d)).
  destruct (inv2 _ _ _ _) as [[[[i00 i01] i10] i11]| |]; reflexivity.
Qed.
Lemma surf_loop_left f (s : surf_beh K) P e1 e2 mi : forall n ui vi d, surf_loop_dot left solve_lu f s P e1 e2 mi n ui vi d = surf_loop f s P e1 e2 mi n ui vi d.
Proof.
  induction f as [|f IH]; intros n ui vi d; [reflexivity|]; cbn [surf_loop_dot surf_loop]; rewrite surf_newton_left.
  destruct (surf_newton s P ui vi d) as [[u1 v1]| |]; cbn [bind]; try reflexivity.
  destruct (np_bin _ _ _) as [st| |]; cbn [bind]; try reflexivity.
  change (norm left [n; 13%Z] st) with (vnorm st); destruct (_ <=? e1)%num; [reflexivity|].
  destruct (get_surf_rows s ui vi) as [d'| |]; cbn [bind]; try reflexivity.
  destruct (surf_res s P u1 v1) as [r| |]; cbn [bind]; try reflexivity.
  change (norm left [n; 14%Z] r) with (vnorm r); destruct (_ <=? e1)%num; [reflexivity|].
  change (surf_cos_dot left n 0 (sr_u d') r) with (surf_cos (sr_u d') r); destruct (surf_cos (sr_u d') r); cbn [bind]; try reflexivity.
  change (surf_cos_dot left n 1 (sr_v d') r) with (surf_cos (sr_v d') r); destruct (surf_cos (sr_v d') r); cbn [bind]; try reflexivity.
  destruct (_ && _); [reflexivity|]; destruct (mi <=? n)%Z; [reflexivity|apply IH].
Qed.
Lemma surface_inversion_left (s : surf_beh K) P e1 e2 mi : surface_inversion_dot left solve_lu s P e1 e2 mi = surface_inversion s P e1 e2 mi.
Proof.
  unfold surface_inversion_dot, surface_inversion, surface_inversion_fuel_dot, surface_inversion_fuel.
  change (initial_guess_surf_dot left s P) with (initial_guess_surf s P).
  destruct (initial_guess_surf s P) as [[u v]| |]; cbn [bind]; try reflexivity.
  destruct (get_surf_rows s u v) as [d| |]; cbn [bind]; try reflexivity.
  destruct (surf_res s P u v) as [r| |]; cbn [bind]; try reflexivity.
  change (norm left [-1; 14]%Z r) with (vnorm r); destruct (_ <=? e1)%num; [reflexivity|].
  change (surf_cos_dot left (-1) 0 (sr_u d) r) with (surf_cos (sr_u d) r); destruct (surf_cos (sr_u d) r); cbn [bind]; try reflexivity.
  change (surf_cos_dot left (-1) 1 (sr_v d) r) with (surf_cos (sr_v d) r); destruct (surf_cos (sr_v d) r); cbn [bind]; try reflexivity.
  destruct (_ && _); [reflexivity|]; apply surf_loop_left.
Qed.
Lemma parameterize_surface_left (s : surf_beh K) d : parameterize_surface_dot left solve_lu s d = parameterize_surface s d.
Proof.
  unfold parameterize_surface_dot, parameterize_surface.
  rewrite (mapM_eq _ (fun point => surface_inversion s point lit_1em5 lit_1em5 100)) by (intros x; apply surface_inversion_left); reflexivity.
Qed.
End Left.

(** ** Whatever the arithmetic *)
Section Open.
Context {K : Num}.
Variable dot : list Z -> list K -> list K -> K.
Variable solve : K -> K -> K -> K -> K -> K -> res (K * K).
Lemma nd_matmul11_dot site (a b : list K) : mm dot site a b <> Diverge.
Proof. unfold mm; destruct (_ =? _)%Z; discriminate. Qed.
Ltac nd_dot := repeat first
  [ apply nd_aget | apply nd_matmul11_dot | apply nd_np_bin | discriminate | assumption
  | match goal with H : forall _, _ <> Diverge |- _ => apply H end
  | apply nd_bind; [|intros] ].
Lemma initial_guess_sample_dot (c : curve_beh K) P u : initial_guess_curve_dot dot c P = Ok u -> In u (samples (2 * cb_count c)).
Proof.
  unfold initial_guess_curve_dot; cbv zeta; intros H.
  assert (A : forall (l : list K) i x, aget l i = Ok x -> In x l).
  { intros l i x; unfold aget; destruct (_ && _); [|discriminate].
    destruct (nth_error l _) eqn:E; [|discriminate]; intros H'; injection H' as <-; eapply nth_error_In; exact E. }
  destruct (aget (samples (2 * cb_count c)) 0) as [u0| |] eqn:E0; cbn [bind] in H; try discriminate.
  match type of H with (let* _ := ?X in _) = _ => destruct X as [st| |] eqn:E end; cbn [bind] in H; try discriminate.
  injection H as <-.
  refine (for_range_pres (fun st : K * K => In (snd st) (samples (2 * cb_count c))) _ _ _ _ _ _ E _).
  - intros i s s' E' Hs; unfold guess_step_dot in E'.
    destruct (aget _ i) as [e| |] eqn:Ee; cbn [bind] in E'; try discriminate.
    destruct (cb_point c e); cbn [bind] in E'; try discriminate.
    destruct (np_sub P a); cbn [bind] in E'; try discriminate.
    injection E' as <-; destruct (_ <? _)%num; [cbn [snd]; eapply A; exact Ee|assumption].
  - cbn [snd]; eapply A; exact E0.
Qed.
Lemma curve_loop_fuel_dot (c : curve_beh K) P e1 e2 mi : forall f f' j ui pt d1 d2,
  (1 <= Z.of_nat f)%Z -> (mi + 2 - j <= Z.of_nat f)%Z -> (1 <= Z.of_nat f')%Z -> (mi + 2 - j <= Z.of_nat f')%Z ->
  curve_loop_dot dot f c P e1 e2 mi j ui pt d1 d2 = curve_loop_dot dot f' c P e1 e2 mi j ui pt d1 d2.
Proof.
  induction f as [|f IH]; intros f' j ui pt d1 d2 H1 H2 H3 H4; [lia|]; destruct f' as [|f']; [lia|].
  cbn [curve_loop_dot].
  destruct (curve_newton_dot dot _ ui pt d1 d2 P) as [u1| |]; cbn [bind]; try reflexivity.
  destruct (_ <=? e1)%num; [reflexivity|].
  destruct (curve_rows c u1) as [[[pt' d1'] d2']| |]; cbn [bind]; try reflexivity.
  destruct (curve_dist_dot dot _ c P u1); cbn [bind]; try reflexivity.
  destruct (_ <=? e1)%num; [reflexivity|].
  destruct (curve_cos_dot dot _ pt' d1' P); cbn [bind]; try reflexivity.
  destruct (_ <=? e2)%num; [reflexivity|].
  destruct (Z.ltb_spec mi j); [reflexivity|].
  apply IH; lia.
Qed.
Lemma nd_curve_dist_dot j (c : curve_beh K) P u : (forall u, cb_point c u <> Diverge) -> curve_dist_dot dot j c P u <> Diverge.
Proof. intros H; unfold curve_dist_dot, np_sub; nd_dot. Qed.
Lemma nd_curve_cos_dot j (a b P : list K) : curve_cos_dot dot j a b P <> Diverge.
Proof. unfold curve_cos_dot, np_sub; nd_dot. Qed.
Lemma nd_curve_newton_dot j u (a b d P : list K) : curve_newton_dot dot j u a b d P <> Diverge.
Proof. unfold curve_newton_dot, np_sub; nd_dot. Qed.
Lemma nd_guess_dot (c : curve_beh K) P : (forall u, cb_point c u <> Diverge) -> initial_guess_curve_dot dot c P <> Diverge.
Proof.
  intros H; unfold initial_guess_curve_dot; cbv zeta; apply nd_bind; [apply nd_aget|intros u0].
  apply nd_bind; [|discriminate]; apply nd_for_range; intros i s; unfold guess_step_dot, np_sub; nd.
Qed.
Lemma nd_curve_loop_dot (c : curve_beh K) P e1 e2 mi :
  (forall u, cb_point c u <> Diverge) -> (forall u, cb_ders c u <> Diverge) -> forall f j ui pt d1 d2,
  (1 <= Z.of_nat f)%Z -> (mi + 2 - j <= Z.of_nat f)%Z ->
  curve_loop_dot dot f c P e1 e2 mi j ui pt d1 d2 <> Diverge.
Proof.
  intros Hp Hd; induction f as [|f IH]; intros j ui pt d1 d2 H1 H2; [lia|]; cbn [curve_loop_dot].
  apply nd_bind; [apply nd_curve_newton_dot|intros u1].
  destruct (_ <=? e1)%num; [discriminate|].
  apply nd_bind; [apply nd_curve_rows; exact Hd|intros [[pt' d1'] d2']].
  apply nd_bind; [apply nd_curve_dist_dot; exact Hp|intros x].
  destruct (_ <=? e1)%num; [discriminate|].
  apply nd_bind; [apply nd_curve_cos_dot|intros y].
  destruct (_ <=? e2)%num; [discriminate|].
  destruct (Z.ltb_spec mi j); [discriminate|]; apply IH; lia.
Qed.
Lemma curve_steps_dot (c : curve_beh K) P e1 e2 mi fuel : (0 <= mi)%Z -> (mi + 2 <= Z.of_nat fuel)%Z ->
  curve_inversion_fuel_dot dot fuel c P e1 e2 mi = curve_inversion_dot dot c P e1 e2 mi /\
  ((forall u, cb_point c u <> Diverge) -> (forall u, cb_ders c u <> Diverge) ->
   curve_inversion_dot dot c P e1 e2 mi <> Diverge).
Proof.
  intros Hm Hf; unfold curve_inversion_dot, curve_inversion_fuel_dot; split.
  - destruct (initial_guess_curve_dot dot c P) as [u| |]; cbn [bind]; try reflexivity.
    destruct (curve_rows c u) as [[[pt d1] d2]| |]; cbn [bind]; try reflexivity.
    destruct (curve_dist_dot dot _ c P u); cbn [bind]; try reflexivity.
    destruct (_ <=? e1)%num; [reflexivity|].
    destruct (curve_cos_dot dot _ pt d1 P); cbn [bind]; try reflexivity.
    destruct (_ <=? e2)%num; [reflexivity|].
    apply curve_loop_fuel_dot; lia.
  - intros Hp Hd; apply nd_bind; [apply nd_guess_dot; exact Hp|intros u].
    apply nd_bind; [apply nd_curve_rows; exact Hd|intros [[pt d1] d2]].
    apply nd_bind; [apply nd_curve_dist_dot; exact Hp|intros x].
    destruct (_ <=? e1)%num; [discriminate|].
    apply nd_bind; [apply nd_curve_cos_dot|intros y].
    destruct (_ <=? e2)%num; [discriminate|].
    apply nd_curve_loop_dot; try assumption; lia.
Qed.
Lemma curve_loop_keeps_dot (Q : K -> Prop) (c : curve_beh K) P e1 e2 mi :
  (forall j ui pt d1 d2 u x, curve_newton_dot dot j ui pt d1 d2 P = Ok u -> cb_ders c u = Ok x -> Q u) ->
  forall f j ui pt d1 d2 u, Q ui -> curve_loop_dot dot f c P e1 e2 mi j ui pt d1 d2 = Ok u -> Q u.
Proof.
  intros HN; induction f as [|f IH]; intros j ui pt d1 d2 u HQ; cbn [curve_loop_dot]; [discriminate|].
  destruct (curve_newton_dot dot _ ui pt d1 d2 P) as [u1| |] eqn:E1; cbn [bind]; try discriminate.
  destruct (_ <=? e1)%num; [intros H; injection H as <-; exact HQ|].
  destruct (curve_rows c u1) as [[[pt' d1'] d2']| |] eqn:E2; cbn [bind]; try discriminate.
  assert (Q1 : Q u1).
  { unfold curve_rows in E2; destruct (cb_ders c u1) eqn:E3; cbn [bind] in E2; try discriminate; eapply HN; eassumption. }
  destruct (curve_dist_dot dot _ c P u1); cbn [bind]; try discriminate.
  destruct (_ <=? e1)%num; [intros H; injection H as <-; exact HQ|].
  destruct (curve_cos_dot dot _ pt' d1' P); cbn [bind]; try discriminate.
  destruct (_ <=? e2)%num; [intros H; injection H as <-; exact HQ|].
  destruct (mi <? j)%Z; [intros H; injection H as <-; exact Q1|]; apply IH; exact Q1.
Qed.
Lemma curve_inversion_keeps_dot (Q : K -> Prop) (c : curve_beh K) P e1 e2 mi u :
  (forall j ui pt d1 d2 u x, curve_newton_dot dot j ui pt d1 d2 P = Ok u -> cb_ders c u = Ok x -> Q u) ->
  (forall u x, initial_guess_curve_dot dot c P = Ok u -> cb_ders c u = Ok x -> Q u) ->
  curve_inversion_dot dot c P e1 e2 mi = Ok u -> Q u.
Proof.
  intros HN HG; unfold curve_inversion_dot, curve_inversion_fuel_dot.
  destruct (initial_guess_curve_dot dot c P) as [u0| |] eqn:E0; cbn [bind]; try discriminate.
  destruct (curve_rows c u0) as [[[pt d1] d2]| |] eqn:E2; cbn [bind]; try discriminate.
  assert (Q0 : Q u0).
  { unfold curve_rows in E2; destruct (cb_ders c u0) eqn:E3; cbn [bind] in E2; try discriminate; eapply HG; eauto. }
  destruct (curve_dist_dot dot _ c P u0); cbn [bind]; try discriminate.
  destruct (_ <=? e1)%num; [intros H; injection H as <-; exact Q0|].
  destruct (curve_cos_dot dot _ pt d1 P); cbn [bind]; try discriminate.
  destruct (_ <=? e2)%num; [intros H; injection H as <-; exact Q0|].
  apply curve_loop_keeps_dot; assumption.
Qed.
Lemma curve_result_evaluated_dot (c : curve_beh K) P e1 e2 mi u :
  curve_inversion_dot dot c P e1 e2 mi = Ok u -> exists m, cb_ders c u = Ok m.
Proof.
  apply (curve_inversion_keeps_dot (fun u => exists m, cb_ders c u = Ok m)); intros; eexists; eassumption.
Qed.
Lemma surf_loop_fuel_dot (s : surf_beh K) P e1 e2 mi : forall f f' n ui vi d,
  (1 <= Z.of_nat f)%Z -> (mi + 1 - n <= Z.of_nat f)%Z -> (1 <= Z.of_nat f')%Z -> (mi + 1 - n <= Z.of_nat f')%Z ->
  surf_loop_dot dot solve f s P e1 e2 mi n ui vi d = surf_loop_dot dot solve f' s P e1 e2 mi n ui vi d.
Proof.
  induction f as [|f IH]; intros f' n ui vi d H1 H2 H3 H4; [lia|]; destruct f' as [|f']; [lia|].
  cbn [surf_loop_dot].
  destruct (surf_newton_dot dot solve _ s P ui vi d) as [[u1 v1]| |]; cbn [bind]; try reflexivity.
  destruct (np_bin _ _ _); cbn [bind]; try reflexivity.
  destruct (_ <=? e1)%num; [reflexivity|].
  destruct (get_surf_rows s ui vi) as [d'| |]; cbn [bind]; try reflexivity.
  destruct (surf_res s P u1 v1); cbn [bind]; try reflexivity.
  destruct (_ <=? e1)%num; [reflexivity|].
  destruct (surf_cos_dot dot _ _ (sr_u d') _); cbn [bind]; try reflexivity.
  destruct (surf_cos_dot dot _ _ (sr_v d') _); cbn [bind]; try reflexivity.
  destruct (_ && _); [reflexivity|].
  destruct (Z.leb_spec mi n); [reflexivity|].
  apply IH; lia.
Qed.
Lemma nd_surf_cos_dot n k (a b : list K) : surf_cos_dot dot n k a b <> Diverge.
Proof. unfold surf_cos_dot; nd_dot. Qed.
Hypothesis HS : forall a b c d k0 k1, solve a b c d k0 k1 <> Diverge.
Lemma nd_surf_newton_dot n (s : surf_beh K) P u v d : (forall u v, sb_point s u v <> Diverge) -> surf_newton_dot dot solve n s P u v d <> Diverge.
Proof.
  intros H; unfold surf_newton_dot; apply nd_bind; [apply nd_surf_res; exact H|intros r].
  do 6 (apply nd_bind; [apply nd_matmul11_dot|intros ?]); cbv zeta.
  apply nd_bind; [apply HS|discriminate].
Qed.
Lemma nd_surf_guess_dot (s : surf_beh K) P : (forall u v, sb_point s u v <> Diverge) -> initial_guess_surf_dot dot s P <> Diverge.
Proof.
  intros H; unfold initial_guess_surf_dot; cbv zeta; apply nd_bind; [apply nd_aget|intros u0]; apply nd_bind; [apply nd_aget|intros v0].
  apply nd_bind; [|discriminate]; apply nd_for_range; intros i st; apply nd_for_range; intros j st'; unfold guess_step2_dot, np_sub; nd.
Qed.
Lemma nd_surf_loop_dot (s : surf_beh K) P e1 e2 mi :
  (forall u v, sb_point s u v <> Diverge) -> (forall u v, sb_ders s u v <> Diverge) -> forall f n ui vi d,
  (1 <= Z.of_nat f)%Z -> (mi + 1 - n <= Z.of_nat f)%Z -> surf_loop_dot dot solve f s P e1 e2 mi n ui vi d <> Diverge.
Proof.
  intros Hp Hd; induction f as [|f IH]; intros n ui vi d H1 H2; [lia|]; cbn [surf_loop_dot].
  apply nd_bind; [apply nd_surf_newton_dot; exact Hp|intros [u1 v1]].
  apply nd_bind; [apply nd_np_bin|intros st].
  destruct (_ <=? e1)%num; [discriminate|].
  apply nd_bind; [apply nd_surf_rows; exact Hd|intros d'].
  apply nd_bind; [apply nd_surf_res; exact Hp|intros r].
  destruct (_ <=? e1)%num; [discriminate|].
  do 2 (apply nd_bind; [apply nd_surf_cos_dot|intros ?]).
  destruct (_ && _); [discriminate|].
  destruct (Z.leb_spec mi n); [discriminate|]; apply IH; lia.
Qed.
Lemma surf_steps_dot (s : surf_beh K) P e1 e2 mi fuel : (0 <= mi)%Z -> (mi + 1 <= Z.of_nat fuel)%Z ->
  surface_inversion_fuel_dot dot solve fuel s P e1 e2 mi = surface_inversion_dot dot solve s P e1 e2 mi /\
  ((forall u v, sb_point s u v <> Diverge) -> (forall u v, sb_ders s u v <> Diverge) ->
   surface_inversion_dot dot solve s P e1 e2 mi <> Diverge).
Proof.
  intros Hm Hf; unfold surface_inversion_dot, surface_inversion_fuel_dot; split.
  - destruct (initial_guess_surf_dot dot s P) as [[u v]| |]; cbn [bind]; try reflexivity.
    destruct (get_surf_rows s u v) as [d| |]; cbn [bind]; try reflexivity.
    destruct (surf_res s P u v); cbn [bind]; try reflexivity.
    destruct (_ <=? e1)%num; [reflexivity|].
    destruct (surf_cos_dot dot _ _ (sr_u d) _); cbn [bind]; try reflexivity.
    destruct (surf_cos_dot dot _ _ (sr_v d) _); cbn [bind]; try reflexivity.
    destruct (_ && _); [reflexivity|].
    apply surf_loop_fuel_dot; lia.
  - intros Hp Hd; apply nd_bind; [apply nd_surf_guess_dot; exact Hp|intros [u v]].
    apply nd_bind; [apply nd_surf_rows; exact Hd|intros d].
    apply nd_bind; [apply nd_surf_res; exact Hp|intros r].
    destruct (_ <=? e1)%num; [discriminate|].
    do 2 (apply nd_bind; [apply nd_surf_cos_dot|intros ?]).
    destruct (_ && _); [discriminate|].
    apply nd_surf_loop_dot; try assumption; lia.
Qed.
End Open.
