(** The order of the data rows (model: ModelParam.v, ModelFit.v, ModelData.v). *)
From Coq Require Import Permutation Sorted Floats Reals Lra.
From Flocq Require Import Core BinarySingleNaN PrimFloat.
From Verif Require Import Py PyLemmas Num ModelKnots ModelBasis ModelCurve ModelSurface ModelInit ModelParam ModelFit ModelIO ModelData SpecB64 SpecSpecial SpecOrder
  ProofNum ProofCurve2 ProofParam2 ProofB64 ProofB64Span ProofSpecial.
Open Scope Z_scope.

(** ** Insertion sort on records that differ *)
Record sortable (K : Num) : Prop := mkSortable {
  so_asym : forall x y : K, sort_lt x y = true -> sort_lt y x = false;
  so_trans : forall x y z : K, sort_lt x y = true -> sort_lt y z = true -> sort_lt x z = true;
  so_eq : forall x y : K, one_zero x -> one_zero y -> sort_lt x y = false -> sort_lt y x = false -> x = y }.
Section Sort.
Context {K : Num}.
Hypothesis SK : sortable K.
Variables (w : nat) (order : list nat).
Hypothesis cover : forall i, (i < w)%nat -> In i order.
Definition record (r : list K) : Prop := length r = w /\ Forall one_zero r.
Lemma one_zero_0 : one_zero (0%num : K). Proof. intros _; reflexivity. Qed.
Lemma record_nth (r : list K) i : record r -> one_zero (nth i r 0%num).
Proof. intros (_ & H); destruct (Nat.lt_ge_cases i (length r)); [rewrite Forall_forall in H; apply H, nth_In; assumption|rewrite nth_overflow by assumption; apply one_zero_0]. Qed.
Lemma lt_cases (x y : K) : one_zero x -> one_zero y -> (sort_lt x y = true /\ sort_lt y x = false) \/ x = y \/ (sort_lt x y = false /\ sort_lt y x = true).
Proof.
  intros Gx Gy; destruct (sort_lt x y) eqn:E; [left; split; [reflexivity|apply (so_asym K SK); exact E]|].
  destruct (sort_lt y x) eqn:E'; [right; right; auto|right; left; apply (so_eq K SK); assumption].
Qed.
Lemma lt_irrefl (x : K) : sort_lt x x = false.
Proof. destruct (sort_lt x x) eqn:E; [pose proof (so_asym K SK _ _ E); congruence|reflexivity]. Qed.
Lemma rec_le_total o (a b : list K) : record a -> record b -> rec_le o a b = true \/ rec_le o b a = true.
Proof.
  intros Ra Rb; induction o as [|i t IH]; [left; reflexivity|]; cbn [rec_le].
  destruct (lt_cases (nth i a 0%num) (nth i b 0%num) (record_nth _ _ Ra) (record_nth _ _ Rb)) as [(-> & ->)|[E|(-> & ->)]]; auto; rewrite E, lt_irrefl; exact IH.
Qed.
Lemma rec_le_trans o (a b c : list K) : record a -> record b -> record c -> rec_le o a b = true -> rec_le o b c = true -> rec_le o a c = true.
Proof.
  intros Ra Rb Rc; induction o as [|i t IH]; [reflexivity|]; cbn [rec_le].
  destruct (lt_cases (nth i a 0%num) (nth i b 0%num) (record_nth _ _ Ra) (record_nth _ _ Rb)) as [(E1 & E2)|[E|(E1 & E2)]];
  destruct (lt_cases (nth i b 0%num) (nth i c 0%num) (record_nth _ _ Rb) (record_nth _ _ Rc)) as [(F1 & F2)|[F|(F1 & F2)]]; rewrite ?E1, ?E2, ?F1, ?F2; try discriminate.
  - rewrite (so_trans K SK _ _ _ E1 F1); reflexivity.
  - rewrite <- F, E1; reflexivity.
  - rewrite E, F1; reflexivity.
  - rewrite <- F, E, lt_irrefl; exact IH.
Qed.
Lemma rec_le_nth o (a b : list K) : record a -> record b -> rec_le o a b = true -> rec_le o b a = true -> forall i, In i o -> nth i a 0%num = nth i b 0%num.
Proof.
  intros Ra Rb; induction o as [|j t IH]; [contradiction|]; cbn [rec_le].
  destruct (lt_cases (nth j a 0%num) (nth j b 0%num) (record_nth _ _ Ra) (record_nth _ _ Rb)) as [(E1 & E2)|[E|(E1 & E2)]].
  - rewrite E1, E2; discriminate.
  - rewrite E, !lt_irrefl; intros H1 H2 i [<-|Hi]; [exact E|apply IH; assumption].
  - rewrite E1, E2; discriminate.
Qed.
Lemma rec_le_eq (a b : list K) : record a -> record b -> rec_le order a b = true -> rec_le order b a = true -> a = b.
Proof.
  intros Ra Rb H1 H2; pose proof (rec_le_nth _ _ _ Ra Rb H1 H2) as H; destruct Ra as (La & _), Rb as (Lb & _).
  apply (nth_ext _ _ 0%num 0%num); [congruence|]; intros i Hi; apply H, cover; lia.
Qed.
Lemma insert_record (r : list K) l : record r -> Forall record l -> Forall record (rec_insert order r l).
Proof. intros Hr Hl; eapply Permutation_Forall; [symmetry; apply rec_insert_perm|constructor; assumption]. Qed.
Lemma sort_record (l : list (list K)) : Forall record l -> Forall record (rec_sort order l).
Proof. intros H; eapply Permutation_Forall; [symmetry; apply rec_sort_perm|exact H]. Qed.
Lemma insert_before (a b : list K) l : record a -> record b -> Forall record l -> rec_le order a b = true -> rec_le order b a = false ->
  rec_insert order a (rec_insert order b l) = rec_insert order b (rec_insert order a l).
Proof.
  intros Ra Rb; induction l as [|x t IH]; intros Rl Hab Hba; cbn [rec_insert]; [rewrite Hab, Hba; reflexivity|].
  inversion Rl as [|? ? Rx Rt]; subst.
  destruct (rec_le order b x) eqn:Ebx.
  - rewrite (rec_le_trans _ _ _ _ Ra Rb Rx Hab Ebx); cbn [rec_insert]; rewrite Hab, Hba, Ebx; reflexivity.
  - cbn [rec_insert]; destruct (rec_le order a x) eqn:Eax; cbn [rec_insert]; rewrite ?Hba, ?Ebx; [reflexivity|].
    rewrite IH by assumption; reflexivity.
Qed.
Lemma insert_swap (a b : list K) l : record a -> record b -> Forall record l -> rec_insert order a (rec_insert order b l) = rec_insert order b (rec_insert order a l).
Proof.
  intros Ra Rb Rl; destruct (rec_le order a b) eqn:E1, (rec_le order b a) eqn:E2.
  - rewrite (rec_le_eq a b Ra Rb E1 E2); reflexivity.
  - apply insert_before; assumption.
  - symmetry; apply insert_before; assumption.
  - destruct (rec_le_total order a b Ra Rb); congruence.
Qed.
Lemma sort_unique (l l' : list (list K)) : Permutation l l' -> Forall record l -> rec_sort order l = rec_sort order l'.
Proof.
  induction 1 as [|x l l' H IH|x y l|l l1 l2 H1 IH1 H2 IH2]; intros R; cbn [rec_sort].
  - reflexivity.
  - inversion R; subst; rewrite IH by assumption; reflexivity.
  - inversion R as [|? ? Ry R']; subst; inversion R' as [|? ? Rx Rl]; subst; apply insert_swap; [assumption..|apply sort_record; exact Rl].
  - rewrite IH1 by exact R; apply IH2; eapply Permutation_Forall; eassumption.
Qed.
Lemma insert_first (r : list K) l : Forall (fun x => rec_le order r x = true) l -> rec_insert order r l = r :: l.
Proof. intros H; destruct l as [|x l]; cbn [rec_insert]; [reflexivity|]; inversion H as [|? ? E]; subst; rewrite E; reflexivity. Qed.
Lemma sort_sorted (l : list (list K)) : StronglySorted (fun a b => rec_le order a b = true) l -> rec_sort order l = l.
Proof. induction 1 as [|r l H IH F]; cbn [rec_sort]; [reflexivity|]; rewrite IH; apply insert_first; exact F. Qed.
Lemma sort_any (l s : list (list K)) : Forall record l -> Permutation l s -> StronglySorted (fun a b => rec_le order a b = true) s -> s = rec_sort order l.
Proof. intros R P S; rewrite (sort_unique l s P R); symmetry; apply sort_sorted; exact S. Qed.
Lemma insert_sorted (r : list K) l : record r -> Forall record l -> StronglySorted (fun a b => rec_le order a b = true) l -> StronglySorted (fun a b => rec_le order a b = true) (rec_insert order r l).
Proof.
  intros R F S; induction S as [|x l S IH G]; cbn [rec_insert]; [repeat constructor|].
  inversion F as [|? ? Rx Fl]; subst; destruct (rec_le order r x) eqn:E.
  - constructor; [constructor; assumption|]; constructor; [exact E|].
    rewrite Forall_forall in *; intros y Hy; apply (rec_le_trans order r x y); auto.
  - constructor; [apply IH; exact Fl|]; destruct (rec_le_total order r x R Rx) as [X|X]; [congruence|].
    clear - X G; induction l as [|y l IH]; cbn [rec_insert]; [constructor; [exact X|constructor]|].
    inversion G as [|? ? Gy Gl]; subst; destruct (rec_le order r y); [constructor; [exact X|exact G]|constructor; [exact Gy|apply IH; exact Gl]].
Qed.
Lemma sort_is_sorted (l : list (list K)) : Forall record l -> StronglySorted (fun a b => rec_le order a b = true) (rec_sort order l).
Proof.
  induction 1 as [|r l R F IH]; cbn [rec_sort]; [constructor|apply insert_sorted; [exact R|apply sort_record; exact F|exact IH]].
Qed.
End Sort.

(** ** Parameters are never -0 *)
Record tidy (K : Num) : Prop := mkTidy {
  ti_sort : sortable K;
  ti_one : one_zero (1%num : K);
  ti_samples : forall N, Forall one_zero (samples (K := K) N);
  ti_sub : forall x y : K, one_zero x -> one_zero (x - y)%num;
  ti_add : forall x y : K, one_zero y -> one_zero (x + y)%num }.
Section Params.
Context {K : Num}.
Hypothesis TK : tidy K.
Lemma range_keeps {S} (P : S -> Prop) a b (f : Z -> S -> res S) s s' : (forall i x y, P x -> f i x = Ok y -> P y) -> P s -> for_range a b f s = Ok s' -> P s'.
Proof.
  intros Hf; unfold for_range; generalize (zrange a b); intros l; revert s; induction l as [|i t IH]; intros s Hs; cbn [for_list]; [intros E; inversion E; subst; exact Hs|].
  destruct (f i s) as [y|e|] eqn:E; cbn [bind]; try discriminate; apply IH; eapply Hf; eassumption.
Qed.
Lemma guess_one_zero (c : curve_beh K) p u : initial_guess_curve c p = Ok u -> one_zero u.
Proof.
  unfold initial_guess_curve; pose proof (ti_samples K TK (2 * cb_count c)) as HS; rewrite Forall_forall in HS.
  destruct (aget _ 0) as [u0|e|] eqn:E0; cbn [bind]; try discriminate.
  destruct (for_range _ _ _ _) as [st|e|] eqn:E; cbn [bind]; try discriminate; intros H; inversion H; subst.
  apply (range_keeps (fun st => one_zero (snd st))) in E; [exact E| |exact (HS _ (aget_In _ _ _ E0))].
  intros i x y Hx; unfold guess_step; destruct (aget _ i) as [ei|e|] eqn:Ei; cbn [bind]; try discriminate.
  destruct (cb_point c ei); cbn [bind]; try discriminate; destruct (np_sub p _); cbn [bind]; try discriminate.
  intros H'; inversion H'; subst; destruct (_ <? _)%num; [exact (HS _ (aget_In _ _ _ Ei))|exact Hx].
Qed.
Lemma newton_one_zero (ui : K) pt d1 d2 p u : one_zero ui -> curve_newton ui pt d1 d2 p = Ok u -> one_zero u.
Proof.
  intros Hu; unfold curve_newton; destruct (np_sub pt p); cbn [bind]; try discriminate; destruct (matmul11 d1 _); cbn [bind]; try discriminate; destruct (matmul11 d2 _); cbn [bind]; try discriminate.
  intros H; inversion H; subst; destruct (_ <? 0)%num; [apply one_zero_0|]; destruct (1 <? _)%num; [apply (ti_one K TK)|apply (ti_sub K TK); exact Hu].
Qed.
Lemma loop_one_zero fuel (c : curve_beh K) p e1 e2 mi : forall j ui pt d1 d2 u, one_zero ui -> curve_loop fuel c p e1 e2 mi j ui pt d1 d2 = Ok u -> one_zero u.
Proof.
  induction fuel as [|f IH]; intros j ui pt d1 d2 u Hu; cbn [curve_loop]; [discriminate|].
  destruct (curve_newton ui pt d1 d2 p) as [un|e|] eqn:EN; cbn [bind]; try discriminate; pose proof (newton_one_zero _ _ _ _ _ _ Hu EN) as Hn.
  destruct (_ <=? e1)%num; [intros H; inversion H; subst; exact Hu|].
  destruct (curve_rows c un) as [[[pt' d1'] d2']|e|]; cbn [bind]; try discriminate.
  destruct (curve_dist c p un) as [q|e|]; cbn [bind]; try discriminate; destruct (q <=? e1)%num; [intros H; inversion H; subst; exact Hu|].
  destruct (curve_cos pt' d1' p) as [q2|e|]; cbn [bind]; try discriminate; destruct (q2 <=? e2)%num; [intros H; inversion H; subst; exact Hu|].
  destruct (mi <? j); [intros H; inversion H; subst; exact Hn|apply IH; exact Hn].
Qed.
Lemma inversion_one_zero (c : curve_beh K) p e1 e2 mi u : curve_inversion c p e1 e2 mi = Ok u -> one_zero u.
Proof.
  unfold curve_inversion, curve_inversion_fuel; destruct (initial_guess_curve c p) as [ui|e|] eqn:EG; cbn [bind]; try discriminate; pose proof (guess_one_zero _ _ _ EG) as Hu.
  destruct (curve_rows c ui) as [[[pt d1] d2]|e|]; cbn [bind]; try discriminate.
  destruct (curve_dist c p ui) as [q|e|]; cbn [bind]; try discriminate; destruct (q <=? e1)%num; [intros H; inversion H; subst; exact Hu|].
  destruct (curve_cos pt d1 p) as [q2|e|]; cbn [bind]; try discriminate; destruct (q2 <=? e2)%num; [intros H; inversion H; subst; exact Hu|apply loop_one_zero; exact Hu].
Qed.
Lemma guess2_one_zero (s : surf_beh K) p u v : initial_guess_surf s p = Ok (u, v) -> one_zero u /\ one_zero v.
Proof.
  unfold initial_guess_surf; pose proof (ti_samples K TK (2 * sb_nu s)) as HU; pose proof (ti_samples K TK (2 * sb_nv s)) as HV; rewrite Forall_forall in HU, HV.
  destruct (aget _ 0) as [u0|e|] eqn:E0; cbn [bind]; try discriminate; destruct (aget (samples (2 * sb_nv s)) 0) as [v0|e|] eqn:E1; cbn [bind]; try discriminate.
  destruct (for_range _ _ _ _) as [st|e|] eqn:E; cbn [bind]; try discriminate; intros H; inversion H; subst.
  apply (range_keeps (fun st => one_zero (snd (fst st)) /\ one_zero (snd st))) in E; [exact E| |exact (conj (HU _ (aget_In _ _ _ E0)) (HV _ (aget_In _ _ _ E1)))].
  intros i x y Hx Ey; apply (range_keeps (fun st => one_zero (snd (fst st)) /\ one_zero (snd st))) in Ey; [exact Ey| |exact Hx].
  clear - HU HV; intros j x y Hx; unfold guess_step2; destruct (aget _ i) as [ei|e|] eqn:Ei; cbn [bind]; try discriminate; destruct (aget _ j) as [ej|e|] eqn:Ej; cbn [bind]; try discriminate.
  destruct (sb_point s ei ej); cbn [bind]; try discriminate; destruct (np_sub p _); cbn [bind]; try discriminate.
  intros H'; inversion H'; subst; destruct (_ <? _)%num; [split; [exact (HU _ (aget_In _ _ _ Ei))|exact (HV _ (aget_In _ _ _ Ej))]|exact Hx].
Qed.
Lemma clamp_one_zero (x : K) : one_zero x -> one_zero (clamp01 x).
Proof. intros H; unfold clamp01; destruct (_ <? 0)%num; [apply one_zero_0|]; destruct (1 <? _)%num; [apply (ti_one K TK)|exact H]. Qed.
Lemma newton2_one_zero (s : surf_beh K) p ui vi d u v : one_zero ui -> one_zero vi -> surf_newton s p ui vi d = Ok (u, v) -> one_zero u /\ one_zero v.
Proof.
  intros Hu Hv; unfold surf_newton; destruct (surf_res s p ui vi); cbn [bind]; try discriminate.
  repeat (destruct (matmul11 _ _); cbn [bind]; try discriminate).
  destruct (inv2 _ _ _ _) as [[[[i00 i01] i10] i11]|e|]; cbn [bind]; try discriminate; intros H; inversion H; subst.
  split; apply clamp_one_zero, (ti_add K TK); assumption.
Qed.
Lemma loop2_one_zero fuel (s : surf_beh K) p e1 e2 mi : forall n ui vi d u v, one_zero ui -> one_zero vi -> surf_loop fuel s p e1 e2 mi n ui vi d = Ok (u, v) -> one_zero u /\ one_zero v.
Proof.
  induction fuel as [|f IH]; intros n ui vi d u v Hu Hv; cbn [surf_loop]; [discriminate|].
  destruct (surf_newton s p ui vi d) as [[un vn]|e|] eqn:EN; cbn [bind]; try discriminate; destruct (newton2_one_zero _ _ _ _ _ _ _ Hu Hv EN) as [Gu Gv].
  destruct (np_bin _ _ _) as [st|e|]; cbn [bind]; try discriminate; destruct (_ <=? e1)%num; [intros H; inversion H; subst; auto|].
  destruct (get_surf_rows s ui vi) as [d'|e|]; cbn [bind]; try discriminate; destruct (surf_res s p un vn) as [r|e|]; cbn [bind]; try discriminate.
  destruct (_ <=? e1)%num; [intros H; inversion H; subst; auto|].
  destruct (surf_cos (sr_u d') r) as [ca|e|]; cbn [bind]; try discriminate; destruct (surf_cos (sr_v d') r) as [cb|e|]; cbn [bind]; try discriminate.
  destruct (_ && _); [intros H; inversion H; subst; auto|]; destruct (mi <=? n); [intros H; inversion H; subst; auto|apply IH; assumption].
Qed.
Lemma inversion2_one_zero (s : surf_beh K) p e1 e2 mi u v : surface_inversion s p e1 e2 mi = Ok (u, v) -> one_zero u /\ one_zero v.
Proof.
  unfold surface_inversion, surface_inversion_fuel; destruct (initial_guess_surf s p) as [[ui vi]|e|] eqn:EG; cbn [bind]; try discriminate; destruct (guess2_one_zero _ _ _ _ EG) as [Hu Hv].
  destruct (get_surf_rows s ui vi) as [d|e|]; cbn [bind]; try discriminate; destruct (surf_res s p ui vi) as [r|e|]; cbn [bind]; try discriminate.
  destruct (_ <=? e1)%num; [intros H; inversion H; subst; auto|].
  destruct (surf_cos (sr_u d) r) as [ca|e|]; cbn [bind]; try discriminate; destruct (surf_cos (sr_v d) r) as [cb|e|]; cbn [bind]; try discriminate.
  destruct (_ && _); [intros H; inversion H; subst; auto|apply loop2_one_zero; assumption].
Qed.

(** ** Projections of reordered data *)
Lemma mapM_reordered {X Y} (f : X -> res Y) l l' ys : Permutation l l' -> mapM f l = Ok ys ->
  exists ys', mapM f l' = Ok ys' /\ Permutation (combine l ys) (combine l' ys').
Proof.
  intros HP; revert ys; induction HP as [|x l l' HP IH|x y l|l l1 l2 H1 IH1 H2 IH2]; intros ys; cbn [mapM].
  - intros E; inversion E; subst; exists []; split; reflexivity.
  - destruct (f x) as [fx|e|]; cbn [bind]; try discriminate; destruct (mapM f l) as [t|e|]; cbn [bind]; try discriminate.
    intros E; inversion E; subst; destruct (IH t eq_refl) as (t' & -> & Ht); cbn [bind]; exists (fx :: t'); split; [reflexivity|cbn [combine]; constructor; exact Ht].
  - destruct (f y) as [fy|e|]; cbn [bind]; try discriminate; destruct (f x) as [fx|e|]; cbn [bind]; try discriminate; destruct (mapM f l) as [t|e|]; cbn [bind]; try discriminate.
    intros E; inversion E; subst; exists (fx :: fy :: t); split; [reflexivity|cbn [combine]; apply perm_swap].
  - intros E; destruct (IH1 _ E) as (t1 & E1 & P1); destruct (IH2 _ E1) as (t2 & E2 & P2); exists t2; split; [exact E2|etransitivity; eassumption].
Qed.
Lemma parameterize_reordered (c : curve_beh K) d d' out : reordered d d' -> parameterize_curve c d = Ok out -> parameterize_curve c d' = Ok out.
Proof.
  intros (C & C' & HP & HF); unfold parameterize_curve; rewrite C, C'.
  destruct (mapM _ (dt_rows d)) as [us|e|] eqn:EM; cbn [bind]; try discriminate.
  destruct (mapM_reordered _ _ _ _ HP EM) as (us' & -> & HC); cbn [bind].
  set (g := fun t : list K * K => fst t ++ [snd t]).
  assert (R : Forall (record 4) (map g (combine (dt_rows d) us))).
  { apply Forall_forall; intros r Hr; apply in_map_iff in Hr; destruct Hr as ([a u] & <- & Hau); unfold g; cbn [fst snd].
    rewrite Forall_forall in HF; destruct (HF a (in_combine_l _ _ _ _ Hau)) as (La & Ga).
    apply mapM_spec in EM; assert (Gu : one_zero u).
    { clear - EM Hau TK; induction EM as [|x y l ys E EM IH]; [contradiction|]; destruct Hau as [H|H]; [inversion H; subst; eapply inversion_one_zero; exact E|auto]. }
    split; [rewrite app_length, La; reflexivity|apply Forall_app; auto]. }
  assert (R' : Forall (record 4) (map g (combine (dt_rows d') us'))) by (eapply Permutation_Forall; [apply Permutation_map; exact HC|exact R]).
  pose proof (fun (m : list (list K)) H => sort_view_rows 4 [3%nat; 0%nat; 1%nat; 2%nat] m ltac:(lia) H) as SV; change (Z.of_nat 4) with 4 in SV; change (3 + 1) with 4.
  rewrite !SV by (eapply Forall_impl; [|eassumption]; intros ? []; assumption).
  rewrite (sort_unique (ti_sort K TK) 4 [3%nat; 0%nat; 1%nat; 2%nat] ltac:(intros i Hi; cbn [In]; lia) _ _ (Permutation_map g HC) R); auto.
Qed.
Lemma parameterize2_reordered (s : surf_beh K) d d' out : reordered d d' -> parameterize_surface s d = Ok out -> parameterize_surface s d' = Ok out.
Proof.
  intros (C & C' & HP & HF); unfold parameterize_surface; rewrite C, C'.
  destruct (mapM _ (dt_rows d)) as [us|e|] eqn:EM; cbn [bind]; try discriminate.
  destruct (mapM_reordered _ _ _ _ HP EM) as (us' & -> & HC); cbn [bind].
  set (g := fun t : list K * (K * K) => fst t ++ [fst (snd t); snd (snd t)]).
  assert (R : Forall (record 5) (map g (combine (dt_rows d) us))).
  { apply Forall_forall; intros r Hr; apply in_map_iff in Hr; destruct Hr as ([a u] & <- & Hau); unfold g; cbn [fst snd].
    rewrite Forall_forall in HF; destruct (HF a (in_combine_l _ _ _ _ Hau)) as (La & Ga).
    apply mapM_spec in EM; assert (Gu : one_zero (fst u) /\ one_zero (snd u)).
    { clear - EM Hau TK; induction EM as [|x y l ys E EM IH]; [contradiction|]; destruct Hau as [H|H]; [inversion H; subst; destruct u; eapply inversion2_one_zero; exact E|auto]. }
    split; [rewrite app_length, La; reflexivity|apply Forall_app; split; [exact Ga|repeat constructor; apply Gu]]. }
  assert (R' : Forall (record 5) (map g (combine (dt_rows d') us'))) by (eapply Permutation_Forall; [apply Permutation_map; exact HC|exact R]).
  pose proof (fun (m : list (list K)) H => sort_view_rows 5 [3%nat; 4%nat; 0%nat; 1%nat; 2%nat] m ltac:(lia) H) as SV; change (Z.of_nat 5) with 5 in SV; change (3 + 2) with 5.
  rewrite !SV by (eapply Forall_impl; [|eassumption]; intros ? []; assumption).
  rewrite (sort_unique (ti_sort K TK) 5 [3%nat; 4%nat; 0%nat; 1%nat; 2%nat] ltac:(intros i Hi; cbn [In]; lia) _ _ (Permutation_map g HC) R); auto.
Qed.
End Params.
