(** Imports of the project with both repairs: all reachable states, by computation. *)
From Coq Require Import String.
From Verif Require Import Py PyLemmas ModelImport SpecImport ProofImport ProofImport2.
Open Scope string_scope.

Lemma in_project_flat numpy p r : In (p, r) (outcomes_flat numpy) -> In p (map fst project_flat).
Proof.
  intros H. assert (E : map fst project_flat = map fst (outcomes_flat numpy)) by reflexivity.
  rewrite E. now apply in_map with (f := fst) in H.
Qed.
(** [spline] and [fit] in one group, as fit/io/curve.py can be imported. *)
Definition one_group (S0 : list (path * source)) (numpy : bool) (tbl : list (path * res unit)) : bool :=
  groups_ok S0 (environment numpy) 12 (per_table tbl)
    (top "spline" ++ top "fit" ++ absent) [] (top "tests" ++ absent)
    (top "spline" ++ top "fit") [] [] (top "tests").
Lemma one_group_outcome S0 numpy tbl n l p r :
  one_group S0 numpy tbl = true -> faithful tbl = true ->
  (12 <= n)%nat -> Forall (fun q => In q (map fst S0)) l ->
  In p (map fst S0) -> In (p, r) tbl ->
  snd (import_module S0 (environment numpy) n
         (after S0 (environment numpy) n (nothing_loaded S0) l) p) = r.
Proof.
  intros C T L F I J. rewrite <- (faithful_in tbl p r T J).
  exact (good_outcome S0 (environment numpy) 12 (per_table tbl) _ _ _ _ _ _ _ C n l p L F I).
Qed.
Lemma one_group_ok : one_group project_flat true (outcomes_flat true) = true.
Proof. vm_cast_no_check (eq_refl true). Qed.
Lemma checked_flat_bare : checked project_flat false (outcomes_flat false) = true.
Proof. vm_cast_no_check (eq_refl true). Qed.
Lemma import_order_flat numpy n l p r :
  (12 <= n)%nat -> Forall (fun q => In q (map fst project_flat)) l ->
  In (p, r) (outcomes_flat numpy) ->
  snd (import_module project_flat (environment numpy) n
         (after project_flat (environment numpy) n (nothing_loaded project_flat) l) p) = r.
Proof.
  intros L F I. pose proof (in_project_flat _ _ _ I) as J. destruct numpy.
  - exact (one_group_outcome project_flat true (outcomes_flat true) n l p r one_group_ok eq_refl L F J I).
  - exact (checked_outcome project_flat false (outcomes_flat false) n l p r checked_flat_bare eq_refl L F J I).
Qed.

Lemma cut_class_app a uses c line inner b : Forall (fun m => match m with Cls _ _ _ _ => False | _ => True end) a ->
  cut_class (a ++ Cls uses c line inner :: b) = (a, Some (Cls uses c line b)).
Proof.
  induction 1 as [|m a Hm _ IH]; cbn [app cut_class]; [reflexivity|]; rewrite IH; destruct m; [reflexivity|destruct Hm].
Qed.
Lemma cut_class_none a : Forall (fun m => match m with Cls _ _ _ _ => False | _ => True end) a -> snd (cut_class a) = None.
Proof.
  induction 1 as [|m a Hm _ IH]; cbn [cut_class]; [reflexivity|]; destruct (cut_class a) as [x y]; destruct m; [exact IH|destruct Hm].
Qed.
Lemma dedent_class uses c line a : Forall (fun m => match m with Cls _ _ _ _ => False | _ => True end) a ->
  dedent (Member (Cls uses c line a)) = [Member (Cls uses c line a)] /\
  forall uses' c' line' inner b, dedent (Member (Cls uses c line (a ++ Cls uses' c' line' inner :: b))) = [Member (Cls uses c line a); Member (Cls uses' c' line' b)].
Proof.
  intros Ha; split.
  - cbn [dedent]; pose proof (cut_class_none a Ha) as N; destruct (cut_class a) as [x [m|]]; [discriminate N|reflexivity].
  - intros; cbn [dedent]; rewrite cut_class_app by exact Ha; reflexivity.
Qed.
