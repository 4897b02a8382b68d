(** Imports of the project: all reachable states, by computation. *)
From Coq Require Import String.
From Verif Require Import Py PyLemmas ModelImport SpecImport ProofImport.
Open Scope string_scope.

Lemma in_project numpy p r : In (p, r) (outcomes numpy) -> In p (map fst project).
Proof.
  intros H. assert (E : map fst project = map fst (outcomes numpy)) by reflexivity.
  rewrite E. now apply in_map with (f := fst) in H.
Qed.
Lemma in_project_abc numpy p r : In (p, r) (outcomes_abc numpy) -> In p (map fst project_abc).
Proof.
  intros H. assert (E : map fst project_abc = map fst (outcomes_abc numpy)) by reflexivity.
  rewrite E. now apply in_map with (f := fst) in H.
Qed.

Lemma module_listed numpy p :
  In p (map fst project) -> exists r, In (p, r) (outcomes numpy).
Proof.
  intros H. assert (E : map fst project = map fst (outcomes numpy)) by reflexivity.
  rewrite E in H. apply in_map_iff in H as ([q r] & <- & H). now exists r.
Qed.

(** The three packages; of the modules of [fit], only fit/io/curve.py uses
    [spline].  A footprint also lists what is looked for and not found. *)
Definition top (x : string) : list path :=
  filter (fun p => match p with y :: _ => String.eqb x y | [] => false end) (map fst project).
Definition absent : list path := [[]; ["numpy"]; ["pysplinefit"]].
Definition uses_spline (p : path) : bool := path_eqb p ["fit"; "io"; "curve"].
Definition only_fit : list path := filter (fun p => negb (uses_spline p)) (top "fit").
Definition checked (S0 : list (path * source)) (numpy : bool) (tbl : list (path * res unit)) : bool :=
  groups_ok S0 (environment numpy) 12 (per_table tbl)
    (top "spline" ++ absent) (only_fit ++ absent) (top "tests" ++ absent)
    (top "spline") only_fit [["fit"; "io"; "curve"]] (top "tests").
Lemma checked_numpy : checked project true (outcomes true) = true.
Proof. vm_cast_no_check (eq_refl true). Qed.
Lemma checked_bare : checked project false (outcomes false) = true.
Proof. vm_cast_no_check (eq_refl true). Qed.
Lemma checked_abc_numpy : checked project_abc true (outcomes_abc true) = true.
Proof. vm_cast_no_check (eq_refl true). Qed.
Lemma checked_abc_bare : checked project_abc false (outcomes_abc false) = true.
Proof. vm_cast_no_check (eq_refl true). Qed.

Lemma checked_outcome S0 numpy tbl n l p r :
  checked S0 numpy tbl = true -> faithful tbl = true ->
  (12 <= n)%nat -> Forall (fun q => In q (map fst S0)) l ->
  In p (map fst S0) -> In (p, r) tbl ->
  snd (import_module S0 (environment numpy) n
         (after S0 (environment numpy) n (nothing_loaded S0) l) p) = r.
Proof.
  intros C T L F I J. rewrite <- (faithful_in tbl p r T J).
  exact (good_outcome S0 (environment numpy) 12 (per_table tbl) _ _ _ _ _ _ _ C n l p L F I).
Qed.
Lemma import_order numpy n l p r :
  (12 <= n)%nat -> Forall (fun q => In q (map fst project)) l -> In (p, r) (outcomes numpy) ->
  snd (import_module project (environment numpy) n
         (after project (environment numpy) n (nothing_loaded project) l) p) = r.
Proof.
  intros L F I. pose proof (in_project _ _ _ I) as J. destruct numpy.
  - exact (checked_outcome project true (outcomes true) n l p r checked_numpy eq_refl L F J I).
  - exact (checked_outcome project false (outcomes false) n l p r checked_bare eq_refl L F J I).
Qed.
Lemma import_order_abc numpy n l p r :
  (12 <= n)%nat -> Forall (fun q => In q (map fst project_abc)) l ->
  In (p, r) (outcomes_abc numpy) ->
  snd (import_module project_abc (environment numpy) n
         (after project_abc (environment numpy) n (nothing_loaded project_abc) l) p) = r.
Proof.
  intros L F I. pose proof (in_project_abc _ _ _ I) as J. destruct numpy.
  - exact (checked_outcome project_abc true (outcomes_abc true) n l p r checked_abc_numpy eq_refl L F J I).
  - exact (checked_outcome project_abc false (outcomes_abc false) n l p r checked_abc_bare eq_refl L F J I).
Qed.
Lemma inside numpy p : In p (map fst project) -> environment numpy p = false.
Proof.
  intros H. cbn in H.
  repeat (destruct H as [H|H]; [subst; destruct numpy; reflexivity|]). destruct H.
Qed.
Lemma import_never numpy n l p r :
  (12 <= n)%nat -> Forall (fun q => In q (map fst project)) l -> In (p, r) (outcomes numpy) ->
  r <> Ok tt ->
  loaded (after project (environment numpy) n (nothing_loaded project) l) p = None.
Proof.
  intros L F I N. apply fails_unloaded with (S0 := project) (O0 := environment numpy) (n := n).
  - eapply inside, in_project, I.
  - lia.
  - rewrite (import_order numpy n l p r L F I). exact N.
Qed.
