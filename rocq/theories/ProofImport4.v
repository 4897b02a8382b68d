(** Imports of the project: the names a module holds once it is imported. *)
From Coq Require Import String.
From Verif Require Import Py PyLemmas ModelImport SpecImport ProofImport ProofImport2 ProofImport3.
Open Scope string_scope.

Section Names.
Variables (S0 : list (path * source)) (O0 : path -> bool) (fuel : nat) (expected : path -> res unit).
Variables (DA DB DC mA mB mX mC : list path) (tbl : list (path * list string)).
Definition names_ok : bool :=
  subset (map fst tbl) mA &&
  forallb (fun st => forallb (fun x => entry_eqb (loaded (fst (import_module S0 O0 fuel st (fst x))) (fst x)) (Some (snd x))) tbl)
    (states (explored S0 O0 fuel mA)).
Hypothesis OK : groups_ok S0 O0 fuel expected DA DB DC mA mB mX mC = true.
Hypothesis NK : names_ok = true.
Lemma group_names n l p names : (fuel <= n)%nat -> Forall (fun q => In q (map fst S0)) l -> In p (map fst S0) -> In (p, names) tbl ->
  loaded (fst (import_module S0 O0 n (after S0 O0 n (nothing_loaded S0) l) p)) p = Some names.
Proof.
  intros L F I J. pose proof (good_run S0 O0 fuel expected DA DB DC mA mB mX mC OK n l L F) as G.
  destruct (good_step S0 O0 fuel expected DA DB DC mA mB mX mC OK _ p G I) as (_ & _ & E).
  rewrite (fuel_more S0 O0 fuel n L _ p E). set (st := after S0 O0 n (nothing_loaded S0) l) in *.
  apply andb_prop in NK as [NS NF]. destruct G as (_ & GA & _). apply states_in in GA.
  assert (M : In p mA) by (apply (subset_in _ _ NS); apply in_map with (f := fst) in J; exact J).
  assert (OK' := OK). unfold groups_ok in OK'. cbn zeta in OK'. repeat (apply andb_prop in OK' as [OK' ?]).
  assert (FP : footprint S0 O0 DA = true) by assumption.
  assert (D : In p DA) by (apply (subset_in mA); assumption).
  assert (R : reachable_in O0 DA p = true) by (unfold reachable_in; rewrite (in_inb _ _ D); apply orb_true_r).
  destruct (import_local S0 O0 DA FP fuel p st (mask DA st) R (mask_agree DA st)) as (_ & A & _).
  rewrite (agree_loaded DA _ _ p A D). rewrite forallb_forall in NF. specialize (NF _ GA). cbn beta in NF.
  rewrite forallb_forall in NF. specialize (NF _ J). cbn [fst snd] in NF.
  destruct (loaded _ p) as [e|]; cbn in NF; [|discriminate]. now rewrite (path_eqb_true _ _ NF).
Qed.
End Names.

Lemma names_project : names_ok project (environment true) 12 (top "spline") (module_contents false) = true.
Proof. vm_cast_no_check (eq_refl true). Qed.
Lemma names_flat : names_ok project_flat (environment true) 12 (top "spline" ++ top "fit") (module_contents true) = true.
Proof. vm_cast_no_check (eq_refl true). Qed.
Lemma checked_names S0 numpy tbl ctbl n l p names : checked S0 numpy tbl = true -> names_ok S0 (environment numpy) 12 (top "spline") ctbl = true ->
  subset (map fst ctbl) (map fst S0) = true -> (12 <= n)%nat -> Forall (fun q => In q (map fst S0)) l -> In (p, names) ctbl ->
  loaded (fst (import_module S0 (environment numpy) n (after S0 (environment numpy) n (nothing_loaded S0) l) p)) p = Some names.
Proof.
  intros C N U L F J. refine (group_names _ _ _ _ _ _ _ _ _ _ _ _ C N n l p names L F _ J).
  apply (subset_in _ _ U). apply in_map with (f := fst) in J. exact J.
Qed.
Lemma one_group_names S0 numpy tbl ctbl n l p names : one_group S0 numpy tbl = true -> names_ok S0 (environment numpy) 12 (top "spline" ++ top "fit") ctbl = true ->
  subset (map fst ctbl) (map fst S0) = true -> (12 <= n)%nat -> Forall (fun q => In q (map fst S0)) l -> In (p, names) ctbl ->
  loaded (fst (import_module S0 (environment numpy) n (after S0 (environment numpy) n (nothing_loaded S0) l) p)) p = Some names.
Proof.
  intros C N U L F J. refine (group_names _ _ _ _ _ _ _ _ _ _ _ _ C N n l p names L F _ J).
  apply (subset_in _ _ U). apply in_map with (f := fst) in J. exact J.
Qed.
Lemma import_names n l p names : (12 <= n)%nat ->
  (Forall (fun q => In q (map fst project)) l -> In (p, names) (module_contents false) ->
     loaded (fst (import_module project (environment true) n (after project (environment true) n (nothing_loaded project) l) p)) p = Some names) /\
  (Forall (fun q => In q (map fst project_flat)) l -> In (p, names) (module_contents true) ->
     loaded (fst (import_module project_flat (environment true) n (after project_flat (environment true) n (nothing_loaded project_flat) l) p)) p = Some names).
Proof.
  intros L. split; intros F J.
  - exact (checked_names project true (outcomes true) (module_contents false) n l p names checked_numpy names_project eq_refl L F J).
  - exact (one_group_names project_flat true (outcomes_flat true) (module_contents true) n l p names one_group_ok names_flat eq_refl L F J).
Qed.
