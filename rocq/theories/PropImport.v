(** C64: which modules of the project can be imported. *)
From Coq Require Import String.
From Verif Require Import Py PyLemmas ModelImport SpecImport ProofImport ProofImport2 ProofImport3 ProofImport4 ProofImport5.
Open Scope string_scope.

(** Whatever modules of the project a process has tried to import before, and
    in whatever order, importing a module gives the outcome in the table. *)
Theorem C64_import_order : forall numpy n l p r,
  (12 <= n)%nat -> Forall (fun q => In q (map fst project)) l -> In (p, r) (outcomes numpy) ->
  snd (import_module project (environment numpy) n
         (after project (environment numpy) n (nothing_loaded project) l) p) = r.
Proof. exact import_order. Qed.
Print Assumptions C64_import_order.
Example C64_import_order_ex :
  Forall (fun q => In q (map fst project))
    [["spline"; "model"; "bspline"]; ["fit"; "io"; "curve"]; ["spline"; "algorithms"; "knots"]] /\
  In (["spline"; "model"; "bspline"], Err NameError) (outcomes true) /\
  In (["spline"; "algorithms"; "knots"], Ok tt) (outcomes true) /\
  In (["spline"; "model"; "bspline"], Err ModuleNotFoundError) (outcomes false).
Proof.
  split; [repeat (apply Forall_cons; [cbn; intuition|]); apply Forall_nil|].
  cbn; intuition.
Qed.

(** The table speaks about every module. *)
Theorem C64_every_module : forall numpy p,
  In p (map fst project) <-> exists r, In (p, r) (outcomes numpy).
Proof.
  intros numpy p. split.
  - exact (module_listed numpy p).
  - intros [r H]. exact (in_project numpy p r H).
Qed.
Print Assumptions C64_every_module.

(** A module that fails is never left half-imported. *)
Theorem C64_never_loaded : forall numpy n l p r,
  (12 <= n)%nat -> Forall (fun q => In q (map fst project)) l -> In (p, r) (outcomes numpy) ->
  r <> Ok tt ->
  loaded (after project (environment numpy) n (nothing_loaded project) l) p = None.
Proof. exact import_never. Qed.
Print Assumptions C64_never_loaded.
Example C64_never_loaded_ex :
  In (["fit"; "io"; "curve"], Err NameError) (outcomes true) /\
  loaded (after project (environment true) 12 (nothing_loaded project)
            [["fit"; "io"; "curve"]; ["spline"; "util"; "validation"]])
         ["spline"; "util"; "validation"] = Some ["__file__"; "validate_knot"].
Proof. split; [cbn; intuition|vm_compute; reflexivity]. Qed.

(** Importing [abc] in the base modules is not enough: the surface base class is
    nested in the curve base class, so that bspline.py cannot import it. *)
Theorem C64_abc_not_enough : forall numpy n l p r,
  (12 <= n)%nat -> Forall (fun q => In q (map fst project_abc)) l ->
  In (p, r) (outcomes_abc numpy) ->
  snd (import_module project_abc (environment numpy) n
         (after project_abc (environment numpy) n (nothing_loaded project_abc) l) p) = r.
Proof. exact import_order_abc. Qed.
Print Assumptions C64_abc_not_enough.
Example C64_abc_not_enough_ex :
  In (["spline"; "model"; "base_geometry"], Ok tt) (outcomes_abc true) /\
  In (["spline"; "model"; "bspline"], Err ImportError) (outcomes_abc true) /\
  In (["fit"; "io"; "curve"], Err ImportError) (outcomes_abc true).
Proof. repeat split; vm_compute; intuition. Qed.

(** With that class moved out of it, too, bspline.py and fit/io/curve.py can be
    imported; the modules with relative imports and the tests still cannot. *)
Theorem C64_dedent : forall numpy n l p r,
  (12 <= n)%nat -> Forall (fun q => In q (map fst project_flat)) l ->
  In (p, r) (outcomes_flat numpy) ->
  snd (import_module project_flat (environment numpy) n
         (after project_flat (environment numpy) n (nothing_loaded project_flat) l) p) = r.
Proof. exact import_order_flat. Qed.
Print Assumptions C64_dedent.
(** What "moved out" means: the definitions before the nested class statement
    stay, those after it become the body of a class of their own. *)
Theorem C64_dedent_class : forall uses c line a, Forall (fun m => match m with Cls _ _ _ _ => False | _ => True end) a ->
  dedent (Member (Cls uses c line a)) = [Member (Cls uses c line a)] /\
  forall uses' c' line' inner b, dedent (Member (Cls uses c line (a ++ Cls uses' c' line' inner :: b))) = [Member (Cls uses c line a); Member (Cls uses' c' line' b)].
Proof. exact dedent_class. Qed.
Print Assumptions C64_dedent_class.
Example C64_dedent_class_ex :
  Forall (fun m => match m with Cls _ _ _ _ => False | _ => True end) [Fun [] "__init__" 53; Fun ["property"] "degree" 60] /\
  exists rest, dedent (Member (Cls [] "SplineCurve" 48 [Fun [] "__init__" 53; Cls [] "SplineSurface" 157 []; Fun [] "degree_u" 190])) = Member (Cls [] "SplineCurve" 48 [Fun [] "__init__" 53]) :: rest /\
    rest = [Member (Cls [] "SplineSurface" 157 [Fun [] "degree_u" 190])].
Proof. split; [repeat constructor|]; eexists; split; reflexivity. Qed.
Example C64_dedent_ex :
  In (["spline"; "model"; "bspline"], Ok tt) (outcomes_flat true) /\
  In (["fit"; "io"; "curve"], Ok tt) (outcomes_flat true) /\
  In (["fit"; "model"; "base_data"], Err ImportError) (outcomes_flat true) /\
  loaded (after project_flat (environment true) 12 (nothing_loaded project_flat) [["fit"; "io"; "curve"]])
    ["spline"; "model"; "base_geometry"] = Some ["ABC"; "SplineCurve"; "SplineGeometry"; "SplineSurface"; "__file__"; "abc"].
Proof. repeat split; vm_compute; intuition. Qed.

(** Once a source file is imported, at whatever point, exactly the names in the table
    can be imported from it, in the project as it is and with both repairs. *)
Theorem C64_contents : forall n l p names, (12 <= n)%nat ->
  (Forall (fun q => In q (map fst project)) l -> In (p, names) (module_contents false) ->
     loaded (fst (import_module project (environment true) n (after project (environment true) n (nothing_loaded project) l) p)) p = Some names) /\
  (Forall (fun q => In q (map fst project_flat)) l -> In (p, names) (module_contents true) ->
     loaded (fst (import_module project_flat (environment true) n (after project_flat (environment true) n (nothing_loaded project_flat) l) p)) p = Some names).
Proof. exact import_names. Qed.
Print Assumptions C64_contents.
Example C64_contents_ex :
  Forall (fun q => In q (map fst project)) [["fit"; "io"; "curve"]; ["spline"; "algorithms"; "knots"]] /\
  In (["spline"; "util"; "validation"], ["__file__"; "validate_knot"]) (module_contents false) /\ List.length (module_contents true) = 7%nat.
Proof. split; [repeat (apply Forall_cons; [cbn; intuition|]); apply Forall_nil|split; [cbn; intuition|reflexivity]]. Qed.

(** The modules with relative imports could be imported if, and only if, their packages
    held the names they ask for. *)
Theorem C64_needed : forall n e, (12 <= n)%nat ->
  (forall p req, In (p, req) package_needs ->
     snd (import_module project (environment true) n (package_holding p e) p) = if forallb (fun x => mem x e) req then Ok tt else Err ImportError) /\
  (mem "parameterize" e = true -> mem "initialization" e = true -> let p := ["fit"; "algorithms"; "fitting"] in
     snd (import_module project (environment true) n (package_holding p e) p) =
       if forallb (fun x => mem x e) ["np"; "basis"; "spline"] then Ok tt else Err ImportError).
Proof.
  intros n e L. split; [intros p req; exact (needs n e p req L)|]. intros P I p. unfold p. rewrite (needs_fitting n e L P I). cbn [forallb]. rewrite P, I. reflexivity.
Qed.
Print Assumptions C64_needed.
Example C64_needed_ex :
  snd (import_module project (environment true) 12 (package_holding ["fit"; "io"; "text"] ["np"; "spatial"; "meshio"]) ["fit"; "io"; "text"]) = Ok tt /\
  snd (import_module project (environment true) 12 (package_holding ["fit"; "io"; "text"] ["np"; "meshio"]) ["fit"; "io"; "text"]) = Err ImportError.
Proof. split; vm_compute; reflexivity. Qed.

(** More steps never change an outcome, whatever the project. *)
Theorem C64_fuel : forall sources outside k n st p,
  (k <= n)%nat -> snd (import_module sources outside k st p) <> Diverge ->
  import_module sources outside n st p = import_module sources outside k st p.
Proof. intros S0 O0 k n st p L. exact (fuel_more S0 O0 k n L st p). Qed.
Print Assumptions C64_fuel.
Example C64_fuel_ex :
  snd (import_module project (environment true) 6 (nothing_loaded project)
         ["fit"; "io"; "curve"]) = Err NameError.
Proof. vm_compute. reflexivity. Qed.
