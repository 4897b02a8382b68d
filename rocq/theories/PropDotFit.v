(** C127: fits when the order of the additions in the dot products, norms and sums of
    numpy is left open. *)
From Coq Require Import Reals Lra Lia ZArith List Floats Permutation.
From Verif Require Import Py PyLemmas Num ModelKnots ModelBasis ModelCurve ModelSurface ModelInit ModelParam ModelFit ModelDot ModelDotParam ModelDotFit Spec SpecFit SpecB64 SpecDot SpecOrder
  ProofB64Unity ProofDot4 ProofDotParam4 ProofDotFit ProofDotFit2 PropB64 PropFit PropB64Adapt PropB64One PropOrder Examples.
Import ListNotations.
Open Scope R_scope.

(** From left to right this is the model of C51-C56 and C65. *)
Theorem C127_left_to_right : forall (K : Num) (cl : curve_class K) sv (c : curve_obj K) (s : surf K) data num top bot,
  let dot := fun _ : list Z => @vdot K in let sum := fun _ : list Z => @nsum K in
  fit_curve_knot_insertion_dot dot sum dot (fun _ => cl_beh cl) cl sv c data num = fit_curve_knot_insertion cl sv c data num /\
  fit_curve_fixed_ctrlpts_dot dot sum dot (fun _ => cl_beh cl) cl sv c data = fit_curve_fixed_ctrlpts cl sv c data /\
  fit_surface_dot dot solve_lu sum dot beh_of_surf sv s data top bot = fit_surface sv s data top bot.
Proof. exact @fits_left. Qed.
Print Assumptions C127_left_to_right.

(** The adaptive fit on doubles, for dot products, sums and solvers that return
    anything: number of control points, knots and ends as in C93. *)
Theorem C127_adaptive : forall dot sum prod beh sv data p num (c c' : curve_obj Binary64) (U : list PrimFloat.float) (P : list (list PrimFloat.float)),
  (1 <= p)%nat -> (num <= Z.of_nat p + 65536)%Z ->
  Forall (fun r => length r = 3%nat) P -> length P = S p -> Forall finite64 U -> values U = repeat 0 (S p) ++ repeat 1 (S p) ->
  c_degree c = Some (Z.of_nat p) -> c_ctrl c = Some P -> c_kv c = Some U ->
  fit_curve_knot_insertion_dot dot sum prod beh working_class sv c data num = Ok c' ->
  exists k (T : list PrimFloat.float) (Q : list (list PrimFloat.float)),
    c' = mkCurve (K := Binary64) (Some (Z.of_nat p)) (Some Q) (Some T) 0 /\
    (len Q = Z.of_nat p + 2 ^ Z.of_nat k)%Z /\ (num <= len Q)%Z /\ (k = 0%nat \/ (Z.of_nat p + 2 ^ Z.of_nat (k - 1) < num)%Z) /\
    nth 0 Q [] = nth 0 P [] /\ last Q [] = last P [] /\ Forall (fun r => length r = 3%nat) Q /\
    Forall finite64 T /\ (len T = len Q + Z.of_nat p + 1)%Z /\
    (forall i, (0 <= i < len T)%Z ->
       kn (values T) i = if (i <=? Z.of_nat p)%Z then 0 else if (len Q <=? i)%Z then 1 else IZR (i - Z.of_nat p) / IZR (2 ^ Z.of_nat k)).
Proof. exact adaptive_fit_dot64. Qed.
Print Assumptions C127_adaptive.
(** At most [num] rounds. *)
Theorem C127_rounds : forall (K : Num) dot sum prod beh sv (c : curve_obj K) data num p P fuel, c_degree c = Some p -> c_ctrl c = Some P ->
  (p + 1 <= zlen P)%Z -> (Z.to_nat num < fuel)%nat ->
  fit_curve_knot_insertion_fuel_dot dot sum prod beh fuel working_class sv c data num = fit_curve_knot_insertion_dot dot sum prod beh working_class sv c data num.
Proof. exact @insertion_dot_rounds. Qed.
Print Assumptions C127_rounds.
(** The fit with a given number of control points. *)
Theorem C127_fixed : forall (K : Num) dot sum prod beh sv (c c' : curve_obj K) data p P, c_degree c = Some p -> c_ctrl c = Some P ->
  Forall (fun r => length r = 3%nat) P ->
  fit_curve_fixed_ctrlpts_dot dot sum prod beh working_class sv c data = Ok c' ->
  exists Q kv, c_kv c = Some kv /\ c' = mkCurve (Some p) (Some Q) (Some kv) 0 /\ length Q = length P /\
    Forall (fun r => length r = 3%nat) Q /\ nth 0 Q [] = nth 0 P [] /\ last Q [] = last P [].
Proof. exact @fixed_dot_keeps. Qed.
Print Assumptions C127_fixed.
(** The surface fit. *)
Theorem C127_surface : forall (K : Num) dot solve sum prod sbeh sv (s s' : surf K) data top bottom nu nv, s_nu s = Z.of_nat nu -> s_nv s = Z.of_nat nv ->
  (1 <= nu)%nat -> (1 <= nv)%nat -> length (s_ctrl s) = (nu * nv)%nat -> Forall (fun r => length r = 3%nat) (s_ctrl s) ->
  fit_surface_dot dot solve sum prod sbeh sv s data top bottom = Ok s' ->
  exists Q, s' = mkSurf (s_pu s) (s_pv s) (s_nu s) (s_nv s) Q (s_ku s) (s_kv s) /\ length Q = (nu * nv)%nat /\ Forall (fun r => length r = 3%nat) Q /\
    forall i j, (i < nu)%nat -> (j < nv)%nat -> i = 0%nat \/ i = (nu - 1)%nat \/ j = 0%nat \/ j = (nv - 1)%nat ->
      nth (i * nv + j) Q [] = nth (i * nv + j) (s_ctrl s) [].
Proof. exact @fit_surface_dot_any. Qed.
Print Assumptions C127_surface.

(** Other ways to add, and a data set. *)
Definition sum_reversed (_ : list Z) (l : list PrimFloat.float) : PrimFloat.float := nsum (K := Binary64) (rev l).
Definition curve_reversed (_ : Z) : curve_obj Binary64 -> curve_beh Binary64 := beh_of_curve_dot (K := Binary64) (fun _ => dot_reversed) (fun _ => dot_reversed).
Definition wild : data_array Binary64 := mkData (K := Binary64) 3 [[0.125; 0.3125; 0.6875]; [0.5625; 0.6875; 0.1875]; [1.125; 1.3125; 0.9375]; [1.6875; 0.9375; 0.3125]; [1.9375; 0.1875; 0.125]]%float.
Example C127_example :
  match fit_curve_knot_insertion_dot (K := Binary64) dot_reversed sum_reversed dot_reversed curve_reversed working_class (gs_solver Binary64) fC wild 5 with
  | Ok c' => option_map (fun T => (zlen T, forallb (fun xy => (fst xy =? snd xy)%float) (combine T [0; 0; 0; 0.25; 0.5; 0.75; 1; 1; 1]%float))) (c_kv c')
  | _ => None end = Some (9%Z, true) /\
  match fit_curve_fixed_ctrlpts_dot (K := Binary64) dot_reversed sum_reversed dot_reversed curve_reversed working_class (gs_solver Binary64) flat_curve wild with Ok _ => true | _ => false end = true /\
  (let s := sheet 2 [0; 0; 0; 1; 1; 1]%float in let far := mkData (K := Binary64) 4 [[0; 0; 1000; 0.5]; [1; 1; 1000; 0.75]]%float in
   match middle (fit_surface_dot (K := Binary64) dot_reversed solve_lu sum_reversed dot_reversed (beh_of_surf_dot (K := Binary64) (fun _ _ => dot_reversed) (fun _ _ => dot_reversed)) (gs_solver Binary64) s bump (Some far) (Some far)) with
   | Some z => (3.875 <? z)%float && (z <? 3.90625)%float | None => false end = true).
Proof. split; [vm_compute; reflexivity|]; split; vm_compute; reflexivity. Qed.

(** ** The partition-of-unity check *)
(** As C92, with every sum added in an order of its own. *)
Theorem C127_check_curve : forall sum prod call sv (c : curve_obj Binary64) p (U : list PrimFloat.float) (P rows : list (list PrimFloat.float)),
  (forall site l, added64 l (sum site l)) ->
  within 0 1 U -> tight (Z.of_nat p) (len P) (values U) ->
  (forall j, kn (values U) j < kn (values U) (j + 1) -> / 2 ^ 500 <= kn (values U) (j + 1) - kn (values U) j) ->
  INR (length P) <= 2 ^ 30 -> INR (length rows) <= 2 ^ 30 ->
  c_degree c = Some (Z.of_nat p) -> c_ctrl c = Some P -> c_kv c = Some U ->
  Forall (fun r => length r = 3%nat) P -> Forall (fun r => length r = 4%nat) rows ->
  let strays := INR (curve_strays64 (kn (values U) (Z.of_nat p)) (kn (values U) (len P)) rows) in
  (12/1000000 * INR (length rows) < strays -> forall set, single_fit_curve_dot (K := Binary64) sum prod call set sv c rows = Err ValueError) /\
  (strays <= 8/1000000 * INR (length rows) ->
    (forall set e, (forall M, sv_cond sv M = Err e) -> single_fit_curve_dot (K := Binary64) sum prod call set sv c rows = Err e) /\
    ((forall M, exists x, sv_cond sv M = Ok x) -> (forall n A b, exists y, sv_lstsq sv (Z.of_nat n) A b = Ok y /\ length y = n) ->
     exists P', single_fit_curve_dot (K := Binary64) sum prod call store_ctrl sv c rows = Ok (mkCurve (c_degree c) (Some P') (c_kv c) (c_dim c)) /\
       length P' = length P /\ Forall (fun r => length r = 3%nat) P' /\ nth 0 P' [] = nth 0 P [] /\ last P' [] = last P [])).
Proof. exact single_dot_b64. Qed.
Print Assumptions C127_check_curve.
Theorem C127_check_surface : forall sum prod call sv p q nu nv (U V : list PrimFloat.float) (P rows : list (list PrimFloat.float)),
  (forall site l, added64 l (sum site l)) ->
  within 0 1 U -> within 0 1 V -> tight (Z.of_nat p) (Z.of_nat nu) (values U) -> tight (Z.of_nat q) (Z.of_nat nv) (values V) ->
  (forall j, kn (values U) j < kn (values U) (j + 1) -> / 2 ^ 500 <= kn (values U) (j + 1) - kn (values U) j) ->
  (forall j, kn (values V) j < kn (values V) (j + 1) -> / 2 ^ 500 <= kn (values V) (j + 1) - kn (values V) j) ->
  length P = (nu * nv)%nat -> INR (length P) <= 2 ^ 30 -> INR (length rows) <= 2 ^ 30 ->
  Forall (fun r => length r = 3%nat) P -> Forall (fun r => length r = 5%nat) rows ->
  let strays := INR (surf_strays64 (kn (values U) (Z.of_nat p)) (kn (values U) (Z.of_nat nu)) (kn (values V) (Z.of_nat q)) (kn (values V) (Z.of_nat nv)) rows) in
  let run := single_fit_surface_dot (K := Binary64) sum prod call sv (mkSurf (K := Binary64) (Z.of_nat p) (Z.of_nat q) (Z.of_nat nu) (Z.of_nat nv) P U V) rows in
  (12/1000000 * INR (length rows) < strays -> run = Err ValueError) /\
  (strays <= 8/1000000 * INR (length rows) ->
    (forall e, (forall M, sv_cond sv M = Err e) -> run = Err e) /\
    ((forall M, exists x, sv_cond sv M = Ok x) -> (forall n A b, exists y, sv_lstsq sv (Z.of_nat n) A b = Ok y /\ length y = n) ->
     exists P', run = Ok (mkSurf (K := Binary64) (Z.of_nat p) (Z.of_nat q) (Z.of_nat nu) (Z.of_nat nv) P' U V) /\
       length P' = length P /\ Forall (fun r => length r = 3%nat) P' /\
       forall i j, (i < nu)%nat -> (j < nv)%nat -> i = 0%nat \/ i = (nu - 1)%nat \/ j = 0%nat \/ j = (nv - 1)%nat ->
         nth (i * nv + j) P' [] = nth (i * nv + j) P [])).
Proof. exact single_surface_dot_b64. Qed.
Print Assumptions C127_check_surface.
(** A round of a fit: once the points of the data have been projected to a curve of
    the library, with dot products of any values, the check passes, and with a solver
    that answers the fit succeeds. *)
Theorem C127_round : forall dot sum prod beh pd dd call sv (c : curve_obj Binary64) p (U : list PrimFloat.float) (P data rows : list (list PrimFloat.float)),
  (forall site l, added64 l (sum site l)) ->
  within 0 1 U -> tight (Z.of_nat p) (len P) (values U) -> kn (values U) (Z.of_nat p) = 0 -> kn (values U) (len P) = 1 ->
  (forall j, kn (values U) j < kn (values U) (j + 1) -> / 2 ^ 500 <= kn (values U) (j + 1) - kn (values U) j) ->
  INR (length P) <= 2 ^ 30 -> INR (length data) <= 2 ^ 30 ->
  c_degree c = Some (Z.of_nat p) -> c_ctrl c = Some P -> c_kv c = Some U ->
  Forall (fun r => length r = 3%nat) P -> Forall (fun r => length r = 3%nat /\ Forall finite64 r) data ->
  beh call c = beh_of_curve_dot pd dd c ->
  project (K := Binary64) dot beh call c (mkData (K := Binary64) 3 data) = Ok rows ->
  (forall M, exists x, sv_cond sv M = Ok x) -> (forall n A b, exists y, sv_lstsq sv (Z.of_nat n) A b = Ok y /\ length y = n) ->
  exists P', single_fit_curve_dot (K := Binary64) sum prod call store_ctrl sv c rows = Ok (mkCurve (c_degree c) (Some P') (c_kv c) (c_dim c)) /\
    length P' = length P /\ Forall (fun r => length r = 3%nat) P' /\ nth 0 P' [] = nth 0 P [] /\ last P' [] = last P [].
Proof. exact round_dot64. Qed.
Print Assumptions C127_round.
(** The hypotheses on knots, rows and solver are those of C92_example. *)
Example C127_round_example : (forall site l, added64 l (sum_reversed site l)) /\
  kn (values fU) (Z.of_nat 2) = 0 /\ kn (values fU) (len fP) = 1 /\ Forall (fun r => length r = 3%nat /\ Forall finite64 r) (dt_rows wild) /\
  exists rows, project (K := Binary64) dot_reversed curve_reversed 0 fcurve (mkData (K := Binary64) 3 (dt_rows wild)) = Ok rows /\ length rows = 5%nat.
Proof.
  split; [intros site l; unfold sum_reversed; eapply added_perm; [apply Permutation_sym, Permutation_rev|apply nsum_added]|].
  split; [kn_eval; lra|]; split; [kn_eval; lra|].
  split; [unfold wild; cbn [dt_rows]; repeat (apply Forall_cons; [split; [reflexivity|repeat (apply Forall_cons; [vm_compute; exact I|]); apply Forall_nil]|]); apply Forall_nil|].
  assert (H : match project (K := Binary64) dot_reversed curve_reversed 0 fcurve (mkData (K := Binary64) 3 (dt_rows wild)) with Ok r => (length r =? 5)%nat | _ => false end = true) by (vm_compute; reflexivity).
  destruct (project _ _ _ _ _) as [rows|e|]; [|discriminate H|discriminate H]; exists rows; split; [reflexivity|apply Nat.eqb_eq; exact H].
Qed.

(** ** The order of the data *)
Theorem C127_data_order : forall K : Num, K = Exact \/ K = Binary64 -> forall d d' : data_array K, reordered d d' ->
  forall dot solve sum prod beh sbeh (cl : curve_class K) (sv : solver K),
  (forall c num r, fit_curve_knot_insertion_dot dot sum prod beh cl sv c d num = Ok r <-> fit_curve_knot_insertion_dot dot sum prod beh cl sv c d' num = Ok r) /\
  (forall c r, fit_curve_fixed_ctrlpts_dot dot sum prod beh cl sv c d = Ok r <-> fit_curve_fixed_ctrlpts_dot dot sum prod beh cl sv c d' = Ok r) /\
  (forall s top bot r, fit_surface_dot dot solve sum prod sbeh sv s d top bot = Ok r <-> fit_surface_dot dot solve sum prod sbeh sv s d' top bot = Ok r).
Proof. exact @fits_dot_order. Qed.
Print Assumptions C127_data_order.
Definition first_coordinates (r : res (curve_obj Binary64)) : list PrimFloat.float := match r with Ok c => match c_ctrl c with Some P => map (fun x => nth 0 x nan) P | None => [] end | _ => [] end.
Example C127_data_order_example : reordered arch shuffled /\
  let fit d := first_coordinates (fit_curve_knot_insertion_dot (K := Binary64) dot_reversed sum_reversed dot_reversed curve_reversed working_class (gs_solver Binary64) fC d 5) in
  (length (fit arch) = 6%nat /\ forallb (fun xy => (fst xy =? snd xy)%float) (combine (fit arch) (fit shuffled)) = true /\ length (fit shuffled) = 6%nat).
Proof. split; [exact (proj1 C123_example)|split; [vm_compute; reflexivity|split; vm_compute; reflexivity]]. Qed.

(** The digits of the fit depend on the order of the additions. *)
Definition second_x (r : res (curve_obj Binary64)) : PrimFloat.float := match r with Ok c => match c_ctrl c with Some P => nth 0 (nth 1 P []) nan | None => nan end | _ => nan end.
Lemma differ : forall x y : res (curve_obj Binary64), match x, y with Ok _, Ok _ => negb (second_x x =? second_x y)%float && (second_x x =? second_x x)%float | _, _ => false end = true ->
  exists r r', x = Ok r /\ y = Ok r' /\ r <> r'.
Proof.
  intros x y H; destruct x as [r|e|]; [|discriminate H|discriminate H]; destruct y as [r'|e|]; [|discriminate H|discriminate H].
  exists r, r'; split; [reflexivity|]; split; [reflexivity|]; intros E; subst r'.
  apply andb_prop in H; destruct H as [H G]; rewrite G in H; discriminate H.
Qed.
Theorem C127_order_refuted : exists dot dot' sum sum' prod prod' beh beh' (c : curve_obj Binary64) data r r',
  dots64 dot /\ dots64 dot' /\ (forall site l, added64 l (sum site l)) /\ (forall site l, added64 l (sum' site l)) /\
  fit_curve_knot_insertion_dot (K := Binary64) dot sum prod beh working_class (gs_solver Binary64) c data 5 = Ok r /\
  fit_curve_knot_insertion_dot (K := Binary64) dot' sum' prod' beh' working_class (gs_solver Binary64) c data 5 = Ok r' /\ r <> r'.
Proof.
  exists (fun _ => vdot (K := Binary64)), dot_reversed, (fun _ => nsum (K := Binary64)), sum_reversed, (fun _ => vdot (K := Binary64)), dot_reversed, (fun _ => cl_beh working_class), curve_reversed, fC, wild.
  match goal with |- exists r r', _ /\ _ /\ _ /\ _ /\ ?x = _ /\ ?y = _ /\ _ =>
    assert (H : exists r r', x = Ok r /\ y = Ok r' /\ r <> r') by (apply differ; vm_cast_no_check (eq_refl true)) end.
  destruct H as [r [r' H]]; exists r, r'.
  split; [exact dots_left|]; split; [exact dots_reversed|]; split; [intros; apply nsum_added|]; split; [exact (proj1 C127_round_example)|exact H].
Qed.
Print Assumptions C127_order_refuted.
