(** C57-C59, C65, C67, C69, C70: boundary and interior problems, data objects. *)
From Coq Require Import String Floats.
From Verif Require Import Py Num ModelKnots ModelBasis ModelCurve ModelSurface ModelInit ModelParam ModelFit ModelIO ModelData Spec SpecFit SpecData SpecIO
  MathKnots ProofSpan2 ProofKnots ProofCurve ProofSurface Examples ProofData ProofData2 ProofData3 ProofData4 ProofData5 ProofData9 ProofData8 ProofIO5 PropFit PropIO ProofIO4.
Open Scope Z_scope.

(** ** C57: assignments *)
Theorem C57_guards : forall (K : Num) cl sv (ops : list (bp_op K)), int_of_positive K ->
  let b := bp_run cl sv bp_new ops in
  (forall d, bp_degree b = Some d -> 0 <= d) /\ (forall d, bp_data b = Some d -> dt_cols d = 2 \/ dt_cols d = 3) /\
  (forall p, bp_start b = Some p -> zlen p = 2 \/ zlen p = 3) /\ (forall p, bp_end b = Some p -> zlen p = 2 \/ zlen p = 3) /\
  (forall n, bp_num b = Some n -> 4 <= n).
Proof. intros K cl sv ops IP; exact (run_good cl sv ops IP bp_new new_good). Qed.
Print Assumptions C57_guards.
Theorem C57_number_types : int_of_positive Exact /\ int_of_positive Binary64.
Proof. exact (conj exact_int_of_positive b64_int_of_positive). Qed.
Print Assumptions C57_number_types.
Theorem C57_failed_assignment : forall (K : Num) cl sv (b b' : bproblem K) o r,
  assignment o = true -> bp_step cl sv b o = (b', r) -> r <> Ok tt -> b' = b.
Proof. exact @assignment_fail. Qed.
Print Assumptions C57_failed_assignment.
Theorem C57_degree : forall (K : Num) cl sv (b : bproblem K) z,
  (1 <= z -> exists b', bp_step cl sv b (BDegree (VInt z)) = (b', Ok tt) /\ bp_degree b' = Some z /\
     (bp_data b', bp_start b', bp_end b', bp_num b', bp_adaptive b', bp_init b', bp_param b', bp_fit b')
     = (bp_data b, bp_start b, bp_end b, bp_num b, bp_adaptive b, bp_init b, bp_param b, bp_fit b)) /\
  (z <= 0 -> bp_step cl sv b (BDegree (VInt z)) = (b, Err ValueError)).
Proof. exact @degree_int. Qed.
Print Assumptions C57_degree.
Theorem C57_num : forall (K : Num) cl sv (b : bproblem K) n,
  (4 <= n -> exists b', bp_step cl sv b (BNum (VInt n)) = (b', Ok tt) /\ bp_num b' = Some n /\
     (bp_degree b', bp_data b', bp_start b', bp_end b', bp_adaptive b', bp_init b', bp_param b', bp_fit b')
     = (bp_degree b, bp_data b, bp_start b, bp_end b, bp_adaptive b, bp_init b, bp_param b, bp_fit b)) /\
  (n <= 3 -> bp_step cl sv b (BNum (VInt n)) = (b, Err ValueError)).
Proof. exact @num_int. Qed.
Print Assumptions C57_num.
Theorem C57_data : forall (K : Num) cl sv (b : bproblem K) a,
  (forall d, a = Ok (Nd2 d) -> dt_cols d = 2 \/ dt_cols d = 3 -> exists b', bp_step cl sv b (BData a) = (b', Ok tt) /\ bp_data b' = Some d) /\
  (forall b', bp_step cl sv b (BData a) = (b', Ok tt) -> exists d, a = Ok (Nd2 d) /\ bp_data b' = Some d /\ (dt_cols d = 2 \/ dt_cols d = 3)).
Proof. exact @data_accept. Qed.
Print Assumptions C57_data.
Theorem C57_method : forall (K : Num) cl sv (b : bproblem K) v,
  (forall b', bp_step cl sv b (BMethod v) = (b', Ok tt) ->
     v = VStr (txt "fixed") /\ bp_adaptive b' = false \/ v = VStr (txt "adaptive") /\ bp_adaptive b' = true) /\
  (v = VStr (txt "fixed") \/ v = VStr (txt "adaptive") -> exists b', bp_step cl sv b (BMethod v) = (b', Ok tt)).
Proof. exact @method_accept. Qed.
Print Assumptions C57_method.
(** Every assignment, accepted or refused. *)
Theorem C57_assign : forall (K : Num) cl sv (b : bproblem K) o, assignment o = true ->
  fst (bp_step cl sv b o) =
    mkBP (newer (degree_set o) (bp_degree b)) (newer (data_set o) (bp_data b)) (newer (start_set o) (bp_start b)) (newer (end_set o) (bp_end b))
      (newer (num_set o) (bp_num b)) (match method_set o with Some m => m | None => bp_adaptive b end) (bp_init b) (bp_param b) (bp_fit b) /\
  snd (bp_step cl sv b o) =
    match o with
    | BDegree v => if degree_value v then Ok tt else Err (degree_refusal v)
    | BNum v => if count_value 4 v then Ok tt else Err (count_refusal v)
    | BMethod v => if method_value v then Ok tt else Err (method_refusal v)
    | BData a => if array_value a then Ok tt else match a with Ok _ => Err ValueError | Err e => Err e | Diverge => Diverge end
    | BStart a | BEnd a => if point_value a then Ok tt else match a with Ok _ => Err ValueError | Err e => Err e | Diverge => Diverge end
    | _ => Ok tt
    end.
Proof. exact @assign_spec. Qed.
Print Assumptions C57_assign.
(** After any history each attribute holds the value last accepted. *)
Theorem C57_latest : forall (K : Num) cl sv (ops : list (bp_op K)),
  let b := bp_run cl sv bp_new ops in
  bp_degree b = latest degree_set ops /\ bp_data b = latest data_set ops /\
  bp_start b = latest start_set ops /\ bp_end b = latest end_set ops /\
  bp_adaptive b = (match latest method_set ops with Some m => m | None => false end) /\
  (~ In BFit ops -> bp_num b = latest num_set ops).
Proof. exact @latest_new. Qed.
Print Assumptions C57_latest.
Theorem C57_interior_assign : forall (K : Num) new sv (p : iproblem K) o,
  match o with IInit | IParam | IFit => False | _ => True end ->
  fst (ip_step new sv p o) =
    mkIP (newer (idegree_set o) (ip_degree p)) (newer (idata_set o) (ip_data p)) (newer (inum_set o) (ip_num p))
      (newer (top_set o) (ip_top p)) (newer (bottom_set o) (ip_bottom p)) (ip_init p) (ip_param p) (ip_fit p) /\
  snd (ip_step new sv p o) =
    match o with
    | IDegree v => if degree_value v then Ok tt else Err (degree_refusal v)
    | INum v => if count_value 3 v then Ok tt else Err (count_refusal v)
    | IData a => if array_value a then Ok tt else match a with Ok _ => Err ValueError | Err e => Err e | Diverge => Diverge end
    | ITop b | IBottom b => if boundary_value b then Ok tt else Err (boundary_refusal b)
    | _ => Ok tt
    end.
Proof. exact @iassign_spec. Qed.
Print Assumptions C57_interior_assign.
Theorem C57_interior_latest : forall (K : Num) new sv (ops : list (ip_op K)),
  let p := ip_run new sv ip_new ops in
  ip_degree p = latest idegree_set ops /\ ip_data p = latest idata_set ops /\ ip_num p = latest inum_set ops /\
  ip_top p = latest top_set ops /\ ip_bottom p = latest bottom_set ops.
Proof. exact @ilatest_new. Qed.
Print Assumptions C57_interior_latest.
(** The degree is not always at least 1. *)
Theorem C57_degree_zero_refuted : exists v : pyval Binary64, le_zero v = Ok false /\
  forall cl sv (b : bproblem Binary64), snd (bp_step cl sv b (BDegree v)) = Ok tt /\ bp_degree (fst (bp_step cl sv b (BDegree v))) = Some 0.
Proof. exists (VFloat (0.5%float : Binary64)); split; [reflexivity|]; intros; split; reflexivity. Qed.
Print Assumptions C57_degree_zero_refuted.
Theorem C57_interior : forall (K : Num) new sv (ops : list (ip_op K)), int_of_positive K ->
  let p := ip_run new sv ip_new ops in
  (forall d, ip_degree p = Some d -> 0 <= d) /\ (forall d, ip_data p = Some d -> dt_cols d = 2 \/ dt_cols d = 3) /\
  (forall n, ip_num p = Some n -> 3 <= n).
Proof. exact @ip_run_good. Qed.
Print Assumptions C57_interior.

Definition point (l : list Binary64) : res (nd Binary64) := Ok (Nd1 l).
Definition setup (d n : Z) (m : string) : list (bp_op Binary64) :=
  [BDegree (VInt d); BData (Ok (Nd2 arch)); BStart (point [0; 0; 0]%float); BEnd (point [2; 0; 0]%float);
   BNum (VInt n); BMethod (VStr (txt m))].
(** num_ctrlpts, number of control points of the fit curve, shape of the parameterized data. *)
Definition shape (b : bproblem Binary64) :=
  (bp_num b, match bp_fit b with Some c => option_map zlen (c_ctrl c) | None => None end,
   match bp_param b with Some d => Some (dt_cols d, zlen (dt_rows d)) | None => None end).
Definition run64 := bp_run working_class (gs_solver Binary64) bp_new.
Definition outcome ops o := let (b, r) := bp_step working_class (gs_solver Binary64) (run64 ops) o in (shape b, r).
Example C57_example :
  let b := run64 ([BNum (VInt 3); BDegree (VStr (txt "2")); BData (point [1]%float); BMethod (VStr (txt "spline"))] ++ setup 2 5 "adaptive" ++
                  [BDegree (VInt 0); BNum (VFloat (2.5%float : Binary64)); BNum (VStr (txt " 7 ")); BStart (point [1]%float)]) in
  (bp_degree b, bp_num b, bp_start b, bp_adaptive b) = (Some 2, Some 7, Some [0; 0; 0]%float, true).
Proof. vm_compute; reflexivity. Qed.

(** What the refusals are. *)
Example C57_refusals :
  map (fun o => snd (bp_step working_class (gs_solver Binary64) (run64 (setup 2 5 "fixed")) o))
    [BDegree (VStr (txt "2")); BDegree VOther; BDegree (VFloat (infinity : Binary64)); BDegree (VFloat (nan : Binary64));
     BDegree (VFloat ((-0.5)%float : Binary64)); BDegree (VBool false); BNum VOther; BNum (VStr (txt "five")); BNum (VFloat (infinity : Binary64)); BNum (VBool true);
     BMethod (VInt 1); BMethod (VStr (txt "Fixed")); BData (Err TypeError); BData (Ok NdHigh); BEnd (point [1; 2; 3; 4]%float)]
  = [Err TypeError; Err TypeError; Err OverflowError; Err ValueError; Err ValueError; Err ValueError; Err TypeError; Err ValueError; Err OverflowError; Err ValueError;
     Err TypeError; Err ValueError; Err TypeError; Err ValueError; Err ValueError] /\
  (let p := ip_run (K := Binary64) repo_surface (gs_solver Binary64) ip_new
     [IDegree (VInt 2); INum (VInt 3); INum (VInt 2); IDegree (VBool true); IData (Ok (Nd2 arch)); ITop (OProblem (run64 [])); IBottom (OBoundary (Some bp_new))] in
   (ip_degree p, ip_num p, option_map dt_cols (ip_data p)) = (Some 1, Some 3, Some 3) /\
   snd (ip_step repo_surface (gs_solver Binary64) p (ITop (OBoundary None))) = Err AttributeError /\
   snd (ip_step repo_surface (gs_solver Binary64) p (ITop (OProblem (run64 [])))) = Err TypeError /\
   snd (ip_step repo_surface (gs_solver Binary64) p (IBottom (OBoundary (Some bp_new)))) = Err ValueError).
Proof. split; [vm_compute; reflexivity|repeat split; vm_compute; reflexivity]. Qed.

(** ** C58: what a fit starts from *)
Theorem C58_initial_curve_kept : forall (K : Num) cl sv c (ops : list (bp_op K)) b,
  ~ In BInit ops -> bp_init b = Some c -> bp_init (bp_run cl sv b ops) = Some c.
Proof. intros K cl sv c ops b N; exact (run_init cl sv c ops N b). Qed.
Print Assumptions C58_initial_curve_kept.
Theorem C58_refit : forall (K : Num) cl sv (b1 b2 b1' b2' : bproblem K) c, bp_init b1 = Some c -> bp_init b2 = Some c ->
  bp_data b1 = bp_data b2 -> bp_num b1 = bp_num b2 -> bp_adaptive b1 = bp_adaptive b2 ->
  bp_fit_run cl sv b1 = (b1', Ok tt) -> bp_fit_run cl sv b2 = (b2', Ok tt) ->
  bp_fit b1' = bp_fit b2' /\ bp_param b1' = bp_param b2'.
Proof. exact @refit_same. Qed.
Print Assumptions C58_refit.
Theorem C58_count : forall (K : Num) cl sv (b b' : bproblem K), bp_fit_run cl sv b = (b', Ok tt) ->
  exists c kv d n, bp_fit b' = Some c /\ c_kv c = Some kv /\ bp_degree b' = Some d /\ bp_degree b = Some d /\
    bp_num b' = Some n /\ n = zlen kv - d - 1 /\ 4 <= n.
Proof. exact @fit_count. Qed.
Print Assumptions C58_count.
Theorem C58_fit_raises : forall (K : Num) cl sv (b b' : bproblem K) r c,
  bp_fit_run cl sv b = (b', r) -> r <> Ok tt -> bp_fit b' = Some c -> bp_fit b <> Some c ->
  (exists kv d, c_kv c = Some kv /\ bp_degree b = Some d /\ zlen kv - d - 1 <= 3 /\ r = Err ValueError) \/
  (forall pd, parameterize_curve_opt cl (Some c) (bp_data b) <> Ok pd).
Proof. exact @fit_raises. Qed.
Print Assumptions C58_fit_raises.
(** The reported count is not the number of control points after a change of
    degree; a fit that raises may still have replaced the curve. *)
Theorem C58_stale_degree_refuted :
  outcome (setup 2 4 "fixed" ++ [BInit; BDegree (VInt 1)]) BFit = (Some 5, Some 4, Some (4, 5), Ok tt) /\
  outcome (setup 2 4 "fixed" ++ [BInit; BDegree (VInt 3)]) BFit = (Some 4, Some 4, None, Err ValueError).
Proof. split; vm_compute; reflexivity. Qed.
Print Assumptions C58_stale_degree_refuted.
Theorem C58_parameterize : forall (K : Num) cl (b : bproblem K),
  (forall c, bp_fit b = Some c \/ bp_fit b = None /\ bp_init b = Some c ->
     (bp_data b = None -> bp_parameterize cl b = (b, Err TypeError)) /\
     (forall data, bp_data b = Some data ->
        bp_parameterize cl b =
          match parameterize_curve (cl_beh cl c) data with
          | Ok rows => (mkBP (bp_degree b) (bp_data b) (bp_start b) (bp_end b) (bp_num b) (bp_adaptive b) (bp_init b)
                          (Some (mkData (dt_cols data + 1) rows)) (bp_fit b), Ok tt)
          | Err e => (b, Err e)
          | Diverge => (b, Diverge)
          end)) /\
  (bp_fit b = None -> bp_init b = None -> forall b1 r, bp_set_init cl b = (b1, r) ->
     (r = Ok tt -> bp_init b1 <> None /\ bp_fit b1 = None /\ bp_parameterize cl b = bp_parameterize cl b1) /\
     (r <> Ok tt -> bp_parameterize cl b = (b, r))).
Proof. exact @bp_parameterize_all. Qed.
Print Assumptions C58_parameterize.
Theorem C58_save : forall (K : Num) (b : bproblem K) name d,
  (exists e, bp_save b name d = (d, Err e)) /\ (bp_fit b = None -> bp_save b name d = (d, Err ValueError)).
Proof. intros K b name d; exact (conj (save_never b name d) (save_before b name d)). Qed.
Print Assumptions C58_save.
Theorem C58_load : forall (K : Num) step cd (b : bproblem K) name d,
  (exists r, bp_load step cd b name d = (d, r) /\ r <> Ok tt) /\
  (forall c, bp_fit b = Some c -> bp_load step cd b name d = (d, Err ValueError)).
Proof. intros K step cd b name d; exact (conj (load_never step cd b name d) (fun c => load_after step cd b c name d)). Qed.
Print Assumptions C58_load.
(** Without a fit the file is read first; the curve it describes is then assigned
    to None. *)
Theorem C58_load_before : forall (K : Num) step cd (b : bproblem K) (p : iproblem K) name d, bp_fit b = None -> ip_fit p = None ->
  (forall e, f_ropen d name = Some e -> bp_load step cd b name d = (d, Err e) /\ ip_load step cd p name d = (d, Err e)) /\
  (f_ropen d name = None -> f_files d name = None ->
     bp_load step cd b name d = (d, Err FileNotFoundError) /\ ip_load step cd p name d = (d, Err FileNotFoundError)) /\
  (forall q a n P kv, faithful cd -> kv <> [] -> f_ropen d name = None ->
     f_files d name = Some (unlines (curve_layout (tc_fmt cd) q a (join tab_char (map (tc_fmt cd) kv)) n P)) ->
     bp_load step cd b name d = (d, Err AttributeError) /\ ip_load step cd p name d = (d, Err AttributeError)).
Proof. exact load_before. Qed.
Print Assumptions C58_load_before.
Example C58_load_before_example : bp_fit (bp_new (K := Binary64)) = None /\ ip_fit (ip_new (K := Binary64)) = None /\
  bp_load curve_step b64_codec bp_new (txt "c.txt") curve_disk = (curve_disk, Err AttributeError) /\
  ip_load curve_step b64_codec ip_new (txt "a.txt") curve_disk = (curve_disk, Err IndexError) /\
  bp_load curve_step b64_codec bp_new (txt "b.txt") curve_disk = (curve_disk, Err FileNotFoundError).
Proof. repeat split. Qed.
(** Without data the initial curve is made, then TypeError. *)
Theorem C58_no_data : forall sv (b : bproblem Exact) a e p n, bp_data b = None ->
  bp_init b = None -> bp_start b = Some (fin a) -> bp_end b = Some (fin e) -> length a = 3%nat -> length e = 3%nat ->
  bp_degree b = Some (Z.of_nat p) -> (1 <= p)%nat -> (if bp_adaptive b then n = Z.of_nat p + 1 else bp_num b = Some n) -> Z.of_nat p + 1 <= n ->
  exists c, initialize_curve (fin a : list Exact) (fin e) (Z.of_nat p) n = Ok c /\
    bp_fit_run working_class sv b = (mkBP (bp_degree b) None (bp_start b) (bp_end b) (bp_num b) (bp_adaptive b) (Some c) (bp_param b) (bp_fit b), Err TypeError).
Proof. exact fit_no_data. Qed.
Print Assumptions C58_no_data.
Example C58_no_data_example :
  let settings m := [BDegree (VInt 2); BStart (point [0; 0; 0]%float); BEnd (point [2; 0; 0]%float); BNum (VInt 5); BMethod (VStr (txt m))] in
  outcome (settings "fixed"%string) BFit = (Some 5, None, None, Err TypeError) /\
  outcome (settings "adaptive"%string) BFit = (Some 5, None, None, Err TypeError) /\
  option_map c_kv (bp_init (run64 (settings "fixed"%string ++ [BFit]))) = Some (Some [0; 0; 0; 0x1.5555555555555p-2; 0x1.5555555555555p-1; 1; 1; 1]%float).
Proof. repeat split; vm_compute; reflexivity. Qed.
Theorem C58_planar : forall (K : Num) (b : bproblem K) a e d n, bp_start b = Some a -> bp_end b = Some e -> zlen a = 2 \/ zlen e = 2 ->
  bp_degree b = Some d -> 1 <= d -> (if bp_adaptive b then n = d + 1 else bp_num b = Some n) -> d <= n ->
  bp_set_init working_class b = (b, Err IndexError).
Proof. exact @planar_start. Qed.
Print Assumptions C58_planar.
Theorem C58_repo_class : forall (K : Num) sv (ops : list (bp_op K)),
  let b := bp_run repo_class sv bp_new ops in bp_init b = None /\ bp_fit b = None /\ bp_param b = None.
Proof. intros K sv ops; exact (run_repo sv ops bp_new (conj eq_refl (conj eq_refl eq_refl))). Qed.
Print Assumptions C58_repo_class.
Example C58_example :
  outcome (setup 2 5 "fixed") BFit = (Some 5, Some 5, Some (4, 5), Ok tt) /\
  outcome (setup 2 5 "fixed" ++ [BFit; BStart (point [9; 9]%float); BMethod (VStr (txt "adaptive"))]) BFit = (Some 5, Some 5, Some (4, 5), Ok tt) /\
  outcome (setup 2 5 "fixed" ++ [BStart (point [0; 0]%float)]) BInit = (Some 5, None, None, Err IndexError).
Proof. repeat split; vm_compute; reflexivity. Qed.

(** ** C59: the initial surface *)
Theorem C59_ruled_surface : forall (t b : bproblem Exact) ct cb p q nu nv T B U d,
  bp_degree t = Some (Z.of_nat p) -> bp_degree b = Some (Z.of_nat p) ->
  bp_num t = Some (Z.of_nat nu) -> bp_num b = Some (Z.of_nat nu) ->
  bp_fit t = Some ct -> bp_fit b = Some cb -> c_ctrl ct = Some (fin2 T) -> c_ctrl cb = Some (fin2 B) -> c_kv cb = Some (fin U) ->
  Forall (fun r => length r = 3%nat) T -> Forall (fun r => length r = 3%nat) B -> length T = nu -> length B = nu ->
  (1 <= p)%nat -> (1 <= q)%nat -> (q + 1 <= nv)%nat -> (Z.of_nat nv - Z.of_nat q <= 900000)%Z ->
  tight (Z.of_nat p) (Z.of_nat nu) U -> kn U (Z.of_nat p) = 0%R -> kn U (Z.of_nat nu) = 1%R ->
  exists V P phi S,
    init_surface working_surface (Some t) (Some b) (Some (Z.of_nat q)) (Some (Z.of_nat nv)) = Ok S /\
    S = mkSurf (K := Exact) (Z.of_nat p) (Z.of_nat q) (Z.of_nat nu) (Z.of_nat nv) (fin2 P) (fin U) (fin V) /\
    (len V = Z.of_nat nv + Z.of_nat q + 1)%Z /\
    (forall i, (0 <= i < len V)%Z -> kn V i = (if (i <=? Z.of_nat q)%Z then 0 else if (Z.of_nat nv <=? i)%Z then 1
                                       else IZR (i - Z.of_nat q) / IZR (Z.of_nat nv - Z.of_nat q))%R) /\
    length P = (nu * nv)%nat /\ Forall (fun r => length r = 3%nat) P /\
    (forall i j, (i < nu)%nat -> (j < nv)%nat ->
       nth (i * nv + j) P [] = lerp (nth i B []) (nth i T []) (INR j / IZR (Z.of_nat nv - 1))%R) /\
    (forall u s, (0 <= u <= 1)%R -> find_span (Z.of_nat nu) (Z.of_nat p) (Fin u : Exact) (fin U) = Ok s -> (kn U s < kn U (s + 1))%R ->
       surf_point S (Fin u : Exact) (Fin 0 : Exact) = single_point (curve_of (Z.of_nat p) U B d) (Fin u : Exact) /\
       surf_point S (Fin u : Exact) (Fin 1 : Exact) = single_point (curve_of (Z.of_nat p) U T d) (Fin u : Exact)) /\
    phi 0%R = 0%R /\ phi 1%R = 1%R /\ (forall v, (0 <= v <= 1)%R -> (0 <= phi v <= 1)%R) /\
    (strict (Z.of_nat p) (Z.of_nat nu) U -> forall u v, (0 <= u <= 1)%R ->
       (close (1/1000000) (1/100000000) u 1 -> (kn U (Z.of_nat nu - 1) <= u)%R) -> (0 <= v <= 1)%R ->
       surf_point S (Fin u : Exact) (Fin v : Exact) = Ok (fin (lerp (curve_xyz U p B u) (curve_xyz U p T u) (phi v)))).
Proof. exact ruled_surface. Qed.
Print Assumptions C59_ruled_surface.
Theorem C59_mismatch : forall (K : Num) (t b : bproblem K) degree num,
  (bp_degree t <> bp_degree b \/ bp_num t <> bp_num b) -> forall new, init_surface new (Some t) (Some b) degree num = Err ValueError.
Proof. exact init_surface_refused. Qed.
Print Assumptions C59_mismatch.
Theorem C59_repo_surface : forall (K : Num) top bottom degree num s, init_surface (K := K) repo_surface top bottom degree num <> Ok s.
Proof. exact init_surface_repo. Qed.
Print Assumptions C59_repo_surface.
(** Only Boundary objects on which the caller has set [fit_curve] by hand can be
    assigned as boundaries. *)
Theorem C59_assignable : forall (K : Num) (p : iproblem K) o,
  match o with
  | OBoundary (Some b) => bp_fit b <> None ->
      ip_set_top p o = (mkIP (ip_degree p) (ip_data p) (ip_num p) (Some b) (ip_bottom p) (ip_init p) (ip_param p) (ip_fit p), Ok tt) /\
      ip_set_bottom p o = (mkIP (ip_degree p) (ip_data p) (ip_num p) (ip_top p) (Some b) (ip_init p) (ip_param p) (ip_fit p), Ok tt)
  | _ => True
  end /\
  ((forall b, o = OBoundary (Some b) -> bp_fit b = None) ->
   exists e, ip_set_top p o = (p, Err e) /\ ip_set_bottom p o = (p, Err e)).
Proof. exact assign_boundary. Qed.
Print Assumptions C59_assignable.
(** Without such objects an interior problem never gets further, whatever the
    surface class. *)
Theorem C59_history : forall (K : Num) new sv (ops : list (ip_op K)), Forall (fun o => ~ planted o) ops ->
  let p := ip_run new sv ip_new ops in
  ip_top p = None /\ ip_bottom p = None /\ ip_init p = None /\ ip_param p = None /\ ip_fit p = None /\
  ip_set_init new p = (p, Err AttributeError) /\ ip_parameterize new p = (p, Err AttributeError) /\
  ip_fit_run new sv p = (p, Err AttributeError) /\
  (forall cd name d, ip_save cd p name d = (d, Err ValueError)) /\
  (forall step cd name d, exists r, ip_load step cd p name d = (d, r) /\ r <> Ok tt).
Proof. exact @interior_history. Qed.
Print Assumptions C59_history.
Theorem C59_vtk : forall (K : Num), K = Exact \/ K = Binary64 -> forall new sv (ops : list (ip_op K)) (T : Type) dl (mw : text -> list (list K) -> T -> io unit) name d,
  Forall (fun o => ~ planted o) ops -> ip_vtk dl mw (ip_run new sv ip_new ops) name d = (d, Err AttributeError).
Proof. exact interior_vtk. Qed.
Print Assumptions C59_vtk.
(** The export samples the fit surface. *)
Theorem C59_vtk_fit : forall (T : Type) (dl : list (list Exact) -> res T) mw (ip : iproblem Exact) p q nu nv U V P name d,
  ip_fit ip = Some (surf_of p q nu nv U V P) ->
  clamped (Z.of_nat p) (Z.of_nat nu) U -> clamped (Z.of_nat q) (Z.of_nat nv) V -> (1 <= p)%nat -> (1 <= q)%nat ->
  Forall (fun row => length row = 3%nat) P -> length P = (nu * nv)%nat ->
  kn U (Z.of_nat p) = 0%R -> kn U (Z.of_nat nu) = 1%R -> strict (Z.of_nat p) (Z.of_nat nu) U ->
  kn V (Z.of_nat q) = 0%R -> kn V (Z.of_nat nv) = 1%R -> strict (Z.of_nat q) (Z.of_nat nv) V ->
  let grid := list_prod (zrange 0 101) (zrange 0 101) in
  ip_vtk dl mw ip name d =
    match dl (map (fun ij => [Fin (IZR (fst ij) / 100); Fin (IZR (snd ij) / 100)]) grid) with
    | Ok simplices => mw name (map (fun ij => fin (surface_xyz U V p q nu nv P (IZR (fst ij) / 100) (IZR (snd ij) / 100))) grid) simplices d
    | Err e => (d, Err e)
    | Diverge => (d, Diverge)
    end.
Proof. exact @vtk_interior. Qed.
Print Assumptions C59_vtk_fit.
(** With the repository's surface class it never gets further, whatever is assigned. *)
Theorem C59_repo_history : forall (K : Num) sv (ops : list (ip_op K)),
  let p := ip_run repo_surface sv ip_new ops in
  ip_init p = None /\ ip_param p = None /\ ip_fit p = None /\
  (exists e, ip_set_init repo_surface p = (p, Err e) /\ ip_parameterize repo_surface p = (p, Err e) /\
     ip_fit_run repo_surface sv p = (p, Err e)) /\
  (forall cd name d, ip_save cd p name d = (d, Err ValueError)).
Proof. exact repo_history. Qed.
Print Assumptions C59_repo_history.
(** Settings, fits, control points or knots missing from the boundaries. *)
Theorem C59_unset : forall (K : Num) (t b : bproblem K) degree num, bp_degree t = bp_degree b -> bp_num t = bp_num b ->
  bp_degree b = None \/ degree = None \/ bp_num b = None \/ num = None ->
  init_surface working_surface (Some t) (Some b) degree num = Err TypeError.
Proof. exact @init_surface_unset. Qed.
Print Assumptions C59_unset.
Theorem C59_no_fit : forall (K : Num) (t b : bproblem K) p q nu nv,
  bp_degree t = Some p -> bp_degree b = Some p -> bp_num t = Some nu -> bp_num b = Some nu ->
  1 <= p -> p + 1 <= nu -> 1 <= q -> q + 1 <= nv -> bp_fit t = None \/ bp_fit b = None /\ (exists ct T, bp_fit t = Some ct /\ c_ctrl ct = Some T) ->
  init_surface working_surface (Some t) (Some b) (Some q) (Some nv) = Err AttributeError.
Proof. exact @init_surface_no_fit. Qed.
Print Assumptions C59_no_fit.
Theorem C59_no_control_points : forall (K : Num) (t b : bproblem K) ct cb p q nu nv,
  bp_degree t = Some p -> bp_degree b = Some p -> bp_num t = Some nu -> bp_num b = Some nu ->
  1 <= p -> p + 1 <= nu -> 1 <= q -> q + 1 <= nv -> bp_fit t = Some ct -> bp_fit b = Some cb -> c_ctrl ct = None \/ c_ctrl cb = None ->
  init_surface working_surface (Some t) (Some b) (Some q) (Some nv) = Err TypeError.
Proof. exact @init_surface_no_ctrl. Qed.
Print Assumptions C59_no_control_points.
Example C59_missing_example :
  let b fit := mkBP (K := Binary64) (Some 2) None None None (Some 4) false None None fit in
  let empty := mkCurve (K := Binary64) (Some 2) None None 0 in
  init_surface working_surface (Some (b None)) (Some (b None)) (Some 1) (Some 2) = Err AttributeError /\
  init_surface working_surface (Some (b (Some empty))) (Some (b (Some empty))) (Some 1) (Some 2) = Err TypeError /\
  init_surface working_surface (Some (b (Some empty))) (Some (b (Some empty))) None (Some 2) = Err TypeError.
Proof. repeat split. Qed.
Theorem C59_load_after : forall (K : Num) step cd (p : iproblem K) s name d,
  ip_fit p = Some s -> ip_load step cd p name d = (d, Err ValueError).
Proof. exact @ip_load_after. Qed.
Print Assumptions C59_load_after.
Theorem C59_parameterize : forall (K : Num) new (p : iproblem K),
  (forall s, ip_fit p = Some s \/ ip_fit p = None /\ ip_init p = Some s ->
     (ip_data p = None -> ip_parameterize new p = (p, Err TypeError)) /\
     (forall data, ip_data p = Some data ->
        ip_parameterize new p =
          match parameterize_surface (beh_of_surf s) data with
          | Ok rows => (mkIP (ip_degree p) (ip_data p) (ip_num p) (ip_top p) (ip_bottom p) (ip_init p)
                          (Some (mkData (dt_cols data + 2) rows)) (ip_fit p), Ok tt)
          | Err e => (p, Err e)
          | Diverge => (p, Diverge)
          end)) /\
  (ip_fit p = None -> ip_init p = None ->
     match init_surface new (ip_top p) (ip_bottom p) (ip_degree p) (ip_num p) with
     | Ok s => ip_parameterize new p =
         ip_parameterize new (mkIP (ip_degree p) (ip_data p) (ip_num p) (ip_top p) (ip_bottom p) (Some s) (ip_param p) None)
     | Err e => ip_parameterize new p = (p, Err e)
     | Diverge => ip_parameterize new p = (p, Diverge)
     end).
Proof. exact @ip_parameterize_all. Qed.
Print Assumptions C59_parameterize.
(** Two quadratic boundaries over the same knots. *)
Definition boundary (c : curve_obj Exact) : bproblem Exact := mkBP (K := Exact) (Some 2) None None None (Some 4) false None None (Some c).
Definition bT : list (list R) := [[0; 1; 0]; [1; 2; 0]; [2; 2; 0]; [3; 1; 1]]%R.
Definition bB : list (list R) := [[0; 0; 0]; [1; -1; 0]; [2; 1; 0]; [3; 0; 0]]%R.
Definition bU : list R := [0; 0; 0; 1/2; 1; 1; 1]%R.
Example C59_example :
  (bp_fit (boundary (curve_of 2 bU bB 0)) = Some (curve_of 2 bU bB 0) /\ c_kv (curve_of 2 bU bB 0) = Some (fin bU)) /\
  (Forall (fun r => length r = 3%nat) bT /\ length bT = 4%nat /\ length bB = 4%nat) /\
  tight (Z.of_nat 2) (Z.of_nat 4) bU /\ strict (Z.of_nat 2) (Z.of_nat 4) bU /\ kn bU (Z.of_nat 2) = 0%R /\ kn bU (Z.of_nat 4) = 1%R.
Proof.
  split; [split; reflexivity|]; split; [repeat split; repeat constructor|].
  assert (C : clamped 2 4 bU) by (unfold bU; solve_clamped).
  split; [split; [exact C|]; unfold bU; kn_eval; lra|].
  split; [|unfold bU; kn_eval; lra].
  intros i Hi; assert (i = 2 \/ i = 3) as [->| ->] by lia; unfold bU; kn_eval; lra.
Qed.
Example C59_double :
  let c y := mkCurve (K := Binary64) (Some 2) (Some [[0; y; 0]; [1; y; 0]; [2; y; 0]; [3; y; 1]]%float) (Some [0; 0; 0; 0.5; 1; 1; 1]%float) 3 in
  let b y := mkBP (K := Binary64) (Some 2) None None None (Some 4) false None None (Some (c y)) in
  match init_surface working_surface (Some (b 1%float)) (Some (b 0%float)) (Some 2) (Some 3) with
  | Ok s => Some (s_ctrl s) | _ => None end
  = Some [[0; 0; 0]; [0; 0.5; 0]; [0; 1; 0]; [1; 0; 0]; [1; 0.5; 0]; [1; 1; 0]; [2; 0; 0]; [2; 0.5; 0]; [2; 1; 0]; [3; 0; 1]; [3; 0.5; 1]; [3; 1; 1]]%float /\
  match init_surface working_surface (Some (b 1%float)) (Some bp_new) (Some 2) (Some 3) with Err ValueError => true | _ => false end = true.
Proof. split; vm_compute; reflexivity. Qed.

(** ** C65: optimality of the fit with a given number of control points *)
Theorem C65_optimal : forall sv p U P data c c', least_squares sv -> (1 <= p)%nat -> tight (Z.of_nat p) (len P) U ->
  kn U (Z.of_nat p) = 0%R -> kn U (len P) = 1%R ->
  Forall (fun r => length r = 3%nat) data -> Forall (fun r => length r = 3%nat) P ->
  c_degree c = Some (Z.of_nat p) -> c_ctrl c = Some (fin2 P) -> c_kv c = Some (fin U) ->
  fit_curve_fixed_ctrlpts working_class sv c (mkData 3 (fin2 data)) = Ok c' ->
  exists Q P0 pts,
    c' = mkCurve (K := Exact) (Some (Z.of_nat p)) (Some (fin2 Q)) (Some (fin U)) 0 /\
    length Q = length P /\ Forall (fun r => length r = 3%nat) Q /\ nth 0 Q [] = nth 0 P [] /\ last Q [] = last P [] /\
    parameterize_curve (beh_of_curve3 (mkCurve (K := Exact) (Some (Z.of_nat p)) (Some (fin2 P0)) (Some (fin U)) 0)) (mkData 3 (fin2 data)) = Ok (fin2 pts) /\
    forall W, length W = length P -> nth 0 W [] = nth 0 P [] -> last W [] = last P [] -> (curve_err U p Q pts <= curve_err U p W pts)%R.
Proof. exact fixed_fit_exact. Qed.
Print Assumptions C65_optimal.

(** ** C67: a boundary problem from its settings to its fit *)
Theorem C67_boundary_fit : forall sv (b b' : bproblem Exact) a e p n data, least_squares sv ->
  bp_init b = None -> bp_start b = Some (fin a) -> bp_end b = Some (fin e) -> length a = 3%nat -> length e = 3%nat ->
  bp_degree b = Some (Z.of_nat p) -> (1 <= p)%nat -> bp_num b = Some n -> Z.of_nat p + 1 <= n ->
  (bp_adaptive b = true -> n <= Z.of_nat p + 65536) ->
  bp_data b = Some (mkData 3 (fin2 data)) -> Forall (fun r => length r = 3%nat) data ->
  bp_fit_run working_class sv b = (b', Ok tt) ->
  exists c Q U P0 pts rows,
    bp_fit b' = Some c /\ c = mkCurve (K := Exact) (Some (Z.of_nat p)) (Some (fin2 Q)) (Some (fin U)) 0 /\
    bp_num b' = Some (len Q) /\
    (if bp_adaptive b then exists k, len Q = Z.of_nat p + 2 ^ Z.of_nat k /\ n <= len Q /\ (k = 0%nat \/ Z.of_nat p + 2 ^ Z.of_nat (k - 1) < n)
     else len Q = n) /\
    single_point c (Fin 0 : Exact) = Ok (fin a) /\ single_point c (Fin 1 : Exact) = Ok (fin e) /\
    parameterize_curve (beh_of_curve3 (mkCurve (K := Exact) (Some (Z.of_nat p)) (Some (fin2 P0)) (Some (fin U)) 0)) (mkData 3 (fin2 data)) = Ok (fin2 pts) /\
    (forall W, length W = length Q -> nth 0 W [] = a -> last W [] = e -> (curve_err U p Q pts <= curve_err U p W pts)%R) /\
    parameterize_curve (beh_of_curve3 c) (mkData 3 (fin2 data)) = Ok rows /\ bp_param b' = Some (mkData 4 rows).
Proof. exact problem_fit_exact. Qed.
Print Assumptions C67_boundary_fit.
Example C67_example :
  (let b := run64 (setup 2 5 "adaptive" ++ [BFit]) in
   match bp_fit b with
   | Some c => match single_point c 0%float, single_point c 1%float with
               | Ok [x; y; z], Ok [x'; y'; z'] => ((x =? 0) && (y =? 0) && (z =? 0) && (x' =? 2) && (y' =? 0) && (z' =? 0))%float
               | _, _ => false end
   | None => false end) = true /\
  outcome (setup 2 5 "adaptive") BFit = (Some 6, Some 6, Some (4, 5), Ok tt).
Proof. split; vm_compute; reflexivity. Qed.

(** ** C69: Data and Boundary objects *)
(** Arrays are refused whatever their shape. *)
Theorem C69_arrays : forall (K : Num) (o : dobj K) a,
  do_set_data o (SArray a) = (o, Err TypeError) /\
  (do_boundary o = true -> do_set_start o (SArray a) = (o, Err TypeError) /\ do_set_end o (SArray a) = (o, Err TypeError)).
Proof. exact @array_refused. Qed.
Print Assumptions C69_arrays.
Theorem C69_methods : forall (K : Num) (o : dobj K) i r,
  do_set_data o (SMethod i r) =
    match r with
    | Ok d => if d =? do_dim o then (mkDO (do_boundary o) (do_dim o) (Some (SMethod i r)) (do_start o) (do_end o), Ok tt) else (o, Err ValueError)
    | Err e => (o, Err e)
    | Diverge => (o, Diverge)
    end.
Proof. exact @method_accepted. Qed.
Print Assumptions C69_methods.
Theorem C69_boundary_history : forall (K : Num) dim (ops : list (do_op K)), Forall (fun x => ~ method_shape x) ops ->
  let o := do_run (do_new true dim) ops in
  do_get (do_data o) = Err AttributeError /\ do_get (do_start o) = Err AttributeError /\ do_get (do_end o) = Err AttributeError.
Proof. exact @boundary_history. Qed.
Print Assumptions C69_boundary_history.
Theorem C69_data_history : forall (K : Num) dim (ops : list (do_op K)), Forall (fun x => ~ method_shape x) ops ->
  do_get (do_data (do_run (do_new false dim) ops)) = Err AttributeError.
Proof. exact @data_history. Qed.
Print Assumptions C69_data_history.
Theorem C69_dimension : forall (K : Num) (o : dobj K) ops,
  do_dim (do_run o ops) = do_dim o /\ do_boundary (do_run o ops) = do_boundary o.
Proof. exact @dim_fixed. Qed.
Print Assumptions C69_dimension.
(** Only objects that are not arrays get in. *)
(** Every assignment, accepted or refused, and what a history of them leaves. *)
Theorem C69_assign : forall (K : Num) (o : dobj K) op,
  do_step o op =
    match op with
    | DData x => match shape_value (do_dim o) x with
                 | Some _ => (mkDO (do_boundary o) (do_dim o) (Some x) (do_start o) (do_end o), Ok tt)
                 | None => (o, shape_refusal x)
                 end
    | DStart x => match (if do_boundary o then shape_value (do_dim o) x else Some x) with
                  | Some _ => (mkDO (do_boundary o) (do_dim o) (do_data o) (Some x) (do_end o), Ok tt)
                  | None => (o, shape_refusal x)
                  end
    | DEnd x => match (if do_boundary o then shape_value (do_dim o) x else Some x) with
                | Some _ => (mkDO (do_boundary o) (do_dim o) (do_data o) (do_start o) (Some x), Ok tt)
                | None => (o, shape_refusal x)
                end
    | DDim _ => (o, Err AttributeError)
    end.
Proof. exact @do_step_all. Qed.
Print Assumptions C69_assign.
Theorem C69_latest : forall (K : Num) boundary dim (ops : list (do_op K)),
  do_run (do_new boundary dim) ops =
    let dim := match dim with Some d => d | None => 0 end in
    mkDO boundary dim (latest (ddata_set dim) ops) (latest (dstart_set boundary dim) ops) (latest (dend_set boundary dim) ops).
Proof. exact @do_history. Qed.
Print Assumptions C69_latest.
Example C69_example :
  let a := SArray (K := Binary64) (Nd1 (K := Binary64) [0; 1; 2]%float) in
  let o := do_run (do_new true (Some 3)) [DData a; DStart a; DDim 2; DData (SMethod 7 (Ok 2)); DData (SMethod 8 (Ok 3)); DEnd a] in
  do_dim o = 3 /\ do_get (do_data o) = Ok (SMethod 8 (Ok 3)) /\ do_get (do_start o) = Err AttributeError /\
  snd (do_step o (DData (SMethod 7 (Ok 2)))) = Err ValueError /\ snd (do_step o (DEnd (SBare 1))) = Err AttributeError /\
  do_get (do_start (do_run (do_new false None) [DStart a])) = Ok a.
Proof. repeat split. Qed.

(** ** C70: an interior problem from its settings to its fit *)
Theorem C70_interior_fit : forall sv (ip ip' : iproblem Exact) (t b : bproblem Exact) ct cb p q nu nv T B U d data,
  least_squares sv -> ip_init ip = None -> ip_top ip = Some t -> ip_bottom ip = Some b ->
  ip_degree ip = Some (Z.of_nat q) -> ip_num ip = Some (Z.of_nat nv) -> ip_data ip = Some (mkData 3 (fin2 data)) ->
  Forall (fun r => length r = 3%nat) data ->
  bp_degree t = Some (Z.of_nat p) -> bp_degree b = Some (Z.of_nat p) ->
  bp_num t = Some (Z.of_nat nu) -> bp_num b = Some (Z.of_nat nu) ->
  bp_fit t = Some ct -> bp_fit b = Some cb -> c_ctrl ct = Some (fin2 T) -> c_ctrl cb = Some (fin2 B) -> c_kv cb = Some (fin U) ->
  Forall (fun r => length r = 3%nat) T -> Forall (fun r => length r = 3%nat) B -> length T = nu -> length B = nu ->
  (1 <= p)%nat -> (1 <= q)%nat -> (q + 1 <= nv)%nat ->
  tight (Z.of_nat p) (Z.of_nat nu) U -> kn U (Z.of_nat p) = 0%R -> kn U (Z.of_nat nu) = 1%R ->
  ip_fit_run working_surface sv ip = (ip', Ok tt) ->
  exists V P Q S0 S pts rows,
    init_surface working_surface (Some t) (Some b) (Some (Z.of_nat q)) (Some (Z.of_nat nv)) = Ok S0 /\ ip_init ip' = Some S0 /\
    S0 = mkSurf (K := Exact) (Z.of_nat p) (Z.of_nat q) (Z.of_nat nu) (Z.of_nat nv) (fin2 P) (fin U) (fin V) /\
    S = mkSurf (K := Exact) (Z.of_nat p) (Z.of_nat q) (Z.of_nat nu) (Z.of_nat nv) (fin2 Q) (fin U) (fin V) /\
    ip_fit ip' = Some S /\
    length Q = (nu * nv)%nat /\ Forall (fun r => length r = 3%nat) Q /\
    (forall i j, (i < nu)%nat -> (j < nv)%nat -> on_edge nu nv i j ->
       nth (i * nv + j) Q [] = lerp (nth i B []) (nth i T []) (INR j / IZR (Z.of_nat nv - 1))%R) /\
    (forall u s, (0 <= u <= 1)%R -> find_span (Z.of_nat nu) (Z.of_nat p) (Fin u : Exact) (fin U) = Ok s -> (kn U s < kn U (s + 1))%R ->
       surf_point S (Fin u : Exact) (Fin 0 : Exact) = single_point (curve_of (Z.of_nat p) U B d) (Fin u : Exact) /\
       surf_point S (Fin u : Exact) (Fin 1 : Exact) = single_point (curve_of (Z.of_nat p) U T d) (Fin u : Exact)) /\
    parameterize_surface (beh_of_surf S0) (mkData 3 (fin2 data)) = Ok (fin2 pts) /\
    (forall W, length W = (nu * nv)%nat ->
       (forall i j, (i < nu)%nat -> (j < nv)%nat -> on_edge nu nv i j -> nth (i * nv + j) W [] = nth (i * nv + j) Q []) ->
       (surface_err U V p q nu nv Q pts <= surface_err U V p q nu nv W pts)%R) /\
    parameterize_surface (beh_of_surf S) (mkData 3 (fin2 data)) = Ok rows /\ ip_param ip' = Some (mkData 5 rows).
Proof. exact interior_fit. Qed.
Print Assumptions C70_interior_fit.
(** Quadratic boundaries y = 0 and y = 1 (the upper one rises at its end), one
    free row of two control points, three interior points. *)
Definition edge64 (y z : Binary64) : bproblem Binary64 :=
  mkBP (K := Binary64) (Some 2) None None None (Some 4) false None (Some (mkData (K := Binary64) 4 []))
    (Some (mkCurve (K := Binary64) (Some 2) (Some [[0; y; 0]; [1; y; 0]; [2; y; 0]; [3; y; z]]%float) (Some [0; 0; 0; 0.5; 1; 1; 1]%float) 3)).
Definition interior64 : list (ip_op Binary64) :=
  [IDegree (VInt 2); INum (VInt 3); ITop (OBoundary (Some (edge64 1 1)%float)); IBottom (OBoundary (Some (edge64 0 0)%float));
   IData (Ok (Nd2 (K := Binary64) (mkData (K := Binary64) 3 [[1; 0.5; 0.5]; [2; 0.5; 0.5]; [1.5; 0.25; 0.25]]%float)))].
Example C70_example :
  let p := ip_run working_surface (gs_solver Binary64) ip_new interior64 in
  let '(p', r) := ip_fit_run working_surface (gs_solver Binary64) p in
  (r, match ip_fit p' with
      | Some s => match s_ctrl s with
                  | [a; b; c; d; e; f; g; h; i; j; k; l] => Some [a; b; c; d; f; g; i; j; k; l]
                  | _ => None end
      | None => None end,
   option_map (fun d => (dt_cols d, length (dt_rows d))) (ip_param p'),
   snd (ip_step working_surface (gs_solver Binary64) ip_new (ITop (OBoundary None))))
  = (Ok tt,
     Some [[0; 0; 0]; [0; 0.5; 0]; [0; 1; 0]; [1; 0; 0]; [1; 1; 0]; [2; 0; 0]; [2; 1; 0]; [3; 0; 0]; [3; 0.5; 0.5]; [3; 1; 1]]%float,
     Some (5, 3%nat), Err AttributeError).
Proof. vm_compute; reflexivity. Qed.
