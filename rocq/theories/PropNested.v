(** C68: the geometry classes exactly as the source is indented. *)
From Coq Require Import Floats Ascii String.
From Verif Require Import Py Num ModelKnots ModelBasis ModelCurve ModelSurface ModelNested ModelImport Spec MathKnots ProofNum ProofCurve ProofInsert3 ProofNested.
Open Scope R_scope.

(** Which definitions the class bodies end up with, and the nested class's body. *)
Example C68_class_bodies :
  let curve := class_body src_spline_model_base_geometry "SplineCurve" in
  map (attribute curve) ["__init__"; "control_points"; "degree"; "knot_vector"; "degree_u"; "SplineSurface"; "dimension_w"]%string
    = [Some 174; Some 235; Some 53; Some 76; Some 189; Some 157; None]%Z /\
  In (Cls ["SplineGeometry"%string] "SplineSurface" 157 []) curve.
Proof. vm_compute. intuition. Qed.

(** Using the attributes of a curve only: control points and knot vector can
    never be set, and evaluation always raises. *)
Theorem C68_curve_requests : forall (K : Num) degree dimension c0 (ops : list (nested_op K)),
  nested_init degree None None dimension = Ok c0 -> Forall curve_request ops ->
  let c := nested_run c0 ops in
  get_ctrl c = None /\ get_kv c = Err AttributeError /\
  get_degree c = match last_degree ops with Some d => Ok d | None => Err AttributeError end /\
  (forall a, nested_step c (NCtrl a) = (c, Some ValueError)) /\
  (forall kv, nested_step c (NKnots kv) =
     (c, Some (match last_degree ops with Some _ => ValueError | None => AttributeError end))) /\
  (forall u, nested_point c u = Err (if validate_knot u then TypeError else ValueError)).
Proof. exact nested_history. Qed.
Print Assumptions C68_curve_requests.
Example C68_curve_requests_ex :
  let ops := [NDegree 2%Z; NCtrl iP; NKnots (NdArray iU); NDegree 0%Z] in
  (exists c0, nested_init (K := Binary64) (Some 2%Z) None None (Some 3%Z) = Ok c0) /\
  Forall curve_request ops /\ last_degree ops = Some 2%Z.
Proof. split; [eexists; reflexivity|]. split; [repeat constructor|reflexivity]. Qed.

(** The degree given to the constructor is lost. *)
Theorem C68_degree_keyword_lost : forall (K : Num) degree degree_u degree_v dimension,
  exists c, nested_init (K := K) degree degree_u degree_v dimension = Ok c /\
            get_degree c = Err AttributeError.
Proof. intros; eexists; split; reflexivity. Qed.
Print Assumptions C68_degree_keyword_lost.

(** Setting the two surface degrees too (to any values) makes the curve work,
    provided the declared dimension is not that of the control points. *)
Theorem C68_detour : forall (K : Num) (c : nested K) d du dv a kv,
  (1 <= d)%Z -> (1 <= du)%Z -> (1 <= dv)%Z -> width a <> o_dim (n_surf c) ->
  check_knot_vector d (NdArray kv) (zlen a) = Ok true ->
  let c' := nested_run c [NDegree d; NDegreeU du; NDegreeV dv; NCtrl a; NKnots (NdArray kv)] in
  get_degree c' = Ok d /\ get_ctrl c' = Some a /\ get_kv c' = Ok kv /\
  (forall dim u, nested_point c' u = single_point (mkCurve (Some d) (Some a) (Some kv) dim) u).
Proof. exact nested_detour. Qed.
Print Assumptions C68_detour.
Example C68_detour_ex :
  width iP <> 0%Z /\ check_knot_vector 2 (NdArray iU) (zlen iP) = Ok true /\
  (let c := mkNested (surf_fresh (K := Binary64) None None) None None in
   nested_point (nested_run c [NDegree 2%Z; NDegreeU 1%Z; NDegreeV 1%Z; NCtrl iP; NKnots (NdArray iU)])
     (0.25%float : Binary64)) =
  single_point (mkCurve (Some 2%Z) (Some iP) (Some iU) 3) (0.25%float : Binary64).
Proof. split; [vm_compute; discriminate|]. split; vm_compute; reflexivity. Qed.

(** Control points of the declared dimension are refused in every state. *)
Theorem C68_dimension_clash : forall (K : Num) (c : nested K) a,
  width a = o_dim (n_surf c) -> nested_step c (NCtrl a) = (c, Some ValueError).
Proof. exact nested_clash. Qed.
Print Assumptions C68_dimension_clash.
Example C68_dimension_clash_ex : width iP = 3%Z.
Proof. reflexivity. Qed.

(** The surface knot vectors of such an object stay unset: every assignment raises. *)
Theorem C68_uv_knots_never : forall (K : Num) degree degree_u degree_v dimension c0 (ops : list (nested_op K)),
  nested_init degree degree_u degree_v dimension = Ok c0 ->
  let c := nested_run c0 ops in
  o_ku (n_surf c) = None /\ o_kv (n_surf c) = None /\
  forall kv, exists e f,
    nested_step c (NKnotsU kv) = (c, Some e) /\ nested_step c (NKnotsV kv) = (c, Some f).
Proof. exact nested_uv. Qed.
Print Assumptions C68_uv_knots_never.
Example C68_uv_knots_never_ex :
  let c := nested_run (mkNested (surf_fresh (K := Binary64) None None) None None)
             [NDegreeU 2%Z; NDegreeV 1%Z; NNumU 5%Z; NCtrl iP] in
  snd (nested_step c (NKnotsU (NdArray iU))) = Some AttributeError.
Proof. reflexivity. Qed.

(** A surface built on the nested class accepts any public attribute and uses
    none of them. *)
Theorem C68_surface_attributes : forall (K : Num) dimension (l : list (string * value K)) (u v : K),
  Forall (fun x => ~ exists t, fst x = String "_"%char t) l ->
  attrs_point (assign_all (geometry_init dimension) l) u v =
  Err (if validate_knot u && validate_knot v then AttributeError else ValueError).
Proof. exact nested_surface. Qed.
Print Assumptions C68_surface_attributes.
Example C68_surface_attributes_ex :
  Forall (fun x : string * value Binary64 => ~ exists t, fst x = String "_"%char t)
    [("degree_u"%string, VInt 2); ("control_points"%string, VMat iP); ("knot_vector_u"%string, VVec iU)].
Proof. repeat constructor; intros [t H]; discriminate H. Qed.
(** Its dimension is the one given to the constructor, 0 by default, and no other
    private attribute ever comes into being. *)
Theorem C68_surface_dimension : forall (K : Num) dimension (l : list (string * value K)),
  Forall (fun x => ~ exists t, fst x = String "_"%char t) l ->
  read (assign_all (geometry_init dimension) l) "_dimension" = Ok (VInt (match dimension with Some d => d | None => 0%Z end)) /\
  (forall n, (exists t, n = String "_"%char t) -> n <> "_dimension"%string ->
     read (assign_all (geometry_init dimension) l) n = Err AttributeError) /\
  forall v, assign (assign_all (geometry_init dimension) l) "dimension" v = Err AttributeError.
Proof. exact nested_surface_dimension. Qed.
Print Assumptions C68_surface_dimension.
(** Only with the private attributes assigned by hand does it evaluate. *)
Theorem C68_surface_private : forall (K : Num) dimension (s : surf K) (u v : K),
  attrs_point (assign_all (geometry_init dimension)
    [("_num_ctrlpts_u"%string, VInt (s_nu s)); ("_num_ctrlpts_v"%string, VInt (s_nv s));
     ("_degree_u"%string, VInt (s_pu s)); ("_degree_v"%string, VInt (s_pv s));
     ("_knot_vector_u"%string, VVec (s_ku s)); ("_knot_vector_v"%string, VVec (s_kv s));
     ("_control_points"%string, VMat (s_ctrl s))]) u v = surf_point s u v.
Proof. exact nested_surface_private. Qed.
Print Assumptions C68_surface_private.

(** What each request of a curve user does, in every state of the object. *)
Theorem C68_outcomes : forall (K : Num) (c : nested K),
  (forall u, nested_step c (NInsert u) = (c, Some UnboundLocalError)) /\
  (forall d, (d < 1)%Z -> nested_step c (NDegree d) = (c, Some ValueError)) /\
  (forall d, (1 <= d)%Z -> exists c', nested_step c (NDegree d) = (c', None) /\
     get_degree c' = Ok d /\ get_ctrl c' = get_ctrl c /\ get_kv c' = get_kv c) /\
  (forall kv e, get_degree c = Err e -> nested_step c (NKnots kv) = (c, Some AttributeError)) /\
  (forall kv p, get_degree c = Ok p -> get_ctrl c = None -> nested_step c (NKnots kv) = (c, Some ValueError)) /\
  (forall kv p P, get_degree c = Ok p -> get_ctrl c = Some P -> check_knot_vector p kv (zlen P) = Ok false ->
     nested_step c (NKnots kv) = (c, None)) /\
  (forall kv p P e, get_degree c = Ok p -> get_ctrl c = Some P -> check_knot_vector p kv (zlen P) = Err e ->
     nested_step c (NKnots kv) = (c, Some e)) /\
  (forall kv p P, get_degree c = Ok p -> get_ctrl c = Some P ->
     check_knot_vector p (NdArray kv) (zlen P) = Ok true ->
     exists c', nested_step c (NKnots (NdArray kv)) = (c', None) /\
       get_degree c' = Ok p /\ get_ctrl c' = Some P /\ get_kv c' = Ok kv).
Proof. exact nested_outcomes. Qed.
Print Assumptions C68_outcomes.
Example C68_outcomes_ex :
  let c := nested_run (mkNested (surf_fresh (K := Binary64) None None) None None)
             [NDegreeU 2%Z; NDegreeV 1%Z; NDegree 2%Z; NCtrl iP] in
  get_degree c = Ok 2%Z /\ get_ctrl c = Some iP /\ check_knot_vector 2 (NdArray iU) (zlen iP) = Ok true /\
  check_knot_vector 2 (NdArray (rev iU)) (zlen iP) = Ok false /\ check_knot_vector 2 (PyList iU) (zlen iP) <> Ok true.
Proof. repeat split; vm_compute; try reflexivity; discriminate. Qed.

(** What each request leaves alone, in every state and whether or not it is accepted. *)
Theorem C68_frame : forall (K : Num) (c : nested K) o,
  let c' := fst (nested_step c o) in
  ((forall d, o <> NDegree d) -> get_degree c' = get_degree c) /\
  ((forall kv, o <> NKnots kv) -> get_kv c' = get_kv c) /\
  ((forall a, o <> NCtrl a) -> get_ctrl c' = get_ctrl c) /\
  (curve_request o -> (forall a, o <> NCtrl a) -> n_surf c' = n_surf c).
Proof. exact nested_frame. Qed.
Print Assumptions C68_frame.
Example C68_frame_ex :
  let c := nested_run (mkNested (surf_fresh (K := Binary64) None None) None None)
             [NDegreeU 2%Z; NDegreeV 1%Z; NDegree 2%Z; NCtrl iP; NKnots (NdArray iU); NDegree 3%Z; NCtrl (rev iP)] in
  get_kv c = Ok iU /\ get_degree c = Ok 3%Z /\ get_ctrl c = Some (rev iP).
Proof. repeat split. Qed.
