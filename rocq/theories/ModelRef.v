(** Model of the references kept and passed on by fit/model/base_data.py and
    fit/algorithms/fitting.py.

    ModelInit.v, ModelFit.v and ModelData.v give every attribute a value.  Here
    attributes that hold arrays, curves, surfaces or boundaries hold addresses
    in a store, so that two attributes can share an array, the caller can change
    an array or an object after having assigned it, and an interior problem sees
    what its boundaries have become.  Computations without effect on the objects
    (parameterization, least squares, knot insertion, the checks of the setters)
    are those of the other files, applied to the present contents.

    Read for [spline.Curve] and [spline.Surface]: the class of ModelFit.v whose
    control point setter assigns ([working_class]), and surfaces of plain
    attributes.  Setters store the array they are given, they do not copy it.
    Only arrays of dimension one and two have addresses; writing into an array
    keeps its shape.  Not modelled: views (slices that share memory), arrays
    whose shape attribute is assigned. *)
From Verif Require Import Py Num ModelKnots ModelCurve ModelSurface ModelInit ModelParam ModelFit ModelIO ModelData.
Open Scope Z_scope.

(** [put i x l]: entry [i] of [l] replaced. *)
Fixpoint put {A} (i : nat) (x : A) (l : list A) : list A :=
  match l, i with
  | [], _ => []
  | _ :: t, O => x :: t
  | y :: t, S j => y :: put j x t
  end.

(** A curve object; addresses of a 2-D and a 1-D array. *)
Record rcurve := mkRC { rc_degree : option Z; rc_ctrl : option nat; rc_kv : option nat; rc_dim : Z }.
(** A surface object. *)
Record rsurf := mkRS { rs_pu : Z; rs_pv : Z; rs_nu : Z; rs_nv : Z; rs_ctrl : nat; rs_ku : nat; rs_kv : nat }.
(** A BoundaryProblem (base_data.py:92-101): [rb_data], [rb_param] 2-D arrays,
    [rb_start], [rb_end] 1-D arrays, [rb_init], [rb_fit] curves. *)
Record rproblem := mkRP {
  rb_degree : option Z; rb_data : option nat; rb_start : option nat; rb_end : option nat; rb_num : option Z;
  rb_adaptive : bool; rb_init : option nat; rb_param : option nat; rb_fit : option nat
}.
(** A Boundary (base_data.py:56-84) on which the caller has set the attributes
    [degree], [num_ctrlpts], [fit_curve] and [parameterized_data]. *)
Record rbound := mkRB { rd_degree : option Z; rd_num : option Z; rd_fit : option nat; rd_param : option nat }.
(** An InteriorProblem (base_data.py:412-420); [ri_top], [ri_bottom] are
    Boundary objects, [ri_init], [ri_fit] surfaces. *)
Record rinterior := mkRI {
  ri_degree : option Z; ri_data : option nat; ri_num : option Z; ri_top : option nat; ri_bottom : option nat;
  ri_init : option nat; ri_param : option nat; ri_fit : option nat
}.
Definition no_curve : rcurve := mkRC None None None 0.
Definition no_surf : rsurf := mkRS 0 0 0 0 O O O.
Definition no_problem : rproblem := mkRP None None None None None false None None None.
Definition no_bound : rbound := mkRB None None None None.
Definition no_interior : rinterior := mkRI None None None None None None None None.

Section Ref.
Context {K : Num}.

(** All objects that exist; an address is a position in the list of its kind. *)
Record store := mkStore {
  h_vec : list (list K);
  h_mat : list (data_array K);
  h_cur : list rcurve;
  h_sur : list rsurf;
  h_bp : list rproblem;
  h_bd : list rbound;
  h_ip : list rinterior
}.
Definition store0 : store := mkStore [] [] [] [] [] [] [].

Definition vec_at (s : store) (a : nat) : list K := nth a (h_vec s) [].
Definition mat_at (s : store) (a : nat) : data_array K := nth a (h_mat s) (mkData 0 []).
Definition cur_at (s : store) (k : nat) : rcurve := nth k (h_cur s) no_curve.
Definition sur_at (s : store) (k : nat) : rsurf := nth k (h_sur s) no_surf.
Definition bp_at (s : store) (i : nat) : rproblem := nth i (h_bp s) no_problem.
Definition bd_at (s : store) (i : nat) : rbound := nth i (h_bd s) no_bound.
Definition ip_at (s : store) (i : nat) : rinterior := nth i (h_ip s) no_interior.

(** The contents of objects: the records of the other model files. *)
Definition curve_val (s : store) (k : nat) : curve_obj K :=
  let c := cur_at s k in
  mkCurve (rc_degree c) (option_map (fun a => dt_rows (mat_at s a)) (rc_ctrl c)) (option_map (vec_at s) (rc_kv c)) (rc_dim c).
Definition surf_val (s : store) (k : nat) : surf K :=
  let f := sur_at s k in
  mkSurf (rs_pu f) (rs_pv f) (rs_nu f) (rs_nv f) (dt_rows (mat_at s (rs_ctrl f))) (vec_at s (rs_ku f)) (vec_at s (rs_kv f)).
Definition bp_val (s : store) (i : nat) : bproblem K :=
  let b := bp_at s i in
  mkBP (rb_degree b) (option_map (mat_at s) (rb_data b)) (option_map (vec_at s) (rb_start b)) (option_map (vec_at s) (rb_end b))
    (rb_num b) (rb_adaptive b) (option_map (curve_val s) (rb_init b)) (option_map (mat_at s) (rb_param b)) (option_map (curve_val s) (rb_fit b)).
Definition bd_val (s : store) (d : nat) : bproblem K :=
  let b := bd_at s d in
  mkBP (rd_degree b) None None None (rd_num b) false None (option_map (mat_at s) (rd_param b)) (option_map (curve_val s) (rd_fit b)).
Definition ip_val (s : store) (i : nat) : iproblem K :=
  let p := ip_at s i in
  mkIP (ri_degree p) (option_map (mat_at s) (ri_data p)) (ri_num p) (option_map (bd_val s) (ri_top p)) (option_map (bd_val s) (ri_bottom p))
    (option_map (surf_val s) (ri_init p)) (option_map (mat_at s) (ri_param p)) (option_map (surf_val s) (ri_fit p)).

(** ** Effects *)
Definition rm (A : Type) : Type := store -> store * res A.
Definition rpure {A} (r : res A) : rm A := fun s => (s, r).
Definition rbind {A B} (m : rm A) (k : A -> rm B) : rm B := fun s =>
  match m s with
  | (s, Ok a) => k a s
  | (s, Err e) => (s, Err e)
  | (s, Diverge) => (s, Diverge)
  end.
Notation "'let?' x ':=' m 'in' k" := (rbind m (fun x => k))
  (at level 200, x pattern, m at level 100, k at level 200, right associativity).
Definition rread {A} (f : store -> A) : rm A := fun s => (s, Ok (f s)).
Definition rfor {A} (f : A -> rm unit) : list A -> rm unit :=
  fix go l := match l with [] => rpure (Ok tt) | x :: t => let? _ := f x in go t end.

(** New objects. *)
Definition new_vec (l : list K) : rm nat := fun s =>
  (mkStore (h_vec s ++ [l]) (h_mat s) (h_cur s) (h_sur s) (h_bp s) (h_bd s) (h_ip s), Ok (length (h_vec s))).
Definition new_mat (m : data_array K) : rm nat := fun s =>
  (mkStore (h_vec s) (h_mat s ++ [m]) (h_cur s) (h_sur s) (h_bp s) (h_bd s) (h_ip s), Ok (length (h_mat s))).
Definition new_rows (rows : list (list K)) : rm nat := new_mat (mkData (width rows) rows).
Definition new_cur (c : rcurve) : rm nat := fun s =>
  (mkStore (h_vec s) (h_mat s) (h_cur s ++ [c]) (h_sur s) (h_bp s) (h_bd s) (h_ip s), Ok (length (h_cur s))).
Definition new_sur (f : rsurf) : rm nat := fun s =>
  (mkStore (h_vec s) (h_mat s) (h_cur s) (h_sur s ++ [f]) (h_bp s) (h_bd s) (h_ip s), Ok (length (h_sur s))).
Definition new_opt {A} (f : A -> rm nat) (x : option A) : rm (option nat) :=
  match x with Some x => let? a := f x in rpure (Ok (Some a)) | None => rpure (Ok None) end.
(** Assignment to attributes. *)
Definition put_cur (k : nat) (c : rcurve) : rm unit := fun s =>
  (mkStore (h_vec s) (h_mat s) (put k c (h_cur s)) (h_sur s) (h_bp s) (h_bd s) (h_ip s), Ok tt).
Definition put_bp (i : nat) (b : rproblem) : rm unit := fun s =>
  (mkStore (h_vec s) (h_mat s) (h_cur s) (h_sur s) (put i b (h_bp s)) (h_bd s) (h_ip s), Ok tt).
Definition put_ip (i : nat) (p : rinterior) : rm unit := fun s =>
  (mkStore (h_vec s) (h_mat s) (h_cur s) (h_sur s) (h_bp s) (h_bd s) (put i p (h_ip s)), Ok tt).

(** ** Curves *)
(** base_geometry.py:52-56. *)
Definition r_set_degree (k : nat) (d : Z) : rm unit :=
  let? c := rread (fun s => cur_at s k) in
  let? v := rread (fun s => curve_val s k) in
  let? _ := rpure (set_degree v d) in
  put_cur k (mkRC (Some d) (rc_ctrl c) (rc_kv c) (rc_dim c)).
(** The assigning setter: the array itself is stored. *)
Definition r_set_ctrl (k a : nat) : rm unit :=
  let? c := rread (fun s => cur_at s k) in
  put_cur k (mkRC (rc_degree c) (Some a) (rc_kv c) (rc_dim c)).
(** base_geometry.py:75-84: the array itself, if it passes the check. *)
Definition r_set_kv (k a : nat) : rm unit :=
  let? c := rread (fun s => cur_at s k) in
  let? v := rread (fun s => curve_val s k) in
  let? kv := rread (fun s => vec_at s a) in
  match c_degree v, c_ctrl v with
  | Some p, Some P =>
      let? ok := rpure (check_knot_vector p (NdArray kv) (zlen P)) in
      if ok : bool then put_cur k (mkRC (rc_degree c) (rc_ctrl c) (Some a) (rc_dim c)) else rpure (Ok tt)
  | _, _ => rpure (Err ValueError)
  end.
(** A blank curve object. *)
Definition r_blank : rm nat := new_cur (mkRC None None None 0).
(** initialization.py:14-56: control points and knots are new arrays. *)
Definition r_initialize_curve (start stop : option (list K)) (degree num : option Z) : rm nat :=
  let? c := rpure (initialize_curve_opt working_class start stop degree num) in
  let? a := new_opt new_rows (c_ctrl c) in
  let? b := new_opt new_vec (c_kv c) in
  new_cur (mkRC (c_degree c) a b (c_dim c)).
(** fitting.py:293-296 / 258-261: the copy holds the arrays of the original. *)
Definition r_copy_curve (k : nat) : rm nat :=
  let? c := rread (fun s => cur_at s k) in
  let? t := r_blank in
  match rc_degree c with
  | None => rpure (Err TypeError)
  | Some d =>
      let? _ := r_set_degree t d in
      match rc_ctrl c with
      | None => rpure (Err AttributeError)
      | Some a =>
          let? _ := r_set_ctrl t a in
          match rc_kv c with
          | None => rpure (Err AttributeError)
          | Some b => let? _ := r_set_kv t b in rpure (Ok t)
          end
      end
  end.
(** fitting.py:73-141: the fitted control points are a new array. *)
Definition r_single_fit (sv : solver K) (k : nat) (rows : list (list K)) : rm unit :=
  let? v := rread (fun s => curve_val s k) in
  let? c := rpure (single_fit_curve store_ctrl sv v rows) in
  match c_ctrl c with
  | Some P => let? a := new_rows P in r_set_ctrl k a
  | None => rpure (Ok tt)
  end.
(** bspline.py:111-128: new control points, then new knots. *)
Definition r_insert_knot (k : nat) (u : K) : rm unit :=
  let? v := rread (fun s => curve_val s k) in
  if negb (validate_knot u) then rpure (Err ValueError) else
  let? f := rpure (curve_fields v) in
  let '(p, P, kv) := f in
  let? r := rpure (curve_knot_insertion p kv P u 1) in
  let? a := new_rows (snd r) in
  let? _ := r_set_ctrl k a in
  let? b := new_vec (fst r) in
  r_set_kv k b.
(** fitting.py:299-332. *)
Fixpoint r_insertion_loop (fuel : nat) (sv : solver K) (data : data_array K) (num_pts : Z) (k : nat) : rm nat :=
  match fuel with
  | O => rpure Diverge
  | S f =>
      let? v := rread (fun s => curve_val s k) in
      let? rows := rpure (parameterize_curve (beh_of_curve3 v) data) in
      let? _ := r_single_fit sv k rows in
      let? v := rread (fun s => curve_val s k) in
      match c_ctrl v with
      | None => rpure (Err TypeError)
      | Some P =>
          if num_pts <=? zlen P then rpure (Ok k) else
          let? g := rpure (curve_fields v) in
          let '(p, _, kv) := g in
          let? knots := rpure (span_midpoints p kv) in
          let? _ := rfor (fun i => let? u := rpure (aget knots i) in r_insert_knot k u) (zrange 0 (zlen knots)) in
          r_insertion_loop f sv data num_pts k
      end
  end.
(** fitting.py:275-334. *)
Definition r_fit_insertion (sv : solver K) (k : nat) (data : data_array K) (num_pts : Z) : rm nat :=
  let? t := r_copy_curve k in
  r_insertion_loop (S (Z.to_nat num_pts)) sv data num_pts t.
Definition r_fit_insertion_opt (sv : solver K) (k : nat) (data : option (data_array K)) (num : option Z) : rm nat :=
  match data, num with
  | Some data, Some num => r_fit_insertion sv k data num
  | None, _ => let? _ := r_copy_curve k in rpure (Err TypeError)
  | Some data, None =>
      let? t := r_copy_curve k in
      let? v := rread (fun s => curve_val s t) in
      let? rows := rpure (parameterize_curve (beh_of_curve3 v) data) in
      let? _ := r_single_fit sv t rows in
      rpure (Err TypeError)
  end.
(** fitting.py:233-272. *)
Definition r_fit_fixed_opt (sv : solver K) (k : nat) (data : option (data_array K)) : rm nat :=
  let? v := rread (fun s => curve_val s k) in
  match c_ctrl v with
  | None => rpure (Err TypeError)
  | Some P =>
      let? start := rpure (aget P 0) in
      let? stop := rpure (aget P (-1)) in
      match c_degree v with
      | None => rpure (Err TypeError)
      | Some p =>
          let? init := r_initialize_curve (Some start) (Some stop) (Some p) (Some (p + 1)) in
          let? v0 := rread (fun s => curve_val s init) in
          match c_ctrl v0, data with
          | None, _ => rpure (Err TypeError)
          | Some P0, Some data =>
              let? fit := r_fit_insertion sv init data (zlen P0) in
              let? vf := rread (fun s => curve_val s fit) in
              let? rows := rpure (parameterize_curve (beh_of_curve3 vf) data) in
              let? fixed := r_copy_curve k in
              let? _ := r_single_fit sv fixed rows in
              let? vx := rread (fun s => curve_val s fixed) in
              let? rows := rpure (parameterize_curve (beh_of_curve3 vx) data) in
              let? _ := r_single_fit sv fixed rows in
              rpure (Ok fixed)
          | Some _, None => let? _ := r_copy_curve init in rpure (Err TypeError)
          end
      end
  end.

(** ** BoundaryProblem *)
(** What is assigned to an array attribute: an array, which is stored itself, or
    anything else, of which [np.array] makes a new one (or raises). *)
Inductive arg := AVec (a : nat) | AMat (a : nat) | AConv (x : res (nd K)).
Definition arg_val (s : store) (x : arg) : res (nd K) :=
  match x with AVec a => Ok (Nd1 (vec_at s a)) | AMat a => Ok (Nd2 (mat_at s a)) | AConv r => r end.
Definition keep_mat (x : arg) (d : data_array K) : rm nat :=
  match x with AMat a => rpure (Ok a) | _ => new_mat d end.
Definition keep_vec (x : arg) (l : list K) : rm nat :=
  match x with AVec a => rpure (Ok a) | _ => new_vec l end.

(** Requests to a BoundaryProblem, as [bp_op]. *)
Inductive rb_op :=
| RDegree (v : pyval K) | RData (x : arg) | RStart (x : arg) | REnd (x : arg) | RNum (v : pyval K) | RMethod (v : pyval K)
| RInit | RParam | RFit.
Definition rb_op_val (s : store) (o : rb_op) : bp_op K :=
  match o with
  | RDegree v => BDegree v | RData x => BData (arg_val s x) | RStart x => BStart (arg_val s x) | REnd x => BEnd (arg_val s x)
  | RNum v => BNum v | RMethod v => BMethod v | RInit => BInit | RParam => BParam | RFit => BFit
  end.
(** base_data.py:116-127, 229-242, 256-265: plain values. *)
Definition r_scalar (i : nat) (f : bproblem K -> bproblem K * res unit) : rm unit :=
  let? v := rread (fun s => bp_val s i) in
  let? b := rread (fun s => bp_at s i) in
  let? _ := rpure (snd (f v)) in
  let v' := fst (f v) in
  put_bp i (mkRP (bp_degree v') (rb_data b) (rb_start b) (rb_end b) (bp_num v') (bp_adaptive v') (rb_init b) (rb_param b) (rb_fit b)).
(** base_data.py:139-157. *)
Definition r_set_data (i : nat) (x : arg) : rm unit :=
  let? v := rread (fun s => arg_val s x) in
  let? d := rpure (check_data v) in
  let? a := keep_mat x d in
  let? b := rread (fun s => bp_at s i) in
  put_bp i (mkRP (rb_degree b) (Some a) (rb_start b) (rb_end b) (rb_num b) (rb_adaptive b) (rb_init b) (rb_param b) (rb_fit b)).
(** base_data.py:169-187. *)
Definition r_set_start (i : nat) (x : arg) : rm unit :=
  let? v := rread (fun s => arg_val s x) in
  let? l := rpure (check_point v) in
  let? a := keep_vec x l in
  let? b := rread (fun s => bp_at s i) in
  put_bp i (mkRP (rb_degree b) (rb_data b) (Some a) (rb_end b) (rb_num b) (rb_adaptive b) (rb_init b) (rb_param b) (rb_fit b)).
(** base_data.py:199-217. *)
Definition r_set_end (i : nat) (x : arg) : rm unit :=
  let? v := rread (fun s => arg_val s x) in
  let? l := rpure (check_point v) in
  let? a := keep_vec x l in
  let? b := rread (fun s => bp_at s i) in
  put_bp i (mkRP (rb_degree b) (rb_data b) (rb_start b) (Some a) (rb_num b) (rb_adaptive b) (rb_init b) (rb_param b) (rb_fit b)).
(** base_data.py:278-288. *)
Definition r_set_init (i : nat) : rm unit :=
  let? v := rread (fun s => bp_val s i) in
  let? k := (if bp_adaptive v then
               match bp_degree v with
               | None => rpure (Err TypeError)
               | Some d => r_initialize_curve (bp_start v) (bp_end v) (Some d) (Some (d + 1))
               end
             else r_initialize_curve (bp_start v) (bp_end v) (bp_degree v) (bp_num v)) in
  let? b := rread (fun s => bp_at s i) in
  put_bp i (mkRP (rb_degree b) (rb_data b) (rb_start b) (rb_end b) (rb_num b) (rb_adaptive b) (Some k) (rb_param b) (rb_fit b)).
(** base_data.py:302-314; the parameterized data are a new array. *)
Definition r_store_param (i : nat) (k : option nat) : rm unit :=
  let? v := rread (fun s => bp_val s i) in
  let? c := rread (fun s => option_map (curve_val s) k) in
  let? d := rpure (parameterize_curve_opt working_class c (bp_data v)) in
  let? a := new_mat d in
  let? b := rread (fun s => bp_at s i) in
  put_bp i (mkRP (rb_degree b) (rb_data b) (rb_start b) (rb_end b) (rb_num b) (rb_adaptive b) (rb_init b) (Some a) (rb_fit b)).
Definition r_parameterize (i : nat) : rm unit :=
  let? b := rread (fun s => bp_at s i) in
  match rb_init b, rb_fit b with
  | None, None => let? _ := r_set_init i in let? b := rread (fun s => bp_at s i) in r_store_param i (rb_init b)
  | Some c, None => r_store_param i (Some c)
  | _, Some c => r_store_param i (Some c)
  end.
(** base_data.py:325-355. *)
Definition r_fit (sv : solver K) (i : nat) : rm unit :=
  let? b := rread (fun s => bp_at s i) in
  let? _ := (match rb_init b with None => r_set_init i | Some _ => rpure (Ok tt) end) in
  let? b := rread (fun s => bp_at s i) in
  let? v := rread (fun s => bp_val s i) in
  match rb_init b with
  | None => rpure (Err TypeError)
  | Some k =>
      let? c := (if rb_adaptive b then r_fit_insertion_opt sv k (bp_data v) (rb_num b) else r_fit_fixed_opt sv k (bp_data v)) in
      let? w := rread (fun s => curve_val s c) in
      match c_kv w, rb_degree b with
      | Some kv, Some d =>
          let? _ := put_bp i (mkRP (rb_degree b) (rb_data b) (rb_start b) (rb_end b) (rb_num b) (rb_adaptive b) (rb_init b) (rb_param b) (Some c)) in
          let? _ := r_scalar i (fun v => bp_set_num v (VInt (zlen kv - d - 1))) in
          r_parameterize i
      | _, _ => rpure (Err TypeError)
      end
  end.
Definition r_bp_step (sv : solver K) (i : nat) (o : rb_op) : rm unit :=
  match o with
  | RDegree v => r_scalar i (fun b => bp_set_degree b v)
  | RData x => r_set_data i x
  | RStart x => r_set_start i x
  | REnd x => r_set_end i x
  | RNum v => r_scalar i (fun b => bp_set_num b v)
  | RMethod v => r_scalar i (fun b => bp_set_method b v)
  | RInit => r_set_init i
  | RParam => r_parameterize i
  | RFit => r_fit sv i
  end.

(** ** InteriorProblem *)
(** What is assigned to a boundary attribute. *)
Inductive barg := DBound (d : nat) | DBare | DProblem (i : nat) | DOther.
Definition barg_val (s : store) (x : barg) : bobj K :=
  match x with
  | DBound d => OBoundary (Some (bd_val s d)) | DBare => OBoundary None | DProblem i => OProblem (bp_val s i) | DOther => OOther
  end.
Inductive ri_op :=
| JDegree (v : pyval K) | JData (x : arg) | JNum (v : pyval K) | JTop (x : barg) | JBottom (x : barg) | JInit | JParam | JFit.
Definition ri_op_val (s : store) (o : ri_op) : ip_op K :=
  match o with
  | JDegree v => IDegree v | JData x => IData (arg_val s x) | JNum v => INum v | JTop x => ITop (barg_val s x) | JBottom x => IBottom (barg_val s x)
  | JInit => IInit | JParam => IParam | JFit => IFit
  end.
(** base_data.py:437-448, 490-503. *)
Definition r_iscalar (i : nat) (f : iproblem K -> iproblem K * res unit) : rm unit :=
  let? v := rread (fun s => ip_val s i) in
  let? p := rread (fun s => ip_at s i) in
  let? _ := rpure (snd (f v)) in
  let v' := fst (f v) in
  put_ip i (mkRI (ip_degree v') (ri_data p) (ip_num v') (ri_top p) (ri_bottom p) (ri_init p) (ri_param p) (ri_fit p)).
(** base_data.py:460-478. *)
Definition r_set_idata (i : nat) (x : arg) : rm unit :=
  let? v := rread (fun s => arg_val s x) in
  let? d := rpure (check_data v) in
  let? a := keep_mat x d in
  let? p := rread (fun s => ip_at s i) in
  put_ip i (mkRI (ri_degree p) (Some a) (ri_num p) (ri_top p) (ri_bottom p) (ri_init p) (ri_param p) (ri_fit p)).
(** base_data.py:515-524, 536-545: the object itself is stored. *)
Definition r_check_bound (x : barg) : rm nat :=
  let? v := rread (fun s => barg_val s x) in
  let? _ := rpure (check_boundary v) in
  match x with DBound d => rpure (Ok d) | _ => rpure (Err TypeError) end.
Definition r_set_top (i : nat) (x : barg) : rm unit :=
  let? d := r_check_bound x in
  let? p := rread (fun s => ip_at s i) in
  put_ip i (mkRI (ri_degree p) (ri_data p) (ri_num p) (Some d) (ri_bottom p) (ri_init p) (ri_param p) (ri_fit p)).
Definition r_set_bottom (i : nat) (x : barg) : rm unit :=
  let? d := r_check_bound x in
  let? p := rread (fun s => ip_at s i) in
  put_ip i (mkRI (ri_degree p) (ri_data p) (ri_num p) (ri_top p) (Some d) (ri_init p) (ri_param p) (ri_fit p)).
(** base_data.py:556-595: new control points and v-knots; the u-knots are the
    array of the bottom boundary's curve (line 592). *)
Definition r_set_isurf (new : res (surf_obj K)) (i : nat) : rm unit :=
  let? v := rread (fun s => ip_val s i) in
  let? p := rread (fun s => ip_at s i) in
  let? f := rpure (init_surface new (ip_top v) (ip_bottom v) (ip_degree v) (ip_num v)) in
  let? ku := rread (fun s => match ri_bottom p with
                             | Some d => match rd_fit (bd_at s d) with Some k => rc_kv (cur_at s k) | None => None end
                             | None => None
                             end) in
  match ku with
  | None => rpure (Err TypeError)
  | Some ku =>
      let? a := new_rows (s_ctrl f) in
      let? kv := new_vec (s_kv f) in
      let? k := new_sur (mkRS (s_pu f) (s_pv f) (s_nu f) (s_nv f) a ku kv) in
      put_ip i (mkRI (ri_degree p) (ri_data p) (ri_num p) (ri_top p) (ri_bottom p) (Some k) (ri_param p) (ri_fit p))
  end.
(** base_data.py:609-621. *)
Definition r_istore_param (i : nat) (k : option nat) : rm unit :=
  let? v := rread (fun s => ip_val s i) in
  let? f := rread (fun s => option_map (surf_val s) k) in
  let? d := rpure (parameterize_surface_opt f (ip_data v)) in
  let? a := new_mat d in
  let? p := rread (fun s => ip_at s i) in
  put_ip i (mkRI (ri_degree p) (ri_data p) (ri_num p) (ri_top p) (ri_bottom p) (ri_init p) (Some a) (ri_fit p)).
Definition r_iparameterize (new : res (surf_obj K)) (i : nat) : rm unit :=
  let? p := rread (fun s => ip_at s i) in
  match ri_init p, ri_fit p with
  | None, None => let? _ := r_set_isurf new i in let? p := rread (fun s => ip_at s i) in r_istore_param i (ri_init p)
  | Some k, None => r_istore_param i (Some k)
  | _, Some k => r_istore_param i (Some k)
  end.
(** base_data.py:632-654 with fitting.py:356-366: the copy holds the knot arrays
    of the initial surface, the fitted control points are new. *)
Definition r_ifit (new : res (surf_obj K)) (sv : solver K) (i : nat) : rm unit :=
  let? p := rread (fun s => ip_at s i) in
  let? _ := (match ri_init p with None => r_set_isurf new i | Some _ => rpure (Ok tt) end) in
  let? p := rread (fun s => ip_at s i) in
  let? v := rread (fun s => ip_val s i) in
  match ri_init p, ip_data v with
  | Some k, Some data =>
      match ip_top v, ip_bottom v with
      | Some t, Some b =>
          let? w := rread (fun s => surf_val s k) in
          let? f0 := rread (fun s => sur_at s k) in
          let? f := rpure (fit_surface sv w data (bp_param t) (bp_param b)) in
          let? a := new_rows (s_ctrl f) in
          let? k' := new_sur (mkRS (rs_pu f0) (rs_pv f0) (rs_nu f0) (rs_nv f0) a (rs_ku f0) (rs_kv f0)) in
          let? _ := put_ip i (mkRI (ri_degree p) (ri_data p) (ri_num p) (ri_top p) (ri_bottom p) (ri_init p) (ri_param p) (Some k')) in
          r_iparameterize new i
      | _, _ => rpure (Err AttributeError)
      end
  | _, _ => rpure (Err TypeError)
  end.
Definition r_ip_step (new : res (surf_obj K)) (sv : solver K) (i : nat) (o : ri_op) : rm unit :=
  match o with
  | JDegree v => r_iscalar i (fun p => ip_set_degree p v)
  | JData x => r_set_idata i x
  | JNum v => r_iscalar i (fun p => ip_set_num p v)
  | JTop x => r_set_top i x
  | JBottom x => r_set_bottom i x
  | JInit => r_set_isurf new i
  | JParam => r_iparameterize new i
  | JFit => r_ifit new sv i
  end.

(** ** What a program can do *)
Definition same_shape (a b : data_array K) : bool :=
  (dt_cols a =? dt_cols b) && (length (dt_rows a) =? length (dt_rows b))%nat
  && forallb (fun xy => length (fst xy) =? length (snd xy))%nat (combine (dt_rows a) (dt_rows b)).
Inductive rop :=
| UVec (l : list K) | UMat (m : data_array K)              (* a new array *)
| UWriteVec (a : nat) (l : list K)                          (* a[:] = l *)
| UWriteMat (a : nat) (m : data_array K)                    (* a[:, :] = m *)
| UCurve                                                    (* a new curve object *)
| UCurDegree (k : nat) (d : Z) | UCurCtrl (k a : nat) | UCurKv (k a : nat)   (* assignment to an attribute of a curve *)
| UProblem | UDo (i : nat) (o : rb_op)
| UBound (b : rbound) | UBoundSet (d : nat) (b : rbound)    (* a Boundary and its attributes *)
| UInterior | UIDo (i : nat) (o : ri_op).
(** Every object named exists. *)
Definition has {A} (l : list A) (i : nat) : bool := (i <? length l)%nat.
Definition has_opt {A} (l : list A) (i : option nat) : bool := match i with Some i => has l i | None => true end.
Definition arg_ok (s : store) (x : arg) : bool := match x with AVec a => has (h_vec s) a | AMat a => has (h_mat s) a | AConv _ => true end.
Definition barg_ok (s : store) (x : barg) : bool := match x with DBound d => has (h_bd s) d | DProblem i => has (h_bp s) i | _ => true end.
Definition bound_ok (s : store) (b : rbound) : bool := has_opt (h_cur s) (rd_fit b) && has_opt (h_mat s) (rd_param b).
Definition op_ok (s : store) (o : rop) : bool :=
  match o with
  | UVec _ | UMat _ | UCurve | UProblem | UInterior => true
  | UWriteVec a _ => has (h_vec s) a
  | UWriteMat a _ => has (h_mat s) a
  | UCurDegree k _ => has (h_cur s) k
  | UCurCtrl k a => has (h_cur s) k && has (h_mat s) a
  | UCurKv k a => has (h_cur s) k && has (h_vec s) a
  | UDo i o => has (h_bp s) i && match o with RData x | RStart x | REnd x => arg_ok s x | _ => true end
  | UBound b => bound_ok s b
  | UBoundSet d b => has (h_bd s) d && bound_ok s b
  | UIDo i o => has (h_ip s) i && match o with JData x => arg_ok s x | JTop x | JBottom x => barg_ok s x | _ => true end
  end.
Definition rstep (new : res (surf_obj K)) (sv : solver K) (o : rop) (s : store) : store * res unit :=
  if negb (op_ok s o) then (s, Err NameError) else
  match o with
  | UVec l => let '(s, _) := new_vec l s in (s, Ok tt)
  | UMat m => let '(s, _) := new_mat m s in (s, Ok tt)
  | UWriteVec a l =>
      if (length l =? length (vec_at s a))%nat
      then (mkStore (put a l (h_vec s)) (h_mat s) (h_cur s) (h_sur s) (h_bp s) (h_bd s) (h_ip s), Ok tt) else (s, Err ValueError)
  | UWriteMat a m =>
      if same_shape m (mat_at s a)
      then (mkStore (h_vec s) (put a m (h_mat s)) (h_cur s) (h_sur s) (h_bp s) (h_bd s) (h_ip s), Ok tt) else (s, Err ValueError)
  | UCurve => let '(s, _) := r_blank s in (s, Ok tt)
  | UCurDegree k d => r_set_degree k d s
  | UCurCtrl k a => r_set_ctrl k a s
  | UCurKv k a => r_set_kv k a s
  | UProblem => (mkStore (h_vec s) (h_mat s) (h_cur s) (h_sur s) (h_bp s ++ [no_problem]) (h_bd s) (h_ip s), Ok tt)
  | UDo i o => r_bp_step sv i o s
  | UBound b => (mkStore (h_vec s) (h_mat s) (h_cur s) (h_sur s) (h_bp s) (h_bd s ++ [b]) (h_ip s), Ok tt)
  | UBoundSet d b => (mkStore (h_vec s) (h_mat s) (h_cur s) (h_sur s) (h_bp s) (put d b (h_bd s)) (h_ip s), Ok tt)
  | UInterior => (mkStore (h_vec s) (h_mat s) (h_cur s) (h_sur s) (h_bp s) (h_bd s) (h_ip s ++ [no_interior]), Ok tt)
  | UIDo i o => r_ip_step new sv i o s
  end.
Definition rrun (new : res (surf_obj K)) (sv : solver K) (s : store) (ops : list rop) : store :=
  fold_left (fun s o => fst (rstep new sv o s)) ops s.
End Ref.
Arguments store K : clear implicits.
Arguments arg K : clear implicits.
Arguments rb_op K : clear implicits.
Arguments ri_op K : clear implicits.
Arguments rop K : clear implicits.
