(** Model of fit/model/base_data.py.

    A problem object is a record of its attributes; a method maps it to the new
    object and the outcome, because an exception may leave a partly updated
    object.  The classes [spline.Curve] and [spline.Surface] do not exist in
    the repository: the curve class is a parameter as in ModelFit.v, the surface
    has plain attributes.  The linear algebra is a parameter as in ModelFit.v.
    Attributes hold values here; ModelRef.v models that they hold references.
    Not modelled: printed messages, the [logging] argument, conversion of file
    names with [str]. *)
From Coq Require Import String.
From Verif Require Import Py Num ModelKnots ModelCurve ModelSurface ModelInit ModelParam ModelFit ModelIO.
Open Scope Z_scope.

(** What may be assigned to a scalar attribute: int, bool (an int), float, str,
    anything else that has no order and no [int] (None, a list, ...). *)
Inductive pyval (K : Num) := VInt (z : Z) | VBool (b : bool) | VFloat (x : K) | VStr (s : text) | VOther.
Arguments VInt {K} z.
Arguments VBool {K} b.
Arguments VFloat {K} x.
Arguments VStr {K} s.
Arguments VOther {K}.
(** An array by number of dimensions: 1-D entries, 2-D width and rows. *)
Inductive nd (K : Num) := Nd0 (x : K) | Nd1 (l : list K) | Nd2 (a : data_array K) | NdHigh.
Arguments Nd0 {K} x.
Arguments Nd1 {K} l.
Arguments Nd2 {K} a.
Arguments NdHigh {K}.

Section Problems.
Context {K : Num}.

(** [int(x)] of a float. *)
Definition py_int_float (x : K) : res Z :=
  match ntrunc x with
  | Some z => Ok z
  | None => if (x =? x)%num then Err OverflowError else Err ValueError
  end.
(** [if not isinstance(v, int): v = int(v)]. *)
Definition to_int (v : pyval K) : res Z :=
  match v with
  | VInt z => Ok z
  | VBool b => Ok (if b then 1 else 0)
  | VFloat x => py_int_float x
  | VStr s => py_int s
  | VOther => Err TypeError
  end.
(** [v <= 0]. *)
Definition le_zero (v : pyval K) : res bool :=
  match v with
  | VInt z => Ok (z <=? 0)
  | VBool b => Ok (negb b)
  | VFloat x => Ok (x <=? (0 : K))%num
  | VStr _ | VOther => Err TypeError
  end.
(** base_data.py:116-127 and 437-448. *)
Definition check_degree (v : pyval K) : res Z :=
  let* neg := le_zero v in
  if neg then Err ValueError else to_int v.
(** base_data.py:139-157 and 460-478; the argument is the array, or what
    [np.array(...)] raised. *)
Definition check_data (a : res (nd K)) : res (data_array K) :=
  let* a := a in
  match a with
  | Nd2 d => if (dt_cols d =? 2) || (dt_cols d =? 3) then Ok d else Err ValueError
  | _ => Err ValueError
  end.
(** base_data.py:169-187 and 199-217. *)
Definition check_point (a : res (nd K)) : res (list K) :=
  let* a := a in
  match a with
  | Nd1 l => if (zlen l =? 2) || (zlen l =? 3) then Ok l else Err ValueError
  | _ => Err ValueError
  end.

(** ** Data and Boundary *)

(** What may be assigned to [data], [start] and [end]: an array (its [shape] is
    a tuple, which cannot be called); an object without [shape]; an object with a
    method [shape], given by the outcome of [shape(-1)]; [id] tells such objects
    apart. *)
Inductive shaped := SArray (a : nd K) | SBare (id : Z) | SMethod (id : Z) (last : res Z).
(** Attributes; [do_boundary] tells Boundary from Data.  A missing attribute is
    [None]. *)
Record dobj := mkDO {
  do_boundary : bool;
  do_dim : Z;
  do_data : option shaped;
  do_start : option shaped;
  do_end : option shaped
}.
(** base_data.py:31-32; the keyword argument, if given. *)
Definition do_new (boundary : bool) (dimension : option Z) : dobj :=
  mkDO boundary (match dimension with Some d => d | None => 0 end) None None None.
(** base_data.py:47-48, 72-73, 82-83: [x.shape(-1) != self.dimension]. *)
Definition check_shape (dim : Z) (x : shaped) : res unit :=
  match x with
  | SArray _ => Err TypeError
  | SBare _ => Err AttributeError
  | SMethod _ last => let* d := last in if negb (d =? dim) then Err ValueError else Ok tt
  end.
(** Outcome of a method on an object of type [S]. *)
Definition finish {S} (s : S) (r : res S) : S * res unit :=
  match r with Ok s' => (s', Ok tt) | Err e => (s, Err e) | Diverge => (s, Diverge) end.
(** base_data.py:45-49. *)
Definition do_set_data (o : dobj) (x : shaped) :=
  finish o (let* _ := check_shape (do_dim o) x in Ok (mkDO (do_boundary o) (do_dim o) (Some x) (do_start o) (do_end o))).
(** base_data.py:70-74, 80-84; in class Data these are ordinary attributes. *)
Definition do_set_end (o : dobj) (x : shaped) :=
  finish o (let* _ := (if do_boundary o then check_shape (do_dim o) x else Ok tt) in
            Ok (mkDO (do_boundary o) (do_dim o) (do_data o) (do_start o) (Some x))).
Definition do_set_start (o : dobj) (x : shaped) :=
  finish o (let* _ := (if do_boundary o then check_shape (do_dim o) x else Ok tt) in
            Ok (mkDO (do_boundary o) (do_dim o) (do_data o) (Some x) (do_end o))).
(** base_data.py:37-39: a property without setter. *)
Definition do_set_dim (o : dobj) (d : Z) : dobj * res unit := (o, Err AttributeError).
(** base_data.py:41-43, 66-68, 76-78: reading an attribute. *)
Definition do_get (x : option shaped) : res shaped :=
  match x with Some x => Ok x | None => Err AttributeError end.
Inductive do_op := DData (x : shaped) | DStart (x : shaped) | DEnd (x : shaped) | DDim (d : Z).
Definition do_step (o : dobj) (op : do_op) : dobj * res unit :=
  match op with
  | DData x => do_set_data o x
  | DStart x => do_set_start o x
  | DEnd x => do_set_end o x
  | DDim d => do_set_dim o d
  end.
Definition do_run (o : dobj) (ops : list do_op) : dobj := fold_left (fun o op => fst (do_step o op)) ops o.

(** ** BoundaryProblem *)

(** Attributes of a BoundaryProblem; [bp_adaptive] is [_fit_method == 'adaptive']. *)
Record bproblem := mkBP {
  bp_degree : option Z;
  bp_data : option (data_array K);
  bp_start : option (list K);
  bp_end : option (list K);
  bp_num : option Z;
  bp_adaptive : bool;
  bp_init : option (curve_obj K);
  bp_param : option (data_array K);
  bp_fit : option (curve_obj K)
}.
(** base_data.py:92-101. *)
Definition bp_new : bproblem := mkBP None None None None None false None None None.

(** One step after another. *)
Definition andthen {S} (m : S * res unit) (k : S -> S * res unit) : S * res unit :=
  match m with
  | (s, Ok _) => k s
  | m => m
  end.

(** base_data.py:116-127. *)
Definition bp_set_degree (b : bproblem) (v : pyval K) :=
  finish b (let* d := check_degree v in
    Ok (mkBP (Some d) (bp_data b) (bp_start b) (bp_end b) (bp_num b) (bp_adaptive b) (bp_init b) (bp_param b) (bp_fit b))).
(** base_data.py:139-157. *)
Definition bp_set_data (b : bproblem) (a : res (nd K)) :=
  finish b (let* d := check_data a in
    Ok (mkBP (bp_degree b) (Some d) (bp_start b) (bp_end b) (bp_num b) (bp_adaptive b) (bp_init b) (bp_param b) (bp_fit b))).
(** base_data.py:169-187. *)
Definition bp_set_start (b : bproblem) (a : res (nd K)) :=
  finish b (let* p := check_point a in
    Ok (mkBP (bp_degree b) (bp_data b) (Some p) (bp_end b) (bp_num b) (bp_adaptive b) (bp_init b) (bp_param b) (bp_fit b))).
(** base_data.py:199-217. *)
Definition bp_set_end (b : bproblem) (a : res (nd K)) :=
  finish b (let* p := check_point a in
    Ok (mkBP (bp_degree b) (bp_data b) (bp_start b) (Some p) (bp_num b) (bp_adaptive b) (bp_init b) (bp_param b) (bp_fit b))).
(** base_data.py:229-242. *)
Definition bp_set_num (b : bproblem) (v : pyval K) :=
  finish b (let* n := to_int v in
    if n <=? 3 then Err ValueError else
    Ok (mkBP (bp_degree b) (bp_data b) (bp_start b) (bp_end b) (Some n) (bp_adaptive b) (bp_init b) (bp_param b) (bp_fit b))).
(** base_data.py:256-265. *)
Definition bp_set_method (b : bproblem) (v : pyval K) :=
  finish b (match v with
    | VStr s =>
        if text_eqb s (txt "fixed") || text_eqb s (txt "adaptive") then
          Ok (mkBP (bp_degree b) (bp_data b) (bp_start b) (bp_end b) (bp_num b) (text_eqb s (txt "adaptive")) (bp_init b) (bp_param b) (bp_fit b))
        else Err ValueError
    | _ => Err TypeError
    end).

(** initialization.py:14-56 on attributes that may be None: comparing with None
    and indexing None are TypeErrors. *)
Definition initialize_curve_opt (cl : curve_class K) (start stop : option (list K)) (degree num : option Z) : res (curve_obj K) :=
  match num, degree with
  | Some n, Some d =>
      match start, stop with
      | Some a, Some b => initialize_curve_with (cl_blank cl) (cl_set_ctrl cl) a b d n
      | _, _ =>
          if negb (d <=? n) then Err ValueError else
          let* _ := set_degree (cl_blank cl) d in Err TypeError
      end
  | _, _ => Err TypeError
  end.
(** base_data.py:278-288. *)
Definition bp_set_init (cl : curve_class K) (b : bproblem) :=
  finish b (let* c := (if bp_adaptive b then
                         match bp_degree b with
                         | None => Err TypeError
                         | Some d => initialize_curve_opt cl (bp_start b) (bp_end b) (Some d) (Some (d + 1))
                         end
                       else initialize_curve_opt cl (bp_start b) (bp_end b) (bp_degree b) (bp_num b)) in
    Ok (mkBP (bp_degree b) (bp_data b) (bp_start b) (bp_end b) (bp_num b) (bp_adaptive b) (Some c) (bp_param b) (bp_fit b))).

(** parameterize.py:138-164; iterating over None is a TypeError.  The result has
    one column more. *)
Definition parameterize_curve_opt (cl : curve_class K) (c : option (curve_obj K)) (data : option (data_array K)) : res (data_array K) :=
  match data with
  | None => Err TypeError
  | Some data =>
      match c with
      | None => Err AttributeError
      | Some c => let* rows := parameterize_curve (cl_beh cl c) data in Ok (mkData (dt_cols data + 1) rows)
      end
  end.
(** base_data.py:302-314. *)
Definition bp_parameterize (cl : curve_class K) (b : bproblem) :=
  let store b c :=
    finish b (let* d := parameterize_curve_opt cl c (bp_data b) in
      Ok (mkBP (bp_degree b) (bp_data b) (bp_start b) (bp_end b) (bp_num b) (bp_adaptive b) (bp_init b) (Some d) (bp_fit b))) in
  match bp_init b, bp_fit b with
  | None, None => andthen (bp_set_init cl b) (fun b => store b (bp_init b))
  | Some c, None => store b (Some c)
  | _, Some c => store b (Some c)
  end.

(** fitting.py:275-334 and 233-272 on data and counts that may be None: the
    steps before the first use, then TypeError. *)
Definition fit_curve_knot_insertion_opt (cl : curve_class K) (sv : solver K) (c : curve_obj K)
  (data : option (data_array K)) (num : option Z) : res (curve_obj K) :=
  match data, num with
  | Some data, Some num => fit_curve_knot_insertion cl sv c data num
  | None, _ => let* _ := copy_curve cl c in Err TypeError
  | Some data, None =>
      let* temp := copy_curve cl c in
      let* param_data := parameterize_curve (cl_beh cl temp) data in
      let* _ := single_fit_curve (cl_set_ctrl cl) sv temp param_data in
      Err TypeError
  end.
Definition fit_curve_fixed_ctrlpts_opt (cl : curve_class K) (sv : solver K) (c : curve_obj K)
  (data : option (data_array K)) : res (curve_obj K) :=
  match data with
  | Some data => fit_curve_fixed_ctrlpts cl sv c data
  | None =>
      match c_ctrl c with
      | None => Err TypeError
      | Some P =>
          let* start := aget P 0 in
          let* stop := aget P (-1) in
          match c_degree c with
          | None => Err TypeError
          | Some p =>
              let* init := initialize_curve_with (cl_blank cl) (cl_set_ctrl cl) start stop p (p + 1) in
              match c_ctrl init with
              | None => Err TypeError
              | Some _ => let* _ := copy_curve cl init in Err TypeError
              end
          end
      end
  end.

(** base_data.py:325-355. *)
Definition bp_fit_run (cl : curve_class K) (sv : solver K) (b : bproblem) : bproblem * res unit :=
  andthen (match bp_init b with None => bp_set_init cl b | Some _ => (b, Ok tt) end) (fun b =>
  match bp_init b with
  | None => (b, Err TypeError)
  | Some init =>
      match (let* c := (if bp_adaptive b then fit_curve_knot_insertion_opt cl sv init (bp_data b) (bp_num b)
                        else fit_curve_fixed_ctrlpts_opt cl sv init (bp_data b)) in
             match c_kv c, bp_degree b with
             | Some kv, Some d => Ok (c, zlen kv - d - 1)
             | _, _ => Err TypeError
             end) with
      | Ok (c, num) =>
          let b := mkBP (bp_degree b) (bp_data b) (bp_start b) (bp_end b) (bp_num b) (bp_adaptive b) (bp_init b) (bp_param b) (Some c) in
          andthen (bp_set_num b (VInt num)) (bp_parameterize cl)
      | Err e => (b, Err e)
      | Diverge => (b, Diverge)
      end
  end).

(** base_data.py:357-380. *)
Definition bp_save (b : bproblem) (name : text) : io unit :=
  match bp_fit b with
  | None => ret (Err ValueError)
  | Some c => write_curve_to_txt c name
  end.
(** base_data.py:382-404; [step] are the setters of the curve class. *)
Definition bp_load (step : setter (curve_obj K) (curve_op K)) (cd : codec K) (b : bproblem) (name : text) : io unit := fun d =>
  match bp_fit b with
  | Some _ => (d, Err ValueError)
  | None => let '(d, _, r) := read_curve_from_txt step cd None name d in (d, r)
  end.

(** What can be done to a problem object from outside. *)
Inductive bp_op :=
| BDegree (v : pyval K) | BData (a : res (nd K)) | BStart (a : res (nd K)) | BEnd (a : res (nd K))
| BNum (v : pyval K) | BMethod (v : pyval K) | BInit | BParam | BFit.
Definition bp_step (cl : curve_class K) (sv : solver K) (b : bproblem) (o : bp_op) : bproblem * res unit :=
  match o with
  | BDegree v => bp_set_degree b v
  | BData a => bp_set_data b a
  | BStart a => bp_set_start b a
  | BEnd a => bp_set_end b a
  | BNum v => bp_set_num b v
  | BMethod v => bp_set_method b v
  | BInit => bp_set_init cl b
  | BParam => bp_parameterize cl b
  | BFit => bp_fit_run cl sv b
  end.
Definition bp_run (cl : curve_class K) (sv : solver K) (b : bproblem) (ops : list bp_op) : bproblem :=
  fold_left (fun b o => fst (bp_step cl sv b o)) ops b.

(** ** InteriorProblem *)
Record iproblem := mkIP {
  ip_degree : option Z;
  ip_data : option (data_array K);
  ip_num : option Z;
  ip_top : option bproblem;
  ip_bottom : option bproblem;
  ip_init : option (surf K);
  ip_param : option (data_array K);
  ip_fit : option (surf K)
}.
(** base_data.py:412-420. *)
Definition ip_new : iproblem := mkIP None None None None None None None None.
(** base_data.py:437-448. *)
Definition ip_set_degree (p : iproblem) (v : pyval K) :=
  finish p (let* d := check_degree v in
    Ok (mkIP (Some d) (ip_data p) (ip_num p) (ip_top p) (ip_bottom p) (ip_init p) (ip_param p) (ip_fit p))).
(** base_data.py:460-478. *)
Definition ip_set_data (p : iproblem) (a : res (nd K)) :=
  finish p (let* d := check_data a in
    Ok (mkIP (ip_degree p) (Some d) (ip_num p) (ip_top p) (ip_bottom p) (ip_init p) (ip_param p) (ip_fit p))).
(** base_data.py:490-503. *)
Definition ip_set_num (p : iproblem) (v : pyval K) :=
  finish p (let* n := to_int v in
    if n <? 3 then Err ValueError else
    Ok (mkIP (ip_degree p) (ip_data p) (Some n) (ip_top p) (ip_bottom p) (ip_init p) (ip_param p) (ip_fit p))).
(** What may be assigned to a boundary attribute: an object of class Boundary
    (base_data.py:56-84, which defines no attribute [fit_curve]) as the class
    makes it ([None]) or on which the caller has set the attributes [degree],
    [num_ctrlpts], [fit_curve] and [parameterized_data] by hand; a
    BoundaryProblem (which is no subclass of Boundary); anything else. *)
Inductive bobj := OBoundary (own : option bproblem) | OProblem (b : bproblem) | OOther.
Definition check_boundary (o : bobj) : res bproblem :=
  match o with
  | OBoundary None => Err AttributeError
  | OBoundary (Some b) => match bp_fit b with None => Err ValueError | Some _ => Ok b end
  | OProblem _ | OOther => Err TypeError
  end.
(** base_data.py:515-524. *)
Definition ip_set_top (p : iproblem) (o : bobj) :=
  finish p (let* b := check_boundary o in
    Ok (mkIP (ip_degree p) (ip_data p) (ip_num p) (Some b) (ip_bottom p) (ip_init p) (ip_param p) (ip_fit p))).
(** base_data.py:536-545. *)
Definition ip_set_bottom (p : iproblem) (o : bobj) :=
  finish p (let* b := check_boundary o in
    Ok (mkIP (ip_degree p) (ip_data p) (ip_num p) (ip_top p) (Some b) (ip_init p) (ip_param p) (ip_fit p))).

(** base_data.py:576-587; state (surf_ctrlpt, ctrlpt). *)
Definition ruled_net (top bottom : list (list K)) (nu nv : Z) : res (list (list K)) :=
  let* net := np_full2 (nu * nv) 3 (0 : K)%num in
  let* st := for_range 0 nu (fun upt st =>
    let* t := aget top upt in
    let* b := aget bottom upt in
    let* delta := np_sub t b in
    for_range 0 nv (fun vpt st =>
      let* b := aget bottom upt in
      if nv - 1 =? 0 then Err ZeroDivisionError else
      let* row := np_bin nadd b (map (fun x => (ofZ vpt / ofZ (nv - 1) * x)%num) delta) in
      let* net := aset_row (fst st) (snd st) row in
      Ok (net, snd st + 1)) st) (net, 0) in
  Ok (fst st).

(** [_fit_curve.control_points] and [_fit_curve.knot_vector] of a boundary. *)
Definition fit_ctrl (b : bproblem) : res (list (list K)) :=
  match bp_fit b with
  | None => Err AttributeError
  | Some c => match c_ctrl c with None => Err TypeError | Some P => Ok P end
  end.
Definition opt_eqb (a b : option Z) : bool :=
  match a, b with Some x, Some y => x =? y | None, None => true | _, _ => false end.
(** base_data.py:556-595.  [new] is [spline.Surface()] of line 569: of the
    repository's class it raises TypeError (ModelSurface), so a parameter.  The
    degree and count setters are the class's; those of the control points and
    knot vectors, which cannot work there, are taken to store their argument.  A
    missing attribute raises here at once, in the code when first used. *)
Definition repo_surface : res (surf_obj K) := surface_init CBSurface None None None.
Definition working_surface : res (surf_obj K) := Ok (surf_fresh None None).
Definition init_surface (new : res (surf_obj K)) (top bottom : option bproblem) (degree num : option Z) : res (surf K) :=
  match top, bottom with
  | Some t, Some b =>
      if negb (opt_eqb (bp_degree t) (bp_degree b)) then Err ValueError else
      if negb (opt_eqb (bp_num t) (bp_num b)) then Err ValueError else
      let* o := new in
      match bp_degree b, degree, bp_num b, num with
      | Some pu, Some pv, Some nu, Some nv =>
          let* o := set_degree_u o pu in
          let* o := set_degree_v o pv in
          let* o := set_num_u o nu in
          let* o := set_num_v o nv in
          let* T := fit_ctrl t in
          let* B := fit_ctrl b in
          let* net := ruled_net T B nu nv in
          match bp_fit b with
          | Some c =>
              match c_kv c with
              | Some ku =>
                  let* kv := generate_uniform pv nv in
                  Ok (mkSurf pu pv nu nv net ku kv)
              | None => Err TypeError
              end
          | None => Err AttributeError
          end
      | _, _, _, _ => Err TypeError
      end
  | _, _ => Err AttributeError
  end.
Definition ip_set_init (new : res (surf_obj K)) (p : iproblem) :=
  finish p (let* s := init_surface new (ip_top p) (ip_bottom p) (ip_degree p) (ip_num p) in
    Ok (mkIP (ip_degree p) (ip_data p) (ip_num p) (ip_top p) (ip_bottom p) (Some s) (ip_param p) (ip_fit p))).

Definition parameterize_surface_opt (s : option (surf K)) (data : option (data_array K)) : res (data_array K) :=
  match data with
  | None => Err TypeError
  | Some data =>
      match s with
      | None => Err AttributeError
      | Some s => let* rows := parameterize_surface (beh_of_surf s) data in Ok (mkData (dt_cols data + 2) rows)
      end
  end.
(** base_data.py:609-621. *)
Definition ip_parameterize (new : res (surf_obj K)) (p : iproblem) :=
  let store p s :=
    finish p (let* d := parameterize_surface_opt s (ip_data p) in
      Ok (mkIP (ip_degree p) (ip_data p) (ip_num p) (ip_top p) (ip_bottom p) (ip_init p) (Some d) (ip_fit p))) in
  match ip_init p, ip_fit p with
  | None, None => andthen (ip_set_init new p) (fun p => store p (ip_init p))
  | Some s, None => store p (Some s)
  | _, Some s => store p (Some s)
  end.
(** base_data.py:632-654. *)
Definition ip_fit_run (new : res (surf_obj K)) (sv : solver K) (p : iproblem) : iproblem * res unit :=
  andthen (match ip_init p with None => ip_set_init new p | Some _ => (p, Ok tt) end) (fun p =>
  match ip_init p, ip_data p with
  | Some s, Some data =>
      match ip_top p, ip_bottom p with
      | Some t, Some b =>
          match fit_surface sv s data (bp_param t) (bp_param b) with
          | Ok s' =>
              ip_parameterize new (mkIP (ip_degree p) (ip_data p) (ip_num p) (ip_top p) (ip_bottom p) (ip_init p) (ip_param p) (Some s'))
          | Err e => (p, Err e)
          | Diverge => (p, Diverge)
          end
      | _, _ => (p, Err AttributeError)
      end
  | _, _ => (p, Err TypeError)
  end).
(** base_data.py:656-679. *)
Definition ip_save (cd : codec K) (p : iproblem) (name : text) : io unit :=
  match ip_fit p with
  | None => ret (Err ValueError)
  | Some s => write_surface_to_txt cd s name
  end.
(** base_data.py:681-703: calls the curve reader. *)
Definition ip_load (step : setter (curve_obj K) (curve_op K)) (cd : codec K) (p : iproblem) (name : text) : io unit := fun d =>
  match ip_fit p with
  | Some _ => (d, Err ValueError)
  | None => let '(d, _, r) := read_curve_from_txt step cd None name d in (d, r)
  end.
(** base_data.py:705-723; [n_tri] defaults to 100. *)
Definition ip_vtk {T} (delaunay : list (list K) -> res T) (mesh_write : text -> list (list K) -> T -> io unit)
  (p : iproblem) (name : text) : io unit :=
  surf_to_vtk delaunay mesh_write (option_map surf_point (ip_fit p)) name 100.

Inductive ip_op :=
| IDegree (v : pyval K) | IData (a : res (nd K)) | INum (v : pyval K) | ITop (o : bobj) | IBottom (o : bobj)
| IInit | IParam | IFit.
Definition ip_step (new : res (surf_obj K)) (sv : solver K) (p : iproblem) (o : ip_op) : iproblem * res unit :=
  match o with
  | IDegree v => ip_set_degree p v
  | IData a => ip_set_data p a
  | INum v => ip_set_num p v
  | ITop b => ip_set_top p b
  | IBottom b => ip_set_bottom p b
  | IInit => ip_set_init new p
  | IParam => ip_parameterize new p
  | IFit => ip_fit_run new sv p
  end.
Definition ip_run (new : res (surf_obj K)) (sv : solver K) (p : iproblem) (ops : list ip_op) : iproblem :=
  fold_left (fun p o => fst (ip_step new sv p o)) ops p.
End Problems.
Arguments bproblem K : clear implicits.
Arguments iproblem K : clear implicits.
Arguments bp_op K : clear implicits.
Arguments ip_op K : clear implicits.
Arguments bobj K : clear implicits.
Arguments shaped K : clear implicits.
Arguments dobj K : clear implicits.
Arguments do_op K : clear implicits.
