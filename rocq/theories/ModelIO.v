(** Model of fit/io/text.py, fit/io/base_io.py and fit/io/curve.py.

    Text is a list of (ASCII) characters.  A file system maps names to the text
    of the file as Python's text mode shows it (newlines already translated);
    two names never denote the same file.  Opening may fail for reasons of the
    environment ([f_ropen], [f_wopen]).  Reading and writing an open file does
    not fail.

    Formatting and parsing of floats, [json.load], triangulation and the mesh
    writer are parameters (ModelFloat.v has the formatting and parsing of doubles);
    integers are formatted and parsed concretely. *)
From Coq Require Import Ascii String DecimalString.
From Verif Require Import Py Num ModelKnots ModelCurve ModelSurface ModelInit.
Open Scope Z_scope.

Definition text := list ascii.
Definition txt (s : string) : text := list_ascii_of_string s.
Definition nl : ascii := "010"%char.
Definition tabc : ascii := "009"%char.

Record fs := mkFs {
  f_files : text -> option text;
  f_ropen : text -> option exn;      (* environment failure when opening for reading *)
  f_wopen : text -> option exn       (* ... for writing *)
}.
Definition text_eqb (a b : text) : bool := if list_eq_dec ascii_dec a b then true else false.
Definition put (d : fs) (name content : text) : fs :=
  mkFs (fun n => if text_eqb n name then Some content else f_files d n) (f_ropen d) (f_wopen d).

(** Effects: the file system, then the outcome. *)
Definition io (A : Type) := fs -> fs * res A.
Definition ret {A} (r : res A) : io A := fun d => (d, r).
Definition ibind {A B} (m : io A) (k : A -> io B) : io B :=
  fun d => match m d with
           | (d, Ok a) => k a d
           | (d, Err e) => (d, Err e)
           | (d, Diverge) => (d, Diverge)
           end.
Notation "'let!' x ':=' m 'in' k" := (ibind m (fun x => k))
  (at level 200, x pattern, m at level 100, k at level 200, right associativity).
Fixpoint io_for {X} (l : list X) (body : X -> io unit) : io unit :=
  match l with
  | [] => ret (Ok tt)
  | x :: t => let! _ := body x in io_for t body
  end.

(** [open(name, 'r')]: the text to be read. *)
Definition open_r (name : text) : io text := fun d =>
  match f_ropen d name with
  | Some e => (d, Err e)
  | None => match f_files d name with None => (d, Err FileNotFoundError) | Some s => (d, Ok s) end
  end.
(** [open(name, 'w')]: creates or truncates. *)
Definition open_w (name : text) : io unit := fun d =>
  match f_wopen d name with
  | Some e => (d, Err e)
  | None => (put d name [], Ok tt)
  end.
(** [f.write(s)] on a file opened for writing; leaving the [with] block flushes,
    also when an exception is raised. *)
Definition f_write (name s : text) : io unit := fun d =>
  (put d name (match f_files d name with Some old => old ++ s | None => s end), Ok tt).
(** [f.write(s)] on a file opened for reading. *)
Definition f_write_ro (s : text) : io unit := ret (Err UnsupportedOperation).

(** [s.split(c)] for a one-character separator: never empty. *)
Fixpoint split_on (c : ascii) (s : text) : list text :=
  match s with
  | [] => [[]]
  | x :: t =>
      if ascii_dec x c then [] :: split_on c t
      else match split_on c t with
           | h :: r => (x :: h) :: r
           | [] => [[x]]
           end
  end.
Definition drop_empty_last (l : list text) : list text :=
  match last l [] with [] => removelast l | _ => l end.
(** [[line.strip('\n') for line in f]]. *)
Definition lines (s : text) : list text := drop_empty_last (split_on nl s).
(** Characters [str.split()] and [int()] treat as blank. *)
Definition blank (c : ascii) : bool :=
  let n := nat_of_ascii c in ((9 <=? n) && (n <=? 13) || (28 <=? n) && (n <=? 32))%nat.
(** [s.split()]; the word being read is kept reversed. *)
Fixpoint words_aux (cur s : text) : list text :=
  match s with
  | [] => match cur with [] => [] | _ => [rev cur] end
  | x :: t => if blank x then match cur with [] => words_aux [] t | _ => rev cur :: words_aux [] t end
              else words_aux (x :: cur) t
  end.
Definition words (s : text) : list text := words_aux [] s.
Fixpoint lstrip (s : text) : text :=
  match s with x :: t => if blank x then lstrip t else s | [] => [] end.
Definition strip (s : text) : text := rev (lstrip (rev (lstrip s))).

(** ['{}'.format(n)], [int(s)] for an int / a str. *)
Definition fmt_int (z : Z) : text := txt (NilZero.string_of_int (Z.to_int z)).
(** The value of a digit. *)
Definition char_digit (c : ascii) : option Z :=
  let n := Z.of_nat (nat_of_ascii c) in if (48 <=? n) && (n <=? 57) then Some (n - 48) else None.
Definition is_digit (c : ascii) : bool := match char_digit c with Some _ => true | None => false end.
(** An underscore is allowed between two digits only. *)
Fixpoint drop_underscores (after_digit : bool) (s : text) : option text :=
  match s with
  | [] => Some []
  | c :: t =>
      if ascii_dec c "_" then
        match t with
        | d :: _ => if after_digit && is_digit d then drop_underscores false t else None
        | [] => None
        end
      else option_map (cons c) (drop_underscores (is_digit c) t)
  end.
(** A sign, true if negative, and the rest; leading digits and the rest. *)
Definition read_sign (s : text) : bool * text :=
  match s with
  | c :: t => if ascii_dec c "-" then (true, t) else if ascii_dec c "+" then (false, t) else (false, s)
  | [] => (false, s)
  end.
Fixpoint read_digits (s : text) : list Z * text :=
  match s with
  | c :: t => match char_digit c with
              | Some d => let (ds, r) := read_digits t in (d :: ds, r)
              | None => ([], s)
              end
  | [] => ([], [])
  end.
Definition number (ds : list Z) : Z := fold_left (fun a d => 10 * a + d) ds 0.
Definition py_int (s : text) : res Z :=
  match drop_underscores false (strip s) with
  | None => Err ValueError
  | Some t =>
      let (neg, r) := read_sign t in
      match read_digits r with
      | (d :: ds, []) => Ok (if neg then - number (d :: ds) else number (d :: ds))
      | _ => Err ValueError
      end
  end.

Section Text.
Context {K : Num}.

(** ['{}'.format(x)] and [float(s)]. *)
Record codec := mkCodec { tc_fmt : K -> text; tc_parse : text -> res K }.

(** text.py:28-49; [w] is [f.write].  [range] of an array of floats is a
    TypeError, so lines 38-49 are never reached. *)
Definition write_curve_body (c : curve_obj K) (w : text -> io unit) : io unit :=
  let! _ := w (txt "Degree - p:" ++ [nl]) in
  let! _ := w (match c_degree c with Some p => fmt_int p | None => txt "None" end ++ [nl]) in
  let! _ := w (txt "Number of Knots" ++ [nl]) in
  let! kv := ret (match c_kv c with Some kv => Ok kv | None => Err TypeError end) in
  let! _ := w (fmt_int (zlen kv) ++ [nl]) in
  let! _ := w (txt "Knot Vector - U" ++ [nl]) in
  ret (Err TypeError).
(** text.py:14-49: the file is opened for reading. *)
Definition write_curve_to_txt (c : curve_obj K) (filename : text) : io unit :=
  let! _ := open_r filename in
  write_curve_body c f_write_ro.

(** An object with settable attributes: the state after one assignment, and the
    exception raised, if any ([curve_step], [surf_step] are the repository's). *)
Definition setter (S Op : Type) := S -> Op -> S * option exn.
Fixpoint assign_all {S Op} (step : setter S Op) (o : S) (ops : list Op) : S * res unit :=
  match ops with
  | [] => (o, Ok tt)
  | op :: t => match step o op with
               | (o', None) => assign_all step o' t
               | (o', Some e) => (o', Err e)
               end
  end.

Definition read_floats (cd : codec) (l : list text) : res (list K) := mapM (tc_parse cd) l.
Definition read_rows (cd : codec) (contents : list text) (first : Z) : res (list (list K)) :=
  mapM (fun line => let* s := aget contents line in read_floats cd (words s)) (zrange first (zlen contents)).

(** text.py:67-81: what is read before any attribute is set. *)
Definition parse_curve (cd : codec) (contents : list text) : res (Z * Z * list K * Z * list (list K)) :=
  let* s1 := aget contents 1 in
  let* degree := py_int s1 in
  let* s3 := aget contents 3 in
  let* num_knots := py_int s3 in
  let* s5 := aget contents 5 in
  let* knot_vector := read_floats cd (split_on tabc s5) in
  let* s7 := aget contents 7 in
  let* num_ctrlpts := py_int s7 in
  let* control_points := read_rows cd contents 9 in
  Ok (degree, num_knots, knot_vector, num_ctrlpts, control_points).

(** text.py:52-86.  [None] is Python's None, which has no settable attributes. *)
Definition read_curve_from_txt {S} (step : setter S (curve_op K)) (cd : codec) (o : option S) (filename : text)
  (d : fs) : fs * option S * res unit :=
  match (let! s := open_r filename in ret (parse_curve cd (lines s))) d with
  | (d, Ok (degree, _, knot_vector, _, control_points)) =>
      match o with
      | None => (d, None, Err AttributeError)
      | Some o =>
          let '(o, r) := assign_all step o [OpDegree degree; OpControlPoints control_points;
                                            OpKnotVector (NdArray knot_vector)] in
          (d, Some o, r)
      end
  | (d, Err e) => (d, o, Err e)
  | (d, Diverge) => (d, o, Diverge)
  end.

(** text.py:89-136. *)
Definition write_surface_to_txt (cd : codec) (s : surf K) (filename : text) : io unit :=
  let w t := f_write filename t in
  let line t := w (t ++ [nl]) in
  let! _ := open_w filename in
  let! _ := line (txt "Degree - p:") in
  let! _ := line (fmt_int (s_pu s)) in
  let! _ := line (txt "Degree - q:") in
  let! _ := line (fmt_int (s_pv s)) in
  let! _ := line (txt "Number of Knots in U") in
  let! _ := line (fmt_int (zlen (s_ku s))) in
  let! _ := line (txt "Number of Knots in V") in
  let! _ := line (fmt_int (zlen (s_kv s))) in
  let! _ := line (txt "Knot Vector - U") in
  let! _ := io_for (s_ku s) (fun k => w (tc_fmt cd k ++ [tabc])) in
  let! _ := w [nl] in
  let! _ := line (txt "Knot Vector - V") in
  let! _ := io_for (s_kv s) (fun k => w (tc_fmt cd k ++ [tabc])) in
  let! _ := w [nl] in
  let! _ := line (txt "Number of Control Points in U") in
  let! _ := line (fmt_int (s_nu s)) in
  let! _ := line (txt "Number of Control Points in V") in
  let! _ := line (fmt_int (s_nv s)) in
  let! _ := line (txt "Control Points") in
  io_for (s_ctrl s) (fun pt =>
    let! x := ret (aget pt 0) in
    let! y := ret (aget pt 1) in
    let! z := ret (aget pt 2) in
    line (tc_fmt cd x ++ [tabc; " "%char] ++ tc_fmt cd y ++ [tabc; " "%char] ++ tc_fmt cd z)).

(** text.py:154-172. *)
Definition parse_surf (cd : codec) (contents : list text)
  : res (Z * Z * (Z * Z) * list K * list K * Z * Z * list (list K)) :=
  let int i := let* s := aget contents i in py_int s in
  let floats i := let* s := aget contents i in read_floats cd (split_on tabc s) in
  let* degree_u := int 1 in
  let* degree_v := int 3 in
  let* num_knots_u := int 5 in
  let* num_knots_v := int 7 in
  let* knot_vector_u := floats 9 in
  let* knot_vector_v := floats 11 in
  let* num_ctrlpts_u := int 13 in
  let* num_ctrlpts_v := int 15 in
  let* control_points := read_rows cd contents 17 in
  Ok (degree_u, degree_v, (num_knots_u, num_knots_v), knot_vector_u, knot_vector_v,
      num_ctrlpts_u, num_ctrlpts_v, control_points).

(** text.py:139-184. *)
Definition read_surf_from_txt {S} (step : setter S (surf_op K)) (cd : codec) (o : option S) (filename : text)
  (d : fs) : fs * option S * res unit :=
  match (let! s := open_r filename in ret (parse_surf cd (lines s))) d with
  | (d, Ok (pu, pv, _, ku, kv, nu, nv, P)) =>
      match o with
      | None => (d, None, Err AttributeError)
      | Some o =>
          let '(o, r) := assign_all step o [SDegreeU pu; SDegreeV pv; SNumU nu; SNumV nv; SCtrl P;
                                            SKnotU (NdArray ku); SKnotV (NdArray kv)] in
          (d, Some o, r)
      end
  | (d, Err e) => (d, o, Err e)
  | (d, Diverge) => (d, o, Diverge)
  end.

(** Setters of the missing classes [spline.Curve], [spline.Surface]: as in
    ModelFit.v the curve has a control point setter that assigns, the surface
    has plain attributes. *)
Definition working_step : setter (curve_obj K) (curve_op K) := fun c op =>
  match op with
  | OpControlPoints a => (mkCurve (c_degree c) (Some a) (c_kv c) (c_dim c), None)
  | _ => curve_step c op
  end.
Definition plain (a : arraylike K) : list K := match a with NdArray l | PyList l => l end.
Definition plain_step : setter (surf K) (surf_op K) := fun s op =>
  (match op with
   | SDegreeU d => mkSurf d (s_pv s) (s_nu s) (s_nv s) (s_ctrl s) (s_ku s) (s_kv s)
   | SDegreeV d => mkSurf (s_pu s) d (s_nu s) (s_nv s) (s_ctrl s) (s_ku s) (s_kv s)
   | SNumU n => mkSurf (s_pu s) (s_pv s) n (s_nv s) (s_ctrl s) (s_ku s) (s_kv s)
   | SNumV n => mkSurf (s_pu s) (s_pv s) (s_nu s) n (s_ctrl s) (s_ku s) (s_kv s)
   | SCtrl a => mkSurf (s_pu s) (s_pv s) (s_nu s) (s_nv s) a (s_ku s) (s_kv s)
   | SKnotU k => mkSurf (s_pu s) (s_pv s) (s_nu s) (s_nv s) (s_ctrl s) (plain k) (s_kv s)
   | SKnotV k => mkSurf (s_pu s) (s_pv s) (s_nu s) (s_nv s) (s_ctrl s) (s_ku s) (plain k)
   end, None).

(** ** surf_to_vtk *)
(** [np.arange(start, stop, step)]: the length is the ceiling of
    [(stop - start) / step]; the entries from the third on are
    [start + i * delta] with [delta] the difference of the first two. *)
Definition np_arange (start stop step : K) : res (list K) :=
  match nceil ((stop - start) / step)%num with
  | None => Err ValueError
  | Some n =>
      Ok (map (fun i => if i =? 0 then start else if i =? 1 then (start + step)%num
                        else (start + ofZ i * ((start + step) - start))%num) (zrange 0 n))
  end.

(** text.py:207-211; state (spts, pt). *)
Definition vtk_loop (point : K -> K -> res (list K)) (stop step : K) (spts : list (list K)) : res (list (list K) * Z) :=
  let* us := np_arange (0 : K)%num stop step in
  for_list us (fun u st =>
    let* vs := np_arange (0 : K)%num stop step in
    for_list vs (fun v st =>
      let* q := point u v in
      let* s := aset_row (fst st) (snd st) (q ++ [u; v]) in
      Ok (s, snd st + 1)) st) (spts, 0).

(** text.py:199-211: the sampled points; [point] is the surface's [single_point]. *)
Definition vtk_grid (point : K -> K -> res (list K)) (n_tri : Z) : res (list (list K)) :=
  if n_tri =? 0 then Err ZeroDivisionError else
  let inv := (1 / ofZ n_tri)%num in
  let stop := (1 + inv)%num in
  match ntrunc ((stop - (0 : K)) * ofZ n_tri)%num with
  | None => Err OverflowError
  | Some size =>
      let* spts := np_full2 (size * size) 5 (0 : K)%num in
      let* st := vtk_loop point stop inv spts in
      Ok (fst st)
  end.

(** text.py:187-224; [delaunay] and [mesh_write] stand for scipy and meshio.
    [None] for the surface is Python's None. *)
Definition surf_to_vtk {T} (delaunay : list (list K) -> res T) (mesh_write : text -> list (list K) -> T -> io unit)
  (point : option (K -> K -> res (list K))) (filename : text) (n_tri : Z) : io unit :=
  let! spts := ret (vtk_grid (match point with Some f => f | None => fun _ _ => Err AttributeError end) n_tri) in
  let! params := ret (mapM (fun r => let* u := aget r 3 in let* v := aget r 4 in Ok [u; v]) spts) in
  let! simplices := ret (delaunay params) in
  mesh_write filename (map (firstn 3) spts) simplices.

(** ** Reader and writer classes (base_io.py, curve.py) *)
Inductive io_class := IObject | IAbc | IFile | IReader | IWriter | ICurveReader | ICurveWriter.
Definition io_class_eqb (a b : io_class) : bool :=
  match a, b with
  | IObject, IObject | IAbc, IAbc | IFile, IFile | IReader, IReader | IWriter, IWriter
  | ICurveReader, ICurveReader | ICurveWriter, ICurveWriter => true
  | _, _ => false
  end.
(** Method resolution orders of base_io.py:9, 22, 36 and curve.py:15, 44. *)
Definition io_mro (c : io_class) : list io_class :=
  match c with
  | IObject => [IObject]
  | IAbc => [IAbc; IObject]
  | IFile => [IFile; IAbc; IObject]
  | IReader => [IReader; IFile; IAbc; IObject]
  | IWriter => [IWriter; IFile; IAbc; IObject]
  | ICurveReader => [ICurveReader; IReader; IFile; IAbc; IObject]
  | ICurveWriter => [ICurveWriter; IWriter; IFile; IAbc; IObject]
  end.
Fixpoint io_after (cls : io_class) (l : list io_class) : res (list io_class) :=
  match l with
  | [] => Err TypeError
  | x :: t => if io_class_eqb x cls then Ok t else io_after cls t
  end.

(** The object under construction: [file_handle], [spline]. *)
Record io_obj := mkIoObj { io_file : option text; io_spline : option (curve_obj K) }.
(** Positional arguments of a constructor. *)
Inductive io_arg := ArgFile (name : text) | ArgSpline (c : curve_obj K).

(** [__init__] found along the resolution order [m] of an object of class [self];
    [fuel] bounds the depth of the [super] chain.
    base_io.py:17-19 (IFile), 43-45 (IWriter: [super(BaseReader, self)]),
    curve.py:18-22, 47-51 ([super] of their own class); the others have no
    constructor; [object.__init__] takes no arguments. *)
Fixpoint io_init (fuel : nat) (self : io_class) (m : list io_class) (o : io_obj) (args : list io_arg) : res io_obj :=
  match fuel with
  | O => Diverge
  | S k =>
      match m with
      | [] => Ok o
      | IFile :: _ =>
          match args with
          | [ArgFile f] => let* m' := io_after IFile (io_mro self) in io_init k self m' (mkIoObj (Some f) (io_spline o)) []
          | _ => Err TypeError
          end
      | IWriter :: _ =>
          match args with
          | ArgSpline c :: rest =>
              let* m' := io_after IReader (io_mro self) in io_init k self m' (mkIoObj (io_file o) (Some c)) rest
          | _ => Err TypeError
          end
      | ICurveReader :: _ => let* m' := io_after ICurveReader (io_mro self) in io_init k self m' o args
      | ICurveWriter :: _ => let* m' := io_after ICurveWriter (io_mro self) in io_init k self m' o args
      | IObject :: _ => match args with [] => Ok o | _ => Err TypeError end
      | _ :: t => io_init k self t o args
      end
  end.
Definition io_new (c : io_class) (args : list io_arg) : res io_obj := io_init 8 c (io_mro c) (mkIoObj None None) args.

(** [s.rfind(c)]. *)
Fixpoint rfind_from (c : ascii) (s : text) (i : Z) : Z :=
  match s with
  | [] => -1
  | x :: t => let r := rfind_from c t (i + 1) in
              if 0 <=? r then r else if ascii_dec x c then i else -1
  end.
Definition rfind (c : ascii) (s : text) : Z := rfind_from c s 0.
(** [os.path.splitext(p)[1]] (posixpath). *)
Definition extension (p : text) : text :=
  let sep := rfind "/"%char p in
  let dot := rfind "."%char p in
  if sep <? dot then
    if existsb (fun c => if ascii_dec c "."%char then false else true) (slice p (sep + 1) dot)
    then skipn (Z.to_nat dot) p else []
  else [].
Definition supported (p : text) : bool := text_eqb (extension p) (txt ".json").

(** curve.py:53-66 for an object with the two attributes set; [dump] stands for
    [json.dump] of the dictionary. *)
Definition curve_write (dump : option Z * list K * list (list K) -> text) (c : curve_obj K) (file_handle : text) : io unit :=
  if supported file_handle then
    let! _ := open_w file_handle in
    let! data := ret (to_dict c) in
    f_write file_handle (dump data)
  else ret (Err ValueError).

(** curve.py:24-41; [load] stands for [json.load], the class object of
    BSplineCurve is part of the state.  [None] is Python's None. *)
Definition curve_read (load : text -> res (dict K)) (cs : class_state K) (file_handle : text) (d : fs)
  : fs * class_state K * res (option handle) :=
  if supported file_handle then
    match (let! s := open_r file_handle in ret (load s)) d with
    | (d, Ok data) =>
        match from_dict cs data with
        | (cs, Ok _) => (d, cs, Ok None)          (* line 36 drops the value *)
        | (cs, Err e) => (d, cs, Err e)
        | (cs, Diverge) => (d, cs, Diverge)
        end
    | (d, Err e) => (d, cs, Err e)
    | (d, Diverge) => (d, cs, Diverge)
    end
  else (d, cs, Err ValueError).
End Text.
Arguments codec K : clear implicits.
Arguments io_obj K : clear implicits.
Arguments io_arg K : clear implicits.
