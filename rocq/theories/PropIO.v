(** C60-C63, C66: text files, JSON files, the VTK sampling grid. *)
From Coq Require Import Ascii String Reals Floats.
From Verif Require Import Py Num ModelKnots ModelCurve ModelSurface ModelParam ModelFit ModelData Spec MathKnots
  ProofSpan2 ProofKnots ProofCurve ProofSurface Examples PropCurve PropSurface ModelIO SpecIO ProofIO ProofIO2 ProofIO3 ProofIO4 ProofIO5.
Open Scope Z_scope.

(** ** C60: write_curve_to_txt never writes *)
Theorem C60_never : forall (K : Num) (c : curve_obj K) name d,
  write_curve_to_txt c name d =
    (d, Err (match f_ropen d name with Some e => e
             | None => match f_files d name with None => FileNotFoundError | Some _ => UnsupportedOperation end end)).
Proof. exact @write_curve_never. Qed.
Print Assumptions C60_never.
(** Opening the file for writing would not suffice: the body raises TypeError
    after the header, or before the number of knots when there are none. *)
Theorem C60_body : forall (K : Num) (c : curve_obj K) name d, f_wopen d name = None ->
  exists d', (let! _ := open_w name in write_curve_body c (f_write name)) d = (d', Err TypeError) /\ others_same name d d' /\
    f_files d' name = Some (unlines ([txt "Degree - p:"; match c_degree c with Some p => fmt_int p | None => txt "None" end; txt "Number of Knots"] ++
      match c_kv c with Some kv => [fmt_int (zlen kv); txt "Knot Vector - U"] | None => [] end)).
Proof. exact @write_curve_body_header. Qed.
Print Assumptions C60_body.
Definition disk : fs := mkFs (fun n => if text_eqb n (txt "a.txt") then Some (txt "old") else None) (fun _ => None) (fun _ => None).
Definition seg : curve_obj Binary64 := mkCurve (K := Binary64) (Some 1) (Some [[0; 0; 0]; [1; 2; 3]]%float) (Some [0; 0; 1; 1]%float) 3.
Example C60_example :
  write_curve_to_txt seg (txt "a.txt") disk = (disk, Err UnsupportedOperation) /\
  write_curve_to_txt seg (txt "b.txt") disk = (disk, Err FileNotFoundError) /\
  (let r := (let! _ := open_w (txt "a.txt") in write_curve_body seg (f_write (txt "a.txt"))) disk in
   (f_files (fst r) (txt "a.txt"), snd r)) = (Some (unlines [txt "Degree - p:"; txt "1"; txt "Number of Knots"; txt "4"; txt "Knot Vector - U"]), Err TypeError).
Proof. split; [reflexivity|split; [reflexivity|vm_compute; reflexivity]]. Qed.

(** ** C61: a saved surface cannot be read back *)
Theorem C61_written : forall (K : Num) (cd : codec K) pu pv nu nv P ku kv name d, f_wopen d name = None ->
  exists d', write_surface_to_txt cd (mkSurf pu pv nu nv (map row3 P) ku kv) name d = (d', Ok tt) /\
    others_same name d d' /\
    f_files d' name = Some (unlines (surface_layout (tc_fmt cd) pu pv (zlen ku) (zlen kv)
                                       (flat_map (fun k => tc_fmt cd k ++ [tab_char]) ku) (flat_map (fun k => tc_fmt cd k ++ [tab_char]) kv) nu nv P)).
Proof. exact @write_surface_layout. Qed.
Print Assumptions C61_written.
Theorem C61_not_readable : forall (K : Num) (cd : codec K), faithful cd ->
  forall S (step : setter S (surf_op K)) (o : S) pu pv nu nv P ku kv name d, f_wopen d name = None -> f_ropen d name = None ->
  exists d', write_surface_to_txt cd (mkSurf pu pv nu nv (map row3 P) ku kv) name d = (d', Ok tt) /\
    read_surf_from_txt step cd (Some o) name d' = (d', Some o, Err ValueError).
Proof. exact @surface_round_trip. Qed.
Print Assumptions C61_not_readable.
(** The integer lines decode. *)
Theorem C61_integers : forall z, py_int (fmt_int z) = Ok z.
Proof. exact py_int_fmt. Qed.
Print Assumptions C61_integers.
(** So do they with blanks around the digits or a plus sign; blanks alone do not. *)
Theorem C61_padded : forall a b z, Forall (fun x => blank x = true) a -> Forall (fun x => blank x = true) b ->
  py_int (a ++ fmt_int z ++ b) = Ok z /\
  ((0 <= z)%Z -> py_int (a ++ ("+"%char :: fmt_int z) ++ b) = Ok z).
Proof. exact py_int_padded. Qed.
Print Assumptions C61_padded.
Theorem C61_blank : forall a, Forall (fun x => blank x = true) a -> py_int a = Err ValueError.
Proof. exact py_int_blank. Qed.
Print Assumptions C61_blank.
Example C61_padded_ex : Forall (fun x => blank x = true) (txt "   ") /\ Forall (fun x => blank x = true) [tab_char; newline] /\
  py_int (txt "   +12" ++ [tab_char; newline]) = Ok 12%Z /\ py_int (txt "1 2") = Err ValueError.
Proof. repeat split; repeat constructor. Qed.
(** A point with fewer than three coordinates: IndexError, and a truncated file is left. *)
Theorem C61_short_point : forall (K : Num) (cd : codec K) pu pv nu nv P q rest ku kv name d, f_wopen d name = None -> (length q < 3)%nat ->
  exists d', write_surface_to_txt cd (mkSurf pu pv nu nv (map row3 P ++ q :: rest) ku kv) name d = (d', Err IndexError) /\
    others_same name d d' /\
    f_files d' name = Some (unlines (surface_layout (tc_fmt cd) pu pv (zlen ku) (zlen kv)
                                       (flat_map (fun k => tc_fmt cd k ++ [tab_char]) ku) (flat_map (fun k => tc_fmt cd k ++ [tab_char]) kv) nu nv P)).
Proof. exact @write_surface_short. Qed.
Print Assumptions C61_short_point.
Theorem C61_denied : forall (K : Num) (cd : codec K) s name d e, f_wopen d name = Some e -> write_surface_to_txt cd s name d = (d, Err e).
Proof. exact @write_surface_denied. Qed.
Print Assumptions C61_denied.
Example C61_codec : faithful b64_codec.
Proof. exact b64_faithful. Qed.
Definition quad : list (Binary64 * Binary64 * Binary64) := [(0, 0, 0); (0, 1, 0); (1, 0, 0.5); (1, 1, 2)]%float.
Definition quad_surf : surf Binary64 := mkSurf (K := Binary64) 1 1 2 2 (map row3 quad) [0; 0; 1; 1]%float [0; 0; 1; 1]%float.
Example C61_example :
  let r := write_surface_to_txt b64_codec quad_surf (txt "s.txt") disk in
  snd r = Ok tt /\ f_files (fst r) (txt "a.txt") = Some (txt "old") /\
  option_map (fun s => (zlen (lines s), nth 9 (lines s) [])) (f_files (fst r) (txt "s.txt"))
    = Some (21, txt "z" ++ [tab_char] ++ txt "z" ++ [tab_char] ++ txt "f4503599627370496p-52" ++ [tab_char] ++ txt "f4503599627370496p-52" ++ [tab_char]) /\
  snd (read_surf_from_txt plain_step b64_codec (Some quad_surf) (txt "s.txt") (fst r)) = Err ValueError.
Proof. vm_compute; repeat split; reflexivity. Qed.

(** ** C66: the readers decode the layout without trailing tabs *)
Theorem C66_surface : forall (K : Num) (cd : codec K), faithful cd ->
  forall (s : surf K) pu pv a b nu nv P ku kv name d, ku <> [] -> kv <> [] -> f_ropen d name = None ->
  f_files d name = Some (unlines (surface_layout (tc_fmt cd) pu pv a b (join tab_char (map (tc_fmt cd) ku)) (join tab_char (map (tc_fmt cd) kv)) nu nv P)) ->
  read_surf_from_txt plain_step cd (Some s) name d = (d, Some (mkSurf pu pv nu nv (map row3 P) ku kv), Ok tt).
Proof. exact @surface_clean_plain. Qed.
Print Assumptions C66_surface.
Theorem C66_curve : forall (K : Num) (cd : codec K) c p a n P kv name d, faithful cd -> kv <> [] -> 1 <= p ->
  check_knot_vector p (NdArray kv) (zlen P) = Ok true -> f_ropen d name = None ->
  f_files d name = Some (unlines (curve_layout (tc_fmt cd) p a (join tab_char (map (tc_fmt cd) kv)) n P)) ->
  read_curve_from_txt working_step cd (Some c) name d = (d, Some (mkCurve (Some p) (Some (map row3 P)) (Some kv) (c_dim c)), Ok tt).
Proof. exact @curve_clean_working. Qed.
Print Assumptions C66_curve.
(** The repository's own class drops the control points, so its knot vector setter refuses. *)
Theorem C66_repo_class : forall (K : Num) (cd : codec K) c p a n P kv name d, faithful cd -> kv <> [] -> f_ropen d name = None ->
  f_files d name = Some (unlines (curve_layout (tc_fmt cd) p a (join tab_char (map (tc_fmt cd) kv)) n P)) -> c_ctrl c = None ->
  exists c', read_curve_from_txt curve_step cd (Some c) name d = (d, Some c', Err ValueError) /\ c_ctrl c' = None /\ c_kv c' = c_kv c.
Proof. exact @curve_clean_repo. Qed.
Print Assumptions C66_repo_class.
Definition clean_disk : fs := put disk (txt "s.txt")
  (unlines (surface_layout (tc_fmt b64_codec) 1 1 9 9 (join tab_char (map (tc_fmt b64_codec) [0; 0; 1; 1]%float)) (join tab_char (map (tc_fmt b64_codec) [0; 0; 1; 1]%float)) 2 2 quad)).
Definition blank_surf : surf Binary64 := mkSurf (K := Binary64) 0 0 0 0 [] [] [].
Example C66_example :
  match snd (fst (read_surf_from_txt plain_step b64_codec (Some blank_surf) (txt "s.txt") clean_disk)) with
  | Some s => Some (s_pu s, s_nu s, s_ctrl s, s_ku s) | None => None end
  = Some (1, 2, [[0; 0; 0]; [0; 1; 0]; [1; 0; 0.5]; [1; 1; 2]]%float, [0; 0; 1; 1]%float) /\
  snd (read_surf_from_txt plain_step b64_codec (Some blank_surf) (txt "s.txt") clean_disk) = Ok tt.
Proof. vm_compute; split; reflexivity. Qed.
Definition curve_disk : fs := put disk (txt "c.txt")
  (unlines (curve_layout (tc_fmt b64_codec) 1 4 (join tab_char (map (tc_fmt b64_codec) [0; 0; 1; 1]%float)) 2 [(0, 0, 0); (1, 2, 3)]%float)).
Example C66_curve_example :
  let r := read_curve_from_txt working_step b64_codec (Some (curve_init None None)) (txt "c.txt") curve_disk in
  match snd (fst r) with Some c => Some (c_degree c, c_ctrl c, c_kv c) | None => None end
  = Some (Some 1, Some [[0; 0; 0]; [1; 2; 3]]%float, Some [0; 0; 1; 1]%float) /\ snd r = Ok tt /\
  snd (read_curve_from_txt curve_step b64_codec (Some (curve_init None (Some 3))) (txt "c.txt") curve_disk) = Err ValueError.
Proof. vm_compute; repeat split; reflexivity. Qed.

(** ** C62: JSON *)
(** The writer cannot be constructed. *)
Theorem C62_constructor : forall (K : Num) (args : list (io_arg K)), io_new ICurveWriter args = Err TypeError.
Proof. exact @writer_constructor. Qed.
Print Assumptions C62_constructor.
(** Its [write] method truncates the target, then raises. *)
Theorem C62_write : forall (K : Num) dump (c : curve_obj K) name d, supported name = true ->
  curve_write dump c name d = match f_wopen d name with
    | Some e => (d, Err e)
    | None => (put d name [], Err AttributeError)
    end.
Proof. exact @curve_write_supported. Qed.
Print Assumptions C62_write.
Theorem C62_unsupported : forall (K : Num) dump (c : curve_obj K) name d, supported name = false -> curve_write dump c name d = (d, Err ValueError).
Proof. exact @curve_write_unsupported. Qed.
Print Assumptions C62_unsupported.
(** Which names are supported: ending in ".json" after a character of the last
    path component that is not a dot. *)
Theorem C62_names : forall p, supported p = true <->
  exists a c b, p = a ++ c :: b ++ txt ".json" /\ c <> "."%char /\ c <> "/"%char /\ ~ In "/"%char b.
Proof. exact supported_iff. Qed.
Print Assumptions C62_names.
Theorem C62_read : forall (K : Num) load (cs : class_state K) name d d' cs' r,
  curve_read load cs name d = (d', cs', r) -> d' = d /\ forall h, r <> Ok (Some h).
Proof. exact @curve_read_none. Qed.
Print Assumptions C62_read.
(** Reading, case by case: it stores in the class and returns nothing. *)
Theorem C62_reading : forall (K : Num) load (cs : class_state K) name d,
  (supported name = false -> curve_read load cs name d = (d, cs, Err ValueError)) /\
  (supported name = true ->
    (forall e, f_ropen d name = Some e -> curve_read load cs name d = (d, cs, Err e)) /\
    (f_ropen d name = None -> f_files d name = None -> curve_read load cs name d = (d, cs, Err FileNotFoundError)) /\
    (forall s, f_ropen d name = None -> f_files d name = Some s ->
      (forall e, load s = Err e -> curve_read load cs name d = (d, cs, Err e)) /\
      (forall data, load s = Ok data ->
        ((forall k, In k (d_keys data) <-> (k = KDegree \/ k = KKnotVector \/ k = KControlPoints)) ->
           exists cs', curve_read load cs name d = (d, cs', Ok None) /\ k_ctrl cs' = Some (d_ctrl data) /\ k_kv cs' = Some (d_kv data)) /\
        (~ (forall k, In k (d_keys data) <-> (k = KDegree \/ k = KKnotVector \/ k = KControlPoints)) ->
           curve_read load cs name d = (d, cs, Err ValueError))))).
Proof. exact @curve_read_all. Qed.
Print Assumptions C62_reading.
Theorem C62_reader_constructor : forall (K : Num) f, io_new (K := K) ICurveReader [ArgFile f] = Ok (mkIoObj (Some f) None).
Proof. exact @reader_constructor. Qed.
Print Assumptions C62_reader_constructor.
Example C62_example :
  map supported [txt "a.json"; txt ".json"; txt "d.x/.json"; txt "x.json/y"; txt "d/b.json"; txt "a.JSON"; txt "..json"; txt ".a.json"]
    = [true; false; false; false; true; false; false; true] /\
  (let r := curve_write (fun _ => txt "{}") seg (txt "a.json") (put disk (txt "a.json") (txt "precious")) in
   (f_files (fst r) (txt "a.json"), f_files (fst r) (txt "a.txt"), snd r)) = (Some [], Some (txt "old"), Err AttributeError) /\
  (let r := curve_read (fun _ => Ok (mkDict (K := Binary64) [KControlPoints; KDegree; KKnotVector] 1 [0; 0; 1; 1]%float [[0; 0; 0]]%float))
              (mkClass (K := Binary64) None None) (txt "a.json") (put disk (txt "a.json") (txt "{}")) in
   (snd r, k_kv (snd (fst r)))) = (Ok None, Some [0; 0; 1; 1]%float) /\
  (let read := curve_read (fun s => if text_eqb s [] then Err ValueError else Ok (mkDict (K := Binary64) [KControlPoints; KDegree] 1 [] [])) (mkClass (K := Binary64) None None) in
   map (fun nd => snd (read (fst nd) (snd nd))) [(txt "a.txt", disk); (txt "b.json", disk); (txt "b.json", put disk (txt "b.json") []); (txt "b.json", put disk (txt "b.json") (txt "{}"))])
    = [Err ValueError; Err FileNotFoundError; Err ValueError; Err ValueError].
Proof. vm_compute; repeat split; reflexivity. Qed.

(** ** C63: the sampling grid of surf_to_vtk *)
(** In exact arithmetic the buffer holds the (n_tri+1)^2 points at (i/n_tri, j/n_tri), row by row. *)
Theorem C63_grid : forall (point : Exact -> Exact -> res (list Exact)) n, 1 <= n ->
  vtk_grid point n =
  mapM (fun ij => let u := (Fin (IZR (fst ij) / IZR n) : Exact) in let v := (Fin (IZR (snd ij) / IZR n) : Exact) in
                  let* q := point u v in broadcast 5 (q ++ [u; v]))
       (list_prod (zrange 0 (n + 1)) (zrange 0 (n + 1))).
Proof. exact vtk_grid_exact. Qed.
Print Assumptions C63_grid.
(** What is triangulated and what is written, when the surface can be sampled. *)
Theorem C63_written : forall (T : Type) (dl : list (list Exact) -> res T) mw (point : Exact -> Exact -> res (list Exact)) (q : Z -> Z -> list R) n name d,
  1 <= n ->
  (forall i j, 0 <= i <= n -> 0 <= j <= n -> length (q i j) = 3%nat /\
     point (Fin (IZR i / IZR n) : Exact) (Fin (IZR j / IZR n) : Exact) = Ok (fin (q i j))) ->
  let grid := list_prod (zrange 0 (n + 1)) (zrange 0 (n + 1)) in
  surf_to_vtk dl mw (Some point) name n d =
    match dl (map (fun ij => [Fin (IZR (fst ij) / IZR n); Fin (IZR (snd ij) / IZR n)]) grid) with
    | Ok simplices => mw name (map (fun ij => fin (q (fst ij) (snd ij))) grid) simplices d
    | Err e => (d, Err e)
    | Diverge => (d, Diverge)
    end.
Proof. exact @vtk_written. Qed.
Print Assumptions C63_written.
Theorem C63_surface : forall (T : Type) (dl : list (list Exact) -> res T) mw p q nu nv U V P n name d,
  clamped (Z.of_nat p) (Z.of_nat nu) U -> clamped (Z.of_nat q) (Z.of_nat nv) V -> (1 <= p)%nat -> (1 <= q)%nat ->
  Forall (fun row => length row = 3%nat) P -> length P = (nu * nv)%nat ->
  kn U (Z.of_nat p) = 0%R -> kn U (Z.of_nat nu) = 1%R -> strict (Z.of_nat p) (Z.of_nat nu) U ->
  kn V (Z.of_nat q) = 0%R -> kn V (Z.of_nat nv) = 1%R -> strict (Z.of_nat q) (Z.of_nat nv) V -> 1 <= n <= 900000 ->
  let grid := list_prod (zrange 0 (n + 1)) (zrange 0 (n + 1)) in
  surf_to_vtk dl mw (Some (surf_point (surf_of p q nu nv U V P))) name n d =
    match dl (map (fun ij => [Fin (IZR (fst ij) / IZR n); Fin (IZR (snd ij) / IZR n)]) grid) with
    | Ok simplices => mw name (map (fun ij => fin (surface_xyz U V p q nu nv P (IZR (fst ij) / IZR n) (IZR (snd ij) / IZR n))) grid) simplices d
    | Err e => (d, Err e)
    | Diverge => (d, Diverge)
    end.
Proof. exact @vtk_surface. Qed.
Print Assumptions C63_surface.
Theorem C63_zero : forall (K : Num) (point : K -> K -> res (list K)), vtk_grid point 0 = Err ZeroDivisionError.
Proof. reflexivity. Qed.
Print Assumptions C63_zero.
(** In binary64 the buffer is too short for [n_tri = 47], for every surface ... *)
Theorem C63_short_buffer_refuted : exists n, 1 <= n /\ forall (point : Binary64 -> Binary64 -> res (list Binary64)) g, vtk_grid point n <> Ok g.
Proof. exists 47; split; [discriminate|exact vtk_47]. Qed.
Print Assumptions C63_short_buffer_refuted.
(** ... and for [n_tri = 6] the grid runs past the end of the domain. *)
Theorem C63_past_end_refuted : exists n, 1 <= n /\ forall (point : Binary64 -> Binary64 -> res (list Binary64)) g,
  (forall u v, (1 <? v)%num = true -> forall q, point u v <> Ok q) -> vtk_grid point n <> Ok g.
Proof. exists 6; split; [discriminate|exact vtk_6]. Qed.
Print Assumptions C63_past_end_refuted.
(** A surface as required by [C63_surface]. *)
Example C63_sampled :
  clamped (Z.of_nat 2) (Z.of_nat 6) exU /\ clamped (Z.of_nat 1) (Z.of_nat 3) sV /\ Forall (fun row => length row = 3%nat) sP /\ length sP = (6 * 3)%nat /\
  (kn exU (Z.of_nat 2) = 0)%R /\ (kn exU (Z.of_nat 6) = 1)%R /\ strict (Z.of_nat 2) (Z.of_nat 6) exU /\
  (kn sV (Z.of_nat 1) = 0)%R /\ (kn sV (Z.of_nat 3) = 1)%R /\ strict (Z.of_nat 1) (Z.of_nat 3) sV.
Proof. repeat (split; [first [exact exU_clamped|exact sV_clamped|exact sP_3|exact exU_strict|reflexivity]|]); exact sV_strict. Qed.
Example C63_example :
  match vtk_grid (surf_point quad_surf) 2 with Ok g => Some (map (fun r => nth 2 r 0%float) g) | _ => None end
    = Some [0; 0; 0; 0.25; 0.625; 1; 0.5; 1.25; 2]%float /\
  vtk_grid (surf_point quad_surf) 6 = Err ValueError /\ vtk_grid (surf_point quad_surf) 47 = Err IndexError /\
  match vtk_grid (surf_point quad_surf) 10 with Ok g => zlen g | _ => 0 end = 121.
Proof. vm_compute; repeat split; reflexivity. Qed.
