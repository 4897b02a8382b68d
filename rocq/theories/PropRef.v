(** C101-C103: references kept by boundary and interior problems. *)
From Coq Require Import String Floats.
From Verif Require Import Py Num ModelKnots ModelCurve ModelSurface ModelInit ModelParam ModelFit ModelIO ModelData ModelRef SpecData SpecRef ProofData SpecFit ProofRef5 ProofRef6 PropFit.
Open Scope Z_scope.

(** ** C101: requests, with attributes that are references *)
Theorem C101_boundary : forall (K : Num) new sv ops i (o : rb_op K), let s := rrun new sv store0 ops in op_ok s (UDo i o) = true ->
  let '(s', r) := rstep new sv (UDo i o) s in (bp_val s' i, r) = bp_step working_class sv (bp_val s i) (rb_op_val s o).
Proof. exact @boundary_request. Qed.
Print Assumptions C101_boundary.
Theorem C101_interior : forall (K : Num) new sv ops i (o : ri_op K), let s := rrun new sv store0 ops in op_ok s (UIDo i o) = true ->
  let '(s', r) := rstep new sv (UIDo i o) s in (ip_val s' i, r) = ip_step new sv (ip_val s i) (ri_op_val s o).
Proof. exact @interior_request. Qed.
Print Assumptions C101_interior.
(** Nothing that existed changes, but for the problem asked. *)
Theorem C101_frame : forall (K : Num) new sv ops (o : rop K), (exists i x, o = UDo i x) \/ (exists i x, o = UIDo i x) ->
  let s := rrun new sv store0 ops in let s' := fst (rstep new sv o s) in
  (forall a, (a < length (h_vec s))%nat -> vec_at s' a = vec_at s a) /\ (forall a, (a < length (h_mat s))%nat -> mat_at s' a = mat_at s a) /\
  (forall k, (k < length (h_cur s))%nat -> curve_val s' k = curve_val s k) /\ (forall k, (k < length (h_sur s))%nat -> surf_val s' k = surf_val s k) /\
  (forall d, (d < length (h_bd s))%nat -> bd_val s' d = bd_val s d) /\
  (forall j, (forall x, o <> UDo j x) -> bp_val s' j = bp_val s j) /\ (forall j, (forall x, o <> UIDo j x) -> ip_val s' j = ip_val s j).
Proof. exact @request_frame. Qed.
Print Assumptions C101_frame.
(** What is assigned is kept itself; what is computed is new; after a fit in
    fixed mode the two curves hold one knot array. *)
Theorem C101_boundary_references : forall (K : Num) new sv ops i (o : rb_op K) s' r,
  let s := rrun new sv store0 ops in op_ok s (UDo i o) = true -> rstep new sv (UDo i o) s = (s', r) ->
  let b := bp_at s i in let b' := bp_at s' i in
  (r <> Ok tt -> rb_data b' = rb_data b /\ rb_start b' = rb_start b /\ rb_end b' = rb_end b) /\
  (r = Ok tt ->
    rb_data b' = (match o with RData (AMat a) => Some a | RData _ => Some (length (h_mat s)) | _ => rb_data b end) /\
    rb_start b' = (match o with RStart (AVec a) => Some a | RStart _ => Some (length (h_vec s)) | _ => rb_start b end) /\
    rb_end b' = (match o with REnd (AVec a) => Some a | REnd _ => Some (length (h_vec s)) | _ => rb_end b end) /\
    match o with
    | RInit => exists k, rb_init b' = Some k /\ (length (h_cur s) <= k)%nat /\
        (forall a, rc_ctrl (cur_at s' k) = Some a -> (length (h_mat s) <= a)%nat) /\ (forall a, rc_kv (cur_at s' k) = Some a -> (length (h_vec s) <= a)%nat)
    | RParam => exists a, rb_param b' = Some a /\ (length (h_mat s) <= a)%nat
    | RFit => (exists k, rb_fit b' = Some k /\ (length (h_cur s) <= k)%nat /\ (forall a, rc_ctrl (cur_at s' k) = Some a -> (length (h_mat s) <= a)%nat)) /\
        (exists a, rb_param b' = Some a /\ (length (h_mat s) <= a)%nat) /\
        (rb_adaptive b = false -> exists j k a, rb_init b' = Some j /\ rb_fit b' = Some k /\ rc_kv (cur_at s' j) = Some a /\ rc_kv (cur_at s' k) = Some a)
    | _ => True
    end).
Proof. exact @boundary_refs. Qed.
Print Assumptions C101_boundary_references.
(** The u-knots of an initial surface are the array of the bottom boundary's
    curve; a fitted surface holds both knot arrays of the initial one. *)
Theorem C101_interior_references : forall (K : Num) new sv ops i (o : ri_op K) s' r,
  let s := rrun new sv store0 ops in op_ok s (UIDo i o) = true -> rstep new sv (UIDo i o) s = (s', r) ->
  let p := ip_at s i in let p' := ip_at s' i in
  (r <> Ok tt -> ri_data p' = ri_data p /\ ri_top p' = ri_top p /\ ri_bottom p' = ri_bottom p) /\
  (r = Ok tt ->
    ri_data p' = (match o with JData (AMat a) => Some a | JData _ => Some (length (h_mat s)) | _ => ri_data p end) /\
    ri_top p' = (match o with JTop (DBound d) => Some d | _ => ri_top p end) /\
    ri_bottom p' = (match o with JBottom (DBound d) => Some d | _ => ri_bottom p end) /\
    match o with
    | JInit => exists k d c, ri_init p' = Some k /\ ri_bottom p = Some d /\ rd_fit (bd_at s d) = Some c /\ (length (h_sur s) <= k)%nat /\
        (length (h_mat s) <= rs_ctrl (sur_at s' k))%nat /\ (length (h_vec s) <= rs_kv (sur_at s' k))%nat /\ rc_kv (cur_at s c) = Some (rs_ku (sur_at s' k))
    | JParam => exists a, ri_param p' = Some a /\ (length (h_mat s) <= a)%nat
    | JFit => (exists j k, ri_init p' = Some j /\ ri_fit p' = Some k /\ (length (h_sur s) <= k)%nat /\ (length (h_mat s) <= rs_ctrl (sur_at s' k))%nat /\
        rs_ku (sur_at s' k) = rs_ku (sur_at s' j) /\ rs_kv (sur_at s' k) = rs_kv (sur_at s' j)) /\
        (exists a, ri_param p' = Some a /\ (length (h_mat s) <= a)%nat)
    | _ => True
    end).
Proof. exact @interior_refs. Qed.
Print Assumptions C101_interior_references.
(** No curve is an attribute of two problems, or initial and fitted curve of one;
    the same for surfaces. *)
Theorem C101_owners : forall (K : Num) new sv ops, let s := rrun new sv (@store0 K) ops in
  (forall i j k, owned s i k -> owned s j k -> i = j) /\ (forall i k, rb_init (bp_at s i) = Some k -> rb_fit (bp_at s i) = Some k -> False) /\
  (forall i j k, iowned s i k -> iowned s j k -> i = j) /\ (forall i k, ri_init (ip_at s i) = Some k -> ri_fit (ip_at s i) = Some k -> False).
Proof. exact @run_single. Qed.
Print Assumptions C101_owners.

(** What is no boundary with a fitted curve is refused and changes nothing. *)
Theorem C101_refused : forall (K : Num) new sv (s : store K) i x e, (i < length (h_ip s))%nat ->
  (x = DBare /\ e = AttributeError) \/ (x = DOther /\ e = TypeError) \/ (exists j, (j < length (h_bp s))%nat /\ x = DProblem j /\ e = TypeError) \/
  (exists d, (d < length (h_bd s))%nat /\ rd_fit (bd_at s d) = None /\ x = DBound d /\ e = ValueError) ->
  rstep new sv (UIDo i (JTop x)) s = (s, Err e) /\ rstep new sv (UIDo i (JBottom x)) s = (s, Err e).
Proof. exact @boundary_refused. Qed.
Print Assumptions C101_refused.
(** A new problem has no attribute set and is in fixed mode. *)
Theorem C101_new : forall (K : Num) new sv (s : store K),
  (let '(s', r) := rstep new sv UProblem s in r = Ok tt /\ length (h_bp s') = S (length (h_bp s)) /\
     bp_val s' (length (h_bp s)) = mkBP None None None None None false None None None /\ forall j, (j < length (h_bp s))%nat -> bp_val s' j = bp_val s j) /\
  (let '(s', r) := rstep new sv UInterior s in r = Ok tt /\ length (h_ip s') = S (length (h_ip s)) /\
     ip_val s' (length (h_ip s)) = mkIP None None None None None None None None /\ forall j, (j < length (h_ip s))%nat -> ip_val s' j = ip_val s j).
Proof. exact @new_problems. Qed.
Print Assumptions C101_new.

(** Two problems on one data array; the first is fitted. *)
Definition run64r := rrun (K := Binary64) working_surface (gs_solver Binary64) store0.
Definition step64 o s := rstep (K := Binary64) working_surface (gs_solver Binary64) o s.
Definition fixed64 (m : string) : list (rop Binary64) :=
  [UMat arch; UVec (K := Binary64) [0; 0; 0]%float; UVec (K := Binary64) [2; 0; 0]%float; UProblem; UProblem;
   UDo 0 (RDegree (VInt 2)); UDo 0 (RData (AMat 0)); UDo 0 (RStart (AVec 0)); UDo 0 (REnd (AVec 1)); UDo 0 (RNum (VInt 5)); UDo 0 (RMethod (VStr (txt m)));
   UDo 1 (RDegree (VInt 2)); UDo 1 (RData (AMat 0)); UDo 1 (RStart (AVec 0))].
(** The references of problem i: data, start, initial curve and fitted curve
    with their control and knot arrays, parameterized data. *)
Definition refs (s : store Binary64) (i : nat) :=
  let b := bp_at s i in let c := option_map (fun k => (k, rc_ctrl (cur_at s k), rc_kv (cur_at s k))) in
  (rb_data b, rb_start b, c (rb_init b), c (rb_fit b), rb_param b).
Definition counts (s : store Binary64) := (length (h_vec s), length (h_mat s), length (h_cur s)).
Example C101_example :
  let s := run64r (fixed64 "fixed") in let '(s', r) := step64 (UDo 0 RFit) s in
  (op_ok s (UDo 0 RFit), r, refs s 0, refs s' 0, refs s' 1, counts s, rb_adaptive (bp_at s 0)) =
  (true, Ok tt, (Some 0%nat, Some 0%nat, None, None, None),
   (Some 0%nat, Some 0%nat, Some (0, Some 1, Some 2)%nat, Some (3, Some 5, Some 2)%nat, Some 6%nat),
   (Some 0%nat, Some 0%nat, None, None, None), (2, 1, 0)%nat, false) /\
  (let '(s', r) := step64 (UDo 0 RFit) (run64r (fixed64 "adaptive")) in (r, refs s' 0)) =
  (Ok tt, (Some 0%nat, Some 0%nat, Some (0, Some 1, Some 2)%nat, Some (1, Some 7, Some 5)%nat, Some 8%nat)) /\
  op_ok s (UDo 2 RFit) = false /\ op_ok s (UDo 0 (RData (AMat 1))) = false.
Proof. vm_compute; auto. Qed.

(** ** C102: writing into arrays, assigning attributes of curves *)
(** In every history, with any writes, the guards of C57 hold. *)
Theorem C102_guards : forall (K : Num) new sv ops, int_of_positive K -> forall i, let s := rrun new sv (@store0 K) ops in let b := bp_val s i in let p := ip_val s i in
  ((forall d, bp_degree b = Some d -> 0 <= d) /\ (forall d, bp_data b = Some d -> dt_cols d = 2 \/ dt_cols d = 3) /\
   (forall p, bp_start b = Some p -> zlen p = 2 \/ zlen p = 3) /\ (forall p, bp_end b = Some p -> zlen p = 2 \/ zlen p = 3) /\
   (forall n, bp_num b = Some n -> 4 <= n)) /\
  ((forall d, ip_degree p = Some d -> 0 <= d) /\ (forall d, ip_data p = Some d -> dt_cols d = 2 \/ dt_cols d = 3) /\
   (forall n, ip_num p = Some n -> 3 <= n)).
Proof. exact @run_goods. Qed.
Print Assumptions C102_guards.
(** A write is seen through exactly the attributes that hold the array. *)
Theorem C102_vector : forall (K : Num) new sv ops a (l : list K) s' r, let s := rrun new sv store0 ops in
  (a < length (h_vec s))%nat -> rstep new sv (UWriteVec a l) s = (s', r) ->
  (length l <> length (vec_at s a) -> r = Err ValueError /\ s' = s) /\
  (length l = length (vec_at s a) -> r = Ok tt /\
    (forall k, curve_val s' k = let c := curve_val s k in
       mkCurve (c_degree c) (c_ctrl c) (if opt_is (rc_kv (cur_at s k)) a then Some l else c_kv c) (c_dim c)) /\
    (forall k, surf_val s' k = let f := surf_val s k in
       mkSurf (s_pu f) (s_pv f) (s_nu f) (s_nv f) (s_ctrl f) (if (a =? rs_ku (sur_at s k))%nat then l else s_ku f) (if (a =? rs_kv (sur_at s k))%nat then l else s_kv f)) /\
    (forall i, bp_val s' i = let b := bp_val s i in
       mkBP (bp_degree b) (bp_data b) (if opt_is (rb_start (bp_at s i)) a then Some l else bp_start b) (if opt_is (rb_end (bp_at s i)) a then Some l else bp_end b)
         (bp_num b) (bp_adaptive b) (option_map (curve_val s') (rb_init (bp_at s i))) (bp_param b) (option_map (curve_val s') (rb_fit (bp_at s i)))) /\
    (forall i, ip_val s' i = let p := ip_val s i in
       mkIP (ip_degree p) (ip_data p) (ip_num p) (option_map (bd_val s') (ri_top (ip_at s i))) (option_map (bd_val s') (ri_bottom (ip_at s i)))
         (option_map (surf_val s') (ri_init (ip_at s i))) (ip_param p) (option_map (surf_val s') (ri_fit (ip_at s i))))).
Proof. exact @vector_write. Qed.
Print Assumptions C102_vector.
Theorem C102_matrix : forall (K : Num) new sv ops a (m : data_array K) s' r, let s := rrun new sv store0 ops in
  (a < length (h_mat s))%nat -> rstep new sv (UWriteMat a m) s = (s', r) ->
  (same_shape m (mat_at s a) = false -> r = Err ValueError /\ s' = s) /\
  (same_shape m (mat_at s a) = true -> r = Ok tt /\
    (forall k, curve_val s' k = let c := curve_val s k in
       mkCurve (c_degree c) (if opt_is (rc_ctrl (cur_at s k)) a then Some (dt_rows m) else c_ctrl c) (c_kv c) (c_dim c)) /\
    (forall k, surf_val s' k = let f := surf_val s k in
       mkSurf (s_pu f) (s_pv f) (s_nu f) (s_nv f) (if (a =? rs_ctrl (sur_at s k))%nat then dt_rows m else s_ctrl f) (s_ku f) (s_kv f)) /\
    (forall i, bp_val s' i = let b := bp_val s i in
       mkBP (bp_degree b) (if opt_is (rb_data (bp_at s i)) a then Some m else bp_data b) (bp_start b) (bp_end b) (bp_num b) (bp_adaptive b)
         (option_map (curve_val s') (rb_init (bp_at s i))) (if opt_is (rb_param (bp_at s i)) a then Some m else bp_param b) (option_map (curve_val s') (rb_fit (bp_at s i)))) /\
    (forall i, ip_val s' i = let p := ip_val s i in
       mkIP (ip_degree p) (if opt_is (ri_data (ip_at s i)) a then Some m else ip_data p) (ip_num p)
         (option_map (bd_val s') (ri_top (ip_at s i))) (option_map (bd_val s') (ri_bottom (ip_at s i)))
         (option_map (surf_val s') (ri_init (ip_at s i))) (if opt_is (ri_param (ip_at s i)) a then Some m else ip_param p) (option_map (surf_val s') (ri_fit (ip_at s i))))).
Proof. exact @matrix_write. Qed.
Print Assumptions C102_matrix.
(** An assigned data array stays the data of the problem, whatever is written into it. *)
Theorem C102_data : forall (K : Num) new sv ops ops' i a, let s := rrun new sv (@store0 K) ops in op_ok s (UDo i (RData (AMat a))) = true ->
  snd (rstep new sv (UDo i (RData (AMat a))) s) = Ok tt -> Forall (fun o => ~ exists x, o = UDo i (RData x)) ops' ->
  let s' := rrun new sv store0 (ops ++ [UDo i (RData (AMat a))] ++ ops') in bp_data (bp_val s' i) = Some (mat_at s' a).
Proof. exact @data_stays. Qed.
Print Assumptions C102_data.
(** After a fit in fixed mode there is an array such that writing into it
    replaces the knots of the initial curve and of the fitted curve. *)
Theorem C102_fixed_fit : forall (K : Num) new sv ops i s', let s := rrun new sv (@store0 K) ops in op_ok s (UDo i RFit) = true -> rb_adaptive (bp_at s i) = false ->
  rstep new sv (UDo i RFit) s = (s', Ok tt) ->
  exists a, (a < length (h_vec s'))%nat /\ forall l, length l = length (vec_at s' a) -> exists s'' c c', rstep new sv (UWriteVec a l) s' = (s'', Ok tt) /\
    bp_init (bp_val s' i) = Some c /\ bp_fit (bp_val s' i) = Some c' /\
    bp_init (bp_val s'' i) = Some (mkCurve (c_degree c) (c_ctrl c) (Some l) (c_dim c)) /\
    bp_fit (bp_val s'' i) = Some (mkCurve (c_degree c') (c_ctrl c') (Some l) (c_dim c')).
Proof. exact @shared_write. Qed.
Print Assumptions C102_fixed_fit.
(** Assigning an attribute of a curve object does what the setter does to that
    object, and nothing to any other curve, surface or problem. *)
Theorem C102_curve : forall (K : Num) new sv ops (o : rop K) k s' r, let s := rrun new sv store0 ops in cur_op o k -> op_ok s o = true -> rstep new sv o s = (s', r) ->
  (match cur_op_val s o (curve_val s k) with Ok c => r = Ok tt /\ curve_val s' k = c | Err e => r = Err e /\ s' = s | Diverge => r = Diverge end) /\
  (forall k', k' <> k -> curve_val s' k' = curve_val s k') /\ (forall f, surf_val s' f = surf_val s f) /\
  (forall i, rb_init (bp_at s i) = Some k -> bp_fit (bp_val s' i) = bp_fit (bp_val s i)) /\
  (forall i, rb_fit (bp_at s i) = Some k -> bp_init (bp_val s' i) = bp_init (bp_val s i)) /\
  (forall i, ~ owned s i k -> bp_val s' i = bp_val s i).
Proof. exact @curve_assigned. Qed.
Print Assumptions C102_curve.

Definition shifted := mkData (K := Binary64) 3 [[0.125; 9; 0]; [0.5; 0.75; 0]; [1; 1; 0]; [1.5; 0.75; 0]; [1.75; 0.25; 0]]%float.
(** Not a copy: the data of both problems change with the array. *)
Theorem C102_copied_refuted : exists (ops : list (rop Binary64)) w, (forall i x, w <> UDo i x) /\
  let s := run64r ops in let s' := fst (step64 w s) in
  snd (step64 w s) = Ok tt /\ forall i, (i < 2)%nat -> bp_data (bp_val s i) = Some arch /\ bp_data (bp_val s' i) = Some shifted.
Proof. exists (fixed64 "fixed"), (UWriteMat 0 shifted); split; [discriminate|]; split; [reflexivity|]; intros [|[|i]] H; [split; reflexivity..|lia]. Qed.
Print Assumptions C102_copied_refuted.
(** Not independent: writing into init_curve.knot_vector changes fit_curve. *)
Definition fit_knots (s : store Binary64) i := match bp_fit (bp_val s i) with Some c => c_kv c | None => None end.
Definition init_knots_at (s : store Binary64) i := match rb_init (bp_at s i) with Some k => rc_kv (cur_at s k) | None => None end.
Theorem C102_independent_refuted : exists (ops : list (rop Binary64)) a l, let s := run64r ops in let s' := fst (step64 (UWriteVec a l) s) in
  init_knots_at s 0 = Some a /\ fit_knots s 0 = Some [0; 0; 0; 0x1.5555555555555p-2; 0x1.5555555555555p-1; 1; 1; 1]%float /\ fit_knots s' 0 = Some l /\ l = [0; 0; 0; 0.25; 0.5; 1; 1; 1]%float.
Proof. exists (fixed64 "fixed" ++ [UDo 0 RFit]), 2%nat, [0; 0; 0; 0.25; 0.5; 1; 1; 1]%float; vm_compute; auto. Qed.
Print Assumptions C102_independent_refuted.
Example C102_example :
  let s := run64r (fixed64 "fixed" ++ [UDo 0 RFit]) in
  let outcomes := map (fun o => snd (step64 o s)) [UWriteVec (K := Binary64) 2 [0; 1]%float; UWriteMat 0 (mkData (K := Binary64) 2 []); UWriteVec (K := Binary64) 9 []; UCurDegree 0 0; UCurDegree 0 3; UCurKv 0 0] in
  outcomes = [Err ValueError; Err ValueError; Err NameError; Err ValueError; Ok tt; Ok tt] /\
  (let s' := fst (step64 (UWriteVec (K := Binary64) 0 [0; 1; 0]%float) s) in (bp_start (bp_val s' 0), bp_start (bp_val s' 1), bp_end (bp_val s' 0)) = (Some [0; 1; 0]%float, Some [0; 1; 0]%float, Some [2; 0; 0]%float)).
Proof. vm_compute; auto. Qed.

(** ** C103: an interior problem and its boundaries *)
(** The boundary object is kept, not what it held when it was assigned. *)
Theorem C103_top : forall (K : Num) new sv ops ops' i d, let s := rrun new sv (@store0 K) ops in op_ok s (UIDo i (JTop (DBound d))) = true ->
  snd (rstep new sv (UIDo i (JTop (DBound d))) s) = Ok tt -> Forall (fun o => ~ exists x, o = UIDo i (JTop x)) ops' ->
  let s' := rrun new sv store0 (ops ++ [UIDo i (JTop (DBound d))] ++ ops') in ip_top (ip_val s' i) = Some (bd_val s' d).
Proof. exact @top_stays. Qed.
Print Assumptions C103_top.
Theorem C103_bottom : forall (K : Num) new sv ops ops' i d, let s := rrun new sv (@store0 K) ops in op_ok s (UIDo i (JBottom (DBound d))) = true ->
  snd (rstep new sv (UIDo i (JBottom (DBound d))) s) = Ok tt -> Forall (fun o => ~ exists x, o = UIDo i (JBottom x)) ops' ->
  let s' := rrun new sv store0 (ops ++ [UIDo i (JBottom (DBound d))] ++ ops') in ip_bottom (ip_val s' i) = Some (bd_val s' d).
Proof. exact @bottom_stays. Qed.
Print Assumptions C103_bottom.
(** Writing into the knots of the bottom boundary's curve replaces the u-knots of
    both surfaces; their control points and v-knots stay. *)
Theorem C103_knots : forall (K : Num) new sv ops i s1 s2, let s := rrun new sv (@store0 K) ops in
  op_ok s (UIDo i JInit) = true -> rstep new sv (UIDo i JInit) s = (s1, Ok tt) -> rstep new sv (UIDo i JFit) s1 = (s2, Ok tt) ->
  exists d c a j k, ri_bottom (ip_at s i) = Some d /\ rd_fit (bd_at s d) = Some c /\ rc_kv (cur_at s2 c) = Some a /\
    ri_init (ip_at s2 i) = Some j /\ ri_fit (ip_at s2 i) = Some k /\ j <> k /\
    forall l, length l = length (vec_at s2 a) -> exists s3, rstep new sv (UWriteVec a l) s2 = (s3, Ok tt) /\
      c_kv (curve_val s3 c) = Some l /\ s_ku (surf_val s3 j) = l /\ s_ku (surf_val s3 k) = l /\
      s_ctrl (surf_val s3 j) = s_ctrl (surf_val s2 j) /\ s_ctrl (surf_val s3 k) = s_ctrl (surf_val s2 k) /\
      s_kv (surf_val s3 j) = s_kv (surf_val s2 j) /\ s_kv (surf_val s3 k) = s_kv (surf_val s2 k).
Proof. exact @bottom_write. Qed.
Print Assumptions C103_knots.

(** Two curves made by hand, two boundaries, an interior problem. *)
Definition row64 (y z : Binary64) := mkData (K := Binary64) 3 [[0; y; 0]; [1; y; 0]; [2; y; 0]; [3; y; z]]%float.
Definition patch64 : list (rop Binary64) :=
  [UMat (row64 1 1)%float; UMat (row64 0 0)%float; UVec (K := Binary64) [0; 0; 0; 0.5; 1; 1; 1]%float; UVec (K := Binary64) [0; 0; 0; 0.5; 1; 1; 1]%float; UMat (mkData (K := Binary64) 4 []);
   UMat (mkData (K := Binary64) 3 [[1; 0.5; 0.5]; [2; 0.5; 0.5]; [1.5; 0.25; 0.25]]%float);
   UCurve; UCurDegree 0 2; UCurCtrl 0 0; UCurKv 0 0; UCurve; UCurDegree 1 2; UCurCtrl 1 1; UCurKv 1 1;
   UBound (mkRB (Some 2) (Some 4) (Some 0%nat) (Some 2%nat)); UBound (mkRB (Some 2) (Some 4) (Some 1%nat) (Some 2%nat));
   UInterior; UIDo 0 (JDegree (VInt 2)); UIDo 0 (JNum (VInt 3)); UIDo 0 (JTop (DBound 0)); UIDo 0 (JBottom (DBound 1)); UIDo 0 (JData (AMat 3))].
Definition irefs (s : store Binary64) (i : nat) :=
  let p := ip_at s i in let f := option_map (fun k => let x := sur_at s k in (k, rs_ctrl x, rs_ku x, rs_kv x)) in (ri_top p, ri_bottom p, f (ri_init p), f (ri_fit p), ri_param p).
Example C103_example :
  let s := run64r patch64 in let '(s1, r1) := step64 (UIDo 0 JInit) s in let '(s2, r2) := step64 (UIDo 0 JFit) s1 in
  (op_ok s (UIDo 0 JInit), r1, irefs s1 0, r2, irefs s2 0) =
  (true, Ok tt, (Some 0, Some 1, Some (0, 4, 1, 2), None, None)%nat, Ok tt, (Some 0, Some 1, Some (0, 4, 1, 2), Some (1, 5, 1, 2), Some 6)%nat).
Proof. vm_compute; reflexivity. Qed.
(** The check of the setter is made once: afterwards the boundary can lose its
    curve, and asking for the initial surface raises AttributeError. *)
Theorem C103_checked_refuted : exists ops : list (rop Binary64), let s := run64r ops in
  match ip_top (ip_val s 0) with Some b => bp_fit b | None => Some (curve_val s 0) end = None /\
  snd (step64 (UIDo 0 JInit) (run64r patch64)) = Ok tt /\ snd (step64 (UIDo 0 JInit) s) = Err AttributeError.
Proof. exists (patch64 ++ [UBoundSet 0 (mkRB (Some 2) (Some 4) None None)]); split; [reflexivity|]; vm_compute; auto. Qed.
Print Assumptions C103_checked_refuted.
