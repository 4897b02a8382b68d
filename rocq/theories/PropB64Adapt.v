(** C93-C96: fits of boundary problems, and the ends of curves and surfaces, on
    IEEE 754 doubles. *)
From Coq Require Import Reals Lra Lia ZArith List Floats Permutation Sorted.
From Verif Require Import Py PyLemmas Num ModelKnots ModelBasis ModelCurve ModelSurface ModelInit ModelParam ModelFit ModelIO ModelData
  Spec SpecFit SpecParam SpecData SpecB64 MathKnots ProofB64Adapt ProofB64Ends ProofB64Fit ProofB64Edges PropB64 PropFit Examples.
Import ListNotations.
Open Scope R_scope.

(** ** C93: the adaptive fit *)
(** For every least-squares solver, whatever it returns: the knots of the result
    are the multiples of 2^-k, exactly, and the end points are not changed. *)
Theorem C93_adaptive_fit : forall sv data p num (c c' : curve_obj Binary64) (U : list PrimFloat.float) (P : list (list PrimFloat.float)),
  (1 <= p)%nat -> (num <= Z.of_nat p + 65536)%Z ->
  Forall (fun r => length r = 3%nat) P -> length P = S p -> Forall finite64 U -> values U = repeat 0 (S p) ++ repeat 1 (S p) ->
  c_degree c = Some (Z.of_nat p) -> c_ctrl c = Some P -> c_kv c = Some U ->
  fit_curve_knot_insertion working_class sv c data num = Ok c' ->
  exists k (T : list PrimFloat.float) (Q : list (list PrimFloat.float)),
    c' = mkCurve (K := Binary64) (Some (Z.of_nat p)) (Some Q) (Some T) 0 /\
    (len Q = Z.of_nat p + 2 ^ Z.of_nat k)%Z /\ (num <= len Q)%Z /\ (k = 0%nat \/ (Z.of_nat p + 2 ^ Z.of_nat (k - 1) < num)%Z) /\
    nth 0 Q [] = nth 0 P [] /\ last Q [] = last P [] /\ Forall (fun r => length r = 3%nat) Q /\
    Forall finite64 T /\ (len T = len Q + Z.of_nat p + 1)%Z /\
    (forall i, (0 <= i < len T)%Z ->
       kn (values T) i = if (i <=? Z.of_nat p)%Z then 0 else if (len Q <=? i)%Z then 1 else IZR (i - Z.of_nat p) / IZR (2 ^ Z.of_nat k)).
Proof. exact adaptive_fit64. Qed.
Print Assumptions C93_adaptive_fit.
Definition fC3 : list (list PrimFloat.float) := [[0; 0; 0]; [0.75; 0.125; 0]; [2; 0; 0]]%float.
Definition fC : curve_obj Binary64 := mkCurve (K := Binary64) (Some 2%Z) (Some fC3) (Some [0; 0; 0; 1; 1; 1]%float) 0.
Example C93_example : Forall finite64 [0; 0; 0; 1; 1; 1]%float /\ values [0; 0; 0; 1; 1; 1]%float = repeat 0 3 ++ repeat 1 3 /\
  match fit_curve_knot_insertion working_class (gs_solver Binary64) fC arch 5 with
  | Ok c' => option_map (fun T => (zlen T, forallb (fun xy => (fst xy =? snd xy)%float) (combine T [0; 0; 0; 0.25; 0.5; 0.75; 1; 1; 1]%float))) (c_kv c')
  | _ => None end = Some (9%Z, true).
Proof.
  split; [repeat (apply Forall_cons; [vm_compute; exact I|]); apply Forall_nil|].
  split; [unfold values; cbn [map repeat app]; repeat f_equal; val_eval; lra|vm_compute; reflexivity].
Qed.

(** ** C94: a boundary problem from its settings to its fit *)
Theorem C94_boundary_fit : forall sv (b b' : bproblem Binary64) (a e : list PrimFloat.float) p n M (data : list (list PrimFloat.float)),
  bp_init b = None -> bp_start b = Some a -> bp_end b = Some e -> length a = 3%nat -> length e = 3%nat ->
  within (- M) M a -> within (- M) M e -> 0 <= M <= 2 ^ 1000 ->
  bp_degree b = Some (Z.of_nat p) -> (1 <= p)%nat -> bp_num b = Some n -> (Z.of_nat p + 1 <= n)%Z ->
  (if bp_adaptive b then n <= Z.of_nat p + 65536 /\ Z.of_nat p < 2 ^ 49 else n <= 2 ^ 49)%Z ->
  bp_data b = Some (mkData (K := Binary64) 3 data) -> Forall (fun r => length r = 3%nat /\ Forall finite64 r) data ->
  bp_fit_run working_class sv b = (b', Ok tt) ->
  exists (c : curve_obj Binary64) (Q : list (list PrimFloat.float)) (U : list PrimFloat.float) (rows : list (list PrimFloat.float)) (us : list PrimFloat.float),
    bp_fit b' = Some c /\ c = mkCurve (K := Binary64) (Some (Z.of_nat p)) (Some Q) (Some U) 0 /\ bp_num b' = Some (len Q) /\
    (if bp_adaptive b then exists k, (len Q = Z.of_nat p + 2 ^ Z.of_nat k)%Z /\ (n <= len Q)%Z /\ (k = 0%nat \/ (Z.of_nat p + 2 ^ Z.of_nat (k - 1) < n)%Z) /\
       Forall finite64 U /\ (len U = len Q + Z.of_nat p + 1)%Z /\
       (forall i, (0 <= i < len U)%Z ->
          kn (values U) i = if (i <=? Z.of_nat p)%Z then 0 else if (len Q <=? i)%Z then 1 else IZR (i - Z.of_nat p) / IZR (2 ^ Z.of_nat k))
     else len Q = n /\ generate_uniform (Z.of_nat p) n = Ok (U : list Binary64)) /\
    Forall (fun r => length r = 3%nat) Q /\ values (nth 0 Q []) = values a /\ last Q [] = e /\
    bp_param b' = Some (mkData (K := Binary64) 4 rows) /\
    Forall2 (fun (r : list PrimFloat.float) (u : PrimFloat.float) => curve_inversion (beh_of_curve3 c) (r : list Binary64) lit_1em5 lit_1em5 100 = Ok (u : Binary64) /\ unit64 u) data us /\
    Permutation rows (map (fun t => fst t ++ [snd t]) (combine data us)) /\
    StronglySorted (fun a b => lex_le [3%nat; 0%nat; 1%nat; 2%nat] (values a) (values b)) rows.
Proof. exact problem_fit64. Qed.
Print Assumptions C94_boundary_fit.
Definition problem64 (n : Z) (adaptive : bool) : bproblem Binary64 :=
  mkBP (K := Binary64) (Some 2%Z) (Some arch) (Some [0; 0; 0]%float) (Some [2; 0; 0]%float) (Some n) adaptive None None None.
Example C94_example : let b := problem64 5 true in
  bp_init b = None /\ bp_start b = Some ([0; 0; 0]%float : list Binary64) /\ bp_end b = Some ([2; 0; 0]%float : list Binary64) /\
  within (- 2) 2 [0; 0; 0]%float /\ within (- 2) 2 [2; 0; 0]%float /\ 0 <= 2 <= 2 ^ 1000 /\
  bp_data b = Some (mkData (K := Binary64) 3 (dt_rows arch)) /\ Forall (fun r => length r = 3%nat /\ Forall finite64 r) (dt_rows arch) /\
  snd (bp_fit_run working_class (gs_solver Binary64) b) = Ok tt /\
  snd (bp_fit_run working_class (gs_solver Binary64) (problem64 6 false)) = Ok tt.
Proof.
  assert (P1 : 2 <= 2 ^ 10) by (cbn [pow]; lra).
  assert (P2 : 2 ^ 10 <= 2 ^ 1000) by (apply Rle_pow; [lra|lia]).
  split; [reflexivity|]; split; [reflexivity|]; split; [reflexivity|].
  split; [clear; within_eval|]; split; [clear; within_eval|]; split; [split; [clear; lra|exact (Rle_trans _ _ _ P1 P2)]|]; clear P1 P2.
  split; [reflexivity|].
  split; [unfold arch; cbn [dt_rows]; repeat (apply Forall_cons; [split; [reflexivity|repeat (apply Forall_cons; [vm_compute; exact I|]); apply Forall_nil]|]); apply Forall_nil|].
  split; vm_compute; reflexivity.
Qed.

(** ** C95: exact ends *)
(** A curve starts and ends exactly at its first and last control point when the
    width of its first (last) knot span can be divided into 1 and multiplied back.
    C81_exact_ends_refuted shows a curve for which this fails. *)
Theorem C95_start : forall p (U : list PrimFloat.float) (P : list (list PrimFloat.float)) d,
  within 0 1 U -> clamped (Z.of_nat p) (len P) (values U) -> (1 <= p)%nat ->
  kn (values U) (Z.of_nat p) = 0 -> kn (values U) (len P) = 1 -> Forall (fun r => length r = 3%nat /\ Forall finite64 r) P ->
  undoes64 (nth (S p) U 0%float) ->
  exists y : list PrimFloat.float, single_point (mkCurve (K := Binary64) (Some (Z.of_nat p)) (Some P) (Some U) d) 0%float = Ok y /\
    Forall finite64 y /\ values y = values (nth 0 P []).
Proof. intros p U P d HW HC Hp K0 K1 HP (A & B); exact (curve_start_w p U P d HW HC Hp K0 K1 HP A B). Qed.
Print Assumptions C95_start.
Theorem C95_end : forall p (U : list PrimFloat.float) (P : list (list PrimFloat.float)) d,
  within 0 1 U -> clamped (Z.of_nat p) (len P) (values U) -> (1 <= p)%nat ->
  kn (values U) (Z.of_nat p) = 0 -> kn (values U) (len P) = 1 -> Forall (fun r => length r = 3%nat /\ Forall finite64 r) P ->
  undoes64 (1 - nth (length P - 1) U 0)%float ->
  exists y : list PrimFloat.float, single_point (mkCurve (K := Binary64) (Some (Z.of_nat p)) (Some P) (Some U) d) 1%float = Ok y /\
    Forall finite64 y /\ values y = values (last P []).
Proof. intros p U P d HW HC Hp K0 K1 HP (A & B); exact (curve_end_w p U P d HW HC Hp K0 K1 HP A B). Qed.
Print Assumptions C95_end.
Lemma undoes_eval w : / 1000 <= value w -> (w * (1 / w))%float = 1%float -> undoes64 w.
Proof. intros A B; split; [apply gap_ok; exact A|exact B]. Qed.
Example C95_example : undoes64 (nth 3 fU 0%float) /\ undoes64 (1 - nth (length fP - 1) fU 0)%float /\ len fP = 5%Z /\
  Forall (fun r => length r = 3%nat /\ Forall finite64 r) fP.
Proof.
  split; [apply undoes_eval; [cbn [nth fU]; val_eval; lra|vm_compute; reflexivity]|].
  split; [apply undoes_eval; [cbn [nth fU length fP Nat.sub]; val_eval; lra|vm_compute; reflexivity]|]; split; [reflexivity|].
  unfold fP; repeat (apply Forall_cons; [split; [reflexivity|repeat (apply Forall_cons; [vm_compute; exact I|]); apply Forall_nil]|]); apply Forall_nil.
Qed.

(** It holds for uniform knots when the number of spans is a power of two, but not
    for every number: with 21 spans a curve all of whose control points are
    (1,1,1) ends elsewhere. *)
Theorem C95_uniform : forall p n k (U : list PrimFloat.float) (Q : list (list PrimFloat.float)) d,
  (1 <= p)%nat -> (k <= 49)%nat -> (n = Z.of_nat p + 2 ^ Z.of_nat k)%Z ->
  generate_uniform (Z.of_nat p) n = Ok (U : list Binary64) -> len Q = n -> Forall (fun r => length r = 3%nat /\ Forall finite64 r) Q ->
  let c := mkCurve (K := Binary64) (Some (Z.of_nat p)) (Some Q) (Some U) d in
  (exists y : list PrimFloat.float, single_point c 0%float = Ok y /\ Forall finite64 y /\ values y = values (nth 0 Q [])) /\
  (exists y : list PrimFloat.float, single_point c 1%float = Ok y /\ Forall finite64 y /\ values y = values (last Q [])).
Proof. exact uniform_ends64. Qed.
Print Assumptions C95_uniform.
Definition ones64 (n : nat) : list (list PrimFloat.float) := repeat [1; 1; 1]%float n.
Example C95_uniform_example : (6 = Z.of_nat 2 + 2 ^ Z.of_nat 2)%Z /\
  match generate_uniform (K := Binary64) 2 6 with
  | Ok U => match single_point (mkCurve (K := Binary64) (Some 2%Z) (Some (ones64 6)) (Some U) 3) 1%float with
            | Ok y => forallb (fun c => (c =? 1)%float) y && Nat.eqb (length y) 3 | _ => false end
  | _ => false end = true.
Proof. split; [reflexivity|vm_compute; reflexivity]. Qed.
Theorem C95_uniform_refuted : exists U y : list PrimFloat.float, generate_uniform (K := Binary64) 1 22 = Ok (U : list Binary64) /\
  single_point (mkCurve (K := Binary64) (Some 1%Z) (Some (ones64 22)) (Some U) 3) 1%float = Ok (y : list Binary64) /\
  Forall (fun c => value c < 1) y.
Proof.
  eexists; eexists; split; [vm_compute; reflexivity|]; split; [vm_compute; reflexivity|].
  repeat (apply Forall_cons; [val_eval; lra|]); apply Forall_nil.
Qed.
Print Assumptions C95_uniform_refuted.

(** The curve of a boundary problem, adaptive or with a number of spans that is a
    power of two, starts and ends exactly at the given points, if the solver
    returned finite control points. *)
Theorem C95_fit : forall sv (b b' : bproblem Binary64) (a e : list PrimFloat.float) p n M (data : list (list PrimFloat.float)) c (Q : list (list PrimFloat.float)),
  bp_init b = None -> bp_start b = Some a -> bp_end b = Some e -> length a = 3%nat -> length e = 3%nat ->
  within (- M) M a -> within (- M) M e -> 0 <= M <= 2 ^ 1000 ->
  bp_degree b = Some (Z.of_nat p) -> (1 <= p)%nat -> bp_num b = Some n -> (Z.of_nat p + 1 <= n)%Z ->
  (if bp_adaptive b then (n <= Z.of_nat p + 65536)%Z /\ (Z.of_nat p < 2 ^ 49)%Z
   else (n <= 2 ^ 49)%Z /\ exists k, (n = Z.of_nat p + 2 ^ Z.of_nat k)%Z) ->
  bp_data b = Some (mkData (K := Binary64) 3 data) -> Forall (fun r => length r = 3%nat /\ Forall finite64 r) data ->
  bp_fit_run working_class sv b = (b', Ok tt) -> bp_fit b' = Some c -> c_ctrl c = Some Q -> Forall (Forall finite64) Q ->
  (exists y : list PrimFloat.float, single_point c 0%float = Ok y /\ Forall finite64 y /\ values y = values a) /\
  (exists y : list PrimFloat.float, single_point c 1%float = Ok y /\ Forall finite64 y /\ values y = values e).
Proof. exact problem_ends64. Qed.
Print Assumptions C95_fit.
Definition finiteb (x : PrimFloat.float) : bool := (abs x <? infinity)%float.
Example C95_fit_example : forall adaptive : bool,
  match bp_fit_run working_class (gs_solver Binary64) (problem64 6 adaptive) with
  | (b, Ok _) => match bp_fit b with Some c => match c_ctrl c with Some Q => forallb (forallb finiteb) Q | _ => false end | _ => false end
  | _ => false end = true.
Proof. intros [|]; vm_compute; reflexivity. Qed.

(** ** C96: corners and edges of surfaces *)
Theorem C96_corners : forall p q nu nv (U V : list PrimFloat.float) (P : list (list PrimFloat.float)),
  within 0 1 U -> within 0 1 V -> clamped (Z.of_nat p) (Z.of_nat nu) (values U) -> clamped (Z.of_nat q) (Z.of_nat nv) (values V) ->
  (1 <= p)%nat -> (1 <= q)%nat -> kn (values U) (Z.of_nat p) = 0 -> kn (values U) (Z.of_nat nu) = 1 ->
  kn (values V) (Z.of_nat q) = 0 -> kn (values V) (Z.of_nat nv) = 1 -> length P = (nu * nv)%nat ->
  Forall (fun r => length r = 3%nat /\ Forall finite64 r) P ->
  let S64 := mkSurf (K := Binary64) (Z.of_nat p) (Z.of_nat q) (Z.of_nat nu) (Z.of_nat nv) P U V in
  let u0 := nth (S p) U 0%float in let u1 := (1 - nth (nu - 1) U 0)%float in
  let v0 := nth (S q) V 0%float in let v1 := (1 - nth (nv - 1) V 0)%float in
  (undoes64 u0 -> undoes64 v0 -> exists z, surf_point S64 0%float 0%float = Ok z /\ equal64 z (nth 0 P [])) /\
  (undoes64 u0 -> undoes64 v1 -> exists z, surf_point S64 0%float 1%float = Ok z /\ equal64 z (nth (nv - 1) P [])) /\
  (undoes64 u1 -> undoes64 v0 -> exists z, surf_point S64 1%float 0%float = Ok z /\ equal64 z (nth ((nu - 1) * nv) P [])) /\
  (undoes64 u1 -> undoes64 v1 -> exists z, surf_point S64 1%float 1%float = Ok z /\ equal64 z (last P [])).
Proof. exact surface_corners64. Qed.
Print Assumptions C96_corners.
(** Along an edge the surface is, double for double, the curve of the control
    points of that edge. *)
Theorem C96_edges : forall p q nu nv (U V : list PrimFloat.float) (P : list (list PrimFloat.float)),
  within 0 1 U -> within 0 1 V -> clamped (Z.of_nat p) (Z.of_nat nu) (values U) -> clamped (Z.of_nat q) (Z.of_nat nv) (values V) ->
  (1 <= p)%nat -> (1 <= q)%nat -> kn (values U) (Z.of_nat p) = 0 -> kn (values U) (Z.of_nat nu) = 1 ->
  kn (values V) (Z.of_nat q) = 0 -> kn (values V) (Z.of_nat nv) = 1 -> length P = (nu * nv)%nat ->
  forall M d, Forall (fun row => length row = 3%nat /\ within (- M) M row) P -> 0 <= M <= 2 ^ 890 ->
  INR p <= 2 ^ 40 -> INR q <= 2 ^ 40 ->
  (forall i, (Z.of_nat p <= i < Z.of_nat nu)%Z -> / 2 ^ 1000 <= kn (values U) (i + 1) - kn (values U) i) ->
  (forall i, (Z.of_nat q <= i < Z.of_nat nv)%Z -> / 2 ^ 1000 <= kn (values V) (i + 1) - kn (values V) i) ->
  let S64 := mkSurf (K := Binary64) (Z.of_nat p) (Z.of_nat q) (Z.of_nat nu) (Z.of_nat nv) P U V in
  let u0 := nth (S p) U 0%float in let u1 := (1 - nth (nu - 1) U 0)%float in
  let v0 := nth (S q) V 0%float in let v1 := (1 - nth (nv - 1) V 0)%float in
  (forall y : Binary64, finite64 y -> 0 <= value y <= 1 -> (1 - value y <= 102 / 100000000 -> kn (values V) (Z.of_nat nv - 1) <= value y) ->
    (undoes64 u0 -> exists z w, surf_point S64 0%float y = Ok z /\
       single_point (mkCurve (K := Binary64) (Some (Z.of_nat q)) (Some (net_row nv P 0)) (Some V) d) y = Ok w /\ equal64 z w) /\
    (undoes64 u1 -> exists z w, surf_point S64 1%float y = Ok z /\
       single_point (mkCurve (K := Binary64) (Some (Z.of_nat q)) (Some (net_row nv P (nu - 1))) (Some V) d) y = Ok w /\ equal64 z w)) /\
  (forall x : Binary64, finite64 x -> 0 <= value x <= 1 -> (1 - value x <= 102 / 100000000 -> kn (values U) (Z.of_nat nu - 1) <= value x) ->
    (undoes64 v0 -> exists z w, surf_point S64 x 0%float = Ok z /\
       single_point (mkCurve (K := Binary64) (Some (Z.of_nat p)) (Some (net_col nu nv P 0)) (Some U) d) x = Ok w /\ equal64 z w) /\
    (undoes64 v1 -> exists z w, surf_point S64 x 1%float = Ok z /\
       single_point (mkCurve (K := Binary64) (Some (Z.of_nat p)) (Some (net_col nu nv P (nv - 1))) (Some U) d) x = Ok w /\ equal64 z w)).
Proof. exact surface_edges64. Qed.
Print Assumptions C96_edges.
Example C96_example : within 0 1 fU /\ within 0 1 fV /\ clamped 2 5 (values fU) /\ clamped 1 3 (values fV) /\
  undoes64 (nth 3 fU 0%float) /\ undoes64 (1 - nth (5 - 1) fU 0)%float /\ undoes64 (nth 2 fV 0%float) /\ undoes64 (1 - nth (3 - 1) fV 0)%float /\
  length fQ = (5 * 3)%nat /\ Forall (fun row => length row = 3%nat /\ within (- 7) 7 row) fQ /\
  match surf_point (mkSurf (K := Binary64) 2 1 5 3 fQ fU fV) 0.3%float 1%float, single_point (mkCurve (K := Binary64) (Some 2%Z) (Some (net_col 5 3 fQ 2)) (Some fU) 3) 0.3%float with
  | Ok z, Ok w => forallb (fun xy => (fst xy =? snd xy)%float) (combine z w) && Nat.eqb (length z) 3 && negb (nth 0 z 0 =? 0)%float
  | _, _ => false end = true.
Proof.
  split; [exact fU_within|]; split; [exact fV_within|]; split; [exact fU_clamped|]; split; [exact fV_clamped|].
  split; [apply undoes_eval; [cbn [nth fU]; val_eval; lra|vm_compute; reflexivity]|].
  split; [apply undoes_eval; [cbn [nth fU Nat.sub]; val_eval; lra|vm_compute; reflexivity]|].
  split; [apply undoes_eval; [cbn [nth fV]; val_eval; lra|vm_compute; reflexivity]|].
  split; [apply undoes_eval; [cbn [nth fV Nat.sub]; val_eval; lra|vm_compute; reflexivity]|].
  split; [reflexivity|]; split; [exact fQ_within|vm_compute; reflexivity].
Qed.
(** Without [undoes64] a corner of a surface whose control points are all (1,1,1)
    is another point. *)
Theorem C96_corner_refuted : exists U z : list PrimFloat.float, generate_uniform (K := Binary64) 1 22 = Ok (U : list Binary64) /\
  surf_point (mkSurf (K := Binary64) 1 1 22 2 (ones64 44) U [0; 0; 1; 1]%float) 1%float 1%float = Ok (z : list Binary64) /\ Forall (fun c => value c < 1) z.
Proof.
  eexists; eexists; split; [vm_compute; reflexivity|]; split; [vm_compute; reflexivity|].
  repeat (apply Forall_cons; [val_eval; lra|]); apply Forall_nil.
Qed.
Print Assumptions C96_corner_refuted.
